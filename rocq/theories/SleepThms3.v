(* Proofs about SpecSleep: start-up and histories. *)
From Coq Require Import ZArith List Bool Lia String.
From Verif Require Import Py Num Utils Protocol Decoders Command CommandTable Commands World Elm Obd SpecElm SpecObd SpecE2E SpecAdapter SpecAdapter2 SpecSleep
  PyFacts ElmFacts ElmThms ObdFacts ObdThms ObdThms2 ObdThms3 ObdThms4 ObdThms5 Properties_Elm AdapterThms AdapterThms2 AdapterThms3 AdapterThms4 AdapterThms5 SleepThms SleepThms2.
Import ListNotations.
Open Scope string_scope. Open Scope list_scope. Open Scope Z_scope.

(* ---- what start-up writes ---- *)
Lemma lively_known n s t l : (let p := plain s in negb (text_eqb p sleep_line) && negb (text_eqb p []) = true) -> asks n s t l -> lively t.
Proof.
  intros H A. apply andb_true_iff in H as [H1 H2]. apply (lively_asks n s t l); [| |exact A]; intros X; rewrite X in *; discriminate.
Qed.
Lemma lively_attp n id t l : asks n (str "ATTP" ++ id) t l -> lively t.
Proof. apply lively_asks; rewrite plain_app; [change (plain (str "ATTP")) with (str "ATTP"); intros X; destruct (plain id); discriminate X|discriminate]. Qed.
Lemma lively_cons ev t : (forall fl l, ev <> EvSend fl l) -> lively t -> lively (ev :: t).
Proof. intros N L fl l [E|I]; [exfalso; exact (N _ _ E)|exact (L fl l I)]. Qed.
Lemma lively_probe t : lively t -> lively (EvWrite [127; 127; CR] :: t).
Proof.
  intros L fl l [E|I]; [|exact (L fl l I)]. assert (X : l ++ [CR] = [127; 127] ++ [CR]) by (cbn [app]; congruence). apply app_inj_tail in X as [-> _]. split; discriminate.
Qed.
Lemma detects_lively bs t r : detects bs t r -> lively t.
Proof.
  induction 1 as [|b rest bs|b rest bs t res N D IH]; [apply lively_nil| |]; cbn [app]; (apply lively_cons; [discriminate|]); apply lively_probe; (apply lively_cons; [discriminate|]); [apply lively_nil|exact IH].
Qed.
Lemma opening_lively name timeout baud t r : opening name timeout baud t r -> lively t.
Proof.
  intros [b|H|t' res H D]; [apply lively_cons; [discriminate|apply lively_nil]|apply lively_nil|]. apply lively_cons; [discriminate|]. apply lively_app; [exact (detects_lively _ _ _ D)|]. apply lively_cons; [discriminate|apply lively_nil].
Qed.
Lemma ready_lively t : ready t -> lively t.
Proof. intros (tz & te & th & tl & lz & le & -> & A & B & _ & C & D). repeat apply lively_app; [apply (lively_known _ _ _ _) with (2 := A)|apply (lively_known _ _ _ _) with (2 := B)|apply (lively_known _ _ _ _) with (2 := C)|apply (lively_known _ _ _ _) with (2 := D)]; reflexivity. Qed.
Lemma power_lively check t r : power check t r -> lively t.
Proof. intros [|t' l v A _ _|t' l v A _ _|t' r' A _]; [apply lively_nil| | |]; apply (lively_known _ _ _ _) with (2 := A); reflexivity. Qed.
Lemma probes_lively id t r : probes id t r -> lively t.
Proof. intros (t1 & l1 & t2 & -> & A & B). apply lively_app; [exact (lively_attp _ _ _ _ A)|apply (lively_known _ _ _ _) with (2 := B); reflexivity]. Qed.
Lemma tries_lively ids t r : tries_in_turn ids t r -> lively t.
Proof. induction 1 as [|id ids t r P U|id ids t r t' res P U T IH]; [apply lively_nil|exact (probes_lively _ _ _ P)|apply lively_app; [exact (probes_lively _ _ _ P)|exact IH]]. Qed.
Lemma selection_lively proto t r : selection proto t r -> lively t.
Proof.
  intros [id N|id t' r' N P U|id t' r' N P U|t1 t2 l1 r' A1 A2 U|t1 t2 t3 l1 r' p id A1 A2 U A3 R|t1 t2 t3 t4 l1 r' p res A1 A2 U A3 R T|t1 t2 t3 l1 r' l3 A1 A2 U A3 R];
    [apply lively_nil|exact (probes_lively _ _ _ P)|exact (probes_lively _ _ _ P)| | | |]; repeat apply lively_app; try exact (tries_lively _ _ _ T);
    first [apply (lively_known _ _ _ _) with (2 := A1); reflexivity|apply (lively_known _ _ _ _) with (2 := A2); reflexivity|apply (lively_known _ _ _ _) with (2 := A3); reflexivity].
Qed.

Section Car.
  Context {Car : Type} (ask : Car -> option text -> text -> list text -> Car -> Prop) (woken : adapter -> adapter -> Prop).
  Notation follows := (follows ask). Notation zfollows := (zfollows ask woken). Notation zmoves := (zmoves ask woken).
  Definition may_start (slp : bool) (x : @zconf Car) : Prop := if fst x then slp = true else slp = true -> let '(a, _, _) := snd x in plain (ad_last a) <> sleep_line.
  Lemma open_awake slp x name t1 y : may_start slp x -> lively t1 -> zfollows x (EvOpen name true :: wake slp ++ t1) y -> fst y = false.
  Proof.
    intros Ms L F. inversion F as [|? ? x1 ? ? M F1]; subst.
    assert (M1 : exists b a s p, x1 = (b, (a, s, p)) /\ (if b then slp = true else slp = true -> plain (ad_last a) <> sleep_line)).
    { destruct x as [b [[a s] p]]. inversion M; subst; match goal with X : moves _ _ _ _ |- _ => inversion X; subst end; eexists _, _, _, _; (split; [reflexivity|exact Ms]). }
    destruct M1 as (b & a & s & p & -> & M1). clear M F Ms. unfold wake in F1. destruct slp; cbn [app] in F1.
    - inversion F1 as [|? ? x2 ? ? M2 F2]; subst. assert (B : exists z, x2 = (false, z)).
      { inversion M2; subst; eauto.
        - exfalso. match goal with X : (?l ++ [CR])%list = _ |- _ => assert (El : l = str " ") by (apply (app_inj_tail l (str " ") CR CR); exact X) end. subst l.
          match goal with X : told_to_sleep _ _ |- _ => destruct X as [X|(_ & X)]; [discriminate X|exact (M1 eq_refl X)] end.
        - exfalso. match goal with X : ~ is_write _ |- _ => apply X; exact Logic.I end. }
      destruct B as (z & ->). exact (proj1 (zfollows_lively ask woken _ _ _ F2 L)).
    - destruct b; [discriminate M1|]. exact (proj1 (zfollows_lively ask woken _ _ _ F1 L)).
  Qed.
  Lemma startup_zfollows name baud proto timeout check slp t st sel b x y : startup name baud proto timeout check slp t st sel b -> st <> NOT_CONNECTED -> may_start slp x -> zfollows x t y ->
    exists a s, y = (false, (a, s, [])) /\ tuned a /\ ad_header a = None.
  Proof.
    intros S N Ms F.
    assert (K : forall t1 t2 t3 b1 y1, opening name timeout baud t1 b1 -> ready t2 -> (exists r, power check t3 r) -> zfollows x ((EvOpen name true :: wake slp ++ t1) ++ t2 ++ t3) y1 -> exists a s, y1 = (false, (a, s, [])) /\ tuned a /\ ad_header a = None).
    { intros t1 t2 t3 b1 y1 Op R (r & P) G. apply zfollows_app in G. destruct G as ([b2 [[a1 s1] p1]] & G0 & G). pose proof (open_awake _ _ _ _ _ Ms (opening_lively _ _ _ _ _ Op) G0) as B. cbn in B. subst b2.
      destruct (zfollows_lively ask woken _ _ _ G (lively_app _ _ (ready_lively _ R) (power_lively _ _ _ P))) as (B & G1). destruct y1 as [b2 y1]. cbn [fst snd] in B, G1. subst b2.
      apply follows_app in G1. destruct G1 as (y2 & F2 & F3).
      destruct (ready_follows ask _ _ _ _ _ R F2) as (s2 & ->). destruct (power_follows ask _ _ _ (mkAdapter false true None (str "ATL0")) _ _ eq_refl P F3) as (a' & s' & -> & S1 & S2 & S3).
      exists a', s'. split; [reflexivity|]. split; [split; assumption|exact S3]. }
    assert (K4 : forall t1 t2 t3 t4 b1 res, opening name timeout baud t1 b1 -> ready t2 -> (exists r, power check t3 r) -> selection proto t4 res -> zfollows x (EvOpen name true :: wake slp ++ t1 ++ t2 ++ t3 ++ t4) y -> exists a s, y = (false, (a, s, [])) /\ tuned a /\ ad_header a = None).
    { intros t1 t2 t3 t4 b1 res Op R P Sel G. replace (EvOpen name true :: wake slp ++ t1 ++ t2 ++ t3 ++ t4) with (((EvOpen name true :: wake slp ++ t1) ++ t2 ++ t3) ++ t4) in G by (cbn [app]; rewrite <- !app_assoc; reflexivity).
      apply zfollows_app in G. destruct G as (y1 & G1 & G2). destruct (K _ _ _ _ _ Op R P G1) as (a & s & -> & (T1 & T2) & T3).
      destruct (zfollows_lively ask woken _ _ _ G2 (selection_lively _ _ _ Sel)) as (B & G3). destruct y as [b2 y]. cbn [fst snd] in B, G3. subst b2.
      destruct (selection_follows ask _ _ _ _ _ _ T1 Sel G3) as (a' & s' & -> & S1 & S2 & S3). exists a', s'. split; [reflexivity|]. unfold tuned. repeat split; congruence. }
    destruct S as [|t1 Op|t1 t2 b Op|t1 t2 t3 b Op|t1 t2 t3 b Op|t1 t2 t3 t4 b Op|t1 t2 t3 t4 b id r Op]; try congruence.
    - apply (K t1 t2 t3 _ _ Op); eauto. cbn [app]. rewrite <- !app_assoc. exact F.
    - eapply K4; eauto.
    - eapply K4; eauto.
  Qed.
  (* ---- connecting ---- *)
  Definition zsettled (w0 : list event) (x : @zconf Car) (o : obd) (tr : list event) : Prop :=
    o_fast o = false /\ exists t, tr = w0 ++ t /\ forall b a s p, zfollows x t (b, (a, s, p)) -> zusable o b a false /\ (obd_status o <> NOT_CONNECTED -> b = false).
  Lemma new_obd_zsettled cf name scan w o w' x : new_obd cf (Some name) scan w = (Ok tt, (o, w')) -> cf_fast cf = false -> may_start (cf_start_low_power cf) x ->
    oinv o /\ o_fast o = false /\ zsettled (w_trace w) x o (w_trace w').
  Proof.
    intros H Cf Mst. unfold new_obd in H. apply bind_inv in H. destruct H as [([] & [o1 w1] & C & H)|(? & _ & D)]; [|discriminate D].
    unfold connect in C. apply bind_inv in C. destruct C as [([] & [o2 w2] & C1 & C2)|(? & _ & D)]; [|discriminate D].
    change (initial_obd cf) with (connected_obd cf None base_set) in C1.
    destruct (connect_port_spec _ _ _ _ _ _ _ _ C1) as [(e & _ & -> & N)|(x0 & D & _)]; [|discriminate D].
    destruct (new_elm_einv _ _ _ _ _ _ _ _ _ N) as (Ie & Le).
    destruct (close_if_failed_spec cf (Some e) base_set _ _ _ _ (conj Ie Le) C2) as (_ & -> & K).
    destruct (new_elm_spec _ _ _ _ _ _ _ _ _ N) as (t & T & NS).
    assert (S0 : oinv o1 /\ o_fast o1 = cf_fast cf /\ zsettled (w_trace w) x o1 (w_trace w2)).
    { destruct K as [(K & ->)|(K & ->)].
      - split; [exact Logic.I|]. split; [reflexivity|]. split; [exact Cf|]. exists t. split; [exact T|]. intros b a s p _. split; intros X; contradiction X; reflexivity.
      - split; [exact Ie|]. split; [reflexivity|]. split; [exact Cf|]. exists t. split; [exact T|]. intros b a s p F. cbn in K.
        destruct NS as [(e' & st & sel & b0 & R & Su & Se & _)|[(Io & _)|(c & r0 & y & _ & R)]]; [|exfalso; exact (zno_io ask woken _ _ _ F Io)|discriminate R].
        injection R as <-. destruct (startup_zfollows _ _ _ _ _ _ _ _ _ _ _ _ Su ltac:(congruence) Mst F) as (a' & s' & Y & Tu & Hn). injection Y as -> -> -> ->. split; [|reflexivity].
        intros _. split; [exact (Le K)|]. split; [exact Tu|]. split; [exact Hn|reflexivity]. }
    destruct S0 as (I1 & F1 & S1). unfold load_commands in H. apply bind_inv in H. destruct H as [(st & [o3 w3] & H1 & H)|(? & _ & D)]; [|discriminate D].
    unfold obd_of, gets in H1. injection H1 as <- <- <-. cbn [fst] in H. destruct (negb _); [injection H as <- <-; split; [exact I1|]; split; [congruence|exact S1]|].
    assert (Psup : forall o l t0, zsettled (w_trace w) x o t0 -> zsettled (w_trace w) x (with_supported l o) t0) by (intros o2 l t0 Z; exact Z).
    assert (Pq : forall o c t0 t r o', In c pid_getters -> oinv o -> zsettled (w_trace w) x o t0 -> query_run o c false t (Ok r) o' -> zsettled (w_trace w) x o' (t0 ++ t)).
    { intros o2 c t0 t2 r o2' G OI (Fo & t3 & -> & S2) Q. split; [destruct (query_run_inv _ _ _ _ _ _ OI Q) as (_ & X & _); congruence|]. exists (t3 ++ t2). split; [rewrite app_assoc; reflexivity|]. intros b a s p F. apply zfollows_app in F. destruct F as ([b1 [[a1 s1] p1]] & F3 & F4).
      destruct (S2 _ _ _ _ F3) as (U1 & B1). pose proof getter_proper as GP. rewrite Forall_forall in GP. destruct (GP c G) as (Pr & He).
      destruct (status_eqb (obd_status o2) NOT_CONNECTED) eqn:E.
      { apply status_eqb_eq in E. destruct (query_not_sent _ _ _ _ _ _ Q (or_introl E)) as (-> & -> & _). inversion F4; subst. split; intros X; contradiction. }
      assert (Con : obd_status o2 <> NOT_CONNECTED) by (intros X; apply status_eqb_eq in X; congruence).
      destruct (may_send_dec o2 c false OI Con) as [Msd|Ns].
      2:{ destruct (query_not_sent _ _ _ _ _ _ Q (or_intror Ns)) as (-> & -> & _). inversion F4; subst. auto. }
      destruct (zquery_step ask woken _ _ _ _ _ _ _ _ _ _ _ false OI U1 Q Pr F4 ltac:(intros X; rewrite (B1 Con) in X; discriminate X) Fo Con Msd) as (pr & aa & lines & a' & s' & Y & _ & _ & _ & _ & _ & _ & _ & U2 & _).
      injection Y as -> -> -> ->. assert (Sw : switches c t2 = false) by (unfold switches; rewrite He; reflexivity). rewrite Sw in U2. auto. }
    destruct (load_all_inv _ Psup Pq pid_getters (incl_refl _) _ _ _ _ I1 S1 H) as (I4 & S4 & F4 & _). split; [exact I4|]. split; [congruence|exact S4].
  Qed.

  (* ---- histories ---- *)
  Lemma all_in_turn_snoc h x : all_in_turn (h ++ [x]) -> all_in_turn h /\ in_turn (asleep_after h) x.
  Proof. intros A. split; [intros h1 y h2 E; apply (A h1 y (h2 ++ [x])); rewrite E, <- app_assoc; reflexivity|exact (A h x [] eq_refl)]. Qed.
  Lemma history_zusable o0 w0 h s : settings_kept woken -> oinv o0 -> history (o0, w0) h s -> all_in_turn h -> o_fast o0 = false ->
    forall b0 a0 s0 p0 b1 a1 s1 p1, zusable o0 b0 a0 false -> (obd_status o0 <> NOT_CONNECTED -> b0 = false) -> zfollows (b0, (a0, s0, p0)) (concat (map st_events h)) (b1, (a1, s1, p1)) ->
    oinv (fst s) /\ o_fast (fst s) = false /\ zusable (fst s) b1 a1 (existsb step_switches h) /\ obd_status (fst s) = obd_status o0 /\ (obd_status o0 <> NOT_CONNECTED -> b1 = asleep_after h).
  Proof.
    intros Sk OI H. induction H as [|h s1 op r s2 t H IH R T]; intros G1 Fa b0 a0 c0 p0 b1 a1 c1 p1 U B F.
    - cbn in F. inversion F; subst. cbn [existsb fst asleep_after fold_left]. auto.
    - apply all_in_turn_snoc in G1 as [G1 It].
      rewrite map_app, concat_app in F. cbn [map concat st_events] in F. rewrite app_nil_r in F. apply zfollows_app in F. destruct F as ([b2 [[a2 c2] p2]] & F1 & F2).
      destruct (IH G1 Fa _ _ _ _ _ _ _ _ U B F1) as (I1 & Fa1 & U1 & St & Bs). destruct s1 as [o1 w1], s2 as [o2 w2]. cbn [fst snd] in *.
      destruct (run_op_spec _ _ _ _ _ _ I1 R) as (t' & T' & Q). rewrite T in T'. apply app_inv_head in T'. subst t'. destruct (op_run_inv _ _ _ _ _ I1 Q) as (I2 & Fa2 & _).
      split; [exact I2|]. split; [congruence|]. rewrite existsb_app. cbn [existsb]. rewrite orb_false_r. unfold step_switches at 2. cbn [st_op st_events].
      unfold asleep_after. rewrite fold_left_app. cbn [fold_left]. fold (asleep_after h). unfold dozes. cbn [st_op st_events].
      pose proof (zno_io ask woken _ _ _ F2) as Io. unfold in_turn in It. cbn [st_op] in It. clear T R H IH.
      assert (Un : t = [] -> o2 = o1 -> existsb step_switches h || match op with OpQuery c _ => switches c t | _ => false end = existsb step_switches h ->
        zusable o2 b1 a1 (existsb step_switches h || match op with OpQuery c _ => switches c t | _ => false end) /\ obd_status o2 = obd_status o0
        /\ (obd_status o0 <> NOT_CONNECTED -> b1 = match op, t with OpLowPower, _ :: _ => true | OpNormalPower, _ :: _ => false | OpQuery _ _, _ :: _ => false | _, _ => asleep_after h end)).
      { intros -> -> Es. rewrite Es. inversion F2; subst. split; [exact U1|]. split; [exact St|]. intros X. rewrite (Bs X). destruct op; reflexivity. }
      destruct (status_eqb (obd_status o1) NOT_CONNECTED) eqn:E.
      { apply status_eqb_eq in E. destruct Q as [c f t r o' Q|t o' Q|t o' Q|t r o' Q|c]; try contradiction.
        - destruct (query_not_sent _ _ _ _ _ _ Q (or_introl E)) as (-> & -> & _). apply Un; [reflexivity|reflexivity|]. unfold switches. rewrite andb_false_r, orb_false_r. reflexivity.
        - destruct Q as [_|e t lines Hi Hs _|e t Hi Hs _]; [apply Un; [reflexivity|reflexivity|apply orb_false_r]| |]; exfalso; unfold obd_status in E; rewrite Hi in E; contradiction.
        - destruct Q as [_|e t lines Hi Hs _|e t Hi Hs _]; [apply Un; [reflexivity|reflexivity|apply orb_false_r]| |]; exfalso; unfold obd_status in E; rewrite Hi in E; contradiction.
        - inversion F2; subst. rewrite orb_false_r. split; [exact U1|]. split; [exact St|]. exact Bs. }
      assert (Con : obd_status o1 <> NOT_CONNECTED) by (intros X; apply status_eqb_eq in X; congruence).
      assert (Con0 : obd_status o0 <> NOT_CONNECTED) by congruence. destruct (U1 Con) as (Sl & Tu & Hi). specialize (Bs Con0).
      destruct Q as [c f t r o' Q|t o' Q|t o' Q|t r o' Q|c]; try contradiction.
      + destruct (may_send_dec o1 c f I1 Con) as [Msd|Ns].
        2:{ destruct (query_not_sent _ _ _ _ _ _ Q (or_intror Ns)) as (-> & -> & _). apply Un; [reflexivity|reflexivity|]. unfold switches. rewrite andb_false_r, orb_false_r. reflexivity. }
        destruct (zquery_step ask woken _ _ _ _ _ _ _ _ _ _ _ _ I1 U1 Q It F2 (fun _ => Sk) Fa1 Con Msd) as (p & aa & lines & a' & s' & Y & _ & _ & _ & _ & _ & _ & St2 & U2 & Ne).
        injection Y as -> -> -> ->. split; [exact U2|]. split; [congruence|]. intros _. destruct t; [contradiction|reflexivity].
      + subst b2. rewrite It in *. destruct (low_run_connected _ _ _ Q Con Io) as (e & lines & He & A & ->).
        destruct (low_step ask woken _ _ _ _ _ _ A (proj1 Tu) F2) as (-> & p' & Y). injection Y as -> -> -> ->. cbn [existsb]. change (text_eqb (str "OK") (str "OK")) with true. cbn [orb].
        rewrite orb_false_r. split; [|split].
        * intros _. split; [reflexivity|]. split; [exact Tu|]. exact Hi.
        * rewrite <- St. unfold obd_status. rewrite He. reflexivity.
        * intros _. destruct A as (n & rs & -> & _). reflexivity.
      + subst b2. rewrite It in *. destruct (normal_run_connected _ _ _ Q Con Io) as (e & lines & He & A & ->).
        destruct (wake_step ask woken _ _ _ _ _ _ _ _ A F2) as (a' & p' & W & Y). injection Y as -> -> -> ->. destruct (Sk _ _ W) as (K1 & K2 & K3).
        rewrite orb_false_r. split; [|split].
        * intros _. split; [reflexivity|]. split; [unfold tuned in *; rewrite K1, K2; exact Tu|]. unfold header_inv in *. rewrite K3. exact Hi.
        * rewrite <- St. unfold obd_status. rewrite He. reflexivity.
        * intros _. destruct A as (n & rs & -> & _). reflexivity.
      + inversion F2; subst. rewrite orb_false_r. auto.
  Qed.
  Lemma session_zusable cf name scan w t0 h o w1 x b a s p : settings_kept woken -> session cf (Some name) scan w t0 h (o, w1) -> all_in_turn h -> cf_fast cf = false -> may_start (cf_start_low_power cf) x ->
    zfollows x (t0 ++ concat (map st_events h)) (b, (a, s, p)) ->
    oinv o /\ o_fast o = false /\ zusable o b a (existsb step_switches h) /\ (obd_status o <> NOT_CONNECTED -> b = asleep_after h)
    /\ exists o0 w0, new_obd cf (Some name) scan w = (Ok tt, (o0, w0)) /\ obd_status o = obd_status o0.
  Proof.
    intros Sk ([o0 w0] & N & T & H) G1 Cf Mst F. destruct (new_obd_zsettled _ _ _ _ _ _ x N Cf Mst) as (I0 & Fa & _ & t & T' & S). cbn [snd] in T. rewrite T in T'. apply app_inv_head in T'. subst t.
    apply zfollows_app in F. destruct F as ([b0 [[a0 s0] p0]] & F1 & F2). destruct (S _ _ _ _ F1) as (U & B).
    destruct (history_zusable o0 w0 h (o, w1) Sk I0 H G1 Fa _ _ _ _ _ _ _ _ U B F2) as (A1 & A2 & A3 & A4 & A5). cbn [fst] in *. split; [exact A1|]. split; [exact A2|]. split; [exact A3|]. split; [rewrite A4; exact A5|]. eauto.
  Qed.
End Car.
