(* Proofs about SpecSlow. *)
From Coq Require Import ZArith List Bool Lia String.
From Verif Require Import Py Num Utils Protocol Decoders Command CommandTable Commands World Elm Obd SpecElm SpecObd SpecE2E SpecAdapter SpecAdapter2 SpecSlow
  PyFacts ElmFacts ElmThms ObdFacts ObdThms ObdThms2 ObdThms3 ObdThms4 ObdThms5 Properties_Elm AdapterThms AdapterThms2 AdapterThms3 AdapterThms4 AdapterThms5.
Import ListNotations.
Open Scope string_scope. Open Scope list_scope. Open Scope Z_scope.

Local Arguments Z.eqb : simpl never.
Section Car.
  Context {Car : Type} (ask : Car -> option text -> text -> list text -> Car -> Prop) (b : bool).
  Notation follows := (slow_follows ask b). Notation obeys := (obeys ask). Notation moves := (slowly ask b). Notation does := (does ask).
  Lemma sfollows_app t1 t2 x z : follows x (t1 ++ t2) z <-> exists y, follows x t1 y /\ follows y t2 z.
  Proof.
    revert x. induction t1 as [|ev t1 IH]; intros x; cbn [app].
    - split; [intros H; exists x; split; [constructor|exact H]|intros (y & H1 & H2); inversion H1; subst; exact H2].
    - split.
      + intros H. inversion H; subst. apply IH in H5. destruct H5 as (u & A & B). exists u. split; [econstructor; eassumption|exact B].
      + intros (u & A & B). inversion A; subst. econstructor; [eassumption|]. apply IH. eauto.
  Qed.
  Lemma slow_read a s pend x y : moves (a, s, pend) (EvRead (Some x)) y -> exists rest, pend = x ++ rest /\ y = (a, s, rest).
  Proof. intros H. inversion H; subst; [eauto|exists pend; auto]. Qed.
  Lemma slow_chunks chunks : forall a s pend y, follows (a, s, pend) (map EvRead (map Some chunks)) y ->
    exists rest, pend = concat chunks ++ rest /\ y = (a, s, rest).
  Proof.
    induction chunks as [|x l IH]; intros a s pend y H; cbn [map] in H.
    - inversion H; subst. exists pend. auto.
    - inversion H; subst. apply slow_read in H3. destruct H3 as (rest & -> & ->). apply IH in H5. destruct H5 as (r & -> & ->).
      exists r. cbn [concat]. rewrite <- app_assoc. auto.
  Qed.
  Lemma slow_attempt rs bs a s pend y : attempt [PROMPT] rs bs -> follows (a, s, pend) (map EvRead rs) y -> exists rest, pend = bs ++ rest /\ y = (a, s, rest).
  Proof.
    intros A H. destruct A as [chunks last Q N M|chunks Q]; [exact (slow_chunks _ _ _ _ _ H)|].
    change (map Some chunks ++ [Some []]) with (map Some chunks ++ map Some [@nil Z]) in H. rewrite <- map_app in H. destruct (slow_chunks _ _ _ _ _ H) as (r & -> & ->). exists r.
    rewrite concat_app. cbn [concat app]. rewrite app_nil_r. auto.
  Qed.
  Lemma got_app t1 t2 : got (t1 ++ t2) = got t1 ++ got t2.
  Proof. unfold got. apply flat_map_app. Qed.
  Lemma got_chunks chunks : got (map EvRead (map Some chunks)) = concat chunks.
  Proof. induction chunks as [|x l IH]; [reflexivity|]. cbn [map concat]. rewrite <- IH. reflexivity. Qed.
  Lemma got_attempt rs bs : attempt [PROMPT] rs bs -> got (map EvRead rs) = bs.
  Proof.
    intros A. destruct A as [chunks last Q N M|chunks Q]; [apply got_chunks|].
    rewrite map_app, got_app, got_chunks. cbn. apply app_nil_r.
  Qed.
  Lemma slow_heard n rs lines : heard [PROMPT] n rs lines -> forall a s pend y, follows (a, s, pend) (map EvRead rs) y ->
    exists us v rest, pend = concat us ++ v ++ rest /\ y = (a, s, rest) /\ Forall (fun u => answer_lines u []) us /\ answer_lines v lines /\ got (map EvRead rs) = concat us ++ v.
  Proof.
    intros H. induction H as [rs bs lines A L|rs bs n rest lines A L H IH]; intros a s pend y F.
    - destruct (slow_attempt _ _ _ _ _ _ A F) as (r & -> & ->). exists [], bs, r. rewrite (got_attempt _ _ A). cbn. auto.
    - rewrite map_app in F. apply sfollows_app in F. destruct F as (u & F1 & F2). destruct (slow_attempt _ _ _ _ _ _ A F1) as (r & -> & ->).
      destruct (IH _ _ _ _ F2) as (us & v & r2 & -> & -> & Fu & Lv & G). exists (bs :: us), v, r2. cbn [concat]. rewrite map_app, got_app, G, (got_attempt _ _ A), <- !app_assoc. auto 10.
  Qed.
  Lemma slow_asked n cmd t lines a s pend a' s' p' : cmd <> [127; 127] -> asks n cmd t lines -> follows (a, s, pend) t (a', s', p') ->
    exists shown, obeys a s cmd shown a' s' /\ (b = true -> ad_echo a = false -> stretch_in (got t) shown lines).
  Proof.
    intros NP (k & rs & -> & H & _ & _) F. inversion F as [|x ev y t z M F1]; subst. inversion M; subst.
    2:{ exfalso. apply NP. change [127; 127; CR] with ([127; 127] ++ [CR])%list in *. match goal with X : _ = (cmd ++ [CR])%list |- _ => apply app_inj_tail in X as [X _]; auto end. }
    match goal with X : (?l ++ [CR])%list = (cmd ++ [CR])%list |- _ => apply app_inj_tail in X as [-> _] end.
    match goal with X : prints _ _ _ |- _ => destruct X as (NO & echo & L & E) end.
    destruct (slow_heard _ _ _ H _ _ _ _ F1) as (us & v & rest & P & Y & Fu & Lv & Gt). injection Y as -> -> ->. exists lines0. split; [assumption|].
    intros B Ea. rewrite (E Ea) in L. match goal with X : b = true -> late = [] |- _ => rewrite (X B) in P end. cbn [app] in P, L. exists out, us, v, rest. auto 10.
  Qed.
  Lemma slow_no_io_error t x y : follows x t y -> ~ io_error t.
  Proof.
    intros H. induction H as [|x ev y t z M F IH]; [intros [[]|[]]|]. intros [[->|I]|[->|I]]; [inversion M|apply IH; left; exact I|inversion M|apply IH; right; exact I].
  Qed.
  Lemma slow_cut low cmd t x y : cut_short low cmd t -> follows x t y -> False.
  Proof. intros (I & _) F. exact (slow_no_io_error _ _ _ F I). Qed.

  (* ---- the settings ---- *)
  Lemma slow_same n cmd t lines a s pend y : leaves (understand cmd) -> asks n cmd t lines -> follows (a, s, pend) t y ->
    exists a' s' p', y = (a', s', p') /\ same_settings a a'.
  Proof.
    intros L A F. destruct y as [[a' s'] p']. destruct (slow_asked _ _ _ _ _ _ _ _ _ _ (leaves_bell _ L) A F) as (shown & O & _). exists a', s', p'. split; [reflexivity|].
    rewrite (obeys_leaves ask _ _ _ _ _ _ L O). apply same_remember.
  Qed.
  Lemma slow_ready t a s pend y : ready t -> follows (a, s, pend) t y -> exists s' p', y = (mkAdapter false true None (str "ATL0"), s', p').
  Proof.
    intros (tz & te & th & tl & lz & le & -> & Az & Ae & _ & Ah & Al) F.
    apply sfollows_app in F. destruct F as ([[a1 s1] p1] & F1 & F). apply sfollows_app in F. destruct F as ([[a2 s2] p2] & F2 & F). apply sfollows_app in F. destruct F as ([[a3 s3] p3] & F3 & F).
    destruct y as [[a4 s4] p4].
    destruct (slow_asked _ _ _ _ _ _ _ _ _ _ (nb_ATZ) Az F1) as (? & O & _). cbv [SpecAdapter.obeys] in O. change (understand (str "ATZ")) with KReset in O. cbv [SpecAdapter.does] in O. change (understand (str "ATZ")) with KReset in O. destruct O as [-> ->]. clear F1 Az.
    destruct (slow_asked _ _ _ _ _ _ _ _ _ _ (nb_ATE0) Ae F2) as (? & O & _). cbv [SpecAdapter.obeys] in O. change (understand (str "ATE0")) with KEcho0 in O. cbv [SpecAdapter.does] in O. change (understand (str "ATE0")) with KEcho0 in O. destruct O as (_ & -> & ->). clear F2 Ae.
    destruct (slow_asked _ _ _ _ _ _ _ _ _ _ (nb_ATH1) Ah F3) as (? & O & _). cbv [SpecAdapter.obeys] in O. change (understand (str "ATH1")) with KHeaders1 in O. cbv [SpecAdapter.does] in O. change (understand (str "ATH1")) with KHeaders1 in O. destruct O as (_ & -> & ->). clear F3 Ah.
    destruct (slow_asked _ _ _ _ _ _ _ _ _ _ (nb_ATL0) Al F) as (? & O & _). cbv [SpecAdapter.obeys] in O. change (understand (str "ATL0")) with KLinefeeds0 in O. cbv [SpecAdapter.does] in O. change (understand (str "ATL0")) with KLinefeeds0 in O. destruct O as (_ & -> & ->).
    eexists _, _. reflexivity.
  Qed.
  Lemma slow_power check t r a s pend y : power check t r -> follows (a, s, pend) t y -> exists a' s' p', y = (a', s', p') /\ same_settings a a'.
  Proof.
    intros P F. destruct P as [|t l v A _ _|t l v A _ _|t r A _]; [inversion F; subst; exists a, s, pend; split; [reflexivity|apply same_refl]| | |]; apply (slow_same _ _ _ _ _ _ _ _) with (2 := A) (3 := F); exact Logic.I.
  Qed.
  Ltac st := match goal with |- exists a' s' p', (?x, ?y, ?z) = _ /\ _ => exists x, y, z; split; [reflexivity|eauto using same_refl, same_trans] end.
  Lemma slow_probes id t r a s pend y : probes id t r -> follows (a, s, pend) t y -> exists a' s' p', y = (a', s', p') /\ same_settings a a'.
  Proof.
    intros (t1 & l1 & t2 & -> & A1 & A2) F. apply sfollows_app in F. destruct F as (y1 & F1 & F2).
    assert (L : leaves (understand (str "ATTP" ++ id))) by (rewrite understand_attp; exact Logic.I).
    destruct (slow_same _ _ _ _ _ _ _ _ L A1 F1) as (a1 & s1 & p1 & -> & S1).
    destruct (slow_same _ _ _ _ a1 _ _ _ (Logic.I : leaves (understand (str "0100"))) A2 F2) as (a2 & s2 & p2 & -> & S2). st.
  Qed.
  Lemma slow_tries ids t r : tries_in_turn ids t r -> forall a s pend y, follows (a, s, pend) t y -> exists a' s' p', y = (a', s', p') /\ same_settings a a'.
  Proof.
    intros T. induction T as [|id ids t r P U|id ids t r t' res P U T IH]; intros a s pend y F.
    - inversion F; subst. st.
    - exact (slow_probes _ _ _ _ _ _ _ P F).
    - apply sfollows_app in F. destruct F as (y1 & F1 & F2). destruct (slow_probes _ _ _ _ _ _ _ P F1) as (a1 & s1 & p1 & -> & S1).
      destruct (IH _ _ _ _ F2) as (a2 & s2 & p2 & -> & S2). st.
  Qed.
  Lemma slow_selection proto t r a s pend y : selection proto t r -> follows (a, s, pend) t y -> exists a' s' p', y = (a', s', p') /\ same_settings a a'.
  Proof.
    intros S F.
    assert (K : forall n1 n2 t1 t2 l1 l2 y1, asks n1 (str "ATSP0") t1 l1 -> asks n2 (str "0100") t2 l2 -> follows (a, s, pend) (t1 ++ t2) y1 -> exists a' s' p', y1 = (a', s', p') /\ same_settings a a').
    { intros n1 n2 t1 t2 l1 l2 y1 A1 A2 G. apply sfollows_app in G. destruct G as (y2 & F1 & F2).
      destruct (slow_same _ _ _ _ _ _ _ _ (Logic.I : leaves (understand (str "ATSP0"))) A1 F1) as (a1 & s1 & p1 & -> & S1).
      destruct (slow_same _ _ _ _ a1 _ _ _ (Logic.I : leaves (understand (str "0100"))) A2 F2) as (a2 & s2 & p2 & -> & S2). st. }
    assert (K3 : forall n1 n2 n3 t1 t2 t3 l1 l2 l3 y1, asks n1 (str "ATSP0") t1 l1 -> asks n2 (str "0100") t2 l2 -> asks n3 (str "ATDPN") t3 l3 -> follows (a, s, pend) (t1 ++ t2 ++ t3) y1 -> exists a' s' p', y1 = (a', s', p') /\ same_settings a a').
    { intros n1 n2 n3 t1 t2 t3 l1 l2 l3 y1 A1 A2 A3 G. rewrite app_assoc in G. apply sfollows_app in G. destruct G as (y2 & F1 & F2). destruct (K _ _ _ _ _ _ _ A1 A2 F1) as (a1 & s1 & p1 & -> & S1).
      destruct (slow_same _ _ _ _ a1 _ _ _ (Logic.I : leaves (understand (str "ATDPN"))) A3 F2) as (a2 & s2 & p2 & -> & S2). st. }
    destruct S as [id N|id t r N P U|id t r N P U|t1 t2 l1 r A1 A2 U|t1 t2 t3 l1 r p id A1 A2 U A3 R|t1 t2 t3 t4 l1 r p res A1 A2 U A3 R T|t1 t2 t3 l1 r l3 A1 A2 U A3 R].
    - inversion F; subst. st.
    - exact (slow_probes _ _ _ _ _ _ _ P F).
    - exact (slow_probes _ _ _ _ _ _ _ P F).
    - exact (K _ _ _ _ _ _ _ A1 A2 F).
    - exact (K3 _ _ _ _ _ _ _ _ _ _ A1 A2 A3 F).
    - rewrite !app_assoc in F. apply sfollows_app in F. destruct F as (y2 & F1 & F2). rewrite <- app_assoc in F1. destruct (K3 _ _ _ _ _ _ _ _ _ _ A1 A2 A3 F1) as (a1 & s1 & p1 & -> & S1).
      destruct (slow_tries _ _ _ T _ _ _ _ F2) as (a2 & s2 & p2 & -> & S2). st.
    - exact (K3 _ _ _ _ _ _ _ _ _ _ A1 A2 A3 F).
  Qed.
  Lemma slow_startup name baud proto timeout check slp t st sel b0 x y : startup name baud proto timeout check slp t st sel b0 -> st <> NOT_CONNECTED -> follows x t y ->
    exists a s p, y = (a, s, p) /\ tuned a /\ ad_header a = None.
  Proof.
    intros S N F.
    assert (K : forall t1 t2 t3 y1, ready t2 -> (exists r, power check t3 r) -> follows x ((EvOpen name true :: wake slp ++ t1) ++ t2 ++ t3) y1 -> exists a s p, y1 = (a, s, p) /\ tuned a /\ ad_header a = None).
    { intros t1 t2 t3 y1 R (r & P) G. apply sfollows_app in G. destruct G as ([[a1 s1] p1] & _ & G). apply sfollows_app in G. destruct G as (y2 & F2 & F3).
      destruct (slow_ready _ _ _ _ _ R F2) as (s2 & p2 & ->). destruct (slow_power _ _ _ (mkAdapter false true None (str "ATL0")) _ _ _ P F3) as (a' & s' & p' & -> & S1 & S2 & S3).
      exists a', s', p'. split; [reflexivity|]. split; [split; assumption|exact S3]. }
    assert (K4 : forall t1 t2 t3 t4 res, ready t2 -> (exists r, power check t3 r) -> selection proto t4 res -> follows x (EvOpen name true :: wake slp ++ t1 ++ t2 ++ t3 ++ t4) y -> exists a s p, y = (a, s, p) /\ tuned a /\ ad_header a = None).
    { intros t1 t2 t3 t4 res R P Sel G. replace (EvOpen name true :: wake slp ++ t1 ++ t2 ++ t3 ++ t4) with (((EvOpen name true :: wake slp ++ t1) ++ t2 ++ t3) ++ t4) in G by (cbn [app]; rewrite <- !app_assoc; reflexivity).
      apply sfollows_app in G. destruct G as (y1 & G1 & G2). destruct (K _ _ _ _ R P G1) as (a & s & p & -> & (T1 & T2) & T3).
      destruct (slow_selection _ _ _ _ _ _ _ Sel G2) as (a' & s' & p' & -> & S1 & S2 & S3). exists a', s', p'. split; [reflexivity|]. unfold tuned. repeat split; congruence. }
    destruct S; try congruence.
    - apply (K t1 t2 t3); eauto. cbn [app]. rewrite <- !app_assoc. exact F.
    - eapply K4; eauto.
    - eapply K4; eauto.
  Qed.

  (* ---- queries of commands with the engine's header, fast=False ---- *)
  Definition susable (o : obd) (a : adapter) : Prop :=
    obd_status o <> NOT_CONNECTED -> asleep o = false /\ tuned a /\ ad_header a = None /\ o_last_header o = engine_header.
  Lemma slow_query o c force t r o' a s pend y : oinv o -> o_fast o = false -> susable o a -> query_run o c force t r o' -> proper c -> c_header c = engine_header -> follows (a, s, pend) t y ->
    obd_status o <> NOT_CONNECTED -> may_send o c force ->
    exists p shown lines a' s' p', y = (a', s', p') /\ uses o p /\ uses o' p /\ r = made_of p c lines /\ last_answer t lines /\ (b = true -> stretch_in (got t) shown lines)
      /\ does a s (c_command c) shown a' s' /\ obd_status o' = obd_status o /\ susable o' a'.
  Proof.
    intros OI Fa U Q Pr Eh F Con Ms. destruct (U Con) as (Sl & Tu & Hn & Lh). destruct y as [[a' s'] p']. unfold asleep in Sl.
    assert (Bs : build_command_string o c = c_command c) by (rewrite build_full; unfold full_string; rewrite Fa; reflexivity).
    assert (Fs : full_string o c = c_command c) by (unfold full_string; rewrite Fa; reflexivity).
    assert (Lv : leaves (understand (c_command c))) by (rewrite <- Fs; apply full_leaves, Pr).
    assert (HD : forall e p t1 x o1, header_run o e p (c_header c) t1 x o1 -> t1 = [] /\ x = None /\ o1 = o).
    { intros e p t1 x o1 HR. destruct HR; try congruence. auto. }
    assert (K : forall e p t2 l, o_interface o = Some e -> e_protocol e = Some p -> asks 12 (c_command c) t2 l -> follows (a, s, pend) t2 (a', s', p') ->
       exists shown, (b = true -> stretch_in (got t2) shown l) /\ does a s (c_command c) shown a' s' /\ a' = remember_line (c_command c) a).
    { intros e p t2 l Hi P A G. destruct (slow_asked _ _ _ _ _ _ _ _ _ _ (leaves_bell _ Lv) A G) as (shown & O & X). exists shown. split; [intros B; exact (X B (proj1 Tu))|].
      split; [apply (obeys_does ask _ _ _ _ _ _ Lv), O|]. exact (obeys_leaves ask _ _ _ _ _ _ Lv O). }
    destruct Q as [H|H1 H2|e p t x o1 Hi Hs P M HR|e p t o1 Hi Hs P M HR Hn2|e p t1 o1 e1 t2 Hi Hs P M HR Hi1 Hs1 A|e p t1 o1 e1 t2 l x Hi Hs P M HR Hi1 Hs1 A C|e p t1 o1 e1 t2 l ms Hi Hs P M HR Hi1 Hs1 A C]; try contradiction;
      destruct (HD _ _ _ _ _ HR) as (-> & Ex & ->).
    - discriminate Ex.
    - contradiction.
    - exfalso. cbn [app] in F. exact (slow_cut _ _ _ _ _ A F).
    - assert (e1 = e) by congruence. subst e1. rewrite Hi in Sl. rewrite Sl, Bs in A. destruct A as (u1 & u2 & -> & -> & A). cbn [app] in *. destruct (K _ _ _ _ Hi P A F) as (shown & Sh & D & Ea).
      exists p, shown, l, a', s', p'. split; [reflexivity|]. split; [exists e; auto|]. split; [exists (awake e); auto|]. split; [unfold made_of; rewrite C; reflexivity|]. split; [exists [], u2, (c_command c); auto|]. split; [exact Sh|]. split; [exact D|].
      unfold obd_status, susable, asleep. cbn [with_elm o_interface]. rewrite Hi. split; [reflexivity|]. intros _. split; [reflexivity|]. rewrite Ea. split; [exact Tu|]. split; [exact Hn|exact Lh].
    - assert (e1 = e) by congruence. subst e1. rewrite Hi in Sl. rewrite Sl, Bs in A. destruct A as (u1 & u2 & -> & -> & A). cbn [app] in *. destruct (K _ _ _ _ Hi P A F) as (shown & Sh & D & Ea).
      exists p, shown, l, a', s', p'. split; [reflexivity|]. split; [exists e; auto|]. split; [exists (awake e); auto|]. split; [unfold made_of; rewrite C; reflexivity|]. split; [exists [], u2, (c_command c); auto|]. split; [exact Sh|]. split; [exact D|].
      unfold obd_status, susable, asleep. cbn [with_count with_command with_elm o_interface o_last_header]. rewrite Hi. split; [reflexivity|]. intros _. split; [reflexivity|]. rewrite Ea. split; [exact Tu|]. split; [exact Hn|exact Lh].
  Qed.
  Definition ssettled (w0 : list event) (x : conf) (o : obd) (tr : list event) : Prop :=
    o_fast o = false -> exists t, tr = w0 ++ t /\ forall a s p, follows x t (a, s, p) -> susable o a.
  Lemma slow_step o c force t r o' a s pend a' s' p' : oinv o -> o_fast o = false -> susable o a -> query_run o c force t r o' -> proper c -> c_header c = engine_header -> follows (a, s, pend) t (a', s', p') ->
    susable o' a' /\ obd_status o' = obd_status o.
  Proof.
    intros OI Fa U Q Pr Eh F. assert (Un : obd_status o = NOT_CONNECTED \/ ~ may_send o c force -> susable o' a' /\ obd_status o' = obd_status o).
    { intros N. destruct (query_not_sent _ _ _ _ _ _ Q N) as (-> & -> & _). inversion F; subst. auto. }
    destruct (status_eqb (obd_status o) NOT_CONNECTED) eqn:E; [apply status_eqb_eq in E; auto|].
    assert (Con : obd_status o <> NOT_CONNECTED) by (intros X; apply status_eqb_eq in X; congruence).
    destruct (may_send_dec o c force OI Con) as [Ms|Ns]; [|auto].
    destruct (slow_query _ _ _ _ _ _ _ _ _ _ OI Fa U Q Pr Eh F Con Ms) as (p & shown & lines & a2 & s2 & p2 & Y & _ & _ & _ & _ & _ & _ & St & Su). injection Y as -> -> ->. auto.
  Qed.
  Lemma new_obd_slow cf name scan w o w' x : new_obd cf (Some name) scan w = (Ok tt, (o, w')) -> cf_fast cf = false -> oinv o /\ o_fast o = false /\ ssettled (w_trace w) x o (w_trace w').
  Proof.
    intros H Cf. unfold new_obd in H. apply bind_inv in H. destruct H as [([] & [o1 w1] & C & H)|(? & _ & D)]; [|discriminate D].
    unfold connect in C. apply bind_inv in C. destruct C as [([] & [o2 w2] & C1 & C2)|(? & _ & D)]; [|discriminate D].
    change (initial_obd cf) with (connected_obd cf None base_set) in C1.
    destruct (connect_port_spec _ _ _ _ _ _ _ _ C1) as [(e & _ & -> & N)|(x0 & D & _)]; [|discriminate D].
    destruct (new_elm_einv _ _ _ _ _ _ _ _ _ N) as (Ie & Le).
    destruct (close_if_failed_spec cf (Some e) base_set _ _ _ _ (conj Ie Le) C2) as (_ & -> & K).
    destruct (new_elm_spec _ _ _ _ _ _ _ _ _ N) as (t & T & NS).
    assert (S0 : oinv o1 /\ o_fast o1 = cf_fast cf /\ ssettled (w_trace w) x o1 (w_trace w2)).
    { destruct K as [(K & ->)|(K & ->)].
      - split; [exact Logic.I|]. split; [reflexivity|]. intros _. exists t. split; [exact T|]. intros a s p _ X. contradiction X. reflexivity.
      - split; [exact Ie|]. split; [reflexivity|]. intros _. exists t. split; [exact T|]. intros a s p F _. cbn in K.
        destruct NS as [(e' & st & sel & b0 & R & Su & Se & _)|[(Io & _)|(c & r0 & y & _ & R)]]; [|exfalso; exact (slow_no_io_error _ _ _ F Io)|discriminate R].
        injection R as <-. destruct (slow_startup _ _ _ _ _ _ _ _ _ _ _ _ Su ltac:(congruence) F) as (a' & s' & p' & Y & Tu & Hn). injection Y as -> -> ->.
        split; [exact (Le K)|]. split; [exact Tu|]. split; [exact Hn|reflexivity]. }
    destruct S0 as (I1 & F1 & S1). unfold load_commands in H. apply bind_inv in H. destruct H as [(st & [o3 w3] & H1 & H)|(? & _ & D)]; [|discriminate D].
    unfold obd_of, gets in H1. injection H1 as <- <- <-. cbn [fst] in H. destruct (negb _); [injection H as <- <-; split; [exact I1|split; [congruence|exact S1]]|].
    assert (Psup : forall o l t0, ssettled (w_trace w) x o t0 -> ssettled (w_trace w) x (with_supported l o) t0) by (intros o2 l t0 Z; exact Z).
    assert (Pq : forall o c t0 t r o', In c pid_getters -> oinv o -> ssettled (w_trace w) x o t0 -> query_run o c false t (Ok r) o' -> ssettled (w_trace w) x o' (t0 ++ t)).
    { intros o2 c t0 t2 r o2' G OI S2 Q Fa'. assert (Fa : o_fast o2 = false).
      { destruct (op_run_inv o2 _ _ _ _ OI (run_query o2 c false _ _ _ Q)) as (_ & X & _). congruence. }
      destruct (S2 Fa) as (t3 & -> & S3). exists (t3 ++ t2). split; [rewrite app_assoc; reflexivity|]. intros a s p F. apply sfollows_app in F. destruct F as ([[a1 s1] p1] & F3 & F4).
      specialize (S3 _ _ _ F3). pose proof getter_proper as GP. rewrite Forall_forall in GP. destruct (GP c G) as (Pr & He).
      exact (proj1 (slow_step _ _ _ _ _ _ _ _ _ _ _ _ OI Fa S3 Q Pr He F4)). }
    destruct (load_all_inv _ Psup Pq pid_getters (incl_refl _) _ _ _ _ I1 S1 H) as (I4 & S4 & F4 & _). split; [exact I4|]. split; [congruence|exact S4].
  Qed.
  Lemma slow_history o0 w0 h s : oinv o0 -> history (o0, w0) h s -> Forall ordinary h -> Forall engine_only h -> o_fast o0 = false ->
    forall a0 s0 p0 a1 s1 p1, susable o0 a0 -> follows (a0, s0, p0) (concat (map st_events h)) (a1, s1, p1) ->
    oinv (fst s) /\ o_fast (fst s) = false /\ susable (fst s) a1 /\ obd_status (fst s) = obd_status o0.
  Proof.
    intros OI H. induction H as [|h s1 op r s2 t H IH R T]; intros G1 G2 G3 a0 c0 p0 a1 c1 p1 U F.
    - cbn in F. inversion F; subst. auto.
    - apply Forall_app in G1 as [G1 G1']. inversion G1' as [|? ? Od _]; subst. clear G1'. apply Forall_app in G2 as [G2 G2']. inversion G2' as [|? ? Oe _]; subst. clear G2'.
      rewrite map_app, concat_app in F. cbn [map concat st_events] in F. rewrite app_nil_r in F. apply sfollows_app in F. destruct F as ([[a2 c2] p2] & F1 & F2).
      destruct (IH G1 G2 G3 _ _ _ _ _ _ U F1) as (I1 & Fa & U1 & St). destruct s1 as [o1 w1], s2 as [o2 w2]. cbn [fst snd] in *.
      destruct (run_op_spec _ _ _ _ _ _ I1 R) as (t' & T' & Q). rewrite T in T'. apply app_inv_head in T'. subst t'. destruct (op_run_inv _ _ _ _ _ I1 Q) as (I2 & Fa2 & _).
      split; [exact I2|]. split; [congruence|]. clear T R H.
      destruct Q as [c f t r o' Q|t o' Q|t o' Q|t r o' Q|c]; try (exfalso; exact Od).
      2:{ inversion F2; subst. split; [exact U1|exact St]. }
      change (proper c) in Od. change (c_header c = engine_header) in Oe.
      destruct (slow_step _ _ _ _ _ _ _ _ _ _ _ _ I1 Fa U1 Q Od Oe F2) as (A & B). split; [exact A|congruence].
  Qed.
  Lemma slow_session cf name scan w t0 h o w1 x a s p : session cf (Some name) scan w t0 h (o, w1) -> Forall ordinary h -> Forall engine_only h -> cf_fast cf = false ->
    follows x (t0 ++ concat (map st_events h)) (a, s, p) -> oinv o /\ o_fast o = false /\ susable o a
      /\ exists o0 w0, new_obd cf (Some name) scan w = (Ok tt, (o0, w0)) /\ obd_status o = obd_status o0.
  Proof.
    intros ([o0 w0] & N & T & H) G1 G2 G3 F. destruct (new_obd_slow _ _ _ _ _ _ x N G3) as (I0 & Fa & S0). destruct (S0 Fa) as (t & T' & S). cbn [snd] in T. rewrite T in T'. apply app_inv_head in T'. subst t.
    apply sfollows_app in F. destruct F as ([[a0 s0] p0] & F1 & F2).
    destruct (slow_history o0 w0 h (o, w1) I0 H G1 G2 Fa _ _ _ _ _ _ (S _ _ _ F1) F2) as (A & B & C & D). cbn [fst] in *. split; [exact A|]. split; [exact B|]. split; [exact C|]. eauto.
  Qed.
End Car.

(* ---- commands with any header, as long as every header is acknowledged ---- *)
Section Acknowledged.
  Context {Car : Type} (ask : Car -> option text -> text -> list text -> Car -> Prop) (b : bool).
  Notation follows := (slow_follows ask b). Notation obeys := (obeys ask). Notation moves := (slowly ask b). Notation does := (does ask).
  Definition husable (o : obd) (a : adapter) (sw : bool) : Prop := obd_status o <> NOT_CONNECTED -> asleep o = false /\ tuned a /\ header_inv sw o a.
  Lemma slow_header a s pend h y t lines : header_ok (plain h) = true -> asks 12 (str "AT SH " ++ h ++ str " ") t lines -> follows (a, s, pend) t y ->
    exists l p, y = (mkAdapter (ad_echo a) (ad_headers a) (Some (plain h)) l, s, p).
  Proof.
    intros K A F. destruct y as [[a' s'] p'].
    assert (U := understand_header h K). assert (NB : str "AT SH " ++ h ++ str " " <> [127; 127]) by (intros X; rewrite X in U; discriminate U).
    destruct (slow_asked ask b _ _ _ _ _ _ _ _ _ _ NB A F) as (shown & O & _). cbv [SpecAdapter.obeys SpecAdapter.does] in O. rewrite U in O.
    destruct O as (-> & -> & ->). eauto.
  Qed.
  Lemma slow_hquery o c force t r o' a s pend y sw : oinv o -> o_fast o = false -> husable o a sw -> query_run o c force t r o' -> acknowledged t -> proper c -> follows (a, s, pend) t y ->
    obd_status o <> NOT_CONNECTED -> may_send o c force ->
    exists p shown lines a1 a' s' p', y = (a', s', p') /\ uses o p /\ r = made_of p c lines /\ last_answer t lines /\ (b = true -> exists pre rd, got t = pre ++ rd /\ stretch_in rd shown lines)
      /\ does a1 s (c_command c) shown a' s' /\ tuned a1 /\ header_inv (sw || switches c t) (with_header (c_header c) o) a1 /\ obd_status o' = obd_status o /\ husable o' a' (sw || switches c t).
  Proof.
    intros OI Fa U Q Ak Pr F Con Ms. destruct (U Con) as (Sl & Tu & Hi0). destruct y as [[a' s'] p']. unfold asleep in Sl.
    assert (Bs : forall o1, o_fast o1 = false -> build_command_string o1 c = c_command c) by (intros o1 F1; rewrite build_full; unfold full_string; rewrite F1; reflexivity).
    assert (Fs : full_string o c = c_command c) by (unfold full_string; rewrite Fa; reflexivity).
    assert (Lv : leaves (understand (c_command c))) by (rewrite <- Fs; apply full_leaves, Pr).
    assert (HD : forall e p t1 t2 x o1 y, o_interface o = Some e -> e_protocol e = Some p -> t = t1 ++ t2 -> header_run o e p (c_header c) t1 x o1 -> follows (a, s, pend) t1 y ->
       x = None /\ exists a1 p1, y = (a1, s, p1) /\ tuned a1 /\ (c_header c = o_last_header o /\ a1 = a \/ c_header c <> o_last_header o /\ ad_header a1 = Some (plain (c_header c)))
       /\ o_interface o1 = Some e /\ o_last_header o1 = c_header c).
    { intros e p t1 t2 x o1 y Hi P Et HR G. rewrite Hi in Sl. assert (Aw : awake e = e) by (destruct e; cbn in *; rewrite Sl; reflexivity).
      destruct HR as [Hh|t1 lines ms Hh S C K|t1 lines ms Hh S C K|t1 lines x Hh S C|t1 Hh S].
      - inversion G; subst y. split; [reflexivity|]. exists a, pend. split; [reflexivity|]. split; [exact Tu|]. split; [auto|]. split; [exact Hi|]. congruence.
      - rewrite Sl in S. destruct S as (u1 & u2 & -> & -> & A). cbn [app] in G. destruct (slow_header _ _ _ _ _ _ _ (proj1 Pr) A G) as (l & p1 & ->). split; [reflexivity|].
        eexists _, _. split; [reflexivity|]. split; [exact Tu|]. split; [right; split; [exact Hh|reflexivity]|]. split; [rewrite <- Aw; reflexivity|reflexivity].
      - exfalso. rewrite Sl in S. destruct S as (u1 & u2 & -> & -> & A). cbn [app] in *. rewrite (Ak [] u2 t2 _ _ Et A) in C. destruct (ok_parsed p) as (ms' & C' & K'). rewrite C in C'. injection C' as <-. contradiction.
      - exfalso. rewrite Sl in S. destruct S as (u1 & u2 & -> & -> & A). cbn [app] in *. rewrite (Ak [] u2 t2 _ _ Et A) in C. destruct (ok_parsed p) as (ms' & C' & K'). rewrite C in C'. discriminate C'.
      - exfalso. exact (slow_cut _ _ _ _ _ _ _ S G). }
    assert (K : forall a1 p1 t2 l, tuned a1 -> asks 12 (c_command c) t2 l -> follows (a1, s, p1) t2 (a', s', p') ->
       exists shown, (b = true -> stretch_in (got t2) shown l) /\ does a1 s (c_command c) shown a' s' /\ a' = remember_line (c_command c) a1).
    { intros a1 p1 t2 l Tu1 A G. destruct (slow_asked _ _ _ _ _ _ _ _ _ _ _ _ (leaves_bell _ Lv) A G) as (shown & O & X). exists shown. split; [intros B; exact (X B (proj1 Tu1))|].
      split; [apply (obeys_does ask _ _ _ _ _ _ Lv), O|]. exact (obeys_leaves ask _ _ _ _ _ _ Lv O). }
    assert (HI : forall a1, t <> [] -> (c_header c = o_last_header o /\ a1 = a \/ c_header c <> o_last_header o /\ ad_header a1 = Some (plain (c_header c))) ->
       header_inv (sw || switches c t) (with_header (c_header c) o) a1).
    { intros a1 Nt Hd. assert (Sw : switches c t = negb (text_eqb (c_header c) engine_header)) by (unfold switches; destruct t; [contradiction Nt; reflexivity|apply andb_true_r]).
      rewrite Sw. unfold header_inv in *. cbn [with_header o_last_header]. destruct Hd as [(E & ->)|(E & Ha1)].
      - destruct sw; cbn [orb]; [rewrite E; exact Hi0|]. destruct Hi0 as [H1 H2]. rewrite E, H2. change (text_eqb engine_header engine_header) with true. cbn [negb]. auto.
      - destruct sw; cbn [orb]; [exact Ha1|]. destruct Hi0 as [H1 H2]. rewrite H2 in E. destruct (text_eqb (c_header c) engine_header) eqn:X; [apply text_eqb_iff in X; contradiction|]. exact Ha1. }
    assert (Ne : forall cmd t2 l (t1 : list event), asks 12 cmd t2 l -> t1 ++ t2 <> []) by (intros cmd t2 l t1 (n & rs & -> & _) X; apply app_eq_nil in X as [_ X]; discriminate X).
    assert (FH : forall e p h t1 x o1, header_run o e p h t1 x o1 -> o_fast o1 = false) by (intros e p h t1 x o1 HR; destruct HR; exact Fa).
    destruct Q as [H|H1 H2|e p t x o1 Hi Hs P M HR|e p t o1 Hi Hs P M HR Hn2|e p t1 o1 e1 t2 Hi Hs P M HR Hi1 Hs1 A|e p t1 o1 e1 t2 l x Hi Hs P M HR Hi1 Hs1 A C|e p t1 o1 e1 t2 l ms Hi Hs P M HR Hi1 Hs1 A C]; try contradiction.
    - destruct (HD _ _ _ [] _ _ _ Hi P (eq_sym (app_nil_r _)) HR F) as (D & _). discriminate D.
    - exfalso. destruct (HD _ _ _ [] _ _ _ Hi P (eq_sym (app_nil_r _)) HR F) as (_ & a1 & p1 & _ & _ & _ & I1 & _). unfold obd_status in Hn2. rewrite I1 in Hn2. contradiction.
    - exfalso. apply sfollows_app in F. destruct F as (y & F1 & F2). exact (slow_cut _ _ _ _ _ _ _ A F2).
    - apply sfollows_app in F. destruct F as (y & F1 & F2). destruct (HD _ _ _ _ _ _ _ Hi P eq_refl HR F1) as (_ & a1 & p1 & -> & Tu1 & Hd & I1 & L1). rewrite Hi1 in I1. injection I1 as ->.
      rewrite Hi in Sl. rewrite Sl, (Bs o Fa) in A. destruct A as (u1 & u2 & -> & -> & A). cbn [app] in *. destruct (K _ _ _ _ Tu1 A F2) as (shown & Sh & D & Ea).
      exists p, shown, l, a1, a', s', p'. split; [reflexivity|]. split; [exists e; auto|]. split; [unfold made_of; rewrite C; reflexivity|]. split; [exists t1, u2, (c_command c); auto|]. split; [intros B; exists (got t1), (got u2); split; [apply got_app|exact (Sh B)]|]. split; [exact D|]. split; [exact Tu1|].
      assert (HI1 := HI a1 (Ne _ _ _ _ A) Hd). split; [exact HI1|]. unfold obd_status, husable, asleep. cbn [with_elm o_interface]. rewrite Hi. split; [reflexivity|]. intros _. split; [reflexivity|]. rewrite Ea. split; [exact Tu1|].
      unfold header_inv in *. cbn [with_elm with_header o_last_header remember_line ad_header] in *. rewrite L1. exact HI1.
    - apply sfollows_app in F. destruct F as (y & F1 & F2). destruct (HD _ _ _ _ _ _ _ Hi P eq_refl HR F1) as (_ & a1 & p1 & -> & Tu1 & Hd & I1 & L1). rewrite Hi1 in I1. injection I1 as ->.
      rewrite Hi in Sl. rewrite Sl, (Bs o Fa) in A. destruct A as (u1 & u2 & -> & -> & A). cbn [app] in *. destruct (K _ _ _ _ Tu1 A F2) as (shown & Sh & D & Ea).
      exists p, shown, l, a1, a', s', p'. split; [reflexivity|]. split; [exists e; auto|]. split; [unfold made_of; rewrite C; reflexivity|]. split; [exists t1, u2, (c_command c); auto|]. split; [intros B; exists (got t1), (got u2); split; [apply got_app|exact (Sh B)]|]. split; [exact D|]. split; [exact Tu1|].
      assert (HI1 := HI a1 (Ne _ _ _ _ A) Hd). split; [exact HI1|]. unfold obd_status, husable, asleep. cbn [with_count with_command with_elm o_interface]. rewrite Hi. split; [reflexivity|]. intros _. split; [reflexivity|]. rewrite Ea. split; [exact Tu1|].
      unfold header_inv in *. cbn [with_count with_command with_elm with_header o_last_header remember_line ad_header] in *. rewrite L1. exact HI1.
  Qed.
  Lemma slow_hhistory o0 w0 h s : oinv o0 -> history (o0, w0) h s -> Forall ordinary h -> Forall (fun x => acknowledged (st_events x)) h -> o_fast o0 = false ->
    forall a0 s0 p0 a1 s1 p1, husable o0 a0 false -> follows (a0, s0, p0) (concat (map st_events h)) (a1, s1, p1) ->
    oinv (fst s) /\ o_fast (fst s) = false /\ husable (fst s) a1 (existsb step_switches h).
  Proof.
    intros OI H. induction H as [|h s1 op r s2 t H IH R T]; intros G1 G2 G3 a0 c0 p0 a1 c1 p1 U F.
    - cbn in F. inversion F; subst. auto.
    - apply Forall_app in G1 as [G1 G1']. inversion G1' as [|? ? Od _]; subst. clear G1'. apply Forall_app in G2 as [G2 G2']. inversion G2' as [|? ? Ak _]; subst. clear G2'. cbn [st_events] in Ak.
      rewrite map_app, concat_app in F. cbn [map concat st_events] in F. rewrite app_nil_r in F. apply sfollows_app in F. destruct F as ([[a2 c2] p2] & F1 & F2).
      destruct (IH G1 G2 G3 _ _ _ _ _ _ U F1) as (I1 & Fa & U1). destruct s1 as [o1 w1], s2 as [o2 w2]. cbn [fst snd] in *.
      destruct (run_op_spec _ _ _ _ _ _ I1 R) as (t' & T' & Q). rewrite T in T'. apply app_inv_head in T'. subst t'. destruct (op_run_inv _ _ _ _ _ I1 Q) as (I2 & Fa2 & _).
      split; [exact I2|]. split; [congruence|]. rewrite existsb_app. cbn [existsb]. rewrite orb_false_r. unfold step_switches at 2. cbn [st_op st_events]. clear T R H.
      destruct Q as [c f t r o' Q|t o' Q|t o' Q|t r o' Q|c]; try (exfalso; exact Od).
      2:{ inversion F2; subst. rewrite orb_false_r. exact U1. }
      change (proper c) in Od.
      assert (Un : obd_status o1 = NOT_CONNECTED \/ ~ may_send o1 c f -> husable o' a1 (existsb step_switches h || switches c t)).
      { intros N. destruct (query_not_sent _ _ _ _ _ _ Q N) as (-> & -> & _). inversion F2; subst. unfold switches. rewrite andb_false_r, orb_false_r. auto. }
      destruct (status_eqb (obd_status o1) NOT_CONNECTED) eqn:E; [apply status_eqb_eq in E; auto|].
      assert (Con : obd_status o1 <> NOT_CONNECTED) by (intros X; apply status_eqb_eq in X; congruence).
      destruct (may_send_dec o1 c f I1 Con) as [Ms|Ns]; [|auto].
      destruct (slow_hquery _ _ _ _ _ _ _ _ _ _ _ I1 Fa U1 Q Ak Od F2 Con Ms) as (p & shown & lines & aa & a3 & s3 & p3 & Y & _ & _ & _ & _ & _ & _ & _ & _ & U2). injection Y as -> -> ->. exact U2.
  Qed.
  Lemma slow_hsession cf name scan w t0 h o w1 x a s p : session cf (Some name) scan w t0 h (o, w1) -> Forall ordinary h -> Forall (fun x => acknowledged (st_events x)) h -> cf_fast cf = false ->
    follows x (t0 ++ concat (map st_events h)) (a, s, p) -> oinv o /\ o_fast o = false /\ husable o a (existsb step_switches h).
  Proof.
    intros ([o0 w0] & N & T & H) G1 G2 G3 F. destruct (new_obd_slow ask b _ _ _ _ _ _ x N G3) as (I0 & Fa & S0). destruct (S0 Fa) as (t & T' & S). cbn [snd] in T. rewrite T in T'. apply app_inv_head in T'. subst t.
    apply sfollows_app in F. destruct F as ([[a0 s0] p0] & F1 & F2). pose proof (S _ _ _ F1) as U0.
    assert (U1 : husable o0 a0 false) by (intros X; destruct (U0 X) as (A & B & C & D); repeat split; try assumption; apply B).
    exact (slow_hhistory o0 w0 h (o, w1) I0 H G1 G2 Fa _ _ _ _ _ _ U1 F2).
  Qed.
End Acknowledged.
