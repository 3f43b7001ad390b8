(* C102: what query() returns is what the car measures at the time of the call (SpecAdapter, SpecDashboard). C102_sensor* use the real numbers of the standard library. *)
From Coq Require Import ZArith List Bool Lia String Sorted Reals.
From Verif Require Import Py Num Utils Protocol Codes UasTable Decoders Command CommandTable Commands World Elm Obd Async SpecWire SpecBits SpecProto SpecCmd SpecElm SpecObd SpecAsync SpecNum SpecSensors SpecE2E SpecAdapter SpecAdapter2
  SpecAsyncCar SpecAsyncFast PyFacts WireFacts ElmFacts ElmThms ObdFacts ObdThms ObdThms2 ObdThms3 ObdThms4 ObdThms5 Examples Properties_Protocol Properties_Elm Properties_Decoders Properties_Numbers Properties_Obd
  AdapterThms AdapterThms2 AdapterThms3 AdapterThms4 AdapterThms5 AdapterCheck Properties_Adapter AsyncFacts AsyncThms AsyncHistory AsyncCar AsyncCarFast Properties_Async SpecLive Properties_Live Properties_AsyncCar
  Properties_AsyncFast Properties_EndToEnd AdapterCheck SpecDashboard Properties_Dashboard.
Import ListNotations.
Open Scope string_scope. Open Scope list_scope. Open Scope Z_scope.

Lemma sensor_engines : forallb (fun s => forallb (fun c => negb (existsb (text_eqb (c_name c)) (map str (s_names s))) || (text_eqb (c_header c) engine_header && negb (existsb (fun g => cmd_eqb g c) pid_getters))) all_commands) sensors = true.
Proof. vm_compute. reflexivity. Qed.
Lemma sensor_engine sn c : In sn sensors -> named (s_names sn) c -> c_header c = engine_header /\ forall g, In g pid_getters -> ~ same_command g c.
Proof.
  intros I N. pose proof sensor_engines as F. rewrite forallb_forall in F. specialize (F sn I). pose proof (named_check (s_names sn) _ c N F) as G. cbv beta in G. apply andb_true_iff in G as [G1 G2].
  split; [apply text_eqb_iff; exact G1|]. intros g H X. apply negb_true_iff in G2. assert (E : existsb (fun g => cmd_eqb g c) pid_getters = true); [|congruence]. apply existsb_exists. exists g. split; [exact H|]. apply cmd_eqb_same. exact X.
Qed.
Lemma codes_engine c : named ["GET_DTC"] c -> c_header c = engine_header.
Proof.
  intros N. assert (F : forallb (fun c => negb (existsb (text_eqb (c_name c)) (map str ["GET_DTC"])) || text_eqb (c_header c) engine_header) all_commands = true) by (vm_compute; reflexivity).
  apply text_eqb_iff. exact (named_check ["GET_DTC"] _ c N F).
Qed.
(* the constructor queries the listings of supported commands and nothing else *)
Lemma new_recorded cf port scan w o w' : new_obd cf port scan w = (Ok tt, (o, w')) -> forall c m, recorded o c m -> exists g, In g pid_getters /\ same_command g c.
Proof.
  intros N. set (P := fun (o : obd) (_ : list event) => forall c m, recorded o c m -> exists g, In g pid_getters /\ same_command g c).
  assert (A : P o (w_trace w')); [|exact A].
  refine (proj1 (proj2 (new_obd_inv P _ _ _ cf port scan w o w' N))).
  - intros cf0 i l t _ c m H. discriminate H.
  - intros o1 l t H. exact H.
  - intros o1 c t0 t r o1' G OI H Q c' m R. unfold recorded in R. destruct (query_counts _ _ _ _ _ _ OI Q) as [E|(n & E & _)]; rewrite E in R; [exact (H _ _ R)|].
    destruct (dict_get cmd_eqb (o_frame_counts o1) c') as [k|] eqn:D; [exact (H _ _ D)|]. destruct (cmd_eqb c c') eqn:B; [|discriminate R]. exists c. split; [exact G|apply cmd_eqb_same; exact B].
Qed.
Definition only_count (o : obd) (c : command) (n : nat) : Prop := forall c', same_command c' c -> notes_of o c' = None \/ notes_of o c' = Some n.

Section Car.
  Context {Car : Type} (ask : Car -> option text -> text -> list text -> Car -> Prop).

  Lemma uses_same o p p' : uses o p -> uses o p' -> p = p'.
  Proof. intros (e & E & P) (e' & E' & P'). congruence. Qed.
  Lemma uses_some o : oinv o -> obd_status o <> NOT_CONNECTED -> exists p, uses o p.
  Proof.
    intros OI Con. unfold oinv in OI. unfold obd_status in Con. destruct (o_interface o) as [e|] eqn:E; [|contradiction Con; reflexivity].
    destruct (proj2 OI Con) as (p & P & _). exists p, e. auto.
  Qed.
  Lemma history_uses o0 w0 h s pr : oinv o0 -> history (o0, w0) h s -> Forall plainly h -> uses o0 pr ->
    forall a0 s0 p0 a1 s1 p1, usable o0 a0 false true -> follows ask (a0, s0, p0) (concat (map st_events h)) (a1, s1, p1) -> uses (fst s) pr.
  Proof.
    intros OI H Pl Us. induction H as [|h s1 op r s2 t H IH R T]; intros a0 c0 p0 a1 c1 p1 U F.
    - auto.
    - apply Forall_app in Pl as [Pl Pl']. inversion Pl' as [|? ? Pl1 _]; subst. clear Pl'.
      rewrite map_app, concat_app in F. cbn [map concat st_events] in F. rewrite app_nil_r in F. apply follows_app in F. destruct F as ([[a2 c2] p2] & F1 & F2).
      pose proof (IH Pl _ _ _ _ _ _ U F1) as U1.
      assert (Od : Forall ordinary h) by (eapply Forall_impl; [|exact Pl]; intros y Y; apply Y).
      destruct (history_usable ask true o0 w0 h s1 OI H Od (fun _ => Pl) ltac:(discriminate) _ _ _ _ _ _ U F1) as (I1 & Fa1 & Us1 & _).
      destruct s1 as [o1 w1], s2 as [o2 w2]. cbn [fst snd] in *.
      destruct (run_op_spec _ _ _ _ _ _ I1 R) as (t' & T' & Q). rewrite T in T'. apply app_inv_head in T'. subst t'. destruct Pl1 as (Od1 & Pl1). cbn [st_op st_result] in *.
      assert (Ns : existsb step_switches h = false).
      { destruct (existsb step_switches h) eqn:Ex; [|reflexivity]. apply existsb_exists in Ex. destruct Ex as (x & I & Ex). rewrite Forall_forall in Pl. destruct (Pl x I) as (_ & X).
        unfold step_switches, switches in Ex. destruct (st_op x); try discriminate Ex. destruct X as (X & _). rewrite X in Ex. discriminate Ex. }
      destruct Q as [c' f t r o' Q|t o' Q|t o' Q|t r o' Q|c']; try (exfalso; exact Od1); [|exact U1].
      destruct Pl1 as (Hc & q & Rq). change (proper c') in Od1.
      destruct (status_eqb (obd_status o1) NOT_CONNECTED) eqn:E; [apply status_eqb_eq in E; destruct (query_not_sent _ _ _ _ _ _ Q (or_introl E)) as (-> & _ & _); auto|].
      assert (Con : obd_status o1 <> NOT_CONNECTED) by (intros X; apply status_eqb_eq in X; rewrite X in E; discriminate E).
      destruct (may_send_dec o1 c' f I1 Con) as [Ms|Nm]; [|destruct (query_not_sent _ _ _ _ _ _ Q (or_intror Nm)) as (-> & _ & _); auto].
      rewrite Ns in Us1. destruct (Us1 Con) as (_ & _ & (_ & Lh) & _).
      destruct (query_step_full ask o1 c' f t r o' a2 c2 p2 (a1, c1, p1) false true I1 Us1 Q Od1 F2 (fun _ => eq_trans Hc (eq_sym Lh)) ltac:(discriminate) Con Ms)
        as (p & aa & lines & a' & s' & Y & Up & Up' & Rr & _ & Tu & Hi & D & _ & Cn & _).
      rewrite <- (uses_same _ _ _ Up U1). exact Up'.
  Qed.
  (* along a history of plain queries the number of frames on record for c is that of every answer of the car *)
  Lemma history_counts o0 w0 h s pr c n req : oinv o0 -> o_fast o0 = true -> history (o0, w0) h s -> Forall plainly h -> uses o0 pr ->
    understand (c_command c) = KRequest req -> steady ask pr c n -> (1 <= n <= 9)%nat -> only_count o0 c n ->
    forall a0 s0 p0 a1 s1 p1, usable o0 a0 false true -> follows ask (a0, s0, p0) (concat (map st_events h)) (a1, s1, p1) -> uses (fst s) pr /\ only_count (fst s) c n.
  Proof.
    intros OI Fa H Pl Us K St B Oc. induction H as [|h s1 op r s2 t H IH R T]; intros a0 c0 p0 a1 c1 p1 U F.
    - auto.
    - apply Forall_app in Pl as [Pl Pl']. inversion Pl' as [|? ? Pl1 _]; subst. clear Pl'.
      rewrite map_app, concat_app in F. cbn [map concat st_events] in F. rewrite app_nil_r in F. apply follows_app in F. destruct F as ([[a2 c2] p2] & F1 & F2).
      destruct (IH Pl _ _ _ _ _ _ U F1) as (U1 & O1).
      assert (Od : Forall ordinary h) by (eapply Forall_impl; [|exact Pl]; intros y Y; apply Y).
      destruct (history_usable ask true o0 w0 h s1 OI H Od (fun _ => Pl) ltac:(discriminate) _ _ _ _ _ _ U F1) as (I1 & Fa1 & Us1 & _).
      destruct s1 as [o1 w1], s2 as [o2 w2]. cbn [fst snd] in *.
      destruct (run_op_spec _ _ _ _ _ _ I1 R) as (t' & T' & Q). rewrite T in T'. apply app_inv_head in T'. subst t'. destruct Pl1 as (Od1 & Pl1). cbn [st_op st_result] in *.
      assert (Ns : existsb step_switches h = false).
      { destruct (existsb step_switches h) eqn:Ex; [|reflexivity]. apply existsb_exists in Ex. destruct Ex as (x & I & Ex). rewrite Forall_forall in Pl. destruct (Pl x I) as (_ & X).
        unfold step_switches, switches in Ex. destruct (st_op x); try discriminate Ex. destruct X as (X & _). rewrite X in Ex. discriminate Ex. }
      destruct Q as [c' f t r o' Q|t o' Q|t o' Q|t r o' Q|c']; try (exfalso; exact Od1); [|split; [exact U1|exact O1]].
      destruct Pl1 as (Hc & q & Rq). change (proper c') in Od1.
      destruct (status_eqb (obd_status o1) NOT_CONNECTED) eqn:E; [apply status_eqb_eq in E; destruct (query_not_sent _ _ _ _ _ _ Q (or_introl E)) as (-> & _ & _); auto|].
      assert (Con : obd_status o1 <> NOT_CONNECTED) by (intros X; apply status_eqb_eq in X; rewrite X in E; discriminate E).
      destruct (may_send_dec o1 c' f I1 Con) as [Ms|Nm]; [|destruct (query_not_sent _ _ _ _ _ _ Q (or_intror Nm)) as (-> & _ & _); auto].
      rewrite Ns in Us1. destruct (Us1 Con) as (_ & _ & (_ & Lh) & _).
      destruct (query_step_full ask o1 c' f t r o' a2 c2 p2 (a1, c1, p1) false true I1 Us1 Q Od1 F2 (fun _ => eq_trans Hc (eq_sym Lh)) ltac:(discriminate) Con Ms)
        as (p & aa & lines & a' & s' & Y & Up & Up' & Rr & _ & Tu & Hi & D & _ & Cn & _).
      rewrite (uses_same _ _ _ Up U1) in *. split; [exact Up'|].
      destruct (call pr lines) as [ms|] eqn:C; [|unfold decoded in Rr; rewrite C in Rr; rewrite Rr in Rq; discriminate Rq].
      pose proof (noted_count o1 c' _ o' (Cn ms eq_refl)) as Nt.
      assert (Sw : switches c' t = false) by (unfold switches; rewrite Hc; reflexivity). rewrite Sw in Hi. destruct Hi as [Hn _].
      pose proof (does_gives ask _ _ _ _ _ _ Tu Hn (full_leaves o1 c' Od1) D) as G. pose proof (full_line o1 c' ltac:(congruence)) as L.
      intros c3 Sm. specialize (Nt c3). destruct (O1 c3 Sm) as [X|X]; rewrite X in Nt; [|auto]. destruct Nt as [N1 N2].
      destruct (cmd_eqb c' c3) eqn:Bq; [|left; apply N2; intros Z; apply cmd_eqb_same in Z; congruence].
      apply cmd_eqb_same in Bq. right. rewrite (N1 Bq). f_equal.
      assert (Sc : same_command c' c) by (unfold same_command in *; intuition congruence).
      assert (Uc : understand (c_command c') = KRequest req) by (rewrite (proj1 Sc); exact K).
      destruct (C100_line ask _ c' _ lines c2 s' req Uc L G) as (L1 & L2 & _).
      assert (A : ask c2 None req lines s').
      { destruct (c_fast c') eqn:Ff; [|apply L1; auto]. destruct (O1 c' Sc) as [Z|Z]; [apply L1; auto|].
        destruct (L2 n eq_refl Z B) as (full & A & ->). pose proof (proj1 (St _ _ _ _ K A)) as Ln. rewrite firstn_all2 by lia. exact A. }
      rewrite <- (frames_counted _ _ _ C). exact (proj2 (St _ _ _ _ K A)).
  Qed.
  Lemma together_counts cf name scan w h o w1 x y pr c n req : together ask cf name scan w h o w1 x y -> cf_fast cf = true -> Forall plainly h -> obd_status o <> NOT_CONNECTED -> uses o pr ->
    understand (c_command c) = KRequest req -> steady ask pr c n -> (1 <= n <= 9)%nat -> (forall g, In g pid_getters -> ~ same_command g c) -> only_count o c n.
  Proof.
    intros (t0 & ([o0 w0] & N & T & H) & F) Fa Pl Con Us K St B Ng. destruct (new_obd_settled ask _ _ _ _ _ _ x N) as (I0 & Fa0 & t & T' & S). cbn [snd] in T. rewrite T in T'. apply app_inv_head in T'. subst t.
    apply follows_app in F. destruct F as ([[a0 s0] p0] & F1 & F2). destruct y as [[a1 s1] p1].
    assert (Od : Forall ordinary h) by (eapply Forall_impl; [|exact Pl]; intros z Z; apply Z).
    destruct (history_usable ask true o0 w0 h (o, w1) I0 H Od (fun _ => Pl) ltac:(discriminate) _ _ _ _ _ _ (S _ _ _ F1) F2) as (_ & _ & _ & Ss). cbn [fst] in Ss. rewrite Ss in Con.
    destruct (uses_some _ I0 Con) as (p & Up).
    assert (Oc : only_count o0 c n).
    { intros c' Sm. left. destruct (notes_of o0 c') as [m|] eqn:M; [|reflexivity]. destruct (new_recorded _ _ _ _ _ _ N c' m M) as (g & G & Sg). destruct (Ng g G). unfold same_command in *. intuition congruence. }
    assert (P : p = pr).
    { apply (uses_same o); [|exact Us]. exact (history_uses _ _ _ _ _ I0 H Pl Up _ _ _ _ _ _ (S _ _ _ F1) F2). }
    subst p. exact (proj2 (history_counts _ _ _ _ _ _ _ _ I0 ltac:(congruence) H Pl Up K St B Oc _ _ _ _ _ _ (S _ _ _ F1) F2)).
  Qed.

  (* if the car tells the truth about a scalar sensor, query() returns what it measures in the state the car is in, in the documented unit, up to rounding *)
Theorem C102_sensor : forall cf name scan w h o w1 x a s p sn c force t q o' a' s' p' pr shows,
    together ask cf name scan w h o w1 x (a, s, p) -> cf_fast cf = false -> Forall ordinary h ->
    queried ask c force o w1 (a, s, p) t (Ok q) o' (a', s', p') -> obd_status o <> NOT_CONNECTED -> may_send o c force -> uses o pr ->
    In sn sensors -> named (s_names sn) c -> truthful ask pr c shows -> (forall st d, shows st d -> List.length d = s_len sn) ->
    exists d v, shows s d /\ r_value q = VQty v (str (s_unit sn)) /\ within (s_error sn d) v (s_value sn d).
  Proof.
    intros cf name scan w h o w1 x a s p sn c force t q o' a' s' p' pr shows To Sl Od Q Con Ms Us Is N Tr Ln. destruct (sensor_request sn c Is N) as (req & K).
    assert (Hk : header_ok (plain (c_header c)) = true) by (rewrite (proj1 (sensor_engine sn c Is N)); reflexivity).
    destruct (C87_reading ask _ _ _ _ _ _ _ _ _ _ _ _ _ _ _ _ _ _ _ _ To Sl Od Q Hk K Con Ms) as (pr' & hd & lines & Us' & A & _ & Rd & H1 & H2 & _). rewrite (uses_same _ _ _ Us' Us) in *.
    assert (Ad : addressed c hd).
    { destruct (existsb step_switches (h ++ [as_step c force t (Ok q)])) eqn:E; [right; apply H2, switched_iff; exact E|left; apply H1; rewrite switched_iff; congruence]. }
    destruct (Tr s hd req lines s' K Ad A) as (h1 & h2 & d & Sp & Ne & Sw).
    destruct (C67_sensor sn c pr lines q h1 h2 d Is N (Rd q eq_refl) Sp Ne (Ln _ _ Sw)) as (v & V & W & _). exists d, v. auto.
  Qed.
  (* with fast=True: if every answer of the car to c has the same number n of lines, from 1 to 9, which are all frames of messages *)
Theorem C102_sensor_fast : forall cf name scan w h o w1 x a s p sn c force t q o' a' s' p' pr shows n,
    together ask cf name scan w h o w1 x (a, s, p) -> cf_fast cf = true -> Forall plainly h ->
    queried ask c force o w1 (a, s, p) t (Ok q) o' (a', s', p') -> obd_status o <> NOT_CONNECTED -> may_send o c force -> uses o pr ->
    In sn sensors -> named (s_names sn) c -> truthful ask pr c shows -> (forall st d, shows st d -> List.length d = s_len sn) -> steady ask pr c n -> (1 <= n <= 9)%nat ->
    exists d v, shows s d /\ r_value q = VQty v (str (s_unit sn)) /\ within (s_error sn d) v (s_value sn d).
  Proof.
    intros cf name scan w h o w1 x a s p sn c force t q o' a' s' p' pr shows n To Fa Pl Q Con Ms Us Is N Tr Ln St B. destruct (sensor_request sn c Is N) as (req & K).
    destruct (sensor_engine sn c Is N) as (He & Ng). pose proof (together_counts _ _ _ _ _ _ _ _ _ _ _ _ _ To Fa Pl Con Us K St B Ng) as Oc.
    destruct (C89_fast_partial ask _ _ _ _ _ _ _ _ _ _ _ _ _ _ _ _ _ _ _ _ To Pl Q He K Con Ms) as (L1 & L2).
    assert (A : exists lines, ask s None req lines s' /\ reading c pr lines q).
    { destruct (c_fast c) eqn:Cf; [destruct (Oc c (conj eq_refl eq_refl)) as [M|M]|].
      - destruct L1 as (pr' & lines & Us' & A & _ & Rd); [right; right; exact M|]. rewrite (uses_same _ _ _ Us' Us) in *. exists lines. auto.
      - destruct (L2 n Fa eq_refl M B) as (pr' & lines & Us' & A & _ & Rd). rewrite (uses_same _ _ _ Us' Us) in *. exists lines. split; [exact A|].
        specialize (Rd q eq_refl). rewrite firstn_all2 in Rd by (pose proof (proj1 (St _ _ _ _ K A)); lia). exact Rd.
      - destruct L1 as (pr' & lines & Us' & A & _ & Rd); [auto|]. rewrite (uses_same _ _ _ Us' Us) in *. exists lines. auto. }
    destruct A as (lines & A & Rd). destruct (Tr s None req lines s' K (or_introl eq_refl) A) as (h1 & h2 & d & Sp & Ne & Sw).
    destruct (C67_sensor sn c pr lines q h1 h2 d Is N Rd Sp Ne (Ln _ _ Sw)) as (v & V & W & _). exists d, v. auto.
  Qed.
  (* the trouble codes *)
Theorem C102_codes : forall cf name scan w h o w1 x a s p c force t q o' a' s' p' pr shows,
    together ask cf name scan w h o w1 x (a, s, p) -> cf_fast cf = false -> Forall ordinary h ->
    queried ask c force o w1 (a, s, p) t (Ok q) o' (a', s', p') -> obd_status o <> NOT_CONNECTED -> may_send o c force -> uses o pr ->
    named ["GET_DTC"] c -> reporting ask pr c shows ->
    exists hd rs, shows s hd rs /\ (~ switched h -> hd = None) /\ (switched h -> hd = Some (plain (c_header c)))
      /\ forall ps codes, byte_pairs (List.concat (map snd rs)) ps -> SpecWire.selects real_code ps codes ->
           exists l, r_value q = VDtcs l /\ Forall2 (fun p e => fst e = dtc_text (fst p) (snd p) /\ described DTC (fst e) (snd e)) codes l.
  Proof.
    intros cf name scan w h o w1 x a s p c force t q o' a' s' p' pr shows To Sl Od Q Con Ms Us N Tr. destruct (codes_request c N) as (req & K). pose proof (codes_engine c N) as He.
    assert (Hk : header_ok (plain (c_header c)) = true) by (rewrite He; reflexivity).
    destruct (C87_reading ask _ _ _ _ _ _ _ _ _ _ _ _ _ _ _ _ _ _ _ _ To Sl Od Q Hk K Con Ms) as (pr' & hd & lines & Us' & A & _ & Rd & H1 & H2 & _). rewrite (uses_same _ _ _ Us' Us) in *.
    assert (Sw : switched (h ++ [as_step c force t (Ok q)]) <-> switched h).
    { split; intros (y & c0 & f & I & E & X & Y); [|exists y, c0, f; split; [apply in_or_app; auto|auto]]. apply in_app_or in I as [I|[<-|[]]]; [exists y, c0, f; auto|]. exfalso. apply X. cbn [as_step st_op] in E. congruence. }
    rewrite Sw in H1, H2.
    assert (Ad : addressed c hd).
    { destruct (existsb step_switches h) eqn:E; [right; apply H2, switched_iff; exact E|left; apply H1; rewrite switched_iff; congruence]. }
    destruct (Tr s hd req lines s' K Ad A) as (rs & Ss & Ne & So & Hr & Si). exists hd, rs. split; [exact Ss|]. split; [exact H1|]. split; [exact H2|]. intros ps codes Bp Se.
    exact (C68_trouble_codes 3 c pr lines q rs ps codes (or_introl (conj eq_refl N)) (Rd q eq_refl) So Ne Hr Si Bp Se).
  Qed.
End Car.

(* ------------------------------------------------------------------ examples *)
(* the second of two queries of RPM: the engine turns at 1 revolution per minute by then *)
Lemma car4_scene fast a1 a2 v : scene car4 (setup fast) true (start_up ++ [several [str "7E8 04 41 0C 1A F8"]; several [str "7E8 04 41 0C 00 04"]]) [rpm] (cmd "RPM")
    = (true, Some (a1, false), Some (a2, true), CAR_CONNECTED, Some v, repeat (true, true) (List.length [rpm]), Some 1%nat) ->
  match o_interface (fst (snd (new_obd (setup fast) (Some (str "p")) [] (fresh (start_up ++ [several [str "7E8 04 41 0C 1A F8"]; several [str "7E8 04 41 0C 00 04"]]))))) with Some e => e_protocol e | None => None end = Some can11 ->
  exists w h o w1 t q o', together (SpecAdapter2.answers car4) (setup fast) (str "p") [] w h o w1 (new_adapter, true, []) (a1, false, []) /\ Forall plainly h /\ map st_op h = [rpm]
  /\ queried (SpecAdapter2.answers car4) revs true o w1 (a1, false, []) t (Ok q) o' (a2, true, []) /\ obd_status o <> NOT_CONNECTED /\ may_send o revs true /\ uses o can11 /\ r_value q = v.
Proof.
  intros E1 Up. destruct (scene_facts _ _ _ _ _ _ _ _ _ _ _ _ _ _ E1) as (h1 & o1 & w1 & t1 & q1 & o1' & T1 & S1 & Q1 & V1 & M1 & L1 & K1). symmetry in L1.
  pose proof (plainly_ops [rpm] _ (Forall_cons _ rpm_engine (Forall_nil _)) M1 L1) as Pl.
  eexists _, h1, o1, w1, t1, q1, o1'. split; [exact T1|]. split; [exact Pl|]. split; [exact M1|]. split; [exact Q1|]. split; [rewrite S1; discriminate|]. split; [left; reflexivity|]. split; [|exact V1].
  destruct T1 as (t0 & ([o0 w0] & N & T & H) & F). rewrite N in Up. cbn [fst snd] in Up.
  destruct (new_obd_settled (SpecAdapter2.answers car4) _ _ _ _ _ _ (new_adapter, true, []) N) as (I0 & Fa0 & t & T' & S). cbn [snd] in T. rewrite T in T'. apply app_inv_head in T'. subst t.
  apply follows_app in F. destruct F as ([[a0 s0] p0] & F1 & F2).
  assert (U0 : uses o0 can11) by (unfold uses; destruct (o_interface o0) as [e|]; [eauto|discriminate Up]).
  exact (history_uses (SpecAdapter2.answers car4) _ _ _ _ _ I0 H Pl U0 _ _ _ _ _ _ (S _ _ _ F1) F2).
Qed.
Example C102_example : exists w h o w1 a1 a2 t q o', together (SpecAdapter2.answers car4) (setup false) (str "p") [] w h o w1 (new_adapter, true, []) (a1, false, []) /\ Forall ordinary h /\ map st_op h = [rpm]
  /\ queried (SpecAdapter2.answers car4) revs true o w1 (a1, false, []) t (Ok q) o' (a2, true, []) /\ obd_status o <> NOT_CONNECTED /\ may_send o revs true /\ uses o can11
  /\ (exists sn, In sn sensors /\ named (s_names sn) revs /\ s_len sn = 2%nat) /\ truthful (SpecAdapter2.answers car4) can11 revs turns /\ (forall st d, turns st d -> List.length d = 2%nat).
Proof.
  assert (E : exists a1 a2 v, scene car4 (setup false) true (start_up ++ [several [str "7E8 04 41 0C 1A F8"]; several [str "7E8 04 41 0C 00 04"]]) [rpm] (cmd "RPM")
    = (true, Some (a1, false), Some (a2, true), CAR_CONNECTED, Some v, repeat (true, true) (List.length [rpm]), Some 1%nat)) by (eexists _, _, _; vm_compute; reflexivity).
  destruct E as (a1 & a2 & v & E). destruct (car4_scene false a1 a2 v E) as (w & h & o & w1 & t & q & o' & T & Pl & M & Q & C & Ms & U & _); [vm_compute; reflexivity|].
  exists w, h, o, w1, a1, a2, t, q, o'. split; [exact T|]. split; [eapply Forall_impl; [|exact Pl]; intros y Y; apply Y|]. split; [exact M|]. split; [exact Q|]. split; [exact C|]. split; [exact Ms|]. split; [exact U|].
  split; [exact revs_sensor|]. split; [exact car4_truthful|]. intros [|] d ->; reflexivity.
Qed.
Example C102_fast_example : exists w h o w1 a1 a2 t q o', together (SpecAdapter2.answers car4) (setup true) (str "p") [] w h o w1 (new_adapter, true, []) (a1, false, []) /\ Forall plainly h /\ map st_op h = [rpm]
  /\ queried (SpecAdapter2.answers car4) revs true o w1 (a1, false, []) t (Ok q) o' (a2, true, []) /\ obd_status o <> NOT_CONNECTED /\ may_send o revs true /\ uses o can11
  /\ (exists sn, In sn sensors /\ named (s_names sn) revs /\ s_len sn = 2%nat) /\ truthful (SpecAdapter2.answers car4) can11 revs turns /\ steady (SpecAdapter2.answers car4) can11 revs 1.
Proof.
  assert (E : exists a1 a2 v, scene car4 (setup true) true (start_up ++ [several [str "7E8 04 41 0C 1A F8"]; several [str "7E8 04 41 0C 00 04"]]) [rpm] (cmd "RPM")
    = (true, Some (a1, false), Some (a2, true), CAR_CONNECTED, Some v, repeat (true, true) (List.length [rpm]), Some 1%nat)) by (eexists _, _, _; vm_compute; reflexivity).
  destruct E as (a1 & a2 & v & E). destruct (car4_scene true a1 a2 v E) as (w & h & o & w1 & t & q & o' & T & Pl & M & Q & C & Ms & U & _); [vm_compute; reflexivity|].
  exists w, h, o, w1, a1, a2, t, q, o'. split; [exact T|]. split; [exact Pl|]. split; [exact M|]. split; [exact Q|]. split; [exact C|]. split; [exact Ms|]. split; [exact U|].
  split; [exact revs_sensor|]. split; [exact car4_truthful|exact car4_steady].
Qed.
