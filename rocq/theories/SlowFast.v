(* Proofs about SpecSlow: sessions with fast=True, commands with the engine's header whose queries return. *)
From Coq Require Import ZArith List Bool Lia String.
From Verif Require Import Py Num Utils Protocol Decoders Command CommandTable Commands World Elm Obd SpecElm SpecObd SpecE2E SpecAdapter SpecAdapter2 SpecSlow
  PyFacts ElmFacts ElmThms ObdFacts ObdThms ObdThms2 ObdThms3 ObdThms4 ObdThms5 Properties_Elm AdapterThms AdapterThms2 AdapterThms3 AdapterThms4 AdapterThms5 SlowThms.
Import ListNotations.
Open Scope string_scope. Open Scope list_scope. Open Scope Z_scope.

Local Arguments Z.eqb : simpl never.
Section Car.
  Context {Car : Type} (ask : Car -> option text -> text -> list text -> Car -> Prop) (b : bool).
  Notation follows := (slow_follows ask b). Notation obeys := (obeys ask). Notation moves := (slowly ask b). Notation does := (does ask).
  Definition fusable (o : obd) (a : adapter) : Prop :=
    obd_status o <> NOT_CONNECTED -> asleep o = false /\ tuned a /\ ad_header a = None /\ o_last_header o = engine_header /\ line_inv o a.
  Lemma slow_fquery o c force t r o' a s pend y : oinv o -> fusable o a -> query_run o c force t r o' -> proper c -> c_header c = engine_header -> follows (a, s, pend) t y ->
    obd_status o <> NOT_CONNECTED -> may_send o c force ->
    exists p shown lines a' s' p', y = (a', s', p') /\ uses o p /\ r = made_of p c lines /\ last_answer t lines /\ (b = true -> stretch_in (got t) shown lines)
      /\ does a s (full_string o c) shown a' s' /\ obd_status o' = obd_status o
      /\ (forall ms, call p lines = Ok ms -> o_frame_counts o' = o_frame_counts (with_count c (count_frames ms) o) /\ fusable o' a').
  Proof.
    intros OI U Q Pr Eh F Con Ms. destruct (U Con) as (Sl & Tu & Hn & Lh & Li). destruct y as [[a' s'] p']. unfold asleep in Sl.
    assert (Lv : leaves (understand (full_string o c))) by (apply full_leaves, Pr).
    assert (HD : forall e p t1 x o1, header_run o e p (c_header c) t1 x o1 -> t1 = [] /\ x = None /\ o1 = o).
    { intros e p t1 x o1 HR. destruct HR; try congruence. auto. }
    assert (K : forall t2 l, asks 12 (build_command_string o c) t2 l -> follows (a, s, pend) t2 (a', s', p') ->
       exists shown, (b = true -> stretch_in (got t2) shown l) /\ does a s (full_string o c) shown a' s' /\ a' = remember_line (full_string o c) a
         /\ (if nonempty (build_command_string o c) then build_command_string o c else o_last_command o) = full_string o c).
    { intros t2 l A G. destruct (slow_asked _ _ _ _ _ _ _ _ _ _ _ _ (build_bell o c Pr) A G) as (shown & O & X). exists shown. split; [intros B; exact (X B (proj1 Tu))|].
      assert (D : does a s (full_string o c) shown a' s' /\ (if nonempty (build_command_string o c) then build_command_string o c else o_last_command o) = full_string o c).
      { rewrite build_full in *. destruct (o_fast o && text_eqb (full_string o c) (o_last_command o)) eqn:B.
        - apply andb_true_iff in B as [B1 B2]. apply text_eqb_iff in B2. destruct Li as [L|L]; [exfalso; apply (leaves_nonempty _ Lv); congruence|].
          split; [|cbn; congruence]. change (does a s (ad_last a) shown a' s') in O. rewrite L, <- B2 in O. exact O.
        - split; [apply (obeys_does ask) in O; assumption|]. destruct (full_string o c) eqn:Y; [exfalso; apply (leaves_nonempty _ Lv); reflexivity|reflexivity]. }
      destruct D as (D & E). split; [exact D|]. split; [|exact E]. apply (obeys_leaves ask a s (full_string o c) shown a' s' Lv), (obeys_does ask); assumption. }
    destruct Q as [H|H1 H2|e p t x o1 Hi Hs P M HR|e p t o1 Hi Hs P M HR Hn2|e p t1 o1 e1 t2 Hi Hs P M HR Hi1 Hs1 A|e p t1 o1 e1 t2 l x Hi Hs P M HR Hi1 Hs1 A C|e p t1 o1 e1 t2 l ms Hi Hs P M HR Hi1 Hs1 A C]; try contradiction;
      destruct (HD _ _ _ _ _ HR) as (-> & Ex & ->).
    - discriminate Ex.
    - contradiction.
    - exfalso. cbn [app] in F. exact (slow_cut ask b _ _ _ _ _ A F).
    - assert (e1 = e) by congruence. subst e1. rewrite Hi in Sl. rewrite Sl in A. destruct A as (u1 & u2 & -> & -> & A). cbn [app] in *. destruct (K _ _ A F) as (shown & Sh & D & Ea & _).
      exists p, shown, l, a', s', p'. split; [reflexivity|]. split; [exists e; auto|]. split; [unfold made_of; rewrite C; reflexivity|]. split; [exists [], u2, (build_command_string o c); auto|]. split; [exact Sh|]. split; [exact D|].
      split; [unfold obd_status; cbn [with_elm o_interface]; rewrite Hi; reflexivity|]. intros ms X. congruence.
    - assert (e1 = e) by congruence. subst e1. rewrite Hi in Sl. rewrite Sl in A. destruct A as (u1 & u2 & -> & -> & A). cbn [app] in *. destruct (K _ _ A F) as (shown & Sh & D & Ea & Lc).
      exists p, shown, l, a', s', p'. split; [reflexivity|]. split; [exists e; auto|]. split; [unfold made_of; rewrite C; reflexivity|]. split; [exists [], u2, (build_command_string o c); auto|]. split; [exact Sh|]. split; [exact D|].
      split; [unfold obd_status; cbn [with_count with_command with_elm o_interface]; rewrite Hi; reflexivity|]. intros ms' X. rewrite C in X. injection X as <-. split; [reflexivity|].
      intros _. unfold asleep. cbn [with_count with_command with_elm o_interface o_last_header]. split; [reflexivity|]. rewrite Ea. split; [exact Tu|]. split; [exact Hn|]. split; [exact Lh|].
      right. cbn [remember_line ad_last]. rewrite <- Lc. unfold with_count, with_command, with_elm. cbn [o_last_command]. reflexivity.
  Qed.
  Lemma made_ok p c lines q : made_of p c lines = Ok q -> exists ms, call p lines = Ok ms.
  Proof. unfold made_of. destruct (call p lines) as [ms|]; [eauto|discriminate]. Qed.
  Lemma slow_fstep o c force t q o' a s pend a' s' p' : oinv o -> fusable o a -> query_run o c force t (Ok q) o' -> proper c -> c_header c = engine_header -> follows (a, s, pend) t (a', s', p') ->
    fusable o' a' /\ obd_status o' = obd_status o.
  Proof.
    intros OI U Q Pr Eh F. assert (Un : obd_status o = NOT_CONNECTED \/ ~ may_send o c force -> fusable o' a' /\ obd_status o' = obd_status o).
    { intros N. destruct (query_not_sent _ _ _ _ _ _ Q N) as (-> & -> & _). inversion F; subst. auto. }
    destruct (status_eqb (obd_status o) NOT_CONNECTED) eqn:E; [apply status_eqb_eq in E; auto|].
    assert (Con : obd_status o <> NOT_CONNECTED) by (intros X; apply status_eqb_eq in X; congruence).
    destruct (may_send_dec o c force OI Con) as [Ms|Ns]; [|auto].
    destruct (slow_fquery _ _ _ _ _ _ _ _ _ _ OI U Q Pr Eh F Con Ms) as (p & shown & lines & a2 & s2 & p2 & Y & _ & R & _ & _ & _ & St & Su). injection Y as -> -> ->.
    symmetry in R. destruct (made_ok _ _ _ _ R) as (ms & C). split; [apply (Su ms C)|exact St].
  Qed.
  Definition fsettled (w0 : list event) (x : conf) (o : obd) (tr : list event) : Prop :=
    exists t, tr = w0 ++ t /\ forall a s p, follows x t (a, s, p) -> fusable o a.
  Lemma new_obd_fslow cf name scan w o w' x : new_obd cf (Some name) scan w = (Ok tt, (o, w')) -> oinv o /\ o_fast o = cf_fast cf /\ fsettled (w_trace w) x o (w_trace w').
  Proof.
    intros H. unfold new_obd in H. apply bind_inv in H. destruct H as [([] & [o1 w1] & C & H)|(? & _ & D)]; [|discriminate D].
    unfold connect in C. apply bind_inv in C. destruct C as [([] & [o2 w2] & C1 & C2)|(? & _ & D)]; [|discriminate D].
    change (initial_obd cf) with (connected_obd cf None base_set) in C1.
    destruct (connect_port_spec _ _ _ _ _ _ _ _ C1) as [(e & _ & -> & N)|(x0 & D & _)]; [|discriminate D].
    destruct (new_elm_einv _ _ _ _ _ _ _ _ _ N) as (Ie & Le).
    destruct (close_if_failed_spec cf (Some e) base_set _ _ _ _ (conj Ie Le) C2) as (_ & -> & K).
    destruct (new_elm_spec _ _ _ _ _ _ _ _ _ N) as (t & T & NS).
    assert (S0 : oinv o1 /\ o_fast o1 = cf_fast cf /\ fsettled (w_trace w) x o1 (w_trace w2)).
    { destruct K as [(K & ->)|(K & ->)].
      - split; [exact Logic.I|]. split; [reflexivity|]. exists t. split; [exact T|]. intros a s p _ X. contradiction X. reflexivity.
      - split; [exact Ie|]. split; [reflexivity|]. exists t. split; [exact T|]. intros a s p F _. cbn in K.
        destruct NS as [(e' & st & sel & b0 & R & Su & Se & _)|[(Io & _)|(c & r0 & y & _ & R)]]; [|exfalso; exact (slow_no_io_error _ _ _ _ _ F Io)|discriminate R].
        injection R as <-. destruct (slow_startup _ _ _ _ _ _ _ _ _ _ _ _ _ _ Su ltac:(congruence) F) as (a' & s' & p' & Y & Tu & Hn). injection Y as -> -> ->.
        split; [exact (Le K)|]. split; [exact Tu|]. split; [exact Hn|]. split; [reflexivity|]. left. reflexivity. }
    destruct S0 as (I1 & F1 & S1). unfold load_commands in H. apply bind_inv in H. destruct H as [(st & [o3 w3] & H1 & H)|(? & _ & D)]; [|discriminate D].
    unfold obd_of, gets in H1. injection H1 as <- <- <-. cbn [fst] in H. destruct (negb _); [injection H as <- <-; split; [exact I1|split; [congruence|exact S1]]|].
    assert (Psup : forall o l t0, fsettled (w_trace w) x o t0 -> fsettled (w_trace w) x (with_supported l o) t0) by (intros o2 l t0 Z; exact Z).
    assert (Pq : forall o c t0 t r o', In c pid_getters -> oinv o -> fsettled (w_trace w) x o t0 -> query_run o c false t (Ok r) o' -> fsettled (w_trace w) x o' (t0 ++ t)).
    { intros o2 c t0 t2 r o2' G OI S2 Q.
      destruct S2 as (t3 & -> & S3). exists (t3 ++ t2). split; [rewrite app_assoc; reflexivity|]. intros a s p F. apply sfollows_app in F. destruct F as ([[a1 s1] p1] & F3 & F4).
      specialize (S3 _ _ _ F3). pose proof getter_proper as GP. rewrite Forall_forall in GP. destruct (GP c G) as (Pr & He).
      exact (proj1 (slow_fstep _ _ _ _ _ _ _ _ _ _ _ _ OI S3 Q Pr He F4)). }
    destruct (load_all_inv _ Psup Pq pid_getters (incl_refl _) _ _ _ _ I1 S1 H) as (I4 & S4 & F4 & _). split; [exact I4|]. split; [congruence|exact S4].
  Qed.
  Lemma slow_fhistory o0 w0 h s : oinv o0 -> history (o0, w0) h s -> Forall plainly h ->
    forall a0 s0 p0 a1 s1 p1, fusable o0 a0 -> follows (a0, s0, p0) (concat (map st_events h)) (a1, s1, p1) ->
    oinv (fst s) /\ o_fast (fst s) = o_fast o0 /\ fusable (fst s) a1 /\ obd_status (fst s) = obd_status o0.
  Proof.
    intros OI H. induction H as [|h s1 op r s2 t H IH R T]; intros G1 a0 c0 p0 a1 c1 p1 U F.
    - cbn in F. inversion F; subst. auto.
    - apply Forall_app in G1 as [G1 G1']. inversion G1' as [|? ? Od _]; subst. clear G1'.
      rewrite map_app, concat_app in F. cbn [map concat st_events] in F. rewrite app_nil_r in F. apply sfollows_app in F. destruct F as ([[a2 c2] p2] & F1 & F2).
      destruct (IH G1 _ _ _ _ _ _ U F1) as (I1 & Fa & U1 & St). destruct s1 as [o1 w1], s2 as [o2 w2]. cbn [fst snd] in *.
      destruct (run_op_spec _ _ _ _ _ _ I1 R) as (t' & T' & Q). rewrite T in T'. apply app_inv_head in T'. subst t'. destruct (op_run_inv _ _ _ _ _ I1 Q) as (I2 & Fa2 & _).
      split; [exact I2|]. split; [congruence|]. clear T R H. destruct Od as (Od & Or).
      destruct Q as [c f t r o' Q|t o' Q|t o' Q|t r o' Q|c]; try (exfalso; exact Od).
      2:{ inversion F2; subst. split; [exact U1|exact St]. }
      cbn [st_op st_result] in Or. change (proper c) in Od. destruct Or as (Oe & q & Or). destruct r as [q'|]; [|discriminate Or].
      destruct (slow_fstep _ _ _ _ _ _ _ _ _ _ _ _ I1 U1 Q Od Oe F2) as (A & B). split; [exact A|congruence].
  Qed.
  Lemma slow_fsession cf name scan w t0 h o w1 x a s p : session cf (Some name) scan w t0 h (o, w1) -> Forall plainly h ->
    follows x (t0 ++ concat (map st_events h)) (a, s, p) -> oinv o /\ o_fast o = cf_fast cf /\ fusable o a
      /\ exists o0 w0, new_obd cf (Some name) scan w = (Ok tt, (o0, w0)) /\ obd_status o = obd_status o0.
  Proof.
    intros ([o0 w0] & N & T & H) G1 F. destruct (new_obd_fslow _ _ _ _ _ _ x N) as (I0 & Fa & t & T' & S). cbn [snd] in T. rewrite T in T'. apply app_inv_head in T'. subst t.
    apply sfollows_app in F. destruct F as ([[a0 s0] p0] & F1 & F2).
    destruct (slow_fhistory o0 w0 h (o, w1) I0 H G1 _ _ _ _ _ _ (S _ _ _ F1) F2) as (A & B & C & D). cbn [fst] in *. split; [exact A|]. split; [congruence|]. split; [exact C|]. eauto.
  Qed.
End Car.
