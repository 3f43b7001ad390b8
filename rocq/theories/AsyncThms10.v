(* paused(), running. *)
From Coq Require Import ZArith List Bool Lia.
From Verif Require Import Py Num Utils Protocol Decoders Command CommandTable Commands World Elm Obd Async SpecElm SpecObd SpecAsync PyFacts CommandThms ElmFacts ElmThms ObdFacts ObdThms ObdThms2 ObdThms3 ObdThms4 AsyncFacts AsyncThms AsyncThms2 AsyncThms3 AsyncThms4 AsyncThms5 AsyncThms6 AsyncThms7 AsyncThms8 AsyncThms9.
Import ListNotations.
Open Scope nat_scope.

(* ---- leaving a paused block ---- *)
(* no thread can move *)
Definition inert (s : astate) : Prop := forall i p, pc_of s i = Some p -> p = T_new \/ p = T_done \/ exists e, p = T_dead e.
Lemma inert_thread i b s : inert s -> astep (CThread i b) s = s.
Proof. intros I. unfold astep, thread_step. fold (pc_of s i). destruct (pc_of s i) as [p|] eqn:P; [|reflexivity]. destruct (I _ _ P) as [->|[->|[e ->]]]; reflexivity. Qed.
Lemma inert_run sched : forall s, inert s -> user_steps sched = 0 -> arun sched s = s.
Proof. induction sched as [|[|i b] sched IH]; intros s I U; [reflexivity|discriminate U|]. change (arun (CThread i b :: sched) s) with (arun sched (astep (CThread i b) s)). rewrite inert_thread by exact I. apply IH; assumption. Qed.
Lemma inert_same s s' : a_threads s' = a_threads s -> inert s -> inert s'.
Proof. intros E I i p P. apply (I i). unfold pc_of in *. rewrite <- E. exact P. Qed.
Lemma stopped_inert s : ainv s -> stopped s -> async_connected s = true -> inert s.
Proof.
  intros V [R St] C i p P. destruct (looping p) eqn:L.
  - destruct (I_stopped _ V R _ _ P L) as [->|X]; [|congruence]. pose proof (I_ok _ V _ _ P) as [X _]. congruence.
  - destruct p; try discriminate L; eauto. pose proof (I_ok _ V _ _ P) as X. cbn in X. congruence.
Qed.
Lemma stopped_thread_none s : ainv s -> binv s -> stopped s -> async_connected s = true -> a_pc s <> M_start6 -> a_thread s = None.
Proof.
  intros V B S C N6. destruct (a_thread s) as [i|] eqn:T; [|reflexivity]. exfalso. destruct (I_thread _ V _ T) as (p & P & Nr & Nd).
  destruct S as [R St]. destruct (stopped_inert s V (conj R St) C _ _ P) as [->|[->|[e ->]]].
  - destruct (I_new _ V _ P) as [X _]. contradiction.
  - rewrite (Nd eq_refl) in St. discriminate St.
  - destruct (B_dead _ B _ _ T P); congruence.
Qed.
Lemma one_user_step sched n s : user_steps sched = S n -> inert s -> exists b, user_steps b = n /\ arun sched s = arun b (astep CMain s).
Proof. intros U I. destruct (split_main _ _ U) as (a & b & -> & Ua & Ub). exists b. split; [exact Ub|]. rewrite arun_app, (inert_run a s I Ua). reflexivity. Qed.
Lemma leave_restarts s sched : reachable s -> about_to_call [AExit] s -> a_running s = false -> last_entered (a_events s) None = Some true ->
  async_connected s = true -> a_cmds s <> [] -> user_steps sched = 8 ->
  exists i, a_events (astep CMain (arun sched s)) = a_events s ++ [AEv_start i; AEv_return AExit (OBool false)] /\ in_loop (astep CMain (arun sched s)) i /\ a_running (astep CMain (arun sched s)) = true.
Proof.
  intros Re (Pc & rest & Pr) R Le C Ne U. destruct (reachable_inv _ Re) as [V B]. cbn in Pr.
  assert (S0 : stopped s) by (split; [exact R|rewrite Pc; reflexivity]). pose proof (stopped_inert s V S0 C) as I0.
  assert (T0 : a_thread s = None) by (apply stopped_thread_none; auto; rewrite Pc; discriminate).
  assert (W : a_was_running s = true) by (destruct (B_was _ B _ Le) as [X|X]; [rewrite Pc in X; discriminate X|exact X]).
  assert (Nb : nonempty (a_cmds s) = true) by (destruct (a_cmds s); [contradiction|reflexivity]).
  destruct (one_user_step sched 7 s U I0) as (b1 & U1 & ->). clear U.
  set (s1 := upd_pc M_exit1 (upd_prog AExit rest s)). assert (E1 : astep CMain s = s1) by (unfold astep, main_step; rewrite Pc, Pr; reflexivity). rewrite E1. clear E1.
  destruct (one_user_step b1 6 s1 U1 (inert_same s s1 eq_refl I0)) as (b2 & U2 & ->).
  set (s2 := upd_pc M_exit2 s1). assert (E2 : astep CMain s1 = s2) by (unfold astep, main_step, s1; cbn; rewrite R; reflexivity). rewrite E2. clear E2.
  destruct (one_user_step b2 5 s2 U2 (inert_same s s2 eq_refl I0)) as (b3 & U3 & ->).
  set (s3 := upd_pc M_start1 s2). assert (E3 : astep CMain s2 = s3) by (unfold astep, main_step, s2, s1; cbn; rewrite W; reflexivity). rewrite E3. clear E3.
  destruct (one_user_step b3 4 s3 U3 (inert_same s s3 eq_refl I0)) as (b4 & U4 & ->).
  set (s4 := upd_pc M_start2 s3). assert (E4 : astep CMain s3 = s4) by (unfold astep, main_step; change (a_pc s3) with M_start1; change (async_connected s3) with (async_connected s); rewrite C; reflexivity). rewrite E4. clear E4.
  destruct (one_user_step b4 3 s4 U4 (inert_same s s4 eq_refl I0)) as (b5 & U5 & ->).
  set (s5 := upd_pc M_start3 s4). assert (E5 : astep CMain s4 = s5) by (unfold astep, main_step; change (a_pc s4) with M_start2; change (a_cmds s4) with (a_cmds s); rewrite Nb; reflexivity). rewrite E5. clear E5.
  destruct (one_user_step b5 2 s5 U5 (inert_same s s5 eq_refl I0)) as (b6 & U6 & ->).
  set (s6 := upd_pc M_start4 s5). assert (E6 : astep CMain s5 = s6) by (unfold astep, main_step; change (a_pc s5) with M_start3; change (a_thread s5) with (a_thread s); rewrite T0; reflexivity). rewrite E6. clear E6.
  destruct (one_user_step b6 1 s6 U6 (inert_same s s6 eq_refl I0)) as (b7 & U7 & ->).
  set (s7 := upd_pc M_start5 (upd_running true s6)). assert (E7 : astep CMain s6 = s7) by reflexivity. rewrite E7. clear E7.
  destruct (one_user_step b7 0 s7 U7 (inert_same s s7 eq_refl I0)) as (b8 & U8 & ->).
  set (i := length (a_threads s)). set (s8 := upd_pc M_start6 (upd_thread (Some i) (upd_threads (a_threads s ++ [T_new]) s7))). assert (E8 : astep CMain s7 = s8) by reflexivity. rewrite E8. clear E8.
  assert (I8 : inert s8). { intros j p P. unfold pc_of in P. cbn in P. rewrite nth_app_new in P. destruct (Nat.eqb j _); [injection P as <-; auto|exact (I0 _ _ P)]. }
  rewrite (inert_run b8 s8 I8 U8). exists i. unfold astep, main_step. change (a_pc s8) with M_start6. change (a_thread s8) with (Some i). cbn match. split; [|split; [|reflexivity]].
  - cbn. rewrite <- app_assoc. reflexivity.
  - apply in_loop_iff. exists T_while. split; [|reflexivity]. unfold pc_of. cbn. rewrite nth_set, Nat.eqb_refl, nth_app_new. unfold i. rewrite Nat.eqb_refl. reflexivity.
Qed.
Lemma leave_stays_stopped s sched : reachable s -> about_to_call [AExit] s -> a_running s = false -> last_entered (a_events s) None = Some false -> user_steps sched = 3 ->
  a_events (arun sched s) = a_events s ++ [AEv_return AExit (OBool false)] /\ a_running (arun sched s) = false.
Proof.
  intros Re (Pc & rest & Pr) R Le U. destruct (reachable_inv _ Re) as [V B]. cbn in Pr.
  assert (W : a_was_running s = false) by (destruct (B_was _ B _ Le) as [X|X]; [rewrite Pc in X; discriminate X|exact X]).
  destruct (split_main _ _ U) as (a1 & b1 & -> & Ua1 & Ub1). destruct (split_main _ _ Ub1) as (a2 & b2 & -> & Ua2 & Ub2). destruct (split_main _ _ Ub2) as (a3 & b3 & -> & Ua3 & Ub3). clear U Ub1 Ub2.
  assert (X : forall s0, arun (a1 ++ CMain :: a2 ++ CMain :: a3 ++ CMain :: b3) s0 = arun b3 (astep CMain (arun a3 (astep CMain (arun a2 (astep CMain (arun a1 s0))))))).
  { intros s0. unfold arun. repeat (rewrite fold_left_app; cbn [fold_left]). reflexivity. }
  rewrite X. clear X.
  destruct (stopped_threads a1 s V) as (_ & _ & _ & _ & E5 & E6 & E7 & E8 & E9 & E10 & _ & V1); [split; [exact R|rewrite Pc; reflexivity]|exact Ua1|]. set (s1 := arun a1 s) in *.
  set (s2 := astep CMain s1). assert (F : a_pc s2 = M_exit1 /\ a_running s2 = false /\ a_was_running s2 = false /\ a_events s2 = a_events s /\ a_op s2 = AExit).
  { unfold s2, astep, main_step. rewrite E6, E7, Pc, Pr. cbn. repeat split; congruence. }
  destruct F as (F1 & F2 & F3 & F4 & F5). assert (V2 : ainv s2) by (apply astep_inv, V1).
  destruct (stopped_threads a2 s2 V2) as (_ & _ & _ & _ & G5 & G6 & G7 & G8 & G9 & G10 & _ & V3); [split; [exact F2|rewrite F1; reflexivity]|exact Ua2|]. set (s3 := arun a2 s2) in *.
  set (s4 := astep CMain s3). assert (H : a_pc s4 = M_exit2 /\ a_running s4 = false /\ a_was_running s4 = false /\ a_events s4 = a_events s /\ a_op s4 = AExit).
  { unfold s4, astep, main_step. rewrite G6, F1. cbn. rewrite G9, F2. cbn. repeat split; congruence. }
  destruct H as (H1 & H2 & H3 & H4 & H5). assert (V4 : ainv s4) by (apply astep_inv, V3).
  destruct (stopped_threads a3 s4 V4) as (_ & _ & _ & _ & J5 & J6 & J7 & J8 & J9 & J10 & _ & V5); [split; [exact H2|rewrite H1; reflexivity]|exact Ua3|]. set (s5 := arun a3 s4) in *.
  set (s6 := astep CMain s5). assert (K : a_pc s6 = M_idle /\ a_running s6 = false /\ a_events s6 = a_events s ++ [AEv_return AExit (OBool false)]).
  { unfold s6, astep, main_step. rewrite J6, H1. cbn. rewrite J10, H3. cbn. rewrite J5, H4, J8, H5. repeat split; congruence. }
  destruct K as (K1 & K2 & K3). assert (V6 : ainv s6) by (apply astep_inv, V5).
  destruct (stopped_threads b3 s6 V6) as (_ & _ & _ & _ & L5 & _ & _ & _ & L9 & _); [split; [exact K2|rewrite K1; reflexivity]|exact Ub3|]. split; congruence.
Qed.
(* a loop that is running when the block is left stays as it is *)
Lemma leave_running s : a_pc s = M_exit1 -> a_op s = AExit -> a_running s = true ->
  a_events (astep CMain s) = a_events s ++ [AEv_return AExit (OBool false)] /\ a_running (astep CMain s) = true /\ a_threads (astep CMain s) = a_threads s.
Proof. intros P O R. unfold astep, main_step. rewrite P, R. cbn. rewrite O. auto. Qed.

(* ---- running ---- *)
Theorem running_means s : reachable s -> a_running s = true -> (exists i, in_loop s i) \/ a_pc s <> M_idle \/ exists i e, thread_died s i e.
Proof.
  intros Re R. destruct (reachable_inv _ Re) as [V _]. destruct (I_running _ V R) as [P|(i & p & T & P & [L|[->|[e ->]]])].
  - right. left. rewrite P. discriminate.
  - left. exists i. apply in_loop_iff. eauto.
  - right. left. destruct (I_new _ V _ P) as [X _]. rewrite X. discriminate.
  - right. right. exists i, e. exact P.
Qed.
Theorem no_thread_dies prog s0 sched : created prog s0 -> callbacks_fine sched -> (forall i c e, ~ In (AEv_query i c (Raise e)) (a_events (arun sched s0))) -> forall i e, ~ thread_died (arun sched s0) i e.
Proof.
  intros Cr. assert (Re0 : reachable s0) by (exists prog, s0, []; auto).
  assert (K : forall sched s, reachable s -> (forall i e, ~ thread_died s i e) -> callbacks_fine sched -> (forall i c e, ~ In (AEv_query i c (Raise e)) (a_events (arun sched s))) -> forall i e, ~ thread_died (arun sched s) i e).
  { clear. induction sched as [|ch sched IH]; intros s Re D F N; [exact D|]. change (arun (ch :: sched) s) with (arun sched (astep ch s)) in *.
    apply IH; [apply reachable_step, Re| | |exact N].
    - intros i e X. destruct (dies_only_by s ch i e Re X (D i e)) as (b & -> & [(c & E)|(-> & _)]).
      + destruct (events_run sched (astep (CThread i b) s)) as [es Es]. apply (N i c e). rewrite Es, E. apply in_or_app. left. apply in_or_app. right. left. reflexivity.
      + apply (F i). left. reflexivity.
    - intros i X. apply (F i). right. exact X. }
  intros F N. apply (K sched s0 Re0); auto. intros i e. destruct Cr as (cf & port & scan & w & o & w1 & _ & ->). unfold thread_died. cbn. destruct i; discriminate.
Qed.
