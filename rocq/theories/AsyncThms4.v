(* Subscriptions and non-blocking queries over all schedules. *)
From Coq Require Import ZArith List Bool Lia.
From Verif Require Import Py Num Utils Protocol Decoders Command CommandTable Commands World Elm Obd Async SpecElm SpecObd SpecAsync PyFacts CommandThms ElmFacts ElmThms ObdFacts ObdThms ObdThms2 ObdThms3 ObdThms4 AsyncFacts AsyncThms AsyncThms2 AsyncThms3.
Import ListNotations.
Open Scope nat_scope.

Lemma reachable_inv s : reachable s -> ainv s /\ binv s.
Proof.
  intros (prog & s0 & sched & (cf & port & scan & w & o & w1 & N & ->) & ->). apply arun_inv2. split; [|apply new_async_binv]. apply new_async_inv.
  destruct (new_obd_inv (fun _ _ => True) (fun _ _ _ _ _ => Logic.I) (fun _ _ _ _ => Logic.I) (fun _ _ _ _ _ _ _ _ _ _ => Logic.I) _ _ _ _ _ _ N) as (OI & _). exact OI.
Qed.
Lemma arun_app a b s : arun (a ++ b) s = arun b (arun a s).
Proof. unfold arun. apply fold_left_app. Qed.
Lemma reachable_run s sched : reachable s -> reachable (arun sched s).
Proof. intros (prog & s0 & sc & C & ->). exists prog, s0, (sc ++ sched). split; [exact C|]. symmetry. apply arun_app. Qed.
Lemma reachable_step s ch : reachable s -> reachable (astep ch s).
Proof. exact (reachable_run s [ch]). Qed.

Lemma in_loop_iff s i : in_loop s i <-> exists p, pc_of s i = Some p /\ looping p = true.
Proof.
  unfold in_loop. fold (pc_of s i). destruct (pc_of s i) as [p|]; [|split; [tauto|intros (p & E & _); discriminate E]].
  split; [intros H; exists p; split; [reflexivity|]; destruct p; tauto|]. intros (q & E & L). injection E as <-. destruct p; try discriminate L; exact Logic.I.
Qed.

(* ---- schedules ---- *)
Lemma split_main sched n : user_steps sched = S n -> exists a b, sched = a ++ CMain :: b /\ user_steps a = 0 /\ user_steps b = n.
Proof.
  induction sched as [|ch sched IH]; [discriminate|]. destruct ch as [|i b]; cbn.
  - intros H. injection H as H. exists [], sched. auto.
  - intros H. destruct (IH H) as (a & c & -> & A & B). exists (CThread i b :: a), c. auto.
Qed.
Lemma user_steps_app a b : user_steps (a ++ b) = user_steps a + user_steps b.
Proof. unfold user_steps. rewrite filter_app, app_length. reflexivity. Qed.

(* while the loop is stopped, the update threads do nothing *)
Definition stopped (s : astate) : Prop := a_running s = false /\ stopping (a_pc s) = false.
Lemma stopped_thread i b s : ainv s -> stopped s -> a_cmds (astep (CThread i b) s) = a_cmds s /\ a_cbs (astep (CThread i b) s) = a_cbs s /\ a_obd (astep (CThread i b) s) = a_obd s /\ a_world (astep (CThread i b) s) = a_world s
  /\ a_events (astep (CThread i b) s) = a_events s /\ a_pc (astep (CThread i b) s) = a_pc s /\ a_prog (astep (CThread i b) s) = a_prog s /\ a_op (astep (CThread i b) s) = a_op s /\ a_running (astep (CThread i b) s) = a_running s
  /\ a_was_running (astep (CThread i b) s) = a_was_running s /\ (a_thread (astep (CThread i b) s) = a_thread s \/ a_thread (astep (CThread i b) s) = None).
Proof.
  intros V [R S]. unfold astep. destruct (thread_step i b s) as [s'|] eqn:E; [|repeat split; auto]. destruct (thread_step_spec _ _ _ _ V E) as (p & P & U).
  assert (L : looping p = true -> p = T_disc2) by (intros L; destruct (I_stopped _ V R _ _ P L); [assumption|congruence]).
  destruct p; cbn in U; try contradiction; try (specialize (L eq_refl); discriminate L); subst s'; cbn; repeat split; auto.
Qed.
Lemma stopped_threads a : forall s, ainv s -> stopped s -> user_steps a = 0 ->
  let s' := arun a s in a_cmds s' = a_cmds s /\ a_cbs s' = a_cbs s /\ a_obd s' = a_obd s /\ a_world s' = a_world s
  /\ a_events s' = a_events s /\ a_pc s' = a_pc s /\ a_prog s' = a_prog s /\ a_op s' = a_op s /\ a_running s' = a_running s /\ a_was_running s' = a_was_running s /\ (a_thread s' = a_thread s \/ a_thread s' = None) /\ ainv s'.
Proof.
  induction a as [|ch a IH]; intros s V S U; [cbn; repeat (split; [reflexivity|]); auto|]. destruct ch as [|i b]; [discriminate U|]. change (arun (CThread i b :: a) s) with (arun a (astep (CThread i b) s)).
  destruct (stopped_thread i b s V S) as (E1 & E2 & E3 & E4 & E5 & E6 & E7 & E8 & E9 & E10 & E11).
  assert (V1 := astep_inv (CThread i b) s V). assert (S1 : stopped (astep (CThread i b) s)) by (destruct S as [S1 S2]; split; congruence).
  destruct (IH _ V1 S1 U) as (F1 & F2 & F3 & F4 & F5 & F6 & F7 & F8 & F9 & F10 & F11 & F12). cbv zeta. repeat (split; [congruence|]).
  split; [destruct F11 as [F11|F11]; [rewrite F11; exact E11|auto]|exact F12].
Qed.

(* one call that changes the table, made while the loop is stopped *)
Lemma table_call op rest s sched : ainv s -> binv s -> a_pc s = M_idle -> a_running s = false -> a_prog s = op :: rest -> user_steps sched = 2 -> tidy (a_obd s) [op] (subscriptions s) ->
  let s' := arun sched s in
  sub_call (a_obd s) op (subscriptions s) (subscriptions s') /\ a_pc s' = M_idle /\ a_running s' = false /\ a_prog s' = rest /\ a_obd s' = a_obd s /\ a_world s' = a_world s.
Proof.
  intros V B Pc R Pr U [Td _]. destruct (split_main _ _ U) as (a & b & -> & Ua & Ub). destruct (split_main _ _ Ub) as (b' & c & -> & Ub' & Uc). clear U Ub.
  rewrite arun_app. change (arun (CMain :: b' ++ CMain :: c) (arun a s)) with (arun (b' ++ CMain :: c) (astep CMain (arun a s))). rewrite arun_app. match goal with |- context [arun (CMain :: c) ?x] => change (arun (CMain :: c) x) with (arun c (astep CMain x)) end.
  assert (S0 : stopped s) by (split; [exact R|rewrite Pc; reflexivity]).
  destruct (stopped_threads a s V S0 Ua) as (E1 & E2 & E3 & E4 & E5 & E6 & E7 & E8 & E9 & E10 & E11 & V1).
  set (s1 := arun a s) in *. rewrite Pc in E6. rewrite Pr in E7. rewrite R in E9.
  assert (B1 : binv s1) by (apply (proj2 (arun_inv2 a s (conj V B)))).
  set (s2 := astep CMain s1). pose proof (astep_inv2 CMain s1 (conj V1 B1)) as [V2 B2]. fold s2 in V2, B2.
  assert (H2 : a_cmds s2 = a_cmds s /\ a_cbs s2 = a_cbs s /\ a_obd s2 = a_obd s /\ a_world s2 = a_world s /\ a_running s2 = false /\ a_prog s2 = rest /\
     a_pc s2 = match op with AWatch c cb f => M_watch c cb f | AUnwatch c cb => M_unwatch c cb | _ => M_unwatch_all end).
  { unfold s2, astep, main_step. rewrite E6, E7. cbn zeta. destruct op; try contradiction; cbn [a_running upd_prog]; rewrite E9; cbn; auto 10. }
  destruct H2 as (G1 & G2 & G3 & G4 & G5 & G6 & G7).
  assert (S2 : stopped s2) by (split; [exact G5|]; rewrite G7; destruct op; reflexivity).
  destruct (stopped_threads b' s2 V2 S2 Ub') as (H1 & H2 & H3 & H4 & H5 & H6 & H7 & H8 & H9 & H10 & H11 & V3).
  set (s3 := arun b' s2) in *.
  assert (B3 : binv s3) by (apply (proj2 (arun_inv2 b' s2 (conj V2 B2)))).
  set (s4 := astep CMain s3). pose proof (astep_inv2 CMain s3 (conj V3 B3)) as [V4 B4]. fold s4 in V4, B4.
  assert (T3 : (a_cmds s3, a_cbs s3) = (a_cmds s, a_cbs s)) by congruence.
  assert (K4 : sub_call (a_obd s) op (subscriptions s) (subscriptions s4) /\ a_pc s4 = M_idle /\ a_running s4 = a_running s3 /\ a_prog s4 = a_prog s3 /\ a_obd s4 = a_obd s3 /\ a_world s4 = a_world s3).
  { unfold s4, astep, main_step. rewrite H6, G7. destruct op; try contradiction.
    - rewrite H3, G3. assert (MS : (if force then Ok true else test_cmd (a_obd s) c0) = Ok true <-> may_send (a_obd s) c0 force).
      { destruct force; [split; [left; reflexivity|reflexivity]|apply test_cmd_true]. }
      assert (Un : forall s4', subscriptions s4' = subscriptions s3 -> ~ may_send (a_obd s) c0 force -> sub_call (a_obd s) (AWatch c0 cb force) (subscriptions s) (subscriptions s4')).
      { intros s4' E N. rewrite E, subscriptions_view, (subscriptions_view s3), T3. constructor. exact N. }
      destruct (if force then Ok true else test_cmd (a_obd s) c0) as [[|]|x].
      + rewrite T3. destruct (watch_table_spec c0 cb _ (I_table _ V) (B_nodup _ B)) as (t' & W & Vw & _). rewrite W. split; [|repeat split; try reflexivity; cbn; congruence].
        assert (X : subscriptions (finish ODone (upd_dicts t' s3)) = view t') by (destruct t'; reflexivity). rewrite X, Vw. constructor. apply MS. reflexivity.
      + split; [|repeat split; try reflexivity; cbn; congruence]. apply Un; [reflexivity|]. intros X. apply MS in X. discriminate X.
      + split; [|repeat split; try reflexivity; cbn; congruence]. apply Un; [reflexivity|]. intros X. apply MS in X. discriminate X.
    - rewrite T3. destruct (unwatch_table_spec c0 cb _ (I_table _ V) (B_nodup _ B)) as (t' & W & _ & Vw). rewrite W. split; [|repeat split; reflexivity].
      assert (X : subscriptions (finish ODone (upd_dicts t' s3)) = view t') by (destruct t'; reflexivity). rewrite X, Vw by exact Td. constructor. exact Td.
    - split; [constructor|repeat split; reflexivity]. }
  destruct K4 as (K1 & K2 & K3 & K4 & K5 & K6).
  assert (S4 : stopped s4) by (split; [congruence|rewrite K2; reflexivity]).
  destruct (stopped_threads c s4 V4 S4 Uc) as (J1 & J2 & J3 & J4 & J5 & J6 & J7 & J8 & J9 & J10 & J11 & V5). cbv zeta.
  split; [rewrite (subscriptions_view (arun c s4)), J1, J2; exact K1|]. repeat split; congruence.
Qed.
Lemma split_steps n sched m : user_steps sched = n + m -> exists a b, sched = a ++ b /\ user_steps a = n /\ user_steps b = m.
Proof.
  revert n. induction sched as [|ch sched IH]; intros n H.
  - exists [], []. cbn in *. split; [reflexivity|]. lia.
  - destruct ch as [|i b].
    + destruct n as [|n]; [exists [], (CMain :: sched); split; [reflexivity|split; [reflexivity|exact H]]|]. cbn in H. injection H as H.
      destruct (IH _ H) as (a & b & -> & A & B). exists (CMain :: a), b. split; [reflexivity|]. split; [cbn; f_equal; exact A|exact B].
    + cbn in H. destruct (IH _ H) as (a & b0 & -> & A & B). exists (CThread i b :: a), b0. auto.
Qed.
Theorem table_calls ops : forall s sched, ainv s -> binv s -> about_to_call ops s -> a_running s = false -> user_steps sched = 2 * length ops -> tidy (a_obd s) ops (subscriptions s) ->
  sub_calls (a_obd s) ops (subscriptions s) (subscriptions (arun sched s)).
Proof.
  induction ops as [|op ops IH]; intros s sched V B (Pc & rest & Pr) R U Td.
  - destruct (stopped_threads sched s V) as (E1 & E2 & _); [split; [exact R|rewrite Pc; reflexivity]|exact U|]. rewrite (subscriptions_view (arun sched s)), E1, E2. constructor.
  - replace (2 * length (op :: ops)) with (2 + 2 * length ops) in U by (cbn; lia). destruct (split_steps _ _ _ U) as (a & b & -> & Ua & Ub). rewrite arun_app.
    destruct (table_call op (ops ++ rest) s a V B Pc R Pr Ua) as (K1 & K2 & K3 & K4 & K5 & K6); [split; [apply Td|intros; exact Logic.I]|].
    destruct (arun_inv2 a s (conj V B)) as [V1 B1]. apply scs_cons with (t1 := subscriptions (arun a s)); [exact K1|]. rewrite <- K5. apply IH; auto.
    + split; [exact K2|]. exists rest. exact K4.
    + rewrite K5. apply (proj2 Td). exact K1.
Qed.

(* ---- no change while running ---- *)
Lemma subs_thread i b s : ainv s -> subscriptions (astep (CThread i b) s) = subscriptions s.
Proof.
  intros V. unfold astep. destruct (thread_step i b s) as [s'|] eqn:E; [|reflexivity]. destruct (thread_frame _ _ _ _ V E) as (_ & _ & _ & F4 & _ & _ & F7 & _).
  unfold subscriptions. rewrite F4, F7. reflexivity.
Qed.
Lemma subs_main s : (match a_pc s with M_watch _ _ _ | M_unwatch _ _ | M_unwatch_all => False | _ => True end) -> subscriptions (astep CMain s) = subscriptions s.
Proof.
  intros H. unfold astep, main_step. destruct (a_pc s) eqn:Pc; try contradiction; try reflexivity.
  - destruct (a_prog s) as [|o rest]; [reflexivity|]. destruct o; cbn zeta; try reflexivity; cbn [a_running upd_prog]; destruct (a_running s); reflexivity.
  - destruct (negb _); reflexivity.
  - destruct (nonempty _); reflexivity.
  - destruct (a_thread s); reflexivity.
  - destruct (a_thread s); reflexivity.
  - destruct (a_thread s); [reflexivity|]. destruct k; reflexivity.
  - destruct (a_thread s); reflexivity.
  - destruct (ended id s); reflexivity.
  - destruct k; reflexivity.
  - destruct (a_running s); reflexivity.
  - destruct (a_was_running s); reflexivity.
  - destruct (obd_close _) as [r ow]. reflexivity.
Qed.
Lemma subs_running s ch : ainv s -> a_running s = true -> subscriptions (astep ch s) = subscriptions s.
Proof.
  intros V R. destruct ch; [|apply subs_thread, V]. apply subs_main. pose proof (I_main _ V) as M. unfold main_ok in M. destruct (a_pc s); trivial; congruence.
Qed.
Lemma subs_looping s ch i : ainv s -> in_loop s i -> pc_of s i <> Some T_disc2 -> subscriptions (astep ch s) = subscriptions s.
Proof.
  intros V L N. destruct ch; [|apply subs_thread, V]. apply subs_main. apply in_loop_iff in L as (p & P & L).
  pose proof (I_main _ V) as M. unfold main_ok in M. assert (a_running s = true \/ stopping (a_pc s) = true) as [X|X].
  { destruct (a_running s) eqn:R; [auto|]. destruct (I_stopped _ V R _ _ P L); [|auto]. subst p. contradiction. }
  - destruct (a_pc s); trivial; congruence.
  - destruct (a_pc s); trivial; discriminate X.
Qed.
