(* Frame conditions, and a second invariant: which call is in progress, what was_running holds, callback lists. *)
From Coq Require Import ZArith List Bool Lia.
From Verif Require Import Py Num Utils Protocol Decoders Command CommandTable Commands World Elm Obd Async SpecElm SpecObd SpecAsync PyFacts CommandThms ElmFacts ElmThms ObdFacts ObdThms ObdThms2 ObdThms3 ObdThms4 AsyncFacts AsyncThms AsyncThms2.
Import ListNotations.
Open Scope nat_scope.

(* what a step of thread i leaves alone *)
Lemma thread_frame i b s s' : ainv s -> thread_step i b s = Some s' ->
  a_pc s' = a_pc s /\ a_op s' = a_op s /\ a_prog s' = a_prog s /\ a_cbs s' = a_cbs s /\ a_gen s' = a_gen s /\ a_was_running s' = a_was_running s /\
  map fst (a_cmds s') = map fst (a_cmds s) /\ (a_running s' = true -> a_running s = true) /\
  (async_connected s' = true -> async_connected s = true) /\
  (forall j, j <> i -> pc_of s' j = pc_of s j) /\ (exists p', pc_of s' i = Some p' /\ p' <> T_new) /\
  exists es, a_events s' = a_events s ++ es /\ (es = [] \/ exists e, es = [e] /\ by_thread i e = true).
Proof.
  intros V H. destruct (thread_step_spec _ _ _ _ V H) as (p & P & U).
  assert (Q : forall p' s1, a_threads s1 = a_threads s -> (forall j, j <> i -> pc_of (set_tpc i p' s1) j = pc_of s j) /\ pc_of (set_tpc i p' s1) i = Some p').
  { intros p' s1 E. unfold pc_of in *. cbn. rewrite E. split.
    - intros j N. rewrite nth_set. destruct (Nat.eqb_spec i j); [congruence|reflexivity].
    - rewrite nth_set, Nat.eqb_refl, P. reflexivity. }
  assert (K : forall c r it, thread_ok s (T_store c r it) -> dmem (a_cmds s) c = true).
  { intros c r it (_ & _ & _ & Su). apply dmem_In. eapply suffix_in, Su. }
  pose proof (I_ok _ V _ _ P) as Ok.
  destruct p; cbn [undisturbed_step] in U; try contradiction;
    try (subst s'; match goal with |- context [set_tpc i ?p' ?s1] => destruct (Q p' s1 eq_refl) as [Q1 Q2] end; cbn [a_pc a_op a_prog a_cbs a_gen a_was_running a_cmds a_running a_events set_tpc upd_threads upd_running upd_thread add_event]; repeat (split; [reflexivity|]); (split; [auto; discriminate|]); (split; [auto|]); (split; [exact Q1|]); (split; [eexists; split; [exact Q2|]|exists []; rewrite app_nil_r; auto])).
  - destruct (a_running s); discriminate.
  - discriminate.
  - discriminate.
  - destruct (it_keys it); discriminate.
  - destruct (async_connected s); discriminate.
  - discriminate.
  - discriminate.
  - discriminate.
  - destruct U as (r & [o' w'] & E & ->). destruct (query_status _ _ _ _ _ _ (I_oinv _ V) E) as (OI & C).
    destruct (Q (match r with Ok r => T_store c r it | Raise e => T_dead e end) (add_event (AEv_query i c r) (upd_obd (o', w') s)) eq_refl) as [Q1 Q2].
    cbn [a_pc a_op a_prog a_cbs a_gen a_was_running a_cmds a_running a_events set_tpc upd_threads upd_obd add_event]; repeat (split; [reflexivity|]). split; [auto|]. split; [exact C|]. split; [exact Q1|]. split; [eexists; split; [exact Q2|destruct r; discriminate]|].
    eexists. split; [reflexivity|]. right. eexists. split; [reflexivity|]. cbn. apply Nat.eqb_refl.
  - subst s'. destruct (Q (T_cbs c r it) (upd_dicts (dset (a_cmds s) c r, a_cbs s) s) eq_refl) as [Q1 Q2]. cbn [a_pc a_op a_prog a_cbs a_gen a_was_running a_cmds a_running a_events set_tpc upd_threads upd_dicts fst snd].
    repeat (split; [reflexivity|]). split; [apply keys_set, (K c r it Ok)|]. split; [auto|]. split; [auto|]. split; [exact Q1|]. split; [eexists; split; [exact Q2|discriminate]|]. exists []. rewrite app_nil_r. auto.
  - destruct U as (l & D & ->). destruct (Q (T_call c r l it) s eq_refl) as [Q1 Q2]. cbn [a_pc a_op a_prog a_cbs a_gen a_was_running a_cmds a_running a_events set_tpc upd_threads]. repeat (split; [reflexivity|]). split; [auto|]. split; [auto|]. split; [exact Q1|]. split; [eexists; split; [exact Q2|discriminate]|]. exists []. rewrite app_nil_r. auto.
  - destruct cbs as [|f fs]; subst s'.
    + destruct (Q (T_next it) s eq_refl) as [Q1 Q2]. cbn [a_pc a_op a_prog a_cbs a_gen a_was_running a_cmds a_running a_events set_tpc upd_threads]. repeat (split; [reflexivity|]). split; [auto|]. split; [auto|]. split; [exact Q1|]. split; [eexists; split; [exact Q2|discriminate]|]. exists []. rewrite app_nil_r. auto.
    + destruct (Q (if b then T_dead CustomError else T_call c r fs it) (add_event (AEv_fire i c f r) s) eq_refl) as [Q1 Q2]. cbn [a_pc a_op a_prog a_cbs a_gen a_was_running a_cmds a_running a_events set_tpc upd_threads add_event]. repeat (split; [reflexivity|]). split; [auto|]. split; [auto|]. split; [exact Q1|]. split; [eexists; split; [exact Q2|destruct b; discriminate]|].
      eexists. split; [reflexivity|]. right. eexists. split; [reflexivity|]. cbn. apply Nat.eqb_refl.
  - discriminate.
Qed.

(* which call is in progress *)
Definition op_ok (s : astate) : Prop :=
  let stop_op k := a_op s = match k with K_stop => AStop | K_enter => AEnter | K_close => AClose end in
  match a_pc s with
  | M_idle => True
  | M_start1 | M_start2 | M_start3 | M_start4 | M_start5 | M_start6 => a_op s = AStart \/ a_op s = AExit
  | M_stop1 k | M_stop2 k | M_stop3 k | M_stop4 _ k | M_stop5 k => stop_op k
  | M_enter1 => a_op s = AEnter
  | M_exit1 | M_exit2 => a_op s = AExit
  | M_close2 => a_op s = AClose
  | M_watch c cb f => a_op s = AWatch c cb f
  | M_unwatch c cb => a_op s = AUnwatch c cb
  | M_unwatch_all => a_op s = AUnwatchAll
  end.
Lemma last_entered_app a b d : last_entered (a ++ b) d = last_entered b (last_entered a d).
Proof. revert d. induction a as [|e a IH]; cbn; intros d; [reflexivity|apply IH]. Qed.
Definition entering (p : mpc) : bool :=
  match p with M_stop1 K_enter | M_stop2 K_enter | M_stop3 K_enter | M_stop4 _ K_enter | M_stop5 K_enter => true | _ => false end.
Record binv (s : astate) : Prop := {
  B_nodup : nodups (a_cbs s);
  B_op : op_ok s;
  B_dead : forall i e, a_thread s = Some i -> pc_of s i = Some (T_dead e) -> a_running s = true \/ stopping (a_pc s) = true;
  B_was : forall b, last_entered (a_events s) None = Some b -> entering (a_pc s) = true \/ a_was_running s = b }.

Lemma thread_entered i es : es = [] \/ (exists e, es = [e] /\ by_thread i e = true) -> forall d, last_entered es d = d.
Proof. intros [->|(e & -> & E)] d; [reflexivity|]. destruct e; try discriminate E; reflexivity. Qed.
Lemma thread_step_binv i b s s' : ainv s -> binv s -> thread_step i b s = Some s' -> binv s'.
Proof.
  intros V B H. destruct (thread_frame _ _ _ _ V H) as (F1 & F2 & F3 & F4 & F5 & F6 & F7 & F8 & F9 & F10 & F11 & es & F12 & F13).
  constructor.
  - rewrite F4. apply (B_nodup _ B).
  - unfold op_ok. rewrite F1, F2. apply (B_op _ B).
  - intros j e T P. rewrite F1. destruct (thread_step_spec _ _ _ _ V H) as (p & Pp & U).
    destruct (Nat.eq_dec j i) as [->|N].
    + (* the step itself *)
      destruct (looping p) eqn:L.
      2:{ destruct p; cbn in U; try contradiction; try discriminate L. subst s'. unfold pc_of in P, Pp. cbn in P. rewrite nth_set, Nat.eqb_refl, Pp in P. discriminate P. }
      destruct (stopping (a_pc s)) eqn:S; [auto|]. left.
      assert (R : a_running s = true \/ p = T_disc2). { destruct (a_running s) eqn:R; [auto|]. destruct (I_stopped _ V R _ _ Pp L); [auto|congruence]. }
      unfold pc_of in P, Pp. destruct R as [R|Z]; [|subst p; cbn [undisturbed_step] in U; subst s'; cbn in P; rewrite nth_set, Nat.eqb_refl, Pp in P; discriminate P].
      destruct p; cbn [undisturbed_step] in U; try contradiction; try discriminate L; try (subst s'; exact R).
      * subst s'. cbn in P. rewrite nth_set, Nat.eqb_refl, Pp in P. discriminate P.
      * destruct U as (r & ow & _ & ->). exact R.
      * destruct U as (l & _ & ->). exact R.
      * destruct cbs; subst s'; exact R.
    + rewrite F10 in P by exact N.
      destruct (looping p) eqn:L.
      * pose proof (I_one _ V _ _ Pp L) as Th. exfalso.
        assert (a_thread s' = None \/ a_thread s' = a_thread s) as [X|X]; [|congruence|congruence].
        destruct p; cbn [undisturbed_step] in U; try contradiction; try (subst s'; auto; fail).
        -- destruct U as (r & ow & _ & ->). auto.
        -- destruct U as (l & _ & ->). auto.
        -- destruct cbs; subst s'; auto.
      * destruct p; cbn in U; try contradiction; try discriminate L. subst s'. exact (B_dead _ B j e T P).
  - intros b' E. rewrite F12, last_entered_app, (thread_entered i es F13) in E. rewrite F1, F6. exact (B_was _ B _ E).
Qed.

Lemma main_step_binv s s' : ainv s -> binv s -> main_step s = Some s' -> binv s'.
Proof.
  intros V B H. pose proof (B_op _ B) as Op. unfold op_ok in Op. unfold main_step in H. pose proof (I_main _ V) as Mn. unfold main_ok in Mn.
  assert (Same : forall s1 es, a_cbs s1 = a_cbs s -> a_running s1 = a_running s -> a_threads s1 = a_threads s -> (a_thread s1 = a_thread s \/ a_thread s1 = None) ->
     (stopping (a_pc s) = true -> stopping (a_pc s1) = true \/ a_thread s1 = None) -> a_events s1 = a_events s ++ es -> op_ok s1 ->
     (forall b, last_entered es (last_entered (a_events s) None) = Some b -> entering (a_pc s1) = true \/ a_was_running s1 = b) -> binv s1).
  { intros s1 es E1 E2 E3 E4 E5 E6 O W. constructor.
    - rewrite E1. apply (B_nodup _ B).
    - exact O.
    - intros i e T P. unfold pc_of in P. rewrite E3 in P. rewrite E2. destruct E4 as [E4|E4]; [|congruence]. rewrite E4 in T.
      destruct (B_dead _ B _ _ T P) as [X|X]; [auto|]. destruct (E5 X); [auto|congruence].
    - intros b E. rewrite E6, last_entered_app in E. exact (W b E). }
  pose proof (B_was _ B) as Was.
  assert (Wsame : entering (a_pc s) = false -> forall es b, (forall d, last_entered es d = d) -> last_entered es (last_entered (a_events s) None) = Some b -> a_was_running s = b).
  { intros N es b D E. rewrite D in E. destruct (Was _ E); [congruence|assumption]. }
  destruct (a_pc s) eqn:Pc; cbv zeta in Op.
  - destruct (a_prog s) as [|o rest]; [discriminate H|]. injection H as <-. destruct o; cbn zeta;
      try (apply (Same _ []); [reflexivity|reflexivity|reflexivity|auto|auto; discriminate|cbn; rewrite app_nil_r; reflexivity|cbn; auto|intros b E; right; exact (Wsame eq_refl [] b (fun d => eq_refl) E)]);
      cbn [a_running upd_prog]; try destruct (a_running s) eqn:R;
      try (apply (Same _ []); [reflexivity|first [reflexivity|exact R]|reflexivity|auto|auto; discriminate|cbn; rewrite app_nil_r; reflexivity|cbn; auto|intros b E; right; exact (Wsame eq_refl [] b (fun d => eq_refl) E)]);
      (eapply (Same _ [_]); [reflexivity|first [reflexivity|exact R]|reflexivity|auto|auto; discriminate|reflexivity|cbn; auto|intros b E; right; refine (Wsame eq_refl [_] b _ E); intros d; reflexivity]).
  - destruct (async_connected s); injection H as <-; cbn [negb].
    + apply (Same _ []); [reflexivity|reflexivity|reflexivity|auto|auto; discriminate|cbn; rewrite app_nil_r; reflexivity|cbn; auto|intros b E; right; exact (Wsame eq_refl [] b (fun d => eq_refl) E)].
    + eapply (Same _ [_]); [reflexivity|reflexivity|reflexivity|auto|auto; discriminate|reflexivity|cbn; auto|intros b E; right; refine (Wsame eq_refl [_] b _ E)]. intros d. cbn. destruct Op as [-> | ->]; reflexivity.
  - destruct (nonempty (a_cmds s)); injection H as <-.
    + apply (Same _ []); [reflexivity|reflexivity|reflexivity|auto|auto; discriminate|cbn; rewrite app_nil_r; reflexivity|cbn; auto|intros b E; right; exact (Wsame eq_refl [] b (fun d => eq_refl) E)].
    + eapply (Same _ [_]); [reflexivity|reflexivity|reflexivity|auto|auto; discriminate|reflexivity|cbn; auto|intros b E; right; refine (Wsame eq_refl [_] b _ E)]. intros d. cbn. destruct Op as [-> | ->]; reflexivity.
  - destruct (a_thread s) eqn:Th; injection H as <-.
    + eapply (Same _ [_]); [reflexivity|reflexivity|reflexivity|auto|auto; discriminate|reflexivity|cbn; auto|intros b E; right; refine (Wsame eq_refl [_] b _ E)]. intros d. cbn. destruct Op as [-> | ->]; reflexivity.
    + apply (Same _ []); [reflexivity|reflexivity|reflexivity|auto|auto; discriminate|cbn; rewrite app_nil_r; reflexivity|cbn; auto|intros b E; right; exact (Wsame eq_refl [] b (fun d => eq_refl) E)].
  - injection H as <-. constructor.
    + apply (B_nodup _ B).
    + exact Op.
    + intros i e T P. destruct Mn as (_ & Mn). cbn in T. congruence.
    + intros b E. right. exact (Wsame eq_refl [] b (fun d => eq_refl) E).
  - injection H as <-. constructor.
    + apply (B_nodup _ B).
    + exact Op.
    + intros i e T P. destruct Mn as (_ & _ & Mn). left. exact Mn.
    + intros b E. right. exact (Wsame eq_refl [] b (fun d => eq_refl) E).
  - destruct Mn as (_ & R & i & Th & P). rewrite Th in H. injection H as <-. constructor.
    + apply (B_nodup _ B).
    + exact Logic.I.
    + intros j e T _. left. exact R.
    + intros b E. right. refine (Wsame eq_refl [_; _] b _ _); [|cbn [a_events finish upd_pc add_event set_tpc upd_threads] in E; rewrite <- app_assoc, last_entered_app in E; exact E].
      intros d. cbn. destruct Op as [-> | ->]; reflexivity.
  - destruct (a_thread s) eqn:Th; [injection H as <-|destruct k; injection H as <-].
    + apply (Same _ []); [reflexivity|reflexivity|reflexivity|auto|auto; discriminate|cbn; rewrite app_nil_r; reflexivity|exact Op|]. intros b E. cbn in E. destruct (Was _ E) as [X|X]; [left; exact X|right; exact X].
    + eapply (Same _ [_]); [reflexivity|reflexivity|reflexivity|auto|auto; discriminate|reflexivity|cbn; auto|intros b E; right; refine (Wsame eq_refl [_] b _ E)]. intros d. cbn. rewrite Op. reflexivity.
    + eapply (Same _ [_]); [reflexivity|reflexivity|reflexivity|auto|auto; discriminate|reflexivity|cbn; auto|]. intros b E. cbn in E. rewrite Op in E. right. cbn. cbn in E. congruence.
    + apply (Same _ []); [reflexivity|reflexivity|reflexivity|auto|auto; discriminate|cbn; rewrite app_nil_r; reflexivity|exact Op|intros b E; right; exact (Wsame eq_refl [] b (fun d => eq_refl) E)].
  - injection H as <-. constructor.
    + apply (B_nodup _ B).
    + exact Op.
    + auto.
    + intros b E. destruct (Was _ E) as [X|X]; [left; exact X|right; exact X].
  - destruct (a_thread s) eqn:Th; injection H as <-.
    + apply (Same _ []); [reflexivity|reflexivity|reflexivity|auto|auto; discriminate|cbn; rewrite app_nil_r; reflexivity|exact Op|]. intros b E. destruct (Was _ E) as [X|X]; [left; exact X|right; exact X].
    + eapply (Same _ [_]); [reflexivity|reflexivity|reflexivity|auto|auto|reflexivity|cbn; auto|]. intros b E. destruct k; cbn in E; rewrite Op in E; cbn in E; try discriminate E; right; exact (Wsame eq_refl [] b (fun d => eq_refl) E).
  - destruct (ended id s); [|discriminate H]. injection H as <-. apply (Same _ []); [reflexivity|reflexivity|reflexivity|auto|auto; discriminate|cbn; rewrite app_nil_r; reflexivity|exact Op|]. intros b E. destruct (Was _ E) as [X|X]; [left; exact X|right; exact X].
  - injection H as <-. destruct k.
    + eapply (Same _ [_]); [reflexivity|reflexivity|reflexivity|auto|auto|reflexivity|cbn; auto|intros b E; right; refine (Wsame eq_refl [_] b _ E)]. intros d. cbn. rewrite Op. reflexivity.
    + eapply (Same _ [_]); [reflexivity|reflexivity|reflexivity|auto|auto|reflexivity|cbn; auto|]. intros b E. cbn in E. rewrite Op in E. right. cbn. cbn in E. congruence.
    + apply (Same _ []); [reflexivity|reflexivity|reflexivity|auto|auto|cbn; rewrite app_nil_r; reflexivity|exact Op|intros b E; right; exact (Wsame eq_refl [] b (fun d => eq_refl) E)].
  - injection H as <-. apply (Same _ []); [reflexivity|reflexivity|reflexivity|auto|auto; discriminate|cbn; rewrite app_nil_r; reflexivity|exact Op|intros b E; left; reflexivity].
  - destruct (a_running s) eqn:R; injection H as <-.
    + eapply (Same _ [_]); [reflexivity|exact R|reflexivity|auto|auto; discriminate|reflexivity|cbn; auto|intros b E; right; refine (Wsame eq_refl [_] b _ E)]. intros d. cbn. rewrite Op. reflexivity.
    + apply (Same _ []); [reflexivity|exact R|reflexivity|auto|auto; discriminate|cbn; rewrite app_nil_r; reflexivity|exact Op|intros b E; right; exact (Wsame eq_refl [] b (fun d => eq_refl) E)].
  - destruct (a_was_running s) eqn:W; injection H as <-.
    + apply (Same _ []); [reflexivity|reflexivity|reflexivity|auto|auto; discriminate|cbn; rewrite app_nil_r; reflexivity|cbn; auto|intros b E; right; cbn; rewrite W; exact (Wsame eq_refl [] b (fun d => eq_refl) E)].
    + eapply (Same _ [_]); [reflexivity|reflexivity|reflexivity|auto|auto; discriminate|reflexivity|cbn; auto|intros b E; right; cbn; rewrite W; refine (Wsame eq_refl [_] b _ E)]. intros d. cbn. rewrite Op. reflexivity.
  - destruct (obd_close (a_obd s, a_world s)) as [r [o' w']] eqn:Q. injection H as <-.
    eapply (Same _ [_]); [reflexivity|reflexivity|reflexivity|auto|auto; discriminate|reflexivity|cbn; auto|intros b E; right; refine (Wsame eq_refl [_] b _ E)]. intros d. cbn. rewrite Op. reflexivity.
  - assert (K : forall s1 out, nodups (a_cbs s1) -> a_running s1 = a_running s -> a_threads s1 = a_threads s -> a_thread s1 = a_thread s -> a_was_running s1 = a_was_running s -> a_events s1 = a_events s -> a_op s1 = a_op s -> binv (finish out s1)).
    { intros s1 out N E1 E2 E3 E4 E5 E6. constructor; cbn [finish upd_pc add_event a_cbs a_running a_thread a_pc a_events a_was_running].
      - exact N.
      - exact Logic.I.
      - intros i e T P. unfold pc_of in P. cbn in P. rewrite E2 in P. rewrite E3 in T. destruct (B_dead _ B _ _ T P) as [X|X]; [left; congruence|]. rewrite Pc in X. discriminate X.
      - intros b E. rewrite E4, E5, last_entered_app in *. right. refine (Wsame eq_refl [_] b _ E). intros d. cbn. rewrite E6, Op. reflexivity. }
    destruct (if force then Ok true else test_cmd (a_obd s) c) as [[|]|x]; [destruct (watch_table c cb (a_cmds s, a_cbs s)) as [d|x] eqn:W| |]; injection H as <-; apply K; try reflexivity; try apply (B_nodup _ B).
    destruct (watch_table_spec c cb _ (I_table _ V) (B_nodup _ B)) as (t' & E & _ & N). rewrite E in W. injection W as <-. exact N.
  - assert (K : forall s1 out, nodups (a_cbs s1) -> a_running s1 = a_running s -> a_threads s1 = a_threads s -> a_thread s1 = a_thread s -> a_was_running s1 = a_was_running s -> a_events s1 = a_events s -> a_op s1 = a_op s -> binv (finish out s1)).
    { intros s1 out N E1 E2 E3 E4 E5 E6. constructor; cbn [finish upd_pc add_event a_cbs a_running a_thread a_pc a_events a_was_running].
      - exact N.
      - exact Logic.I.
      - intros i e T P. unfold pc_of in P. cbn in P. rewrite E2 in P. rewrite E3 in T. destruct (B_dead _ B _ _ T P) as [X|X]; [left; congruence|]. rewrite Pc in X. discriminate X.
      - intros b E. rewrite E4, E5, last_entered_app in *. right. refine (Wsame eq_refl [_] b _ E). intros d. cbn. rewrite E6, Op. reflexivity. }
    destruct (unwatch_table c cb (a_cmds s, a_cbs s)) as [d|x] eqn:W; injection H as <-; apply K; try reflexivity; try apply (B_nodup _ B).
    destruct (unwatch_table_spec c cb _ (I_table _ V) (B_nodup _ B)) as (t' & E & N & _). rewrite E in W. injection W as <-. exact N.
  - injection H as <-. constructor; cbn [finish upd_pc add_event upd_gen upd_dicts fst snd a_cbs a_running a_thread a_pc a_events a_was_running].
    + apply Forall_nil.
    + exact Logic.I.
    + intros i e T P. destruct (B_dead _ B _ _ T P) as [X|X]; [left; exact X|]. rewrite Pc in X. discriminate X.
    + intros b E. rewrite last_entered_app in E. right. refine (Wsame eq_refl [_] b _ E). intros d. cbn. rewrite Op. reflexivity.
Qed.
Lemma new_async_binv o w prog : binv (new_async o w prog).
Proof. constructor; cbn; try exact Logic.I; try discriminate. apply Forall_nil. Qed.

Lemma astep_inv2 ch s : ainv s /\ binv s -> ainv (astep ch s) /\ binv (astep ch s).
Proof.
  intros [V B]. split; [apply astep_inv, V|]. unfold astep. destruct ch as [|i b].
  - destruct (main_step s) eqn:E; [exact (main_step_binv _ _ V B E)|exact B].
  - destruct (thread_step i b s) eqn:E; [exact (thread_step_binv _ _ _ _ V B E)|exact B].
Qed.
Lemma arun_inv2 sched : forall s, ainv s /\ binv s -> ainv (arun sched s) /\ binv (arun sched s).
Proof. induction sched as [|ch sched IH]; cbn; intros s V; [exact V|]. apply IH, astep_inv2, V. Qed.
