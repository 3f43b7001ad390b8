(* Stopping, raising, disconnecting. *)
From Coq Require Import ZArith List Bool Lia.
From Verif Require Import Py Num Utils Protocol Decoders Command CommandTable Commands World Elm Obd Async SpecElm SpecObd SpecAsync PyFacts CommandThms ElmFacts ElmThms ObdFacts ObdThms ObdThms2 ObdThms3 ObdThms4 AsyncFacts AsyncThms AsyncThms2 AsyncThms3 AsyncThms4 AsyncThms5.
Import ListNotations.
Open Scope nat_scope.

(* the events of a main step *)
Lemma main_events s s' : main_step s = Some s' ->
  (a_events s' = a_events s) \/
  (exists out, a_events s' = a_events s ++ [AEv_return (a_op s') out] /\ a_pc s' = M_idle /\ a_threads s' = a_threads s) \/
  (exists i out, a_pc s = M_start6 /\ a_thread s = Some i /\ a_events s' = a_events s ++ [AEv_start i; AEv_return (a_op s') out] /\ a_threads s' = set_nth i T_while (a_threads s)).
Proof.
  intros H. unfold main_step in H.
  repeat match goal with
      | H : Some _ = Some _ |- _ => injection H as <-
      | H : None = Some _ |- _ => discriminate H
      | H : (let '(_, _) := ?b in _) = Some _ |- _ => destruct b eqn:?
      | H : (if ?b then _ else _) = Some _ |- _ => destruct b eqn:?
      | H : match ?x with _ => _ end = Some _ |- _ => destruct x eqn:?
      | |- context [if ?b then _ else _] => destruct b eqn:?
      | |- context [match ?x with _ => _ end] => destruct x eqn:?
      end.
  all: try (left; reflexivity).
  all: try (right; left; eexists; split; [reflexivity|split; reflexivity]).
  all: right; right; eexists; eexists; split; [reflexivity|]; split; [eassumption||reflexivity|]; split; [cbn; rewrite <- app_assoc; reflexivity|reflexivity].
Qed.

(* ---- after stop() ---- *)
Definition quiet (s : astate) : Prop := forall i p, pc_of s i = Some p -> looping p = false.
Lemma quiet_thread i b s : ainv s -> quiet s -> quiet (astep (CThread i b) s) /\ a_events (astep (CThread i b) s) = a_events s /\
  (forall j q, pc_of (astep (CThread i b) s) j = Some q -> exists q', pc_of s j = Some q').
Proof.
  intros V Q. unfold astep. destruct (thread_step i b s) as [s'|] eqn:H; [|split; [exact Q|split; eauto]].
  destruct (thread_step_spec _ _ _ _ V H) as (p & P & U). pose proof (Q _ _ P) as L.
  destruct p; try discriminate L; cbn in U; try contradiction. subst s'. split; [|split; [reflexivity|]].
  - intros j q E. unfold pc_of in *. cbn in E. rewrite nth_set in E. destruct (Nat.eqb_spec i j); [|eauto]. rewrite P in E. injection E as <-. reflexivity.
  - intros j q E. unfold pc_of in *. cbn in E. rewrite nth_set in E. destruct (Nat.eqb_spec i j) as [<-|]; eauto.
Qed.
Lemma quiet_step ch s : ainv s -> quiet s -> exists es, a_events (astep ch s) = a_events s ++ es /\ filter activity es = [] /\ ((forall i, ~ In (AEv_start i) es) -> quiet (astep ch s)).
Proof.
  intros V Q. destruct ch as [|i b].
  2:{ destruct (quiet_thread i b s V Q) as (A & B & _). exists []. rewrite app_nil_r. auto. }
  unfold astep. destruct (main_step s) as [s'|] eqn:H; [|exists []; rewrite app_nil_r; auto].
  assert (T : a_threads s' = a_threads s \/ a_threads s' = a_threads s ++ [T_new] \/ exists i, a_pc s = M_start6 /\ a_thread s = Some i).
  { unfold main_step in H.
    repeat match goal with
      | H : Some _ = Some _ |- _ => injection H as <-
      | H : None = Some _ |- _ => discriminate H
      | H : (let '(_, _) := ?b in _) = Some _ |- _ => destruct b
      | H : (if ?b then _ else _) = Some _ |- _ => destruct b
      | H : match ?x with _ => _ end = Some _ |- _ => destruct x eqn:?
      | |- context [if ?b then _ else _] => destruct b
      | |- context [match ?x with _ => _ end] => destruct x eqn:?
      end; eauto. }
  assert (N : a_threads s' = a_threads s \/ a_threads s' = a_threads s ++ [T_new] -> quiet s').
  { intros [X|X] i p P; unfold pc_of in P; rewrite X in P; [exact (Q _ _ P)|]. rewrite nth_app_new in P. destruct (Nat.eqb i _); [injection P as <-; reflexivity|exact (Q _ _ P)]. }
  destruct (main_events _ _ H) as [E|[(out & E & _ & X)|(i & out & P & Th & E & X)]].
  - exists []. rewrite app_nil_r. split; [exact E|]. split; [reflexivity|]. intros _. destruct T as [T|[T|(i & P & Th)]]; auto.
    exfalso. unfold main_step in H. rewrite P, Th in H. injection H as <-. cbn in E. rewrite <- app_assoc in E. rewrite <- (app_nil_r (a_events s)) in E at 2. apply app_inv_head in E. discriminate E.
  - eexists. split; [exact E|]. split; [reflexivity|]. auto.
  - eexists. split; [exact E|]. split; [reflexivity|]. intros S. elim (S i). left. reflexivity.
Qed.
Lemma quiet_run sched : forall s, ainv s -> quiet s -> exists es, a_events (arun sched s) = a_events s ++ es /\
  ((forall i, ~ In (AEv_start i) es) -> filter activity es = [] /\ quiet (arun sched s)).
Proof.
  induction sched as [|ch sched IH]; intros s V Q; [exists []; rewrite app_nil_r; split; [reflexivity|]; auto|].
  destruct (quiet_step ch s V Q) as (es & E & A & N). change (arun (ch :: sched) s) with (arun sched (astep ch s)).
  assert (X : forall sc s0, exists es0, a_events (arun sc s0) = a_events s0 ++ es0).
  { clear. induction sc as [|ch sc IH]; intros s0; [exists []; rewrite app_nil_r; reflexivity|]. destruct (IH (astep ch s0)) as [e1 E1].
    assert (Y : exists e0, a_events (astep ch s0) = a_events s0 ++ e0).
    { destruct ch as [|i b]; unfold astep.
      - destruct (main_step s0) as [s'|] eqn:H; [|exists []; rewrite app_nil_r; reflexivity].
        destruct (main_events _ _ H) as [E|[(out & E & _)|(i & out & _ & _ & E & _)]]; rewrite E; eauto. exists []. rewrite app_nil_r. reflexivity.
      - destruct (thread_step i b s0) as [s'|] eqn:H; [|exists []; rewrite app_nil_r; reflexivity]. unfold thread_step in H.
        repeat match goal with
          | H : Some _ = Some _ |- _ => injection H as <-
          | H : None = Some _ |- _ => discriminate H
          | H : (let '(_, _) := ?b in _) = Some _ |- _ => destruct b
          | H : match ?x with _ => _ end = Some _ |- _ => destruct x
          | |- context [if ?b then _ else _] => destruct b
          | |- context [match ?x with _ => _ end] => destruct x
          end; try (exists []; rewrite app_nil_r; reflexivity); eexists; reflexivity. }
    destruct Y as [e0 Y]. exists (e0 ++ e1). change (arun (ch :: sc) s0) with (arun sc (astep ch s0)). rewrite E1, Y, app_assoc. reflexivity. }
  destruct (X sched (astep ch s)) as [e1 E1]. exists (es ++ e1). split; [rewrite E1, E, app_assoc; reflexivity|]. intros S.
  assert (Q1 : quiet (astep ch s)) by (apply N; intros i Hi; elim (S i); apply in_or_app; auto).
  destruct (IH _ (astep_inv ch s V) Q1) as (e2 & E2 & K). assert (e2 = e1) by (rewrite E2 in E1; exact (app_inv_head _ _ _ E1)). subst e2.
  destruct K as [K1 K2]; [intros i Hi; elim (S i); apply in_or_app; auto|]. rewrite filter_app, A, K1. auto.
Qed.

(* which calls end with the loop stopped *)
Lemma stop_returned s o out : ainv s -> binv s -> a_events (astep CMain s) = a_events s ++ [AEv_return o out] -> stops o out -> quiet (astep CMain s).
Proof.
  intros V B E S. unfold astep in *. destruct (main_step s) as [s'|] eqn:H.
  2:{ rewrite <- (app_nil_r (a_events s)) in E at 1. apply app_inv_head in E. discriminate E. }
  pose proof (B_op _ B) as Op. pose proof (I_main _ V) as Mn. pose proof (I_one _ V) as One. unfold op_ok in Op. unfold main_ok in Mn. unfold main_step in H.
  assert (D : forall op1 out1, a_events s' = a_events s ++ [AEv_return op1 out1] -> op1 = o /\ out1 = out) by (intros op1 out1 X; rewrite X in E; apply app_inv_head in E; injection E as -> ->; auto).
  assert (D0 : a_events s' <> a_events s) by (intros X; rewrite X in E; rewrite <- (app_nil_r (a_events s)) in E at 1; apply app_inv_head in E; discriminate E).
  assert (D2 : forall i x, a_events s' <> (a_events s ++ [AEv_start i]) ++ [x]) by (intros i x X; rewrite X, <- app_assoc in E; apply app_inv_head in E; discriminate E).
  assert (N : a_threads s' = a_threads s -> (forall i p, pc_of s i = Some p -> looping p = false) -> quiet s') by (intros X Y i p P; unfold pc_of in P; rewrite X in P; exact (Y i p P)).
  assert (N1 : a_thread s = None -> forall i p, pc_of s i = Some p -> looping p = false) by (intros X i p P; destruct (looping p) eqn:L; [|reflexivity]; rewrite (One _ _ P L) in X; discriminate X).
  clear E. destruct (a_pc s).
  - destruct (a_prog s) as [|op rest]; [discriminate H|]. injection H as <-. destruct op; try (elim D0; reflexivity).
    all: try (destruct (a_running s); [|elim D0; reflexivity]).
    all: destruct (D _ _ eq_refl) as [<- <-]; destruct S.
  - injection H as <-. destruct (negb _); [|elim D0; reflexivity]. destruct (D _ _ eq_refl) as [<- <-]. destruct Op as [Op|Op]; rewrite Op in S; destruct S.
  - injection H as <-. destruct (nonempty _); [elim D0; reflexivity|]. destruct (D _ _ eq_refl) as [<- <-]. destruct Op as [Op|Op]; rewrite Op in S; destruct S.
  - injection H as <-. destruct (a_thread s); [|elim D0; reflexivity]. destruct (D _ _ eq_refl) as [<- <-]. destruct Op as [Op|Op]; rewrite Op in S; destruct S.
  - injection H as <-. elim D0. reflexivity.
  - injection H as <-. elim D0. reflexivity.
  - injection H as <-. destruct (a_thread s); [elim (D2 n _ eq_refl)|]. destruct (D _ _ eq_refl) as [<- <-]. destruct Op as [Op|Op]; cbn in S; rewrite Op in S; destruct S.
  - injection H as <-. destruct (a_thread s) eqn:T; [elim D0; reflexivity|]. destruct k; [apply N; [reflexivity|exact (N1 eq_refl)]|apply N; [reflexivity|exact (N1 eq_refl)]|elim D0; reflexivity].
  - injection H as <-. elim D0. reflexivity.
  - injection H as <-. destruct (a_thread s); [elim D0; reflexivity|]. destruct (D _ _ eq_refl) as [<- <-]. rewrite Op in S. destruct k; destruct S.
  - destruct (ended id s); [|discriminate H]. injection H as <-. elim D0. reflexivity.
  - injection H as <-. destruct Mn as [_ Mn]. destruct k; [apply N; [reflexivity|exact Mn]|apply N; [reflexivity|exact Mn]|elim D0; reflexivity].
  - injection H as <-. elim D0. reflexivity.
  - injection H as <-. destruct (a_running s); [|elim D0; reflexivity]. destruct (D _ _ eq_refl) as [<- <-]. rewrite Op in S. destruct S.
  - injection H as <-. destruct (a_was_running s); [elim D0; reflexivity|]. destruct (D _ _ eq_refl) as [<- <-]. rewrite Op in S. destruct S.
  - destruct (obd_close (a_obd s, a_world s)) as [r ow]. injection H as <-. apply N; [reflexivity|exact (N1 Mn)].
  - assert (X : exists out1 s1, a_op s1 = a_op s /\ a_events s1 = a_events s /\ s' = finish out1 s1).
    { clear - H. injection H as <-. destruct (if force then _ else _) as [[|]|]; [lazymatch goal with |- context [match ?x with Ok _ => _ | Raise _ => _ end] => destruct x end| |]; eexists; eexists; (split; [|split; [|reflexivity]]); reflexivity. }
    destruct X as (out1 & s1 & X1 & X2 & X). destruct (D (a_op s1) out1 ltac:(rewrite X; cbn; rewrite X2; reflexivity)) as [Y _]. rewrite X1, Op in Y. subst o. destruct S.
  - injection H as <-. lazymatch type of D with context [match ?x with Ok _ => _ | Raise _ => _ end] => destruct x end; destruct (D _ _ eq_refl) as [Y _]; cbn in Y; rewrite Op in Y; subst o; destruct S.
  - injection H as <-. destruct (D _ _ eq_refl) as [Y _]. cbn in Y. rewrite Op in Y. subst o. destruct S.
Qed.

Theorem after_stop_quiet s o out sched : reachable s -> a_events (astep CMain s) = a_events s ++ [AEv_return o out] -> stops o out ->
  (forall i, ~ in_loop (astep CMain s) i) /\
  forall new, a_events (arun (CMain :: sched) s) = a_events (astep CMain s) ++ new -> (forall i, ~ In (AEv_start i) new) ->
    (forall e, In e new -> activity e = false) /\ forall i, ~ in_loop (arun (CMain :: sched) s) i.
Proof.
  intros Re E S. destruct (reachable_inv _ Re) as [V B]. pose proof (stop_returned s o out V B E S) as Q.
  assert (K : forall s1, quiet s1 -> forall i, ~ in_loop s1 i) by (intros s1 Q1 i L; apply in_loop_iff in L as (p & P & L); rewrite (Q1 _ _ P) in L; discriminate L).
  split; [apply K, Q|]. intros new En Ns. change (arun (CMain :: sched) s) with (arun sched (astep CMain s)) in *.
  destruct (quiet_run sched _ (astep_inv CMain s V) Q) as (es & Ee & X). assert (es = new) by (rewrite Ee in En; exact (app_inv_head _ _ _ En)). subst es.
  destruct (X Ns) as [F Q2]. split; [|apply K, Q2]. intros e I. destruct (activity e) eqn:A; [|reflexivity]. exfalso.
  assert (In e (filter activity new)) by (apply filter_In; auto). rewrite F in H. destruct H.
Qed.
Theorem one_loop s i j : reachable s -> in_loop s i -> in_loop s j -> i = j.
Proof.
  intros Re (p & P & L)%in_loop_iff (q & Q & M)%in_loop_iff. destruct (reachable_inv _ Re) as [V _].
  pose proof (I_one _ V _ _ P L). pose proof (I_one _ V _ _ Q M). congruence.
Qed.
(* a thread outside its loop that is still alive is about to return, and the device has disconnected *)
Theorem alive_in_loop s i : reachable s -> is_alive s i -> in_loop s i \/ async_connected s = false /\ forall b, nth_error (a_threads (astep (CThread i b) s)) i = Some T_done.
Proof.
  intros Re (p & P & A). destruct (reachable_inv _ Re) as [V _]. destruct (looping p) eqn:L; [left; apply in_loop_iff; eauto|].
  destruct p; try discriminate L; try discriminate A. right. split; [exact (I_ok _ V _ _ P)|]. intros b. unfold astep, thread_step. rewrite P. cbn. rewrite nth_set, Nat.eqb_refl, P. reflexivity.
Qed.

(* ---- what ends an update thread ---- *)
Theorem dies_only_by s ch i e : reachable s -> thread_died (astep ch s) i e -> ~ thread_died s i e ->
  exists b, ch = CThread i b /\
    ((exists c, a_events (astep ch s) = a_events s ++ [AEv_query i c (Raise e)]) \/
     (b = true /\ e = CustomError /\ exists c f r, a_events (astep ch s) = a_events s ++ [AEv_fire i c f r])).
Proof.
  intros Re D N. destruct (reachable_inv _ Re) as [V _]. unfold thread_died in *. destruct ch as [|j b]; unfold astep in *.
  - destruct (main_step s) as [s'|] eqn:H; [|contradiction]. exfalso.
    assert (T : a_threads s' = a_threads s \/ a_threads s' = a_threads s ++ [T_new] \/ exists i, a_threads s' = set_nth i T_while (a_threads s)).
    { unfold main_step in H.
    repeat match goal with
      | H : Some _ = Some _ |- _ => injection H as <-
      | H : None = Some _ |- _ => discriminate H
      | H : (let '(_, _) := ?b in _) = Some _ |- _ => destruct b
      | H : (if ?b then _ else _) = Some _ |- _ => destruct b
      | H : match ?x with _ => _ end = Some _ |- _ => destruct x
      | |- context [if ?b then _ else _] => destruct b
      | |- context [match ?x with _ => _ end] => destruct x
      end; try (left; reflexivity); try (right; left; reflexivity); right; right; eexists; reflexivity. }
    destruct T as [T|[T|[j T]]]; rewrite T in D; [contradiction| |].
    + rewrite nth_app_new in D. destruct (Nat.eqb i _); [discriminate D|contradiction].
    + rewrite nth_set in D. destruct (Nat.eqb j i); [destruct (nth_error (a_threads s) j); discriminate D|contradiction].
  - destruct (thread_step j b s) as [s'|] eqn:H; [|contradiction].
    destruct (Nat.eq_dec i j) as [<-|M].
    2:{ destruct (thread_frame _ _ _ _ V H) as (_ & _ & _ & _ & _ & _ & _ & _ & _ & F & _). specialize (F i M). unfold pc_of in F. rewrite F in D. contradiction. }
    exists b. split; [reflexivity|]. destruct (thread_step_spec _ _ _ _ V H) as (p & P & U). unfold pc_of in P.
    assert (X : forall p' s1, a_threads s1 = a_threads s -> s' = set_tpc i p' s1 -> p' = T_dead e).
    { intros p' s1 T ->. cbn in D. rewrite T, nth_set, Nat.eqb_refl, P in D. congruence. }
    destruct p; cbn in U; try contradiction; try (specialize (X _ _ eq_refl U); discriminate X).
    + specialize (X _ _ eq_refl U). destruct (a_running s); discriminate X.
    + specialize (X _ _ eq_refl U). destruct (it_keys it); discriminate X.
    + specialize (X _ _ eq_refl U). destruct (async_connected s); discriminate X.
    + specialize (X _ (upd_running false s) eq_refl U). discriminate X.
    + specialize (X _ (upd_thread None s) eq_refl U). discriminate X.
    + destruct U as (r & ow & Q & U). specialize (X _ (add_event (AEv_query i c r) (upd_obd ow s)) eq_refl U). destruct r as [r|x]; [discriminate X|]. injection X as ->. left. exists c. rewrite U. reflexivity.
    + specialize (X _ (upd_dicts (dset (a_cmds s) c r, a_cbs s) s) eq_refl U). discriminate X.
    + destruct U as (l & _ & U). specialize (X _ _ eq_refl U). discriminate X.
    + destruct cbs as [|f fs]; [specialize (X _ _ eq_refl U); discriminate X|]. specialize (X _ (add_event (AEv_fire i c f r) s) eq_refl U). destruct b; [|discriminate X]. injection X as <-. right. split; [reflexivity|]. split; [reflexivity|]. exists c, f, r. rewrite U. reflexivity.
Qed.
