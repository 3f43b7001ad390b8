(* stop() ends, the loop ends on a disconnection, paused() restarts. *)
From Coq Require Import ZArith List Bool Lia.
From Verif Require Import Py Num Utils Protocol Decoders Command CommandTable Commands World Elm Obd Async SpecElm SpecObd SpecAsync PyFacts CommandThms ElmFacts ElmThms ObdFacts ObdThms ObdThms2 ObdThms3 ObdThms4 AsyncFacts AsyncThms AsyncThms2 AsyncThms3 AsyncThms4 AsyncThms5 AsyncThms6 AsyncThms7.
Import ListNotations.
Open Scope nat_scope.

(* ---- only a disconnection takes the thread away from a stop() in progress ---- *)
Definition in_stop (p : mpc) : bool := match p with M_stop2 _ | M_stop3 _ | M_stop4 _ _ => true | _ => false end.
Definition cinv (s : astate) : Prop := in_stop (a_pc s) = true -> a_thread s = None -> async_connected s = false.
Lemma astep_cinv ch s : ainv s -> cinv s -> cinv (astep ch s).
Proof.
  intros V C. destruct ch as [|i b]; unfold astep.
  - destruct (main_step s) as [s'|] eqn:H; [|exact C]. unfold cinv in *. unfold main_step in H. destruct (a_pc s) eqn:P.
    8:{ injection H as <-. destruct (a_thread s) eqn:T; [intros _ X; cbn in X; congruence|destruct k; intros X; discriminate X]. }
    8:{ injection H as <-. intros _ X. apply C; [reflexivity|exact X]. }
    8:{ injection H as <-. destruct (a_thread s) eqn:T; intros X Y; [cbn in Y; congruence|discriminate X]. }
    all: intros X; exfalso.
    all: repeat match goal with
      | H : Some _ = Some _ |- _ => injection H as <-
      | H : None = Some _ |- _ => discriminate H
      | H : (let '(_, _) := ?b in _) = Some _ |- _ => destruct b
      | H : (if ?b then _ else _) = Some _ |- _ => destruct b
      | H : match ?x with _ => _ end = Some _ |- _ => destruct x
      | X : context [if ?b then _ else _] |- _ => destruct b
      | X : in_stop (a_pc match ?x with _ => _ end) = true |- _ => destruct x
      end; try discriminate X.
    all: destruct k; discriminate X.
  - destruct (thread_step i b s) as [s'|] eqn:H; [|exact C]. destruct (thread_frame _ _ _ _ V H) as (F1 & _ & _ & _ & _ & _ & _ & _ & F9 & _).
    intros I T. rewrite F1 in I. destruct (async_connected s') eqn:Cn; [|reflexivity]. pose proof (F9 eq_refl) as Cs. exfalso.
    destruct (a_thread s) as [j|] eqn:Th; [|rewrite (C I Th) in Cs; discriminate Cs].
    destruct (thread_step_spec _ _ _ _ V H) as (p & P & U).
    destruct p; cbn in U; try contradiction; try (subst s'; cbn in T; congruence).
    + pose proof (I_ok _ V _ _ P) as [X _]. congruence.
    + destruct U as (r & ow & _ & ->). cbn in T. congruence.
    + destruct U as (l & _ & ->). cbn in T. congruence.
    + destruct cbs; subst s'; cbn in T; congruence.
Qed.
Lemma arun_cinv sched : forall s, ainv s -> cinv s -> cinv (arun sched s).
Proof. induction sched as [|ch sched IH]; intros s V C; [exact C|]. apply (IH (astep ch s)); [apply astep_inv, V|apply astep_cinv; assumption]. Qed.
Lemma reachable_cinv s : reachable s -> cinv s.
Proof.
  intros (prog & s0 & sched & (cf & port & scan & w & o & w1 & N & ->) & ->). apply arun_cinv; [|intros X; discriminate X].
  assert (reachable (new_async o w1 prog)) as Re by (exists prog, (new_async o w1 prog), []; split; [exists cf, port, scan, w, o, w1; auto|reflexivity]). apply (reachable_inv _ Re).
Qed.

(* stop() and __enter__ raise nothing but AttributeError, and this only if the device has disconnected *)
Theorem stop_raises s o e : reachable s -> a_events (astep CMain s) = a_events s ++ [AEv_return o (ORaised e)] -> o = AStop \/ o = AEnter ->
  e = AttributeError /\ async_connected s = false.
Proof.
  intros Re E So. destruct (reachable_inv _ Re) as [V B]. pose proof (reachable_cinv _ Re) as C. unfold astep in *. destruct (main_step s) as [s'|] eqn:H.
  2:{ rewrite <- (app_nil_r (a_events s)) in E at 1. apply app_inv_head in E. discriminate E. }
  pose proof (B_op _ B) as Op. unfold op_ok in Op. unfold cinv in C. unfold main_step in H.
  assert (D : forall op1 out1, a_events s' = a_events s ++ [AEv_return op1 out1] -> op1 = o /\ out1 = ORaised e) by (intros op1 out1 X; rewrite X in E; apply app_inv_head in E; injection E as -> ->; auto).
  assert (D0 : a_events s' <> a_events s) by (intros X; rewrite X in E; rewrite <- (app_nil_r (a_events s)) in E at 1; apply app_inv_head in E; discriminate E).
  assert (D2 : forall i x, a_events s' <> (a_events s ++ [AEv_start i]) ++ [x]) by (intros i x X; rewrite X, <- app_assoc in E; apply app_inv_head in E; discriminate E).
  clear E. destruct (a_pc s).
  - destruct (a_prog s) as [|op rest]; [discriminate H|]. injection H as <-. destruct op; try (elim D0; reflexivity).
    all: try (destruct (a_running s); [|elim D0; reflexivity]).
    all: destruct (D _ _ eq_refl) as [<- X]; discriminate X.
  - injection H as <-. destruct (negb _); [|elim D0; reflexivity]. destruct (D _ _ eq_refl) as [<- X]. destruct (a_op s); discriminate X.
  - injection H as <-. destruct (nonempty _); [elim D0; reflexivity|]. destruct (D _ _ eq_refl) as [<- X]. destruct (a_op s); discriminate X.
  - injection H as <-. destruct (a_thread s); [|elim D0; reflexivity]. destruct (D _ _ eq_refl) as [<- X]. destruct (a_op s); discriminate X.
  - injection H as <-. elim D0. reflexivity.
  - injection H as <-. elim D0. reflexivity.
  - injection H as <-. destruct (a_thread s); [elim (D2 n _ eq_refl)|]. destruct (D _ _ eq_refl) as [<- X]. cbn in So. destruct Op as [Op|Op]; rewrite Op in So; destruct So as [So|So]; discriminate So.
  - injection H as <-. destruct (a_thread s) eqn:T; [elim D0; reflexivity|]. destruct k; [| |elim D0; reflexivity]; destruct (D _ _ eq_refl) as [<- X]; discriminate X.
  - injection H as <-. elim D0. reflexivity.
  - injection H as <-. destruct (a_thread s); [elim D0; reflexivity|]. destruct (D _ _ eq_refl) as [<- X]. injection X as <-. split; [reflexivity|]. apply C; reflexivity.
  - destruct (ended id s); [|discriminate H]. injection H as <-. elim D0. reflexivity.
  - injection H as <-. destruct k; [| |elim D0; reflexivity]; destruct (D _ _ eq_refl) as [<- X]; discriminate X.
  - injection H as <-. elim D0. reflexivity.
  - injection H as <-. destruct (a_running s); [|elim D0; reflexivity]. destruct (D _ _ eq_refl) as [<- X]. discriminate X.
  - injection H as <-. destruct (a_was_running s); [elim D0; reflexivity|]. destruct (D _ _ eq_refl) as [<- X]. discriminate X.
  - destruct (obd_close (a_obd s, a_world s)) as [r ow]. injection H as <-. destruct (D _ _ eq_refl) as [<- X]. cbn in So. rewrite Op in So. destruct So as [So|So]; discriminate So.
  - assert (X : exists out1 s1, a_op s1 = a_op s /\ a_events s1 = a_events s /\ s' = finish out1 s1).
    { clear - H. injection H as <-. destruct (if force then _ else _) as [[|]|]; [lazymatch goal with |- context [match ?x with Ok _ => _ | Raise _ => _ end] => destruct x end| |]; eexists; eexists; (split; [|split; [|reflexivity]]); reflexivity. }
    destruct X as (out1 & s1 & X1 & X2 & X). destruct (D (a_op s1) out1 ltac:(rewrite X; cbn; rewrite X2; reflexivity)) as [Y _]. rewrite X1, Op in Y. subst o. destruct So as [So|So]; discriminate So.
  - injection H as <-. lazymatch type of D with context [match ?x with Ok _ => _ | Raise _ => _ end] => destruct x end; destruct (D _ _ eq_refl) as [Y _]; cbn in Y; rewrite Op in Y; subst o; destruct So as [So|So]; discriminate So.
  - injection H as <-. destruct (D _ _ eq_refl) as [Y _]. cbn in Y. rewrite Op in Y. subst o. destruct So as [So|So]; discriminate So.
Qed.

(* ---- join() ends ---- *)
(* steps the thread has to make until it ends, once running is false *)
Fixpoint left_of (cbs : callbacks_t) (l : list command) : nat := match l with [] => 4 | c :: l => 6 + length (getl cbs c) + left_of cbs l end.
Definition to_go (s : astate) (p : tpc) : nat :=
  let m it := left_of (a_cbs s) (it_keys it) in
  match p with
  | T_new | T_done | T_dead _ | T_idle => 0
  | T_return => 1 | T_disc2 => 2 | T_disc1 => 3
  | T_while => 1 | T_sleep => 2
  | T_for => 1 + left_of (a_cbs s) (map fst (a_cmds s))
  | T_len => 2 + left_of (a_cbs s) (map fst (a_cmds s))
  | T_next it => m it
  | T_conn c it => 5 + length (getl (a_cbs s) c) + m it
  | T_query c it => 4 + length (getl (a_cbs s) c) + m it
  | T_store c _ it => 3 + length (getl (a_cbs s) c) + m it
  | T_cbs c _ it => 2 + length (getl (a_cbs s) c) + m it
  | T_call _ _ fs it => 1 + length fs + m it
  end.
Lemma left_pos cbs l : 4 <= left_of cbs l.
Proof. induction l; cbn; lia. Qed.
Lemma to_go_step i b s s' p : ainv s -> a_running s = false -> pc_of s i = Some p -> thread_step i b s = Some s' -> exists p', pc_of s' i = Some p' /\ to_go s' p' < to_go s p.
Proof.
  intros V R P H. destruct (thread_step_spec _ _ _ _ V H) as (p0 & P0 & U). assert (p0 = p) by congruence. subst p0.
  assert (Q : forall p' s1, a_threads s1 = a_threads s -> s' = set_tpc i p' s1 -> to_go s' p' < to_go s p -> exists p', pc_of s' i = Some p' /\ to_go s' p' < to_go s p).
  { intros p' s1 E -> L. exists p'. split; [|exact L]. unfold pc_of in *. cbn. rewrite E, nth_set, Nat.eqb_refl, P. reflexivity. }
  assert (Lp := fun it : iter => left_pos (a_cbs s) (it_keys it)).
  destruct p; cbn [undisturbed_step] in U; try contradiction.
  - rewrite R in U. apply (Q _ s eq_refl U). cbn. lia.
  - apply (Q _ s eq_refl U). subst s'. cbn. lia.
  - apply (Q _ s eq_refl U). subst s'. cbn. lia.
  - apply (Q _ s eq_refl U). subst s'. destruct it as [[|c rest] n g]; cbn; lia.
  - apply (Q _ s eq_refl U). subst s'. specialize (Lp it). destruct (async_connected s); cbn; lia.
  - apply (Q _ (upd_running false s) eq_refl U). subst s'. cbn. lia.
  - apply (Q _ (upd_thread None s) eq_refl U). subst s'. cbn. lia.
  - apply (Q _ s eq_refl U). subst s'. cbn. lia.
  - destruct U as (r & ow & _ & U). apply (Q _ (add_event (AEv_query i c r) (upd_obd ow s)) eq_refl U). specialize (Lp it). subst s'. destruct r; cbn; lia.
  - apply (Q _ (upd_dicts (dset (a_cmds s) c r, a_cbs s) s) eq_refl U). subst s'. cbn. lia.
  - destruct U as (l & D & U). apply (Q _ s eq_refl U). subst s'. cbn. unfold getl. rewrite D. lia.
  - destruct cbs as [|f fs]; [apply (Q _ s eq_refl U); subst s'; cbn; lia|]. apply (Q _ (add_event (AEv_fire i c f r) s) eq_refl U). specialize (Lp it). subst s'. destruct b; cbn; lia.
  - apply (Q _ s eq_refl U). subst s'. cbn. lia.
Qed.
Lemma ended_stays i s ch : ainv s -> ended i s = true -> ended i (astep ch s) = true.
Proof.
  intros V E. unfold ended in *. fold (pc_of s i) in E. destruct ch as [|j b]; unfold astep.
  - destruct (main_step s) as [s'|] eqn:H; [|exact E]. destruct (main_frame _ _ V H) as [_ F]. destruct (pc_of s i) as [p|] eqn:P; [|discriminate E].
    specialize (F i p P ltac:(intros ->; discriminate E)). unfold pc_of in F. rewrite F. exact E.
  - destruct (thread_step j b s) as [s'|] eqn:H; [|exact E]. destruct (Nat.eq_dec i j) as [<-|N].
    + unfold thread_step in H. fold (pc_of s i) in H. destruct (pc_of s i) as [[]|]; discriminate.
    + destruct (thread_frame _ _ _ _ V H) as (_ & _ & _ & _ & _ & _ & _ & _ & _ & F & _). specialize (F i N). unfold pc_of in *. rewrite F. exact E.
Qed.
Lemma ended_run i sched : forall s, ainv s -> ended i s = true -> ended i (arun sched s) = true.
Proof. induction sched as [|ch sched IH]; intros s V E; [exact E|]. apply (IH (astep ch s)); [apply astep_inv, V|apply ended_stays; assumption]. Qed.
Lemma blocked_run i k sched : forall s p n, ainv s -> a_pc s = M_stop4 i k -> pc_of s i = Some p -> to_go s p <= n -> n <= thread_steps i sched -> ended i (arun sched s) = true.
Proof.
  induction sched as [|ch sched IH]; intros s p n V Pc P L N.
  - cbn in N. assert (n = 0) by (unfold thread_steps in N; cbn in N; lia). subst n. pose proof (I_main _ V) as Mn. unfold main_ok in Mn. rewrite Pc in Mn. destruct Mn as (_ & _ & q & Q & Nq). assert (q = p) by congruence. subst q.
    cbn. unfold ended. unfold pc_of in P. rewrite P. pose proof (I_ok _ V _ _ P) as Ok'. pose proof (fun l => left_pos (a_cbs s) l). destruct p; cbn in L; try lia; try reflexivity; try congruence; try contradiction.
    all: match goal with it : iter |- _ => pose proof (H (it_keys it)); lia end.
  - change (arun (ch :: sched) s) with (arun sched (astep ch s)). pose proof (astep_inv ch s V) as V1.
    destruct (ended i s) eqn:En; [apply ended_run; [exact V1|apply ended_stays; assumption]|].
    destruct ch as [|j b].
    + assert (E : astep CMain s = s) by (unfold astep, main_step; rewrite Pc, En; reflexivity). rewrite E in *. eapply IH; eauto.
    + unfold astep in *. destruct (thread_step j b s) as [s'|] eqn:H.
      2:{ eapply IH; eauto. unfold thread_steps in N |- *. cbn in N. destruct (Nat.eqb_spec i j) as [<-|X]; [|exact N]. exfalso.
          unfold thread_step in H. fold (pc_of s i) in H. rewrite P in H. unfold ended in En. fold (pc_of s i) in En. rewrite P in En.
          destruct p; try discriminate H; try discriminate En.
          - pose proof (I_main _ V) as Mn. unfold main_ok in Mn. rewrite Pc in Mn. destruct Mn as (_ & _ & q & Q & Nq). congruence.
          - destruct (query c true (a_obd s, a_world s)) as [r ow]. discriminate H.
          - destruct cbs; discriminate H. }
      destruct (thread_frame _ _ _ _ V H) as (F1 & _ & _ & F4 & _ & _ & F7 & _ & _ & F10 & _).
      destruct (Nat.eq_dec i j) as [<-|X].
      * pose proof (I_main _ V) as Mn. unfold main_ok in Mn. rewrite Pc in Mn. destruct Mn as (R & _). destruct (to_go_step _ _ _ _ _ V R P H) as (p' & P' & L').
        unfold thread_steps in N. cbn in N. rewrite Nat.eqb_refl in N. cbn in N. apply (IH s' p' (n - 1)); auto; [congruence|lia|]. unfold thread_steps. lia.
      * unfold thread_steps in N. cbn in N. destruct (Nat.eqb_spec i j) as [|_]; [contradiction|]. apply (IH s' p n); auto; [congruence|rewrite F10; auto|].
        assert (E : to_go s' p = to_go s p) by (unfold to_go; rewrite F4, F7; reflexivity). rewrite E. exact L.
Qed.
(* once stop() waits for its thread, n more steps of that thread are enough: then the call returns *)
Theorem join_ends s i k : reachable s -> a_pc s = M_stop4 i k -> exists n, forall sched, n <= thread_steps i sched -> 
  ended i (arun sched s) = true.
Proof.
  intros Re Pc. destruct (reachable_inv _ Re) as [V _]. pose proof (I_main _ V) as Mn. unfold main_ok in Mn. rewrite Pc in Mn. destruct Mn as (_ & _ & p & P & _).
  exists (to_go s p). intros sched N. exact (blocked_run i k sched s p _ V Pc P (le_n _) N).
Qed.
