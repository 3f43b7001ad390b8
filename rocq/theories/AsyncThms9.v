(* stop() returns; the loop ends on a disconnection; paused() restarts it. *)
From Coq Require Import ZArith List Bool Lia.
From Verif Require Import Py Num Utils Protocol Decoders Command CommandTable Commands World Elm Obd Async SpecElm SpecObd SpecAsync PyFacts CommandThms ElmFacts ElmThms ObdFacts ObdThms ObdThms2 ObdThms3 ObdThms4 AsyncFacts AsyncThms AsyncThms2 AsyncThms3 AsyncThms4 AsyncThms5 AsyncThms6 AsyncThms7 AsyncThms8.
Import ListNotations.
Open Scope nat_scope.

Lemma events_step ch s : exists es, a_events (astep ch s) = a_events s ++ es.
Proof.
  destruct ch as [|i b]; unfold astep.
  - destruct (main_step s) as [s'|] eqn:H; [|exists []; rewrite app_nil_r; reflexivity].
    destruct (main_events _ _ H) as [E|[(out & E & _)|(i & out & _ & _ & E & _)]]; rewrite E; eauto. exists []. rewrite app_nil_r. reflexivity.
  - destruct (thread_step i b s) as [s'|] eqn:H; [|exists []; rewrite app_nil_r; reflexivity]. unfold thread_step in H.
    repeat match goal with
          | H : Some _ = Some _ |- _ => injection H as <-
          | H : None = Some _ |- _ => discriminate H
          | H : (let '(_, _) := ?b in _) = Some _ |- _ => destruct b
          | H : match ?x with _ => _ end = Some _ |- _ => destruct x
          | |- context [if ?b then _ else _] => destruct b
          | |- context [match ?x with _ => _ end] => destruct x
          end; try (exists []; rewrite app_nil_r; reflexivity); eexists; reflexivity.
Qed.
Lemma events_run sched : forall s, exists es, a_events (arun sched s) = a_events s ++ es.
Proof.
  induction sched as [|ch sched IH]; intros s; [exists []; rewrite app_nil_r; reflexivity|]. change (arun (ch :: sched) s) with (arun sched (astep ch s)).
  destruct (IH (astep ch s)) as [e1 E1]. destruct (events_step ch s) as [e0 E0]. exists (e0 ++ e1). rewrite E1, E0, app_assoc. reflexivity.
Qed.

(* ---- stop() returns ---- *)
Definition stage (p : mpc) : nat :=
  match p with M_stop1 K_stop => 1 | M_stop2 K_stop => 2 | M_stop3 K_stop => 3 | M_stop4 _ K_stop => 4 | M_stop5 K_stop => 5 | _ => 0 end.
Definition past (base : list aevent) (k : nat) (s : astate) : Prop := came_back base s \/ (k <= stage (a_pc s) /\ exists new, a_events s = base ++ new).
Lemma came_back_step base ch s : came_back base s -> came_back base (astep ch s).
Proof. intros (new & out & E & I & O). destruct (events_step ch s) as [es Es]. exists (new ++ es), out. rewrite Es, E, app_assoc. split; [reflexivity|]. split; [apply in_or_app; auto|exact O]. Qed.
Lemma past_thread base k i b s : ainv s -> past base k s -> past base k (astep (CThread i b) s).
Proof.
  intros V [C|[L [new E]]]; [left; apply came_back_step, C|]. right. destruct (events_step (CThread i b) s) as [es Es]. split; [|exists (new ++ es); rewrite Es, E, app_assoc; reflexivity].
  unfold astep in *. destruct (thread_step i b s) as [s'|] eqn:H; [|exact L]. destruct (thread_frame _ _ _ _ V H) as (F1 & _). rewrite F1. exact L.
Qed.
Lemma past_main base k s : binv s -> 1 <= k -> past base k s -> (exists i j, a_pc s = M_stop4 i j /\ ended i s = false) \/ past base (S k) (astep CMain s).
Proof.
  intros B K1 [C|[L [new E]]]; [right; left; apply came_back_step, C|]. pose proof (B_op _ B) as Op. unfold op_ok in Op.
  assert (D : forall s1 out, a_op s1 = a_op s -> a_op s = AStop -> a_events s1 = a_events s -> out = ODone \/ out = ORaised AttributeError -> came_back base (finish out s1)).
  { intros s1 out O1 O2 E1 Oo. exists (new ++ [AEv_return AStop out]), out. cbn. rewrite E1, E, O1, O2, app_assoc. split; [reflexivity|]. split; [apply in_or_app; right; left; reflexivity|exact Oo]. }
  unfold astep. destruct (main_step s) as [s'|] eqn:H.
  - right. unfold main_step in H. destruct (a_pc s) eqn:P; cbn [stage] in L; try lia; try destruct k0; cbn in L; try lia.
    + injection H as <-. destruct (a_thread s); [right; split; [cbn; lia|exists new; exact E]|left; apply D; auto].
    + injection H as <-. right; split; [cbn; lia|exists new; exact E].
    + injection H as <-. destruct (a_thread s); [right; split; [cbn; lia|exists new; exact E]|left; apply D; auto].
    + destruct (ended id s); [|discriminate H]. injection H as <-. right; split; [cbn; lia|exists new; exact E].
    + injection H as <-. left; apply D; auto.
  - unfold main_step in H. destruct (a_pc s) eqn:P; cbn [stage] in L; try lia; try discriminate H. destruct (ended id s) eqn:En; [discriminate H|]. left. eauto.
Qed.
Lemma past_weaken base k k' s : k' <= k -> past base k s -> past base k' s.
Proof. intros L [C|[M N]]; [left; exact C|right; split; [lia|exact N]]. Qed.
Lemma past_run base k sched : forall s, ainv s -> binv s -> 1 <= k -> past base k s -> past base k (arun sched s).
Proof.
  induction sched as [|ch sched IH]; intros s V B K P; [exact P|]. destruct (astep_inv2 ch s (conj V B)) as [V1 B1]. apply (IH (astep ch s)); auto.
  destruct ch as [|i b]; [|apply past_thread; assumption]. destruct (past_main base k s B K P) as [(i & j & Pc & En)|P1]; [|apply (past_weaken _ _ _ _ (Nat.le_succ_diag_r k) P1)].
  assert (E : astep CMain s = s) by (unfold astep, main_step; rewrite Pc, En; reflexivity). rewrite E. exact P.
Qed.
Lemma past_free base k sched : forall s, ainv s -> binv s -> 1 <= k -> k + user_steps sched <= 4 -> past base k s -> past base (k + user_steps sched) (arun sched s).
Proof.
  intros s V B K1. revert s k V B K1. induction sched as [|ch sched IH]; intros s k V B K1 K P; [rewrite Nat.add_0_r; exact P|]. change (arun (ch :: sched) s) with (arun sched (astep ch s)).
  destruct (astep_inv2 ch s (conj V B)) as [V1 B1]. destruct ch as [|i b].
  - cbn [user_steps filter is_main length] in *. change (length (filter is_main sched)) with (user_steps sched) in *. destruct (past_main base k s B K1 P) as [(i & j & Pc & En)|P1].
    + assert (E : astep CMain s = s) by (unfold astep, main_step; rewrite Pc, En; reflexivity). rewrite E. apply past_run; auto; [lia|]. destruct P as [C|[L N]]; [left; exact C|]. right. split; [|exact N]. rewrite Pc in *. destruct j; cbn in *; lia.
    + replace (k + S (user_steps sched)) with (S k + user_steps sched) by lia. apply IH; auto; lia.
  - apply IH; auto. apply past_thread; assumption.
Qed.
Lemma came_back_run base sched : forall s, came_back base s -> came_back base (arun sched s).
Proof. induction sched as [|ch sched IH]; intros s C; [exact C|]. apply (IH (astep ch s)), came_back_step, C. Qed.
(* stop() waits for thread i, or has seen it end, or has returned *)
Definition waits (base : list aevent) (i : nat) (s : astate) : Prop :=
  came_back base s \/ ((a_pc s = M_stop4 i K_stop \/ a_pc s = M_stop5 K_stop) /\ exists new, a_events s = base ++ new).
Lemma waits_step base i ch s : ainv s -> binv s -> waits base i s -> waits base i (astep ch s).
Proof.
  intros V B [C|[P [new E]]]; [left; apply came_back_step, C|]. pose proof (B_op _ B) as Op. unfold op_ok in Op. destruct ch as [|j b].
  - unfold astep, main_step. destruct P as [P|P]; rewrite P in *.
    + right. destruct (ended i s); [split; [right; reflexivity|exists new; exact E]|split; [left; exact P|exists new; exact E]].
    + left. exists (new ++ [AEv_return AStop ODone]), ODone. cbn. rewrite Op, E, app_assoc. split; [reflexivity|]. split; [apply in_or_app; right; left; reflexivity|auto].
  - right. destruct (events_step (CThread j b) s) as [es Es]. split; [|exists (new ++ es); rewrite Es, E, app_assoc; reflexivity].
    unfold astep in *. destruct (thread_step j b s) as [s'|] eqn:H; [|exact P]. destruct (thread_frame _ _ _ _ V H) as (F1 & _). rewrite F1. exact P.
Qed.
Lemma waits_run base i sched : forall s, ainv s -> binv s -> waits base i s -> waits base i (arun sched s).
Proof.
  induction sched as [|ch sched IH]; intros s V B W; [exact W|]. destruct (astep_inv2 ch s (conj V B)) as [V1 B1]. apply (IH (astep ch s)); auto. apply waits_step; assumption.
Qed.
Lemma waits_end base i n sched : forall s, ainv s -> binv s -> waits base i s -> (a_pc s = M_stop4 i K_stop -> ended i s = true) -> (a_pc s = M_stop4 i K_stop -> n = 2) -> (a_pc s = M_stop5 K_stop -> 1 <= n) -> n <= user_steps sched -> came_back base (arun sched s).
Proof.
  revert n. induction sched as [|ch sched IH]; intros n s V B W En N4 N5 U.
  - destruct W as [C|[[P|P] _]]; [exact C| |]; cbn in U; [specialize (N4 P)|specialize (N5 P)]; lia.
  - change (arun (ch :: sched) s) with (arun sched (astep ch s)). destruct (astep_inv2 ch s (conj V B)) as [V1 B1]. pose proof (waits_step base i ch s V B W) as W1.
    destruct W as [C|[P [new E]]]; [apply came_back_run, came_back_step, C|].
    destruct ch as [|j b].
    + cbn in U. change (length (filter is_main sched)) with (user_steps sched) in U. pose proof (B_op _ B) as Op. unfold op_ok in Op. destruct P as [P|P].
      * apply (IH 1); auto; try (intros X; exfalso); specialize (N4 P); specialize (En P); [| |lia]; unfold astep, main_step in X; rewrite P, En in X; discriminate X.
      * apply came_back_run. unfold astep, main_step in *. rewrite P in *. exists (new ++ [AEv_return AStop ODone]), ODone. cbn. rewrite Op, E, app_assoc. split; [reflexivity|]. split; [apply in_or_app; right; left; reflexivity|auto].
    + assert (Q : a_pc (astep (CThread j b) s) = a_pc s) by (unfold astep; destruct (thread_step j b s) as [s'|] eqn:H; [|reflexivity]; destruct (thread_frame _ _ _ _ V H) as (F1 & _); exact F1).
      apply (IH n); auto; rewrite Q; auto. intros X. apply ended_stays; [exact V|auto].
Qed.
Theorem stop_returns s a : reachable s -> about_to_call [AStop] s -> user_steps a = 4 ->
  exists i n, forall b c, n <= thread_steps i b -> 2 <= user_steps c -> came_back (a_events s) (arun (a ++ b ++ c) s).
Proof.
  intros Re (Pc & rest & Pr) U. destruct (reachable_inv _ Re) as [V B].
  assert (P0 : past (a_events s) 4 (arun a s)).
  { destruct (split_main _ _ U) as (a1 & a2 & -> & U1 & U2). rewrite arun_app. change (arun (CMain :: a2) (arun a1 s)) with (arun a2 (astep CMain (arun a1 s))).
    assert (X : a_pc (arun a1 s) = M_idle /\ a_prog (arun a1 s) = AStop :: rest /\ exists new, a_events (arun a1 s) = a_events s ++ new).
    { split; [|split; [|apply events_run]]; cbn in Pr; revert s V B Pc Pr U1 Re; clear; induction a1 as [|ch a1 IH]; intros s V B Pc Pr U1 Re; auto; (destruct ch as [|i b]; [discriminate U1|]); change (arun (CThread i b :: a1) s) with (arun a1 (astep (CThread i b) s));
       destruct (astep_inv2 (CThread i b) s (conj V B)) as [V1 B1]; pose proof (reachable_step s (CThread i b) Re) as Re1;
       (assert (Y : a_pc (astep (CThread i b) s) = a_pc s /\ a_prog (astep (CThread i b) s) = a_prog s) by (unfold astep; destruct (thread_step i b s) as [s'|] eqn:H; [|auto]; destruct (thread_frame _ _ _ _ V H) as (F1 & _ & F3 & _); auto));
       destruct Y as [Y1 Y2]; apply IH; auto; congruence. }
    destruct X as (X1 & X2 & new & X3). replace 4 with (1 + user_steps a2) by lia. destruct (arun_inv2 (a1 ++ [CMain]) s (conj V B)) as [V1 B1]. rewrite arun_app in V1, B1. cbn in V1, B1. apply past_free; auto; try lia.
    unfold astep, main_step. rewrite X1, X2. right. split; [cbn; lia|]. exists new. cbn. exact X3. }
  destruct (arun_inv2 a s (conj V B)) as [V1 B1]. set (s1 := arun a s) in *.
  destruct P0 as [C|[L N]]; [exists 0, 0; intros b c _ _; rewrite arun_app; apply came_back_run, C|].
  assert (K : exists i, waits (a_events s) i s1 /\ (a_pc s1 = M_stop4 i K_stop \/ a_pc s1 = M_stop5 K_stop)).
  { destruct (a_pc s1) eqn:P1; cbn in L; try lia; try destruct k; cbn in L; try lia; [exists id|exists 0]; unfold waits; rewrite P1; auto. }
  destruct K as (i & W & P).
  destruct P as [P|P].
  - destruct (join_ends s1 i K_stop (reachable_run s a Re) P) as [n Hn]. exists i, n. intros b c Hb Hc. rewrite !arun_app. fold s1.
    destruct (arun_inv2 b s1 (conj V1 B1)) as [V2 B2]. apply (waits_end _ i 2); auto. apply waits_run; assumption.
  - exists 0, 0. intros b c _ Hc. rewrite !arun_app. fold s1. destruct (arun_inv2 b s1 (conj V1 B1)) as [V2 B2].
    destruct (past_run (a_events s) 5 b s1 V1 B1) as [C|[L2 N2]]; [lia|right; rewrite P; auto|apply came_back_run, C|].
    assert (P2 : a_pc (arun b s1) = M_stop5 K_stop) by (destruct (a_pc (arun b s1)) as [| | | | | | |[]|[]|[]|? []|[]| | | | | | |]; cbn in L2; try lia; reflexivity).
    apply (waits_end _ i 2); auto; [right; auto|rewrite P2; discriminate].
Qed.

(* ---- disconnection ---- *)
Lemma disconnected_step ch s : ainv s -> async_connected s = false -> async_connected (astep ch s) = false /\
  exists es, a_events (astep ch s) = a_events s ++ es /\ forall i c r, ~ In (AEv_query i c r) es.
Proof.
  intros V C. destruct ch as [|i b]; unfold astep.
  - destruct (main_step s) as [s'|] eqn:H; [|split; [exact C|exists []; rewrite app_nil_r; auto]]. split.
    + unfold main_step in H. unfold async_connected in *. destruct (a_pc s) eqn:P.
      16:{ destruct (obd_close (a_obd s, a_world s)) as [r [o' w']] eqn:Q. injection H as <-. cbn. destruct (close_status _ _ _ _ _ (I_oinv _ V) Q) as [_ K]. destruct (is_connected o'); [|reflexivity]. rewrite K in C; auto. }
      all: assert (E : a_obd s' = a_obd s); [|rewrite E; exact C].
      all: clear C V; repeat match goal with
      | H : Some _ = Some _ |- _ => injection H as <-
      | H : None = Some _ |- _ => discriminate H
      | H : (if ?b then _ else _) = Some _ |- _ => destruct b
      | H : match ?x with _ => _ end = Some _ |- _ => destruct x
      | |- context [if ?b then _ else _] => destruct b
      | |- context [match ?x with _ => _ end] => destruct x
      end; reflexivity.
    + destruct (main_events _ _ H) as [E|[(out & E & _)|(i & out & _ & _ & E & _)]]; [exists []; rewrite app_nil_r; auto| |]; eexists; (split; [exact E|]); cbn; intros j c r I; repeat destruct I as [I|I]; try discriminate I; exact I.
  - destruct (thread_step i b s) as [s'|] eqn:H; [|split; [exact C|exists []; rewrite app_nil_r; auto]].
    destruct (thread_frame _ _ _ _ V H) as (_ & _ & _ & _ & _ & _ & _ & _ & F9 & _). split; [destruct (async_connected s'); [rewrite F9 in C; auto|reflexivity]|].
    destruct (thread_step_spec _ _ _ _ V H) as (p & P & U). pose proof (I_ok _ V _ _ P) as Tk.
    destruct p; cbn in U; try contradiction; try (exists []; rewrite app_nil_r; subst s'; auto; fail).
    + destruct Tk as (_ & _ & X). congruence.
    + destruct U as (l & _ & ->). exists []. rewrite app_nil_r. auto.
    + destruct cbs as [|f fs]; subst s'; [exists []; rewrite app_nil_r; auto|]. eexists. split; [reflexivity|]. cbn. intros j c0 r0 [I|I]; [discriminate I|exact I].
Qed.
Theorem disconnected_run sched : forall s, ainv s -> async_connected s = false -> async_connected (arun sched s) = false /\
  exists es, a_events (arun sched s) = a_events s ++ es /\ forall i c r, ~ In (AEv_query i c r) es.
Proof.
  induction sched as [|ch sched IH]; intros s V C; [split; [exact C|exists []; rewrite app_nil_r; auto]|]. change (arun (ch :: sched) s) with (arun sched (astep ch s)).
  destruct (disconnected_step ch s V C) as (C1 & e1 & E1 & N1). destruct (IH _ (astep_inv ch s V) C1) as (C2 & e2 & E2 & N2). split; [exact C2|]. exists (e1 ++ e2). rewrite E2, E1, app_assoc. split; [reflexivity|].
  intros i c r I. apply in_app_or in I as [I|I]; [exact (N1 _ _ _ I)|exact (N2 _ _ _ I)].
Qed.
(* steps until a thread of a disconnected object ends *)
Definition to_end (s : astate) (p : tpc) : nat :=
  match p with
  | T_new | T_done | T_dead _ | T_idle => 0
  | T_return => 1 | T_disc2 => 2 | T_disc1 => 3 | T_conn _ _ => 4
  | T_next it => match it_keys it with [] => 10 | _ => 5 end
  | T_for => 6 | T_len => 7 | T_while => 8 | T_sleep => 9
  | T_call _ _ fs _ => 11 + length fs
  | T_cbs c _ _ => 12 + length (getl (a_cbs s) c)
  | T_store c _ _ => 13 + length (getl (a_cbs s) c)
  | T_query c _ => 14 + length (getl (a_cbs s) c)
  end.
Lemma cbs_main s s' : main_step s = Some s' -> (match a_pc s with M_watch _ _ _ | M_unwatch _ _ | M_unwatch_all => False | _ => True end) -> a_cbs s' = a_cbs s.
Proof.
  intros H P. unfold main_step in H. destruct (a_pc s); try contradiction; clear P.
  all: repeat match goal with
      | H : Some _ = Some _ |- _ => injection H as <-
      | H : None = Some _ |- _ => discriminate H
      | H : (let '(_, _) := ?b in _) = Some _ |- _ => destruct b
      | H : (if ?b then _ else _) = Some _ |- _ => destruct b
      | H : match ?x with _ => _ end = Some _ |- _ => destruct x
      | |- context [if ?b then _ else _] => destruct b
      | |- context [match ?x with _ => _ end] => destruct x
      end; reflexivity.
Qed.
Lemma cbs_looping s s' i p : ainv s -> main_step s = Some s' -> pc_of s i = Some p -> looping p = true -> p <> T_disc2 -> a_cbs s' = a_cbs s.
Proof.
  intros V H P L N. apply (cbs_main _ _ H). pose proof (I_main _ V) as M. unfold main_ok in M. assert (a_running s = true \/ stopping (a_pc s) = true) as [X|X].
  { destruct (a_running s) eqn:R; [auto|]. destruct (I_stopped _ V R _ _ P L); [|auto]. subst p. contradiction. }
  - destruct (a_pc s); trivial; congruence.
  - destruct (a_pc s); trivial; discriminate X.
Qed.
Lemma to_end_step i b s s' p : ainv s -> async_connected s = false -> pc_of s i = Some p -> thread_step i b s = Some s' -> exists p', pc_of s' i = Some p' /\ to_end s' p' < to_end s p.
Proof.
  intros V R P H. destruct (thread_step_spec _ _ _ _ V H) as (p0 & P0 & U). assert (p0 = p) by congruence. subst p0.
  assert (Q : forall p' s1, a_threads s1 = a_threads s -> s' = set_tpc i p' s1 -> to_end s' p' < to_end s p -> exists p', pc_of s' i = Some p' /\ to_end s' p' < to_end s p).
  { intros p' s1 E -> L. exists p'. split; [|exact L]. unfold pc_of in *. cbn. rewrite E, nth_set, Nat.eqb_refl, P. reflexivity. }
  pose proof (I_ok _ V _ _ P) as Tk.
  destruct p; cbn [undisturbed_step] in U; try contradiction.
  - apply (Q _ s eq_refl U). destruct (a_running s); cbn; lia.
  - apply (Q _ s eq_refl U). cbn. lia.
  - apply (Q _ s eq_refl U). cbn. cbn in Tk. destruct (a_cmds s); [contradiction|]. cbn. lia.
  - apply (Q _ s eq_refl U). cbn. destruct (it_keys it); cbn; lia.
  - rewrite R in U. apply (Q _ s eq_refl U). cbn. lia.
  - apply (Q _ (upd_running false s) eq_refl U). cbn. lia.
  - apply (Q _ (upd_thread None s) eq_refl U). cbn. lia.
  - apply (Q _ s eq_refl U). cbn. lia.
  - destruct Tk as (_ & _ & X). congruence.
  - apply (Q _ (upd_dicts (dset (a_cmds s) c r, a_cbs s) s) eq_refl U). subst s'. cbn. lia.
  - destruct U as (l & D & U). apply (Q _ s eq_refl U). subst s'. cbn. unfold getl. rewrite D. lia.
  - destruct cbs as [|f fs]; [apply (Q _ s eq_refl U); cbn; destruct (it_keys it); cbn; lia|]. apply (Q _ (add_event (AEv_fire i c f r) s) eq_refl U). destruct b; cbn; lia.
  - apply (Q _ s eq_refl U). cbn. lia.
Qed.
Lemma thread_step_some i b s p : pc_of s i = Some p -> p <> T_new -> ended i s = false -> exists s', thread_step i b s = Some s'.
Proof.
  intros P N E. unfold thread_step. fold (pc_of s i). rewrite P. unfold ended in E. fold (pc_of s i) in E. rewrite P in E. destruct p; try discriminate E; try contradiction; eauto.
  - destruct (query c true (a_obd s, a_world s)) as [r ow]. eauto.
  - destruct cbs; eauto.
Qed.
Lemma ends_run i sched : forall s p n, ainv s -> async_connected s = false -> pc_of s i = Some p -> p <> T_new -> to_end s p <= n -> n <= thread_steps i sched -> ended i (arun sched s) = true.
Proof.
  induction sched as [|ch sched IH]; intros s p n V C P Nn L N.
  - unfold thread_steps in N. cbn in N. pose proof (I_ok _ V _ _ P) as Tk. cbn. unfold ended. unfold pc_of in P. rewrite P. destruct p; cbn in L; try lia; try reflexivity; try contradiction. destruct (it_keys it); lia.
  - change (arun (ch :: sched) s) with (arun sched (astep ch s)). pose proof (astep_inv ch s V) as V1. destruct (disconnected_step ch s V C) as (C1 & _).
    destruct (ended i s) eqn:En; [apply ended_run; [exact V1|apply ended_stays; assumption]|].
    destruct ch as [|j b].
    + unfold astep in *. destruct (main_step s) as [s'|] eqn:H; [|eapply IH; eauto]. destruct (main_frame _ _ V H) as [_ F].
      apply (IH s' p n); auto. destruct (looping p) eqn:Lp.
      * assert (X : p = T_disc2 \/ p <> T_disc2) by (destruct p; auto; right; discriminate). destruct X as [->|X]; [exact L|]. assert (E : to_end s' p = to_end s p) by (unfold to_end; rewrite (cbs_looping _ _ _ _ V H P Lp X); reflexivity). rewrite E. exact L.
      * destruct p; try discriminate Lp; exact L.
    + destruct (Nat.eq_dec i j) as [<-|X].
      * destruct (thread_step_some i b s p P Nn En) as [s' H]. unfold astep in *. rewrite H in *. destruct (to_end_step _ _ _ _ _ V C P H) as (p' & P' & L').
        unfold thread_steps in N. cbn in N. rewrite Nat.eqb_refl in N. cbn in N.
        destruct (thread_frame _ _ _ _ V H) as (_ & _ & _ & _ & _ & _ & _ & _ & _ & _ & (q & Q & Nq) & _). assert (q = p') by congruence. subst q. apply (IH s' p' (n - 1)); auto; unfold thread_steps; lia.
      * unfold thread_steps in N. cbn in N. destruct (Nat.eqb_spec i j) as [|_]; [contradiction|]. unfold astep in *. destruct (thread_step j b s) as [s'|] eqn:H; [|eapply IH; eauto].
        destruct (thread_frame _ _ _ _ V H) as (_ & _ & _ & F4 & _ & _ & _ & _ & _ & F10 & _). apply (IH s' p n); auto; [rewrite F10; auto|].
        assert (E : to_end s' p = to_end s p) by (unfold to_end; rewrite F4; reflexivity). rewrite E. exact L.
Qed.
(* the update thread of a disconnected object ends *)
Theorem disconnected_ends s i : reachable s -> async_connected s = false -> in_loop s i -> exists n, forall sched, n <= thread_steps i sched -> ended i (arun sched s) = true.
Proof.
  intros Re C L. destruct (reachable_inv _ Re) as [V _]. apply in_loop_iff in L as (p & P & L). exists (to_end s p). intros sched N. apply (ends_run i sched s p (to_end s p) V C P); auto. intros ->. discriminate L.
Qed.

(* ... and running becomes false *)
Definition dies_out (i : nat) (s : astate) : Prop :=
  async_connected s = false /\ starting (a_pc s) = false /\ exists p, pc_of s i = Some p /\ (looping p = true /\ p <> T_disc2 \/ ((p = T_disc2 \/ p = T_return \/ p = T_done) /\ a_running s = false)).
Lemma not_starting s s' : async_connected s = false -> starting (a_pc s) = false -> main_step s = Some s' -> starting (a_pc s') = false /\ (a_running s' = true -> a_running s = true).
Proof.
  intros C St H. unfold main_step in H. destruct (a_pc s) eqn:P; try discriminate St; try rewrite C in H; cbn [negb] in H.
  all: repeat match goal with
      | H : Some _ = Some _ |- _ => injection H as <-
      | H : None = Some _ |- _ => discriminate H
      | H : (let '(_, _) := ?b in _) = Some _ |- _ => destruct b eqn:?
      | H : (if ?b then _ else _) = Some _ |- _ => destruct b eqn:?
      | H : match ?x with _ => _ end = Some _ |- _ => destruct x
      | |- context [if ?b then _ else _] => destruct b eqn:?
      | |- context [match ?x with _ => _ end] => destruct x
      end; split; try reflexivity; auto; intros X; cbn in *; congruence.
Qed.
Lemma dies_out_step i ch s : ainv s -> ch <> CThread i true -> dies_out i s -> dies_out i (astep ch s).
Proof.
  intros V Nc (C & St & p & P & K). destruct (disconnected_step ch s V C) as (C1 & _). split; [exact C1|]. destruct ch as [|j b]; unfold astep in *.
  - destruct (main_step s) as [s'|] eqn:H; [|split; [exact St|exists p; auto]]. destruct (not_starting _ _ C St H) as [S1 R1]. split; [exact S1|]. exists p. destruct (main_frame _ _ V H) as [_ F]. split.
    + apply F; [exact P|]. intros ->. destruct K as [[X _]|[[X|[X|X]] _]]; discriminate X.
    + destruct K as [K|[K1 K2]]; [left; exact K|right; split; [exact K1|]]. destruct (a_running s'); [rewrite R1 in K2; auto|reflexivity].
  - destruct (thread_step j b s) as [s'|] eqn:H; [|split; [exact St|exists p; auto]]. destruct (thread_frame _ _ _ _ V H) as (F1 & _ & _ & F4 & _ & _ & _ & F8 & _ & F10 & _). rewrite F1. split; [exact St|].
    destruct (Nat.eq_dec i j) as [<-|N].
    2:{ exists p. rewrite F10 by exact N. split; [exact P|]. destruct K as [K|[K1 K2]]; [left; exact K|right; split; [exact K1|]]. destruct (a_running s'); [rewrite F8 in K2; auto|reflexivity]. }
    destruct (thread_step_spec _ _ _ _ V H) as (p0 & P0 & U). assert (p0 = p) by congruence. subst p0. pose proof (I_ok _ V _ _ P) as Tk.
    assert (Q : forall p' s1, a_threads s1 = a_threads s -> s' = set_tpc i p' s1 -> pc_of s' i = Some p') by (intros p' s1 E ->; unfold pc_of in *; cbn; rewrite E, nth_set, Nat.eqb_refl, P; reflexivity).
    assert (G : forall p' s1, a_threads s1 = a_threads s -> s' = set_tpc i p' s1 -> looping p' = true /\ p' <> T_disc2 -> exists p, pc_of s' i = Some p /\ (looping p = true /\ p <> T_disc2 \/ ((p = T_disc2 \/ p = T_return \/ p = T_done) /\ a_running s' = false))).
    { intros p' s1 E X Y. exists p'. split; [apply (Q _ s1 E X)|left; exact Y]. }
    destruct p; cbn [undisturbed_step] in U; try contradiction.
    + destruct (a_running s) eqn:R; [apply (G _ s eq_refl U); split; [reflexivity|discriminate]|]. exists T_done. split; [apply (Q _ s eq_refl U)|]. right. split; [auto|subst s'; exact R].
    + apply (G _ s eq_refl U); split; [reflexivity|discriminate].
    + apply (G _ s eq_refl U); split; [reflexivity|discriminate].
    + apply (G _ s eq_refl U). destruct (it_keys it); (split; [reflexivity|discriminate]).
    + apply (G _ s eq_refl U). destruct (async_connected s); (split; [reflexivity|discriminate]).
    + exists T_disc2. split; [apply (Q _ (upd_running false s) eq_refl U)|]. right. split; [auto|subst s'; reflexivity].
    + exists T_return. split; [apply (Q _ (upd_thread None s) eq_refl U)|]. right. split; [auto|subst s'; cbn]. destruct K as [[_ K]|[_ K]]; [contradiction|exact K].
    + exists T_done. split; [apply (Q _ s eq_refl U)|]. right. split; [auto|subst s'; cbn]. destruct K as [[K _]|[_ K]]; [discriminate K|exact K].
    + destruct Tk as (_ & _ & X). congruence.
    + apply (G _ (upd_dicts (dset (a_cmds s) c r, a_cbs s) s) eq_refl U); split; [reflexivity|discriminate].
    + destruct U as (l & D & U). apply (G _ s eq_refl U); split; [reflexivity|discriminate].
    + destruct cbs as [|f fs]; [apply (G _ s eq_refl U); split; [reflexivity|discriminate]|]. destruct b; [elim Nc; reflexivity|]. apply (G _ (add_event (AEv_fire i c f r) s) eq_refl U); split; [reflexivity|discriminate].
    + apply (G _ s eq_refl U); split; [reflexivity|discriminate].
Qed.
Lemma dies_out_run i sched : forall s, ainv s -> callbacks_fine sched -> dies_out i s -> dies_out i (arun sched s).
Proof.
  induction sched as [|ch sched IH]; intros s V F D; [exact D|]. apply (IH (astep ch s)); [apply astep_inv, V| |].
  - intros j I. apply (F j). right. exact I.
  - apply dies_out_step; auto. intros ->. apply (F i). left. reflexivity.
Qed.
Theorem disconnected_stops s i : reachable s -> async_connected s = false -> starting (a_pc s) = false -> in_loop s i ->
  exists n, forall sched, callbacks_fine sched -> n <= thread_steps i sched -> nth_error (a_threads (arun sched s)) i = Some T_done /\ a_running (arun sched s) = false.
Proof.
  intros Re C St L. destruct (reachable_inv _ Re) as [V _]. destruct (disconnected_ends s i Re C L) as [n Hn]. exists n. intros sched F N. specialize (Hn sched N).
  apply in_loop_iff in L as (p & P & L).
  destruct (dies_out_run i sched s V F) as (_ & _ & q & Q & K); [split; [exact C|]; split; [exact St|]; exists p; split; [exact P|]; destruct p; try (left; split; [exact L|discriminate]); right; split; [auto|apply (I_ok _ V _ _ P)]|].
  unfold ended in Hn. unfold pc_of in Q. rewrite Q in *. destruct K as [[K _]|[[->|[->| ->]] K]]; try discriminate Hn; [|auto]. destruct q; try discriminate K; discriminate Hn.
Qed.
