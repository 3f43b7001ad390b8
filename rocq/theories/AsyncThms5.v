(* The update loop goes round and round the subscription table. *)
From Coq Require Import ZArith List Bool Lia.
From Verif Require Import Py Num Utils Protocol Decoders Command CommandTable Commands World Elm Obd Async SpecElm SpecObd SpecAsync PyFacts CommandThms ElmFacts ElmThms ObdFacts ObdThms ObdThms2 ObdThms3 ObdThms4 AsyncFacts AsyncThms AsyncThms2 AsyncThms3 AsyncThms4.
Import ListNotations.
Open Scope nat_scope.

(* ---- events carry the numbers of started threads ---- *)
Definition events_started (s : astate) : Prop := forall i e, In e (a_events s) -> by_thread i e = true -> exists p, pc_of s i = Some p /\ p <> T_new.
(* the user's thread: what it does to threads and log *)
Lemma main_frame s s' : ainv s -> main_step s = Some s' -> (exists es, a_events s' = a_events s ++ es /\ forall i, done_by i es = []) /\
  (forall i p, pc_of s i = Some p -> p <> T_new -> pc_of s' i = Some p).
Proof.
  intros V H. assert (F : forall out s1, a_events s1 = a_events s -> exists es, a_events (finish out s1) = a_events s ++ es /\ forall i, done_by i es = []).
  { intros out s1 E. exists [AEv_return (a_op s1) out]. split; [cbn; rewrite E; reflexivity|reflexivity]. }
  assert (G : forall p s1, a_events s1 = a_events s -> exists es, a_events (upd_pc p s1) = a_events s ++ es /\ forall i, done_by i es = []).
  { intros p s1 E. exists []. split; [cbn; rewrite app_nil_r; exact E|reflexivity]. }
  unfold main_step in H. pose proof (I_main _ V) as Mn. unfold main_ok in Mn. destruct (a_pc s) eqn:Pc.
  - destruct (a_prog s) as [|o rest]; [discriminate H|]. injection H as <-. destruct o; cbn zeta; cbn [a_running upd_prog]; try destruct (a_running s); (split; [first [apply F; reflexivity|apply G; reflexivity]|auto]).
  - destruct (negb _); injection H as <-; (split; [first [apply F; reflexivity|apply G; reflexivity]|auto]).
  - destruct (nonempty _); injection H as <-; (split; [first [apply F; reflexivity|apply G; reflexivity]|auto]).
  - destruct (a_thread s); injection H as <-; (split; [first [apply F; reflexivity|apply G; reflexivity]|auto]).
  - injection H as <-; (split; [first [apply F; reflexivity|apply G; reflexivity]|auto]).
  - injection H as <-; (split; [first [apply F; reflexivity|apply G; reflexivity]|]). intros i p P N. unfold pc_of in *. cbn. rewrite nth_app_new. destruct (Nat.eqb_spec i (length (a_threads s))) as [E|E]; [|exact P].
    exfalso. assert (X : i < length (a_threads s)) by (apply nth_error_Some; rewrite P; discriminate). lia.
  - destruct Mn as (_ & _ & j & Th & P). rewrite Th in H. injection H as <-. split.
    + exists [AEv_start j; AEv_return (a_op s) (match a_op s with AExit => OBool false | _ => ODone end)]. split; [cbn; rewrite <- app_assoc; reflexivity|reflexivity].
    + intros i p Q N. unfold pc_of in *. cbn. rewrite nth_set. destruct (Nat.eqb_spec j i) as [->|]; [congruence|exact Q].
  - destruct (a_thread s); [|destruct k]; injection H as <-; (split; [first [apply F; reflexivity|apply G; reflexivity]|auto]).
  - injection H as <-; (split; [first [apply F; reflexivity|apply G; reflexivity]|auto]).
  - destruct (a_thread s); injection H as <-; (split; [first [apply F; reflexivity|apply G; reflexivity]|auto]).
  - destruct (ended id s); [|discriminate H]. injection H as <-; (split; [first [apply F; reflexivity|apply G; reflexivity]|auto]).
  - destruct k; injection H as <-; (split; [first [apply F; reflexivity|apply G; reflexivity]|auto]).
  - injection H as <-; (split; [first [apply F; reflexivity|apply G; reflexivity]|auto]).
  - destruct (a_running s); injection H as <-; (split; [first [apply F; reflexivity|apply G; reflexivity]|auto]).
  - destruct (a_was_running s); injection H as <-; (split; [first [apply F; reflexivity|apply G; reflexivity]|auto]).
  - destruct (obd_close _) as [r ow]. injection H as <-; (split; [first [apply F; reflexivity|apply G; reflexivity]|auto]).
  - destruct (if force then _ else _) as [[|]|x]; [destruct (watch_table _ _ _)| |]; injection H as <-; (split; [first [apply F; reflexivity|apply G; reflexivity]|auto]).
  - destruct (unwatch_table _ _ _); injection H as <-; (split; [first [apply F; reflexivity|apply G; reflexivity]|auto]).
  - injection H as <-; (split; [first [apply F; reflexivity|apply G; reflexivity]|auto]).
Qed.
Lemma by_thread_unique i j e : by_thread i e = true -> by_thread j e = true -> i = j.
Proof. destruct e; cbn; try discriminate; intros A B; apply Nat.eqb_eq in A; apply Nat.eqb_eq in B; congruence. Qed.
Lemma done_by_In i l e : In e l -> by_thread i e = true -> done_by i l <> [].
Proof. intros I E X. assert (In e (done_by i l)) by (apply filter_In; auto). rewrite X in H. destruct H. Qed.
Lemma done_by_app i a b : done_by i (a ++ b) = done_by i a ++ done_by i b.
Proof. apply filter_app. Qed.
Lemma astep_started ch s : ainv s -> events_started s -> events_started (astep ch s).
Proof.
  intros V E. unfold astep. destruct ch as [|j b].
  - destruct (main_step s) as [s'|] eqn:H; [|exact E]. destruct (main_frame _ _ V H) as ((es & Ee & D) & P). intros i e I B. rewrite Ee in I. apply in_app_or in I as [I|I].
    + destruct (E _ _ I B) as (p & A & N). exists p. auto.
    + destruct (done_by_In i es e I B (D i)).
  - destruct (thread_step j b s) as [s'|] eqn:H; [|exact E]. destruct (thread_frame _ _ _ _ V H) as (_ & _ & _ & _ & _ & _ & _ & _ & _ & F10 & F11 & es & F12 & F13).
    intros i e I B. rewrite F12 in I. apply in_app_or in I as [I|I].
    + destruct (Nat.eq_dec i j) as [->|N]; [exact F11|]. rewrite F10 by exact N. exact (E _ _ I B).
    + destruct F13 as [->|(e' & -> & B')]; [destruct I|]. destruct I as [<-|[]]. rewrite (by_thread_unique _ _ _ B B'). exact F11.
Qed.
Lemma reachable_started s : reachable s -> events_started s.
Proof.
  intros (prog & s0 & sched & C & ->). assert (V0 : ainv s0) by (apply reachable_inv; exists prog, s0, []; auto).
  assert (E0 : events_started s0). { destruct C as (cf & port & scan & w & o & w1 & _ & ->). intros i e I. destruct I. }
  clear C. revert s0 V0 E0. induction sched as [|ch sched IH]; intros s0 V0 E0; [exact E0|]. apply (IH (astep ch s0)); [apply astep_inv, V0|apply astep_started; assumption].
Qed.

(* ---- turns ---- *)
Lemma turns_snoc i t answers : forall k l e r, turns i t k answers l -> entry t (k + length answers) = Some e -> turns i t k (answers ++ [r]) (l ++ turn i e r).
Proof.
  induction answers as [|a answers IH]; intros k l e r H E; cbn [turns app length] in *.
  - subst l. rewrite Nat.add_0_r in E. exists e, []. rewrite app_nil_r. auto.
  - destruct H as (e0 & l' & E0 & -> & H). exists e0, (l' ++ turn i e r). split; [exact E0|]. split; [symmetry; apply app_assoc|]. apply IH; [exact H|]. rewrite <- E. f_equal. lia.
Qed.
(* the position in the table: rem is what is left of this round *)
Definition position {A} (k : nat) (rem : list A) (t : subs) : Prop := exists q, k + length rem = q * length t.
Lemma entry_at t k c rest keys : map fst t = keys -> suffix_of (c :: rest) keys -> position k (c :: rest) t -> exists l, entry t k = Some (c, l) /\ In (c, l) t.
Proof.
  intros K [pre E] [q Q]. assert (L : length t = length pre + S (length rest)) by (rewrite <- (map_length fst t), K, E, app_length; reflexivity).
  assert (M : k mod length t = length pre).
  { cbn [length] in Q. destruct q as [|q]; [cbn in Q; lia|]. replace k with (length pre + q * length t) by nia. rewrite Nat.mod_add by lia. apply Nat.mod_small. lia. }
  assert (N : nth_error (map fst t) (length pre) = Some c) by (rewrite K, E, nth_error_app2, Nat.sub_diag by lia; reflexivity).
  unfold entry. rewrite M. rewrite nth_error_map in N. destruct (nth_error t (length pre)) as [[c' l]|] eqn:T; [|discriminate N]. cbn in N. injection N as ->.
  exists l. split; [reflexivity|]. eapply nth_error_In, T.
Qed.
Lemma entry_subs s t k c rest : t = subscriptions s -> suffix_of (c :: rest) (map fst (a_cmds s)) -> position k (c :: rest) t -> entry t k = Some (c, getl (a_cbs s) c).
Proof.
  intros -> S P. destruct (entry_at (subscriptions s) k c rest (map fst (a_cmds s))) as (l & E & I); [unfold subscriptions; rewrite map_map; cbn; apply map_id|exact S|exact P|].
  rewrite E. f_equal. unfold subscriptions in I. apply in_map_iff in I as (c' & X & _). injection X as -> <-. reflexivity.
Qed.

(* where thread i is in its rounds *)
Definition round_at (i : nat) (t : subs) (p : tpc) (k : nat) (l2 : list aevent) : Prop :=
  match p with
  | T_new => False
  | T_while | T_len | T_for | T_sleep | T_idle => l2 = [] /\ position k (@nil command) t
  | T_next it => l2 = [] /\ position k (it_keys it) t
  | T_conn c it => l2 = [] /\ position k (c :: it_keys it) t
  | T_query c it => l2 = [] /\ position k (c :: it_keys it) t
  | T_store c r it => l2 = [AEv_query i c (Ok r)] /\ position k (c :: it_keys it) t
  | T_cbs c r it => l2 = [AEv_query i c (Ok r)] /\ position k (c :: it_keys it) t
  | T_call c r fs it => (exists gs l, entry t k = Some (c, l) /\ l = gs ++ fs /\ l2 = AEv_query i c (Ok r) :: fires i c r gs) /\ position k (c :: it_keys it) t
  | T_disc1 | T_disc2 | T_return | T_done | T_dead _ => begun i t k l2
  end.
Definition rounds (i : nat) (t : subs) (s : astate) : Prop :=
  exists p answers l1 l2, pc_of s i = Some p /\ done_by i (a_events s) = l1 ++ l2 /\ turns i t 0 answers l1 /\ round_at i t p (length answers) l2
  /\ (looping p = true -> p <> T_disc2 -> subscriptions s = t).
Lemma rounds_goes i t s : ainv s -> rounds i t s -> goes_round i t (done_by i (a_events s)).
Proof.
  intros V (p & answers & l1 & l2 & P & E & T & R & Sb). exists answers, l1, l2. split; [exact E|]. split; [exact T|].
  pose proof (I_ok _ V _ _ P) as Tok. destruct p; cbn in R; try (left; apply R); try exact R; try contradiction; right.
  - destruct R as [-> Po]. destruct Tok as (_ & _ & _ & Su). eexists. split; [exact (entry_subs s t _ c _ (eq_sym (Sb eq_refl ltac:(discriminate))) Su Po)|]. right. exists r, [], (getl (a_cbs s) c). auto.
  - destruct R as [-> Po]. destruct Tok as (_ & (_ & _ & Su) & _). eexists. split; [exact (entry_subs s t _ c _ (eq_sym (Sb eq_refl ltac:(discriminate))) Su Po)|]. right. exists r, [], (getl (a_cbs s) c). auto.
  - destruct R as [(gs & l & En & El & ->) Po]. eexists. split; [exact En|]. right. exists r, gs, cbs. auto.
Qed.

Lemma done_by_one i e : by_thread i e = true -> done_by i [e] = [e].
Proof. intros E. cbn. rewrite E. reflexivity. Qed.
Lemma fires_app i c r a b : fires i c r (a ++ b) = fires i c r a ++ fires i c r b.
Proof. apply map_app. Qed.

Lemma astep_rounds i t ch s : ainv s -> rounds i t s -> rounds i t (astep ch s).
Proof.
  intros V (p & answers & l1 & l2 & P & E & T & R & Sb).
  assert (Sb' : forall p', looping p' = true -> p' <> T_disc2 -> looping p = true /\ p <> T_disc2 -> subscriptions (astep ch s) = t).
  { intros p' _ _ [L N]. rewrite (subs_looping s ch i V); [apply Sb; assumption|apply in_loop_iff; eauto|congruence]. }
  destruct ch as [|j b].
  - unfold astep in *. destruct (main_step s) as [s'|] eqn:H; [|exists p, answers, l1, l2; auto]. destruct (main_frame _ _ V H) as ((es & Ee & D) & Pk).
    exists p, answers, l1, l2. rewrite Ee, done_by_app, D, app_nil_r. split; [apply Pk; [exact P|]; intros ->; exact R|]. split; [exact E|]. split; [exact T|]. split; [exact R|].
    intros L N. exact (Sb' p L N (conj L N)).
  - unfold astep in *. destruct (thread_step j b s) as [s'|] eqn:H; [|exists p, answers, l1, l2; auto].
    destruct (thread_frame _ _ _ _ V H) as (_ & _ & _ & F4 & _ & _ & F7 & _ & _ & F10 & F11 & es & F12 & F13).
    destruct (Nat.eq_dec i j) as [<-|N].
    2:{ exists p, answers, l1, l2. rewrite F12, done_by_app. replace (done_by i es) with (@nil aevent) by (destruct F13 as [->|(e & -> & B)]; [reflexivity|]; cbn; destruct (by_thread i e) eqn:B'; [|reflexivity]; elim N; exact (by_thread_unique _ _ _ B' B)).
        rewrite app_nil_r, F10 by exact N. split; [exact P|]. split; [exact E|]. split; [exact T|]. split; [exact R|]. intros L M. exact (Sb' p L M (conj L M)). }
    clear F10 F11 F12 F13. destruct (thread_step_spec _ _ _ _ V H) as (p0 & P0 & U). assert (p0 = p) by congruence. subst p0.
    assert (Pc : forall p' s1, a_threads s1 = a_threads s -> pc_of (set_tpc i p' s1) i = Some p') by (intros p' s1 X; unfold pc_of in *; cbn; rewrite X, nth_set, Nat.eqb_refl, P; reflexivity).
    assert (Mv : forall p' s1, a_threads s1 = a_threads s -> a_events s1 = a_events s -> s' = set_tpc i p' s1 -> round_at i t p' (length answers) l2 -> (looping p' = true -> p' <> T_disc2 -> looping p = true /\ p <> T_disc2) -> rounds i t s').
    { intros p' s1 X1 X2 X3 Rd Lp. exists p', answers, l1, l2. split; [subst s'; apply Pc, X1|]. split; [subst s'; cbn; rewrite X2; exact E|]. split; [exact T|]. split; [exact Rd|]. intros L M. exact (Sb' p' L M (Lp L M)). }
    pose proof (I_ok _ V _ _ P) as Tok.
    destruct p; cbn [undisturbed_step] in U; try contradiction; cbn [round_at] in R.
    + destruct R as [-> Po]. eapply Mv; [reflexivity|reflexivity|exact U| |split; [reflexivity|discriminate]]. destruct (a_running s); cbn; auto. left. reflexivity.
    + eapply Mv; [reflexivity|reflexivity|exact U|exact R|split; [reflexivity|discriminate]].
    + eapply Mv; [reflexivity|reflexivity|exact U| |split; [reflexivity|discriminate]]. destruct R as [-> [q Po]]. cbn. split; [reflexivity|]. exists (S q).
      rewrite <- (Sb eq_refl ltac:(discriminate)) in *. unfold subscriptions in *. rewrite !map_length in *. cbn [length] in Po. cbn [Nat.mul]. lia.
    + eapply Mv; [reflexivity|reflexivity|exact U| |split; [reflexivity|discriminate]]. destruct R as [-> Po]. destruct (it_keys it); cbn; auto.
    + eapply Mv; [reflexivity|reflexivity|exact U| |split; [reflexivity|discriminate]]. destruct R as [-> Po]. destruct (async_connected s); cbn; auto. left. reflexivity.
    + eapply Mv; [| |exact U|exact R|split; [reflexivity|discriminate]]; reflexivity.
    + eapply Mv; [| |exact U|exact R|discriminate]; reflexivity.
    + eapply Mv; [reflexivity|reflexivity|exact U|exact R|discriminate].
    + (* query *)
      destruct R as [-> Po]. destruct U as (r & [o' w'] & Q & U). rewrite app_nil_r in E. destruct Tok as (_ & (_ & _ & Su) & _).
      assert (En := entry_subs s t _ c _ (eq_sym (Sb eq_refl ltac:(discriminate))) Su Po).
      exists (match r with Ok r => T_store c r it | Raise e => T_dead e end), answers, l1, [AEv_query i c r]. split; [subst s'; apply Pc; reflexivity|].
      split; [subst s'; cbn [a_events set_tpc upd_threads add_event upd_obd]; rewrite done_by_app, E, done_by_one by apply Nat.eqb_refl; reflexivity|]. split; [exact T|]. split.
      * destruct r as [r|x]; cbn; [auto|]. right. eexists. split; [exact En|]. left. exists x. reflexivity.
      * intros L N. apply (Sb' _ L N). split; [reflexivity|discriminate].
    + (* store *)
      destruct R as [-> Po]. exists (T_cbs c r it), answers, l1, [AEv_query i c (Ok r)]. split; [subst s'; apply Pc; reflexivity|]. split; [subst s'; exact E|]. split; [exact T|]. split; [cbn; auto|].
      intros L N. apply (Sb' _ L N). split; [reflexivity|discriminate].
    + destruct R as [-> Po]. destruct U as (l & D & U). eapply Mv; [reflexivity|reflexivity|exact U| |split; [reflexivity|discriminate]]. cbn. split; [|exact Po].
      destruct Tok as (_ & (_ & _ & Su) & _). exists [], l. split; [|auto]. rewrite (entry_subs s t _ c _ (eq_sym (Sb eq_refl ltac:(discriminate))) Su Po). unfold getl. rewrite D. reflexivity.
    + destruct R as [(gs & l & En & El & ->) Po]. destruct cbs as [|f fs].
      * (* the turn is over *)
        rewrite app_nil_r in El. subst l. exists (T_next it), (answers ++ [r]), (l1 ++ turn i (c, gs) r), []. split; [subst s'; apply Pc; reflexivity|].
        split; [subst s'; cbn [a_events set_tpc upd_threads]; rewrite E, app_nil_r; reflexivity|]. split; [apply turns_snoc; [exact T|exact En]|]. split.
        -- cbn. split; [reflexivity|]. destruct Po as [q Po]. exists q. rewrite app_length. cbn [length] in *. lia.
        -- intros L N. apply (Sb' _ L N). split; [reflexivity|discriminate].
      * exists (if b then T_dead CustomError else T_call c r fs it), answers, l1, (AEv_query i c (Ok r) :: fires i c r (gs ++ [f])). split; [subst s'; apply Pc; reflexivity|].
        split; [subst s'; cbn [a_events set_tpc upd_threads add_event]; rewrite done_by_app, E, done_by_one, fires_app by apply Nat.eqb_refl; rewrite <- app_assoc; reflexivity|]. split; [exact T|]. split.
        -- destruct b; cbn.
           ++ right. eexists. split; [exact En|]. right. exists r, (gs ++ [f]), fs. split; [rewrite El, <- app_assoc; reflexivity|reflexivity].
           ++ split; [|exact Po]. exists (gs ++ [f]), l. split; [exact En|]. split; [rewrite El, <- app_assoc; reflexivity|reflexivity].
        -- intros L N. apply (Sb' _ L N). split; [reflexivity|discriminate].
    + eapply Mv; [reflexivity|reflexivity|exact U|exact R|split; [reflexivity|discriminate]].
Qed.
Lemma arun_rounds i t sched : forall s, ainv s -> rounds i t s -> rounds i t (arun sched s).
Proof. induction sched as [|ch sched IH]; intros s V R; [exact R|]. apply (IH (astep ch s)); [apply astep_inv, V|apply astep_rounds; assumption]. Qed.

Theorem goes_round_always s i rest sched : reachable s -> a_events (astep CMain s) = a_events s ++ AEv_start i :: rest ->
  goes_round i (subscriptions s) (done_by i (a_events (arun (CMain :: sched) s))).
Proof.
  intros Re H. destruct (reachable_inv _ Re) as [V _]. change (arun (CMain :: sched) s) with (arun sched (astep CMain s)).
  pose proof (astep_inv CMain s V) as V1. apply rounds_goes; [apply arun_inv, V1|]. apply arun_rounds; [exact V1|].
  assert (G : a_pc s = M_start6).
  { unfold astep in H. destruct (main_step s) as [s'|] eqn:M; [|rewrite <- (app_nil_r (a_events s)) in H at 1; apply app_inv_head in H; discriminate H].
    unfold main_step in M. destruct (a_pc s); try reflexivity; exfalso.
    all: assert (D : exists es, a_events s' = a_events s ++ es /\ (es = [] \/ exists o r, es = [AEv_return o r])).
    all: try (destruct D as (es & E & [->|(o & r & ->)]); rewrite E in H; apply app_inv_head in H; discriminate H).
    all: repeat match goal with
      | H : Some _ = Some _ |- _ => injection H as <-
      | H : (if ?b then _ else _) = Some _ |- _ => destruct b
      | H : match ?x with _ => _ end = Some _ |- _ => destruct x
      | |- context [if ?b then _ else _] => destruct b
      | |- context [match ?x with _ => _ end] => destruct x
      end; try discriminate.
    all: try (exists []; rewrite app_nil_r; split; [reflexivity|auto]; fail).
    all: (eexists; split; [reflexivity|right; eexists; eexists; reflexivity]). }
  pose proof (I_main _ V) as Mn. unfold main_ok in Mn. rewrite G in Mn. destruct Mn as (Ne & _ & j & Th & P).
  assert (X : astep CMain s = finish (match a_op s with AExit => OBool false | _ => ODone end) (add_event (AEv_start j) (set_tpc j T_while s))) by (unfold astep, main_step; rewrite G, Th; reflexivity).
  assert (j = i). { rewrite X in H. cbn in H. rewrite <- app_assoc in H. apply app_inv_head in H. injection H as ->. reflexivity. } subst j.
  exists T_while, [], [], []. rewrite X. split; [unfold pc_of in *; cbn; rewrite nth_set, Nat.eqb_refl, P; reflexivity|]. split.
  - cbn [a_events finish upd_pc add_event set_tpc upd_threads]. rewrite !done_by_app. cbn. rewrite !app_nil_r.
    destruct (done_by i (a_events s)) as [|e l] eqn:D; [reflexivity|]. exfalso. assert (I : In e (done_by i (a_events s))) by (rewrite D; left; reflexivity). apply filter_In in I as [I B].
    destruct (reachable_started s Re i e I B) as (p & Pp & N). congruence.
  - split; [reflexivity|]. split; [|reflexivity]. split; [reflexivity|]. exists 0. reflexivity.
Qed.
