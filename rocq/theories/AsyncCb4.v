(* What a callback was called with, and what harmless calls return. *)
From Coq Require Import ZArith List Bool Lia.
From Verif Require Import Py Num Utils Protocol Decoders Command CommandTable Commands World Elm Obd Async Async2 SpecElm SpecObd SpecAsync SpecAsync2
  PyFacts CommandThms ElmFacts ElmThms ObdFacts ObdThms ObdThms2 ObdThms3 ObdThms4 AsyncFacts AsyncThms AsyncThms2 AsyncThms6 AsyncThms7 AsyncCb AsyncCb2 AsyncCb3.
Import ListNotations.
Open Scope nat_scope.
Local Opaque watch_table unwatch_table.

(* the callback thread i is in was called with the command and answer the thread holds *)
Definition fired (s : bstate) : Prop := forall i pc op, b_in s i = Some (pc, op) -> exists c r fs it f, pc_of (b_a s) i = Some (T_call c r fs it) /\ last_fired i (b_a s) c f r.
Lemma last_fired_more i s s' c f r new : last_fired i s c f r -> a_events s' = a_events s ++ new -> (forall e, In e new -> by_thread i e = false) -> last_fired i s' c f r.
Proof.
  intros (l1 & l2 & E & H) E' N. exists l1, (l2 ++ new). rewrite E', E, <- app_assoc. split; [reflexivity|]. intros e [X|X]%in_app_or; [exact (H e X)|exact (N e X)].
Qed.
Lemma thread_events j b s s1 : thread_step j b s = Some s1 -> exists new, a_events s1 = a_events s ++ new /\ forall i e, i <> j -> In e new -> by_thread i e = false.
Proof.
  intros H. unfold thread_step in H. destruct (nth_error (a_threads s) j) as [p|]; [|discriminate H].
  assert (Z : forall s', a_events s' = a_events s -> exists new, a_events s' = a_events s ++ new /\ forall i e, i <> j -> In e new -> by_thread i e = false).
  { intros s' ->. exists []. rewrite app_nil_r. split; [reflexivity|]. intros i e _ []. }
  destruct p; try discriminate H; try (injection H as <-; apply Z; reflexivity).
  - injection H as <-. destruct (Nat.eqb _ _ && _); [apply Z; reflexivity|]. destruct (it_keys it); apply Z; reflexivity.
  - destruct (query c true (a_obd s, a_world s)) as [q ow]. injection H as <-. proj. eexists. split; [reflexivity|]. intros i e N [<-|[]]. cbn. destruct (Nat.eqb_spec i j); [contradiction|reflexivity].
  - destruct cbs as [|f fs]; injection H as <-; [apply Z; reflexivity|]. proj. eexists. split; [reflexivity|]. intros i e N [<-|[]]. cbn. destruct (Nat.eqb_spec i j); [contradiction|reflexivity].
Qed.
Lemma main_own_events s s1 : main_step s = Some s1 -> exists new, a_events s1 = a_events s ++ new /\ forall i e, In e new -> by_thread i e = false.
Proof.
  intros H. destruct (main_events s s1 H) as [E|[(out & E & _)|(j & out & _ & _ & E & _)]]; rewrite E.
  - exists []. rewrite app_nil_r. split; [reflexivity|]. intros i e [].
  - eexists. split; [reflexivity|]. intros i e [<-|[]]. reflexivity.
  - eexists. split; [reflexivity|]. intros i e [<-|[<-|[]]]; reflexivity.
Qed.
Lemma fired_step s ch : jinv s -> fired s -> fired (bstep ch s).
Proof.
  intros J F.
  assert (Cb : forall j pc op prog s', (exists c r fs it, pc_of (b_a s) j = Some (T_call c r fs it)) -> calm j pc op (b_a s) -> (pc = M_idle -> exists o, prog = [o]) -> (exists x, b_in s j = Some x) -> cb_step j pc op prog s = Some s' -> fired s').
  { intros j pc op prog s' X1 X2 X3 [[pc0 op0] X4] X5. destruct (j_call s j pc op prog s' J X1 X2 X3 (ex_intro _ _ X4) X5) as (_ & Eh & _ & _ & _ & _ & Ee).
    assert (Ei : exists y, b_in s' = put j y (b_in s)).
    { unfold cb_step in X5. destruct (match pc with M_stop4 _ _ => _ | _ => _ end); [injection X5 as <-; eexists; reflexivity|]. destruct (main_step _); [|discriminate X5]. injection X5 as <-. eexists; reflexivity. }
    destruct Ei as [y Ei]. intros i pc1 op1 E. unfold pc_of. rewrite Eh.
    assert (G : exists pc2 op2, b_in s i = Some (pc2, op2)). { rewrite Ei in E. apply put_cases in E as [[<- _]|[_ E]]; eauto. }
    destruct G as (pc2 & op2 & G). destruct (F _ _ _ G) as (c & r & fs & it & f & P & L). exists c, r, fs, it, f. split; [exact P|].
    apply (last_fired_more _ _ _ _ _ _ [] L); [rewrite app_nil_r; exact Ee|intros e []]. }
  unfold bstep. destruct ch as [|j|j d].
  - destruct (main_step (b_a s)) as [s1|] eqn:H; cbn [option_map]; [|exact F]. intros i pc op E. cbn [b_a b_in] in *. destruct (F _ _ _ E) as (c & r & fs & it & f & P & L). exists c, r, fs, it, f.
    destruct (main_effect s s1 i _ J H P ltac:(discriminate)) as (P' & _). split; [exact P'|]. destruct (main_own_events _ _ H) as (new & En & N). exact (last_fired_more _ _ _ _ _ _ _ L En (N i)).
  - unfold loop_step. destruct (b_in s j) as [[pc op]|] eqn:In.
    + destruct (cb_frame _ _ _ _ J In) as [X1 X2].
      assert (X : forall o, (forall s', o = Some s' -> fired s') -> fired (match o with Some s' => s' | None => s end)) by (intros [s'|] Y; [exact (Y _ eq_refl)|exact F]).
      destruct pc; try exact F; apply X; intros s' C; (eapply Cb; [exact X1|exact X2|discriminate|eauto|exact C]).
    + destruct (thread_step j false (b_a s)) as [s1|] eqn:H; [|exact F]. intros i pc op E. cbn [b_a b_in] in *.
      destruct (Nat.eq_dec i j) as [->|N].
      * unfold thread_step in H. destruct (nth_error (a_threads (b_a s)) j) as [p|] eqn:P; [|discriminate H].
        destruct p as [| | | | | | | | | | | |c r [|f fs] it| | | |]; try congruence. injection H as <-. exists c, r, fs, it, f. unfold pc_of. proj. rewrite nth_set, Nat.eqb_refl, P. split; [reflexivity|].
        exists (a_events (b_a s)), []. split; [reflexivity|intros e []].
      * assert (E' : b_in s i = Some (pc, op)).
        { destruct (match nth_error (a_threads (b_a s)) j with Some (T_call _ _ (_ :: _) _) => true | _ => false end); [|exact E]. rewrite put_other in E by congruence. exact E. }
        destruct (F _ _ _ E') as (c & r & fs & it & f & P & L). exists c, r, fs, it, f. split.
        -- rewrite (thread_keeps_other j false _ _ i ltac:(congruence) H). exact P.
        -- destruct (thread_events _ _ _ _ H) as (new & En & Nn). exact (last_fired_more _ _ _ _ _ _ _ L En (fun e => Nn i e N)).
  - unfold cb_does. destruct (b_in s j) as [[pc op]|] eqn:In; [|exact F]. destruct (cb_frame _ _ _ _ J In) as [X1 X2]. destruct pc; try exact F. destruct d as [o| |].
    + destruct (cb_step j M_idle AStop [o] s) as [s'|] eqn:C; [|exact F]. eapply (Cb j M_idle AStop [o]); [exact X1|exact Logic.I|eauto|eauto|exact C].
    + intros i pc op1 E. cbn [b_a b_in] in *. apply put_cases in E as [[_ E]|[_ E]]; [discriminate E|]. exact (F _ _ _ E).
    + intros i pc op1 E. cbn [b_a b_in] in *. apply put_cases in E as [[_ E]|[N E]]; [discriminate E|]. destruct (F _ _ _ E) as (c & r & fs & it & f & P & L). exists c, r, fs, it, f. split.
      * unfold pc_of in *. proj. rewrite nth_set. destruct (Nat.eqb_spec j i); [contradiction|exact P].
      * apply (last_fired_more _ _ _ _ _ _ [] L); [rewrite app_nil_r; reflexivity|intros e []].
Qed.
Theorem b_reachable_fired s : b_reachable s -> fired s.
Proof.
  intros (prog & s0 & sched & C & ->). assert (R0 : b_reachable (new_b s0)) by (exists prog, s0, []; auto). apply b_reachable_inv in R0.
  assert (F0 : fired (new_b s0)) by (intros i pc op E; discriminate E). revert R0 F0. generalize (new_b s0). induction sched as [|ch l IH]; intros s J F; [exact F|]. cbn [brun fold_left]. apply IH; [apply j_step, J|apply fired_step; assumption].
Qed.
Lemma last_fired_unique i s c f r c' f' r' : last_fired i s c f r -> last_fired i s c' f' r' -> c = c' /\ f = f' /\ r = r'.
Proof.
  intros (l1 & l2 & E & H) (m1 & m2 & E' & H'). rewrite E in E'. clear E. revert l2 m1 m2 E' H H'.
  assert (By : by_thread i (AEv_fire i c f r) = true) by (cbn; apply Nat.eqb_refl). assert (By' : by_thread i (AEv_fire i c' f' r') = true) by (cbn; apply Nat.eqb_refl).
  induction l1 as [|x l1 IH]; intros l2 [|y m1] m2 E H H'; cbn [app] in E.
  - injection E as -> -> -> ->. auto.
  - injection E as _ ->. specialize (H (AEv_fire i c' f' r') ltac:(apply in_or_app; right; left; reflexivity)). congruence.
  - injection E as -> <-. specialize (H' (AEv_fire i c f r) ltac:(apply in_or_app; right; left; reflexivity)). congruence.
  - injection E as _ E. exact (IH _ _ _ E H H').
Qed.

(* ---- harmless calls ---- *)
Lemma polite_app a b s : polite (a ++ b) s <-> polite a s /\ polite b (brun a s).
Proof. revert s. induction a as [|ch a IH]; intros s; cbn; [tauto|]. rewrite IH. tauto. Qed.
Lemma mild_log s0 s ch : ainv s0 -> sim s0 s -> (forall i o, calls_now ch s i o -> harmless o (b_a s)) ->
  b_log (bstep ch s) = b_log s \/ exists i o out, b_log (bstep ch s) = b_log s ++ [(i, o, out)] /\ forall e, out <> ORaised e.
Proof.
  intros V0 [Sb Si] Hp. pose proof (follows_inv _ _ V0 Sb) as V.
  assert (Th : forall i pc op, b_in s i = Some (pc, op) -> a_thread (b_a s) = Some i).
  { intros i pc op E. destruct (Si _ _ _ E) as (_ & (c & r & fs & it & P) & _). exact (I_one _ V _ _ P eq_refl). }
  unfold bstep. destruct ch as [|i|i d].
  - destruct (main_step (b_a s)); left; reflexivity.
  - unfold loop_step. destruct (b_in s i) as [[pc op]|] eqn:E.
    + destruct (Si _ _ _ E) as (M & _).
      assert (K : pc <> M_idle -> b_log (match cb_step i pc op [] s with Some s' => s' | None => s end) = b_log s \/ exists i0 o out, b_log (match cb_step i pc op [] s with Some s' => s' | None => s end) = b_log s ++ [(i0, o, out)] /\ forall e, out <> ORaised e).
      { intros N. destruct (cb_step i pc op [] s) as [s'|] eqn:C; [|left; reflexivity]. destruct (mild_step i pc op [] s s' (Th _ _ _ E) M ltac:(intros X; contradiction) C) as (_ & _ & [Q|(o & out & Q)]); [left; exact Q|right; exists i, o, out; exact Q]. }
      destruct pc; try contradiction M; try (left; reflexivity); apply K; discriminate.
    + destruct (thread_step i false (b_a s)); left; reflexivity.
  - unfold cb_does. destruct (b_in s i) as [[pc op]|] eqn:E; [|left; reflexivity]. destruct pc; try (left; reflexivity). destruct d as [o| |]; try (left; reflexivity).
    destruct (cb_step i M_idle AStop [o] s) as [s'|] eqn:C; [|left; reflexivity].
    destruct (mild_step i M_idle AStop [o] s s' (Th _ _ _ E) Logic.I ltac:(intros _; exists o; split; [reflexivity|apply (Hp i o); split; [reflexivity|exists op; exact E]]) C) as (_ & _ & [Q|(o' & out & Q)]); [left; exact Q|right; exists i, o', out; exact Q].
Qed.
Theorem polite_log s0 sched : forall s, ainv s0 -> sim s0 s -> polite sched s -> (forall i o e, ~ In (i, o, ORaised e) (b_log s)) -> forall i o e, ~ In (i, o, ORaised e) (b_log (brun sched s)).
Proof.
  induction sched as [|ch l IH]; intros s V S P N; [exact N|]. destruct P as [P1 P2]. cbn [brun fold_left]. apply IH; [exact V|apply sim_step; assumption|exact P2|].
  intros i o e. destruct (mild_log _ _ _ V S P1) as [->|(j & o' & out & -> & R)]; [apply N|]. intros [X|[X|[]]]%in_app_or; [exact (N _ _ _ X)|]. injection X as _ _ X. exact (R e X).
Qed.
(* the steps of callbacks that make harmless calls leave the connection object as it is *)
Theorem mild_no_effect s0 s ch i : ainv s0 -> sim s0 s -> (forall i o, calls_now ch s i o -> harmless o (b_a s)) -> b_in s i <> None -> (ch = BThread i \/ exists o, ch = BDoes i (Calls o)) ->
  b_a (bstep ch s) = b_a s.
Proof.
  intros V0 [Sb Si] Hp In D. pose proof (follows_inv _ _ V0 Sb) as V. destruct (b_in s i) as [[pc op]|] eqn:E; [|congruence].
  destruct (Si _ _ _ E) as (M & (c & r & fs & it & P) & _). pose proof (I_one _ V _ _ P eq_refl) as Th. destruct D as [->|[o ->]]; unfold bstep.
  - unfold loop_step. rewrite E.
    assert (K : pc <> M_idle -> b_a (match cb_step i pc op [] s with Some s' => s' | None => s end) = b_a s).
    { intros N. destruct (cb_step i pc op [] s) as [s'|] eqn:C; [|reflexivity]. exact (proj1 (mild_step i pc op [] s s' Th M ltac:(intros X; contradiction) C)). }
    destruct pc; try contradiction M; try reflexivity; apply K; discriminate.
  - unfold cb_does. rewrite E. destruct pc; try reflexivity. destruct (cb_step i M_idle AStop [o] s) as [s'|] eqn:C; [|reflexivity].
    exact (proj1 (mild_step i M_idle AStop [o] s s' Th Logic.I ltac:(intros _; exists o; split; [reflexivity|apply (Hp i o); split; [reflexivity|exists op; exact E]]) C)).
Qed.
