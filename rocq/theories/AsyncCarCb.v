(* Async objects with an adapter and a car, with callbacks that make harmless calls. *)
From Coq Require Import ZArith List Bool Lia.
From Verif Require Import Py Num Utils Protocol Decoders Command CommandTable Commands World Elm Obd Async Async2 SpecElm SpecObd SpecAsync SpecAsync2 SpecE2E SpecAdapter SpecAdapter2 SpecAsyncCar SpecAsyncFast SpecAsyncCar2
  PyFacts ElmFacts ElmThms ObdFacts ObdThms ObdThms2 ObdThms3 ObdThms4 ObdThms5 Properties_Elm Properties_Obd AsyncFacts AsyncThms AsyncThms2 AsyncThms3 AsyncThms4 AsyncThms7 AsyncHistory
  AdapterThms AdapterThms2 AdapterThms3 AdapterThms4 AdapterThms5 AsyncCar AsyncCarFast AsyncCb AsyncCb2 AsyncCb3 AsyncCb4 Async2 SpecAsync SpecAsync2.
Import ListNotations.
Open Scope nat_scope.
Local Opaque query obd_close watch_table unwatch_table.

(* only query() returns a response *)
Lemma response_returned s s1 : main_step s = Some s1 -> exists new, a_events s1 = a_events s ++ new /\ forall o r, In (AEv_return o (OResponse r)) new -> exists c, o = AQuery c /\ r = latest s c.
Proof.
  intros H. unfold main_step in H.
  assert (K : forall new, a_events s1 = a_events s ++ new -> (forall o r, ~ In (AEv_return o (OResponse r)) new) -> exists new, a_events s1 = a_events s ++ new /\ forall o r, In (AEv_return o (OResponse r)) new -> exists c, o = AQuery c /\ r = latest s c).
  { intros new E N. exists new. split; [exact E|]. intros o r X. destruct (N o r X). }
  assert (K0 : a_events s1 = a_events s -> exists new, a_events s1 = a_events s ++ new /\ forall o r, In (AEv_return o (OResponse r)) new -> exists c, o = AQuery c /\ r = latest s c).
  { intros E. apply (K []); [rewrite app_nil_r; exact E|intros o r []]. }
  destruct (a_pc s) eqn:P.
  1:{ destruct (a_prog s) as [|o rest] eqn:Pr; [discriminate|]. injection H as <-.
      destruct o; cbn [a_running upd_prog]; try destruct (a_running s); try (apply K0; reflexivity); try (eapply K; [reflexivity|]; intros o r [X|[]]; discriminate X).
      all: exists [AEv_return (AQuery c) (OResponse (latest s c))]; split; [reflexivity|]; intros o r [X|[]]; injection X as <- <-; eauto. }
  15:{ destruct (obd_close (a_obd s, a_world s)) as [r [o w]]. injection H as <-. apply (K [AEv_return (a_op s) (match r with Ok _ => ODone | Raise e => ORaised e end)]); [reflexivity|].
       intros o' r' [X|[]]. destruct r; discriminate X. }
  all: try (destruct (ended id s); [|discriminate H]); injection H as <-;
    repeat match goal with |- context [if ?b then _ else _] => destruct b | |- context [match ?x with _ => _ end] => destruct x end;
    first [apply K0; reflexivity | eapply K; [reflexivity|]; intros o r [X|[]]; discriminate X
          | eapply K; [cbn [finish add_event upd_pc set_tpc upd_threads a_events]; rewrite <- app_assoc; reflexivity|]; intros o r [X|[X|[]]]; discriminate X].
Qed.
Lemma thread_grows i b s s1 : thread_step i b s = Some s1 -> exists new, a_events s1 = a_events s ++ new.
Proof. intros H. destruct (events_grow (CThread i b) s) as (new & E). unfold astep in E. rewrite H in E. eauto. Qed.
Lemma response_logged ch s : (exists new, a_events (b_a (bstep ch s)) = a_events (b_a s) ++ new)
  /\ forall i o r, In (i, o, OResponse r) (b_log (bstep ch s)) -> In (i, o, OResponse r) (b_log s) \/ exists c, o = AQuery c /\ r = latest (b_a s) c.
Proof.
  assert (T : (exists new, a_events (b_a s) = a_events (b_a s) ++ new) /\ forall i o r, In (i, o, OResponse r) (b_log s) -> In (i, o, OResponse r) (b_log s) \/ exists c, o = AQuery c /\ r = latest (b_a s) c)
    by (split; [exists []; symmetry; apply app_nil_r|auto]).
  assert (C : forall i pc op prog s', cb_step i pc op prog s = Some s' -> (exists new, a_events (b_a s') = a_events (b_a s) ++ new)
    /\ forall i o r, In (i, o, OResponse r) (b_log s') -> In (i, o, OResponse r) (b_log s) \/ exists c, o = AQuery c /\ r = latest (b_a s) c).
  { intros i pc op prog s' H. unfold cb_step in H. destruct (match pc with M_stop4 j _ => Nat.eqb i j | _ => false end).
    - injection H as <-. cbn [b_a b_log]. split; [apply T|]. intros i' o r [X|[X|[]]]%in_app_or; [auto|discriminate X].
    - destruct (main_step (lend pc op prog (b_a s))) as [s1|] eqn:M; [|discriminate H]. injection H as <-. cbn [b_a b_log give_back a_events]. split; [eauto|].
      destruct (response_returned _ _ M) as (new & E & R). change (a_events (lend pc op prog (b_a s))) with (a_events (b_a s)) in E. intros i' o r [X|X]%in_app_or; [auto|]. right. unfold came in X. rewrite E, skipn_exact in X.
      apply in_flat_map in X. destruct X as (e & I & X). destruct e; try contradiction X. destruct X as [X|[]]. injection X as <- <- ->. destruct (R _ _ I) as (c & Ec & Er). exists c. split; [exact Ec|exact Er]. }
  unfold bstep. destruct ch as [|i|i d].
  - destruct (main_step (b_a s)) as [s1|] eqn:M; [|exact T]. cbn [option_map b_a b_log]. split; [|auto]. destruct (response_returned _ _ M) as (new & E & _). eauto.
  - destruct (loop_step i s) as [s'|] eqn:L; [|exact T]. unfold loop_step in L. destruct (b_in s i) as [[pc op]|]; [destruct pc; try discriminate L; eapply C; exact L|].
    destruct (thread_step i false (b_a s)) as [s1|] eqn:M; [|discriminate L]. injection L as <-. cbn [b_a b_log]. split; [eapply thread_grows; exact M|auto].
  - destruct (cb_does i d s) as [s'|] eqn:L; [|exact T]. unfold cb_does in L. destruct (b_in s i) as [[pc op]|]; [|discriminate L]. destruct pc; try discriminate L. destruct d; [eapply C; exact L| |]; injection L as <-; exact T.
Qed.
Lemma polite_as_silent s0 sched : ainv s0 -> polite sched (new_b s0) -> exists sched', b_a (brun sched (new_b s0)) = arun sched' s0.
Proof. intros V P. exact (S_base _ _ (sim_run s0 sched (new_b s0) V (sim_start (new_b s0) (fun _ => eq_refl)) P)). Qed.
Lemma log_answers W s0 sched : ainv s0 -> from W s0 s0 -> polite sched (new_b s0) -> let s := brun sched (new_b s0) in
  forall i o r, In (i, o, OResponse r) (b_log s) -> exists c, o = AQuery c /\ (r = empty_response \/ exists c', same_command c' c /\ In (c', Ok r) (asked_for (a_events (b_a s)))).
Proof.
  intros V F. cbv zeta. induction sched as [|ch l IH] using rev_ind; intros P; [intros i o r []|]. apply polite_app in P as [P1 P2]. specialize (IH P1).
  unfold brun. rewrite fold_left_app. cbn [fold_left]. fold (brun l (new_b s0)). set (s := brun l (new_b s0)) in *.
  destruct (response_logged ch s) as ((new & En) & R). rewrite En, AsyncCar.asked_app. intros i o r X. destruct (R _ _ _ X) as [Y|(c & -> & ->)].
  - destruct (IH _ _ _ Y) as (c & -> & [E|(c' & E & I)]); exists c; (split; [reflexivity|]); [auto|]. right. exists c'. split; [exact E|]. apply in_or_app. auto.
  - exists c. split; [reflexivity|]. destruct (polite_as_silent _ _ V P1) as (sc & Es). fold s in Es. pose proof (from_run W s0 sc s0 V F) as Fr. rewrite <- Es in Fr.
    unfold latest. destruct (dict_get cmd_eqb (a_cmds (b_a s)) c) as [v|] eqn:D; [|auto].
    assert (K : exists k, In (k, v) (a_cmds (b_a s)) /\ cmd_eqb k c = true).
    { revert D. clear. generalize (a_cmds (b_a s)). intros d. induction d as [|[k w] d IH]; cbn [dict_get]; [discriminate|]. destruct (cmd_eqb k c) eqn:E.
      - intros [= <-]. exists k. split; [left; reflexivity|exact E].
      - intros D. destruct (IH D) as (k' & I & E'). exists k'. split; [right; exact I|exact E']. }
    destruct K as (k & I & Ek). pose proof (F_keys _ _ _ Fr) as Fk. rewrite Forall_forall in Fk. destruct (Fk _ I) as (_ & [E|(j & c' & E & Q)]); [auto|]. right. exists c'. cbn [fst snd] in *. apply cmd_eqb_same in Ek, E.
    split; [destruct Ek, E; split; congruence|]. apply in_or_app. left. apply in_flat_map. exists (AEv_query j c' (Ok v)). split; [exact Q|left; reflexivity].
Qed.
