(* Property C107: query() of an Async object may be called from any number of threads. *)
From Coq Require Import ZArith List Bool Lia String.
From Verif Require Import Py Num Utils Protocol Decoders Command CommandTable Commands World Elm Obd Async SpecElm SpecObd SpecAsync Readers SpecReaders
  AsyncFacts AsyncThms AsyncThms3 AsyncThms4 AsyncThms7 ReaderThms Properties_Elm Properties_Obd Properties_Async Async SpecAsync Readers SpecReaders.
Import ListNotations.
Open Scope string_scope. Open Scope list_scope. Open Scope nat_scope.
Local Opaque query obd_close watch_table unwatch_table.

(* readers change nothing: everything that holds of the object without them holds with them *)
Theorem C107_changes_nothing : forall sched r, r_a (rrun sched r) = arun (others sched) (r_a r).
Proof. exact readers_change_nothing. Qed.
(* a call never waits for another thread: it has returned (or raised) after the reader's second step at the latest *)
Theorem C107_returns : forall r j c sched, at_rest j r -> 1 <= its_steps j sched ->
  exists x rest, answers_of j (r_got (rrun (RRead j c :: sched) r)) = answers_of j (r_got r) ++ (c, x) :: rest.
Proof. exact reader_returns. Qed.
(* the response is the latest one at some moment of the call; or the command was taken out during the call, by an unwatch() or unwatch_all() that returned in between, and KeyError is raised *)
Theorem C107_moment_partial : forall r j c sched x rest, reachable (r_a r) -> at_rest j r -> let r1 := rstep (RRead j c) r in
  answers_of j (r_got (rrun sched r1)) = answers_of j (r_got r) ++ (c, x) :: rest ->
  (exists s1 s2, sched = s1 ++ s2 /\ (s1 = [] \/ answers_of j (r_got (rrun s1 r1)) = answers_of j (r_got r)) /\ x = Ok (latest (r_a (rrun s1 r1)) c)) \/
  (x = Raise KeyError /\ is_watched (r_a r) c /\ exists s1 s2 s3 o, sched = s1 ++ ROther CMain :: s2 ++ s3 /\
     answers_of j (r_got (rrun (s1 ++ ROther CMain :: s2) r1)) = answers_of j (r_got r) /\ ~ is_watched (r_a (rrun (s1 ++ ROther CMain :: s2) r1)) c /\
     unwatches o = true /\ a_running (r_a (rrun s1 r1)) = false /\ a_events (r_a (rrun (s1 ++ [ROther CMain]) r1)) = a_events (r_a (rrun s1 r1)) ++ [AEv_return o ODone]).
Proof.
  intros r j c sched x rest Re A r1 E. destruct (reader_moment r j c sched x rest A E) as [H|(-> & W & s1 & s2 & -> & Ea & N)]; [left; exact H|right]. split; [reflexivity|]. split; [exact W|]. fold r1 in Ea, N.
  assert (Ra : r_a r1 = r_a r) by apply reads_same. destruct (taken_during c s1 r1) as (a & b & o & -> & Rs & R & U & O & Ev); [rewrite Ra; exact Re|rewrite Ra; exact W|exact N|].
  exists a, b, s2, o. split; [rewrite <- app_assoc; reflexivity|]. split; [exact Ea|]. split; [exact N|]. split; [exact U|]. split; [exact R|]. rewrite rrun_app. exact Ev.
Qed.
(* a program that never unwatches: no call of a reader ever raises *)
Theorem C107_no_unwatch_partial : forall prog s0 sched j c x, created prog s0 -> (forall o, In o prog -> unwatches o = false) ->
  In (j, c, x) (r_got (rrun sched (new_readers s0))) -> exists y, x = Ok y.
Proof.
  intros prog s0 sched j c x C P I.
  assert (K : (forall k d, r_at (rrun sched (new_readers s0)) k = Some d -> is_watched (r_a (rrun sched (new_readers s0))) d) /\ (forall k d y, In (k, d, y) (r_got (rrun sched (new_readers s0))) -> exists z, y = Ok z)).
  { clear j c x I. induction sched as [|ch sched IH] using rev_ind; [split; [intros k d X; discriminate X|intros k d y []]|].
    rewrite rrun_app. cbn [rrun fold_left]. set (r := rrun sched (new_readers s0)) in *. destruct IH as [W G].
    assert (Re : reachable (r_a r)) by (unfold r; rewrite readers_change_nothing; exists prog, s0, (others sched); auto).
    destruct ch as [ch|j c].
    - split; [|exact G]. intros k d X. destruct (watched_dec (astep ch (r_a r)) d) as [Y|N]; [exact Y|]. exfalso. destruct (taken_out _ _ _ Re (W k d X) N) as (_ & _ & o & U & O & _). subst o.
      assert (V : unwatches (a_op (arun (others sched) s0)) = false).
      { destruct C as (cf & port & scan & w & o & w1 & _ & ->). apply no_unwatch_run; [reflexivity|]. apply Forall_forall. exact P. }
      unfold r in U. rewrite readers_change_nothing in U. cbn [r_a new_readers] in U. congruence.
    - cbn [rstep]. destruct (r_at r j) as [d|] eqn:E.
      + split; cbn [r_at r_got r_a].
        * intros k e X. destruct (Nat.eq_dec k j) as [->|Nk]; [rewrite put_same in X; discriminate X|]. rewrite put_other in X by exact Nk. exact (W k e X).
        * intros k e y Y. apply in_app_or in Y as [Y|[Y|[]]]; [exact (G k e y Y)|]. injection Y as <- <- <-. destruct (proj1 (watched_iff _ _) (W j d E)) as [z ->]. eauto.
      + destruct (dict_mem cmd_eqb (a_cmds (r_a r)) c) eqn:M; split; cbn [r_at r_got r_a]; try exact G; try exact W.
        * intros k e X. destruct (Nat.eq_dec k j) as [->|Nk]; [rewrite put_same in X; injection X as <-; apply is_watched_mem; exact M|]. rewrite put_other in X by exact Nk. exact (W k e X).
        * intros k e y Y. apply in_app_or in Y as [Y|[Y|[]]]; [exact (G k e y Y)|]. injection Y as <- <- <-. eauto. }
  exact (proj2 K j c x I).
Qed.
(* nor does one during which the loop is running, whatever is watched and unwatched before and after *)
Theorem C107_running_partial : forall r j c sched x rest, reachable (r_a r) -> at_rest j r -> let r1 := rstep (RRead j c) r in
  answers_of j (r_got (rrun sched r1)) = answers_of j (r_got r) ++ (c, x) :: rest ->
  (forall s1 s2, sched = s1 ++ s2 -> answers_of j (r_got (rrun s1 r1)) = answers_of j (r_got r) -> a_running (r_a (rrun s1 r1)) = true) ->
  exists s1 s2, sched = s1 ++ s2 /\ (s1 = [] \/ answers_of j (r_got (rrun s1 r1)) = answers_of j (r_got r)) /\ x = Ok (latest (r_a (rrun s1 r1)) c).
Proof.
  intros r j c sched x rest Re A r1 E Run. destruct (C107_moment_partial r j c sched x rest Re A E) as [H|(_ & _ & s1 & s2 & s3 & o & -> & Ea & _ & _ & R & _)]; [exact H|exfalso].
  change (a_running (r_a (rrun s1 r1)) = false) in R. rewrite (Run s1 (ROther CMain :: s2 ++ s3) eq_refl) in R; [discriminate R|].
  rewrite rrun_app in Ea. destruct (answers_grow j (ROther CMain :: s2) (rrun s1 (rstep (RRead j c) r))) as [n1 G1]. destruct (answers_grow j s1 r1) as [n2 G2].
  fold r1 in G1, Ea. rewrite Ea in G1. rewrite G2 in G1. assert (G0 : exists n0, answers_of j (r_got r1) = answers_of j (r_got r) ++ n0) by (destruct (answers_grow j [RRead j c] r) as [n0 G0]; exists n0; exact G0).
  destruct G0 as [n0 G0]. rewrite G0 in G1, G2. rewrite G2. rewrite <- (app_nil_r (answers_of j (r_got r))) in G1 at 1. rewrite <- !app_assoc in G1. apply app_inv_head in G1. symmetry in G1. apply app_eq_nil in G1 as [-> G1]. apply app_eq_nil in G1 as [-> _]. rewrite !app_nil_r. reflexivity.
Qed.
(* ---- concrete runs ---- *)
Definition reads (j n : nat) : list rchoice := repeat (RRead j revs) n.
Definition rest_of (l : list choice) : list rchoice := map ROther l.
(* unwatch() in the user's thread between the two accesses of a reader *)
Theorem C107_refuted : exists prog s0 sched, created prog s0 /\ answers_of 0 (r_got (rrun sched (new_readers s0))) = [(revs, Raise KeyError)].
Proof.
  exists [AWatch revs None true; AUnwatch revs None], (begin [] [AWatch revs None true; AUnwatch revs None]), (rest_of (user 2) ++ reads 0 1 ++ rest_of (user 2) ++ reads 0 1). split.
  - unfold begin. destruct (new_obd (setup true) (Some (str "p")) [] (fresh (up ++ []))) as [r [o w]] eqn:E. assert (r = Ok tt) as -> by (change r with (fst (r, (o, w))); rewrite <- E; vm_compute; reflexivity).
    exists (setup true), (Some (str "p")), [], (fresh (up ++ [])), o, w. auto.
  - vm_compute. reflexivity.
Qed.
(* two readers during two rounds of the loop: nothing, then the latest answer *)
Example C107_example : let r := rrun (rest_of (user 9) ++ reads 0 1 ++ rest_of (loop 0 6) ++ reads 1 2 ++ rest_of (loop 0 1) ++ reads 0 1 ++ reads 1 2) (new_readers (begin [says_revs] [AWatch revs None true; AStart])) in
  map (fun x => (fst (fst x), match snd x with Ok y => is_none (r_value y) | Raise _ => true end)) (r_got r) = [(1, true); (0, false); (1, false)].
Proof. vm_compute. reflexivity. Qed.

Print Assumptions C107_changes_nothing.
Print Assumptions C107_returns.
Print Assumptions C107_moment_partial.
Print Assumptions C107_no_unwatch_partial.
Print Assumptions C107_running_partial.
Print Assumptions C107_refuted.
