(* Progress of the update loop with callbacks that use the API. *)
From Coq Require Import ZArith List Bool Lia.
From Verif Require Import Py Num Utils Protocol Decoders Command CommandTable Commands World Elm Obd Async Async2 SpecElm SpecObd SpecAsync SpecAsync2 SpecLive SpecLive2
  PyFacts CommandThms ElmFacts ElmThms ObdFacts ObdThms ObdThms2 ObdThms3 ObdThms4 AsyncFacts AsyncThms AsyncThms2 AsyncCb AsyncLive.
Import ListNotations.
Open Scope nat_scope.

(* as follows, with at least n steps of thread k *)
Definition follows_n (k n : nat) (a b : astate) : Prop := exists sched, b = arun sched a /\ n <= thread_steps k sched.
Lemma fn_follows k n a b : follows_n k n a b -> follows a b.
Proof. intros (l & E & _). exists l. exact E. Qed.
Lemma fn_step k n a b ch : follows_n k n a b -> follows_n k (n + (if is_thread k ch then 1 else 0)) a (astep ch b).
Proof.
  intros (l & -> & L). exists (l ++ [ch]). split; [unfold arun; rewrite fold_left_app; reflexivity|]. unfold thread_steps in *. rewrite filter_app, app_length. cbn [filter].
  destruct (is_thread k ch); cbn [length]; lia.
Qed.
Lemma fn_main k n a b b' : follows_n k n a b -> main_step b = Some b' -> follows_n k n a b'.
Proof. intros F H. apply (fn_step _ _ _ _ CMain) in F. unfold astep in F. rewrite H in F. cbn in F. rewrite Nat.add_0_r in F. exact F. Qed.
Lemma fn_thread k n a b b' i r : follows_n k n a b -> thread_step i r b = Some b' -> follows_n k (n + (if Nat.eqb k i then 1 else 0)) a b'.
Proof. intros F H. apply (fn_step _ _ _ _ (CThread i r)) in F. unfold astep in F. rewrite H in F. exact F. Qed.
Lemma fn_idle k n a b i r : follows_n k n a b -> thread_step i r b = None -> follows_n k (n + (if Nat.eqb k i then 1 else 0)) a b.
Proof. intros F H. apply (fn_step _ _ _ _ (CThread i r)) in F. unfold astep in F. rewrite H in F. exact F. Qed.
Lemma fn_le k n m a b : follows_n k n a b -> m <= n -> follows_n k m a b.
Proof. intros (l & E & L) H. exists l. split; [exact E|lia]. Qed.

Record simn (k n : nat) (s0 : astate) (s : bstate) : Prop := {
  N_base : follows_n k n s0 (b_a s);
  N_in : forall i pc op, b_in s i = Some (pc, op) -> mild pc /\ (exists c r fs it, pc_of (b_a s) i = Some (T_call c r fs it))
           /\ follows_n k n s0 (set_tpc i (T_dead CustomError) (b_a s)) }.
Lemma simn_le k n m s0 s : simn k n s0 s -> m <= n -> simn k m s0 s.
Proof.
  intros [B I] H. constructor; [exact (fn_le _ _ _ _ _ B H)|]. intros i pc op E. destruct (I _ _ _ E) as (M & P & F). split; [exact M|]. split; [exact P|]. exact (fn_le _ _ _ _ _ F H).
Qed.

Lemma simn_step k n s0 s ch : ainv s0 -> simn k n s0 s -> (forall i o, calls_now ch s i o -> harmless o (b_a s)) -> simn k (n + own_step k ch s) s0 (bstep ch s).
Proof.
  intros V0 [Sb Si] Hp. pose proof (follows_inv _ _ V0 (fn_follows _ _ _ _ Sb)) as V.
  assert (Th : forall i pc op, b_in s i = Some (pc, op) -> a_thread (b_a s) = Some i).
  { intros i pc op E. destruct (Si _ _ _ E) as (_ & (c & r & fs & it & P) & _). exact (I_one _ V _ _ P eq_refl). }
  assert (Same : simn k (n + 0) s0 s) by (rewrite Nat.add_0_r; constructor; assumption).
  unfold bstep. destruct ch as [|i|i d]; cbn [own_step].
  - destruct (main_step (b_a s)) as [s1|] eqn:H; cbn [option_map]; [|exact Same]. rewrite Nat.add_0_r. constructor; cbn [b_a b_in].
    + exact (fn_main _ _ _ _ _ Sb H).
    + intros i pc op E. destruct (Si _ _ _ E) as (M & (c & r & fs & it & P) & F). split; [exact M|]. split; [exists c, r, fs, it; exact (main_keeps_call _ _ _ _ _ _ _ V P H)|].
      apply (fn_main _ _ _ _ _ F). apply main_kill; eauto.
  - unfold loop_step. destruct (b_in s i) as [[pc op]|] eqn:E.
    + destruct (Si _ _ _ E) as (M & P & F).
      assert (Z0 : (if Nat.eqb k i then match b_in s k with None => 1 | Some _ => 0 end else 0) = 0) by (destruct (Nat.eqb_spec k i) as [->|_]; [rewrite E|]; reflexivity).
      rewrite Z0, Nat.add_0_r in *.
      assert (K : forall s', cb_step i pc op [] s = Some s' -> pc <> M_idle -> simn k n s0 s').
      { intros s' C N. destruct (mild_step i pc op [] s s' (Th _ _ _ E) M ltac:(intros X; contradiction) C) as (Ea & (pc' & op' & M' & Ei) & _).
        constructor; rewrite Ea; [exact Sb|]. intros j pc2 op2 Ej. rewrite Ei in Ej. apply put_cases in Ej as [[<- Ej]|[N' Ej]]; [injection Ej as <- <-; auto|exact (Si _ _ _ Ej)]. }
      assert (X : forall o, match o with Some s' => simn k n s0 s' | None => True end -> simn k n s0 (match o with Some s' => s' | None => s end)) by (intros [s'|] Y; [exact Y|exact Same]).
      destruct pc; try contradiction M; try exact Same; apply X;
        (match goal with |- match cb_step ?a ?b ?c ?d ?e with _ => _ end => destruct (cb_step a b c d e) as [s'|] eqn:C end; [apply (K _ eq_refl); discriminate|exact Logic.I]).
    + assert (Z1 : (if Nat.eqb k i then match b_in s k with None => 1 | Some _ => 0 end else 0) = (if Nat.eqb k i then 1 else 0)) by (destruct (Nat.eqb_spec k i) as [->|_]; [rewrite E|]; reflexivity).
      rewrite Z1 in *.
      destruct (thread_step i false (b_a s)) as [s1|] eqn:H.
      * constructor; cbn [b_a b_in].
        -- exact (fn_thread _ _ _ _ _ _ _ Sb H).
        -- intros j pc op Ej.
           assert (Q : j <> i -> b_in s j = Some (pc, op) -> mild pc /\ (exists c r fs it, pc_of s1 j = Some (T_call c r fs it)) /\ follows_n k (n + (if Nat.eqb k i then 1 else 0)) s0 (set_tpc j (T_dead CustomError) s1)).
           { intros N Ej'. destruct (Si _ _ _ Ej') as (M & (c & r & fs & it & P) & F). split; [exact M|]. split.
             - exists c, r, fs, it. rewrite (thread_keeps_other i false _ _ j ltac:(congruence) H). exact P.
             - apply (fn_thread _ _ _ _ _ i false F). apply thread_kill; [congruence|exact H]. }
           destruct (nth_error (a_threads (b_a s)) i) as [p|] eqn:P; [|apply Q; [congruence|exact Ej]].
           assert (Q' : b_in s j = Some (pc, op) -> mild pc /\ (exists c r fs it, pc_of s1 j = Some (T_call c r fs it)) /\ follows_n k (n + (if Nat.eqb k i then 1 else 0)) s0 (set_tpc j (T_dead CustomError) s1)).
           { intros Ej'. apply Q; [congruence|exact Ej']. }
           destruct p as [| | | | | | | | | | | |c r [|f fs] it| | | |]; try (apply Q'; exact Ej).
           apply put_cases in Ej as [[<- Ej]|[N Ej]]; [|apply Q'; exact Ej]. injection Ej as <- <-. split; [exact Logic.I|].
           pose proof H as H'. unfold thread_step in H'. rewrite P in H'. injection H' as <-. split.
           ++ exists c, r, fs, it. unfold pc_of, set_tpc, upd_threads, add_event. cbn. rewrite nth_set, Nat.eqb_refl, P. reflexivity.
           ++ rewrite set_tpc_twice. apply (fn_thread _ _ _ _ _ i true Sb). unfold thread_step. rewrite P. reflexivity.
      * constructor; [exact (fn_idle _ _ _ _ _ _ Sb H)|]. intros j pc op Ej. destruct (Si _ _ _ Ej) as (M & P & F). split; [exact M|]. split; [exact P|].
        apply (fn_step _ _ _ _ (CThread i false)) in F. unfold astep in F.
        destruct (thread_step i false (set_tpc j (T_dead CustomError) (b_a s))) as [s1|] eqn:H1; [|exact F]. exfalso.
        destruct (Nat.eq_dec i j) as [<-|Nij]; [congruence|]. clear - H H1 Nij. unfold thread_step in H, H1.
        assert (Et : nth_error (a_threads (set_tpc j (T_dead CustomError) (b_a s))) i = nth_error (a_threads (b_a s)) i).
        { unfold set_tpc, upd_threads. cbn. rewrite nth_set. destruct (Nat.eqb_spec j i); [congruence|reflexivity]. }
        rewrite Et in H1. destruct (nth_error (a_threads (b_a s)) i) as [p|]; [|discriminate H1].
        destruct p; try discriminate H; try discriminate H1.
        -- destruct (query c true (a_obd (b_a s), a_world (b_a s))). discriminate H.
        -- destruct cbs; discriminate H.
  - unfold cb_does. destruct (b_in s i) as [[pc op]|] eqn:E; [|exact Same]. rewrite Nat.add_0_r in *.
    destruct (Si _ _ _ E) as (M & P & F). destruct pc; try exact Same. destruct d as [o| |].
    + destruct (cb_step i M_idle AStop [o] s) as [s'|] eqn:C; [|exact Same].
      assert (Hh : harmless o (b_a s)) by (apply (Hp i); split; [reflexivity|exists op; exact E]).
      destruct (mild_step i M_idle AStop [o] s s' (Th _ _ _ E) M ltac:(eauto) C) as (Ea & (pc' & op' & M' & Ei) & _).
      constructor; rewrite Ea; [exact Sb|]. intros j pc2 op2 Ej. rewrite Ei in Ej. apply put_cases in Ej as [[<- Ej]|[N' Ej]]; [injection Ej as <- <-; auto|exact (Si _ _ _ Ej)].
    + constructor; cbn [b_a b_in]; [exact Sb|]. intros j pc op' Ej. apply put_cases in Ej as [[<- Ej]|[N' Ej]]; [discriminate Ej|exact (Si _ _ _ Ej)].
    + constructor; cbn [b_a b_in]; [exact F|]. intros j pc op' Ej. apply put_cases in Ej as [[<- Ej]|[N' Ej]]; [discriminate Ej|]. pose proof (Th _ _ _ Ej). pose proof (Th _ _ _ E). congruence.
Qed.
Theorem simn_run k s0 sched : forall n s, ainv s0 -> simn k n s0 s -> polite sched s -> simn k (n + own_steps k sched s) s0 (brun sched s).
Proof.
  induction sched as [|ch l IH]; intros n s V S P; [cbn [own_steps]; rewrite Nat.add_0_r; exact S|]. destruct P as [P1 P2]. cbn [own_steps].
  rewrite Nat.add_assoc. change (brun (ch :: l) s) with (brun l (bstep ch s)). apply IH; [exact V|apply simn_step; assumption|exact P2].
Qed.
Lemma simn_start k s : no_callback s -> simn k 0 (b_a s) s.
Proof. intros N. constructor; [exists []; split; [reflexivity|lia]|]. intros i pc op E. rewrite N in E. discriminate E. Qed.
(* a polite run is a run of the program with silent callbacks, in which thread k moves at least as often on its own *)
Theorem polite_schedule k s sched : ainv (b_a s) -> no_callback s -> polite sched s -> exists sched', b_a (brun sched s) = arun sched' (b_a s) /\ own_steps k sched s <= thread_steps k sched'.
Proof. intros V N P. destruct (N_base _ _ _ _ (simn_run k (b_a s) sched 0 s V (simn_start k s N) P)) as (l & E & L). exists l. auto. Qed.
