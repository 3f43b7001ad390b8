(* C80: an update thread that gets time keeps asking. *)
From Coq Require Import ZArith List Bool Lia.
From Verif Require Import Py Num Utils Protocol Decoders Command CommandTable Commands World Elm Obd Async SpecObd SpecAsync SpecLive
  PyFacts AsyncFacts AsyncThms AsyncThms2 AsyncThms3 AsyncThms4 AsyncThms5 AsyncThms6 AsyncThms8 AsyncThms9.
Import ListNotations.
Open Scope nat_scope.

(* steps until a thread has made its next query, or ended *)
Definition to_ask (s : astate) (p : tpc) : nat :=
  match p with
  | T_new | T_done | T_dead _ | T_idle => 0
  | T_return => 1 | T_disc2 => 2 | T_disc1 => 3 | T_conn _ _ => 4
  | T_next it => match it_keys it with [] => 10 | _ => 5 end
  | T_for => 6 | T_len => 7 | T_while => 8 | T_sleep => 9
  | T_call _ _ fs _ => 11 + length fs
  | T_cbs c _ _ => 12 + length (getl (a_cbs s) c)
  | T_store c _ _ => 13 + length (getl (a_cbs s) c)
  | T_query c _ => 1
  end.
Definition fits (K : nat) (s : astate) : Prop := forall c, 13 + length (getl (a_cbs s) c) <= K.

Definition active (p : tpc) : bool := match p with T_disc2 => false | _ => looping p end.
Lemma active_looping p : active p = true -> looping p = true /\ p <> T_disc2.
Proof. destruct p; cbn; try discriminate; intros _; split; try reflexivity; discriminate. Qed.
Lemma count_app p a b : count p (a ++ b) = count p a + count p b.
Proof. unfold count. rewrite filter_app, app_length. reflexivity. Qed.

Lemma to_ask_step K i b s s' p : ainv s -> (active p = true -> fits K s) -> pc_of s i = Some p -> thread_step i b s = Some s' ->
  exists p', pc_of s' i = Some p' /\ (active p' = true -> active p = true) /\
    (to_ask s' p' < to_ask s p \/ (count (asks i) (a_events s') = S (count (asks i) (a_events s)) /\ to_ask s' p' <= K /\ to_ask s p = 1)).
Proof.
  intros V F P H. destruct (thread_step_spec _ _ _ _ V H) as (p0 & P0 & U). assert (p0 = p) by congruence. subst p0.
  assert (Q : forall p' s1, a_threads s1 = a_threads s -> s' = set_tpc i p' s1 ->
    (active p' = true -> active p = true) -> to_ask s' p' < to_ask s p -> exists p', pc_of s' i = Some p' /\ (active p' = true -> active p = true) /\ (to_ask s' p' < to_ask s p \/ (count (asks i) (a_events s') = S (count (asks i) (a_events s)) /\ to_ask s' p' <= K /\ to_ask s p = 1))).
  { intros p' s1 E -> A L. exists p'. split; [|split; [exact A|left; exact L]]. unfold pc_of in *. cbn. rewrite E, nth_set, Nat.eqb_refl, P. reflexivity. }
  pose proof (I_ok _ V _ _ P) as Tk.
  destruct p; cbn [undisturbed_step] in U; try contradiction.
  - apply (Q _ s eq_refl U); [auto|]. destruct (a_running s); cbn; lia.
  - apply (Q _ s eq_refl U); [auto|]. cbn. lia.
  - apply (Q _ s eq_refl U); [auto|]. cbn. cbn in Tk. destruct (a_cmds s); [contradiction|]. cbn. lia.
  - apply (Q _ s eq_refl U); [auto|]. cbn. destruct (it_keys it); cbn; lia.
  - apply (Q _ s eq_refl U); [auto|]. destruct (async_connected s); cbn; lia.
  - apply (Q _ (upd_running false s) eq_refl U); [auto|]. cbn. lia.
  - apply (Q _ (upd_thread None s) eq_refl U); [discriminate|]. cbn. lia.
  - apply (Q _ s eq_refl U); [auto|]. cbn. lia.
  - destruct U as (r & ow & _ & U). exists (match r with Ok r => T_store c r it | Raise e => T_dead e end). split.
    + subst s'. unfold pc_of in *. cbn. rewrite nth_set, Nat.eqb_refl, P. reflexivity.
    + split; [auto|]. right. split; [|split].
      * subst s'. cbn [a_events set_tpc upd_threads add_event upd_obd]. rewrite count_app. unfold count at 2. cbn. rewrite Nat.eqb_refl. cbn. lia.
      * pose proof (F eq_refl c) as Fc. subst s'. destruct r as [r|e]; cbn; [exact Fc|lia].
      * reflexivity.
  - apply (Q _ (upd_dicts (dset (a_cmds s) c r, a_cbs s) s) eq_refl U); [auto|]. subst s'. cbn. lia.
  - destruct U as (l & D & U). apply (Q _ s eq_refl U); [auto|]. subst s'. cbn. unfold getl. rewrite D. lia.
  - destruct cbs as [|f fs]; [apply (Q _ s eq_refl U); [auto|]; cbn; destruct (it_keys it); cbn; lia|]. apply (Q _ (add_event (AEv_fire i c f r) s) eq_refl U); [auto|]. destruct b; cbn; lia.
  - apply (Q _ s eq_refl U); [auto|]. cbn. lia.
Qed.

Lemma count_le p s s' : (exists es, a_events s' = a_events s ++ es) -> count p (a_events s) <= count p (a_events s').
Proof. intros [es ->]. rewrite count_app. lia. Qed.

Lemma astep_events ch s : ainv s -> exists es, a_events (astep ch s) = a_events s ++ es.
Proof.
  intros V. destruct ch as [|j b]; unfold astep.
  - destruct (main_step s) as [s'|] eqn:H; [|exists []; rewrite app_nil_r; reflexivity]. destruct (main_frame _ _ V H) as [(es & Ee & _) _]. eauto.
  - destruct (thread_step j b s) as [s'|] eqn:H; [|exists []; rewrite app_nil_r; reflexivity]. destruct (thread_frame _ _ _ _ V H) as (_ & _ & _ & _ & _ & _ & _ & _ & _ & _ & _ & es & Ee & _). eauto.
Qed.
Lemma arun_events sched : forall s, ainv s -> exists es, a_events (arun sched s) = a_events s ++ es.
Proof.
  induction sched as [|ch sched IH]; intros s V; [exists []; rewrite app_nil_r; reflexivity|]. change (arun (ch :: sched) s) with (arun sched (astep ch s)).
  destruct (astep_events ch s V) as [e1 E1]. destruct (IH _ (astep_inv ch s V)) as [e2 E2]. exists (e1 ++ e2). rewrite E2, E1, app_assoc. reflexivity.
Qed.

Lemma asks_run K i sched : forall s p N, 1 <= K -> ainv s -> pc_of s i = Some p -> p <> T_new -> (active p = true -> fits K s) ->
  to_ask s p + N * K <= thread_steps i sched -> ended i (arun sched s) = true \/ count (asks i) (a_events s) + S N <= count (asks i) (a_events (arun sched s)).
Proof.
  induction sched as [|ch sched IH]; intros s p N K1 V P Nn F L.
  - unfold thread_steps in L. cbn in L. pose proof (I_ok _ V _ _ P) as Tk. left. cbn. unfold ended. unfold pc_of in P. rewrite P.
    destruct p; cbn in L; try lia; try reflexivity; try contradiction. destruct (it_keys it); lia.
  - change (arun (ch :: sched) s) with (arun sched (astep ch s)). pose proof (astep_inv ch s V) as V1.
    destruct (ended i s) eqn:En; [left; apply ended_run; [exact V1|apply ended_stays; assumption]|].
    destruct ch as [|j b].
    + unfold thread_steps in L. cbn in L. fold (thread_steps i sched) in L. unfold astep in *. destruct (main_step s) as [s'|] eqn:H; [|eapply IH; eauto].
      destruct (main_frame _ _ V H) as [(es & Ee & _) F0].
      assert (C : count (asks i) (a_events s') = count (asks i) (a_events s)).
      { destruct (main_events _ _ H) as [->|[(out & -> & _)|(k & out & _ & _ & -> & _)]]; [reflexivity| |]; rewrite count_app; unfold count at 2; cbn; lia. }
      assert (E : active p = true -> a_cbs s' = a_cbs s).
      { intros A. apply active_looping in A as [A1 A2]. exact (cbs_looping _ _ _ _ V H P A1 A2). }
      rewrite <- C. apply (IH s' p N); auto.
      * intros A. unfold fits. rewrite (E A). exact (F A).
      * assert (X : to_ask s' p = to_ask s p); [|rewrite X; exact L]. destruct (active p) eqn:A; [unfold to_ask; rewrite (E eq_refl); reflexivity|]. destruct p; try discriminate A; reflexivity.
    + destruct (Nat.eq_dec i j) as [<-|X].
      * destruct (thread_step_some i b s p P Nn En) as [s' H]. unfold astep in *. rewrite H in *.
        unfold thread_steps in L. cbn in L. rewrite Nat.eqb_refl in L. cbn in L. fold (thread_steps i sched) in L.
        destruct (thread_frame _ _ _ _ V H) as (_ & _ & _ & F4 & _ & _ & _ & _ & _ & _ & (q & Q & Nq) & es & Ee & _).
        assert (CL := count_le (asks i) s s' (ex_intro _ es Ee)).
        destruct (to_ask_step K _ _ _ _ _ V F P H) as (p' & P' & A & [L'|(C & L' & L1)]); assert (q = p') by congruence; subst q.
        -- destruct (IH s' p' N K1 V1 P' Nq) as [D|D]; [intros A'; unfold fits; rewrite F4; exact (F (A A'))|lia|left; exact D|right; lia].
        -- destruct N as [|N].
           ++ right. destruct (arun_events sched s' V1) as [es2 E2]. rewrite E2, count_app. lia.
           ++ destruct (IH s' p' N K1 V1 P' Nq) as [D|D]; [intros A'; unfold fits; rewrite F4; exact (F (A A'))|cbn [Nat.mul] in L; lia|left; exact D|right; lia].
      * unfold thread_steps in L. cbn in L. destruct (Nat.eqb_spec i j) as [|_]; [contradiction|]. fold (thread_steps i sched) in L. unfold astep in *. destruct (thread_step j b s) as [s'|] eqn:H; [|eapply IH; eauto].
        destruct (thread_frame _ _ _ _ V H) as (_ & _ & _ & F4 & _ & _ & _ & _ & _ & F10 & _ & es & Ee & _).
        assert (CL := count_le (asks i) s s' (ex_intro _ es Ee)).
        destruct (IH s' p N K1 V1) as [D|D]; [rewrite F10; auto|exact Nn|unfold fits; rewrite F4; exact F| |left; exact D|right; lia].
        assert (E : to_ask s' p = to_ask s p) by (unfold to_ask; rewrite F4; reflexivity). rewrite E. exact L.
Qed.

(* the callbacks of one command are at most all the callbacks there are *)
Lemma getl_bound (cbs : list (command * list callback)) c : length (getl cbs c) <= fold_right (fun e n => length (snd e) + n) 0 cbs.
Proof.
  induction cbs as [|[c' l] cbs IH]; [cbn; lia|]. cbn [fold_right snd]. unfold getl in *. cbn [dget dict_get]. destruct (cmd_eqb c' c); [lia|]. destruct (dict_get cmd_eqb cbs c); lia.
Qed.
Theorem keeps_asking s i : reachable s -> in_loop s i ->
  exists k, forall n sched, k * S n <= thread_steps i sched -> ended i (arun sched s) = true \/ exists new, a_events (arun sched s) = a_events s ++ new /\ S n <= count (asks i) new.
Proof.
  intros Re L. destruct (reachable_inv _ Re) as [V _]. apply in_loop_iff in L as (p & P & L).
  set (B := 13 + fold_right (fun e n => length (snd e) + n) 0 (a_cbs s)). exists (B + to_ask s p). intros n sched N.
  assert (F : fits B s) by (intros c; pose proof (getl_bound (a_cbs s) c); unfold B; lia).
  destruct (asks_run B i sched s p n) as [D|D]; auto; [unfold B; lia|intros ->; discriminate L|nia|].
  right. destruct (arun_events sched s V) as [new E]. exists new. split; [exact E|]. rewrite E, count_app in D. lia.
Qed.

(* ---- every command gets its turns ---- *)
Lemma turns_asks i t answers : forall k l, turns i t k answers l -> count (asks i) l = length answers.
Proof.
  induction answers as [|r rs IH]; intros k l H; cbn [turns] in H; [subst l; reflexivity|]. destruct H as (e & l' & _ & -> & H). rewrite count_app, (IH _ _ H).
  unfold turn, count. cbn [filter asks]. rewrite Nat.eqb_refl. cbn [length]. replace (filter (asks i) (fires i (fst e) r (snd e))) with (@nil aevent); [reflexivity|].
  unfold fires. induction (snd e) as [|f fs IHf]; [reflexivity|exact IHf].
Qed.
Lemma begun_asks i t k l : begun i t k l -> count (asks i) l <= 1.
Proof.
  intros [->|(e & _ & [(x & ->)|(r & fs & rest & _ & ->)])]; [cbn; lia|cbn; destruct (Nat.eqb i i); cbn; lia|]. unfold count. cbn [filter asks]. rewrite Nat.eqb_refl. cbn [length].
  replace (filter (asks i) (fires i (fst e) r fs)) with (@nil aevent); [cbn; lia|]. unfold fires. induction fs as [|f fs IHf]; [reflexivity|exact IHf].
Qed.
Lemma turns_split i t a : forall b k l, turns i t k (a ++ b) l -> exists l1 l2, l = l1 ++ l2 /\ turns i t k a l1 /\ turns i t (k + length a) b l2.
Proof.
  induction a as [|r a IH]; intros b k l H; cbn [app turns length] in *; [exists [], l; rewrite Nat.add_0_r; auto|].
  destruct H as (e & l' & E & -> & H). destruct (IH _ _ _ H) as (l1 & l2 & -> & H1 & H2). exists (turn i e r ++ l1), l2. split; [apply app_assoc|]. split; [exists e, l1; auto|].
  replace (k + S (length a)) with (S k + length a) by lia. exact H2.
Qed.
Lemma comes_round T k m : m < T -> exists j, j < T /\ (k + j) mod T = m.
Proof.
  intros H. assert (N : T <> 0) by lia. exists ((m + (T - k mod T)) mod T). split; [apply Nat.mod_upper_bound, N|].
  rewrite Nat.add_mod_idemp_r by exact N. pose proof (Nat.mod_upper_bound k T N). rewrite <- (Nat.add_mod_idemp_l k) by exact N.
  replace (k mod T + (m + (T - k mod T))) with (m + 1 * T) by lia. rewrite Nat.mod_add by exact N. apply Nat.mod_small, H.
Qed.
(* a predicate that holds of some event of every turn of the m-th entry *)
Lemma turns_round i t q m e : nth_error t m = Some e -> (forall r, 1 <= count q (turn i e r)) -> forall n answers k l, turns i t k answers l -> n * length t <= length answers -> n <= count q l.
Proof.
  intros E Q. assert (Lm : m < length t) by (apply nth_error_Some; rewrite E; discriminate).
  induction n as [|n IH]; intros answers k l H L; [lia|]. cbn [Nat.mul] in L.
  rewrite <- (firstn_skipn (length t) answers) in H. destruct (turns_split _ _ _ _ _ _ H) as (l1 & l2 & -> & H1 & H2).
  assert (F : length (firstn (length t) answers) = length t) by (rewrite firstn_length; lia).
  apply IH in H2; [|rewrite skipn_length; lia]. rewrite count_app. enough (1 <= count q l1) by lia.
  destruct (comes_round (length t) k m Lm) as (j & Lj & Ej). revert H1. generalize dependent (firstn (length t) answers). intros a _ F H1.
  destruct (nth_error a j) as [r|] eqn:Ar; [|apply nth_error_None in Ar; lia]. apply nth_error_split in Ar as (a1 & a2 & -> & La).
  destruct (turns_split _ _ _ _ _ _ H1) as (b1 & b2 & -> & _ & H3). cbn [turns] in H3. destruct H3 as (e' & l' & E' & -> & _).
  rewrite La in E'. unfold entry in E'. rewrite Ej, E in E'. injection E' as <-. rewrite !count_app. specialize (Q r). lia.
Qed.
Lemma same_refl c : same c c = true.
Proof. unfold same. rewrite !(proj2 (text_eqb_eq _ _) eq_refl). reflexivity. Qed.
Lemma filter_sub {A} (p q : A -> bool) l : (forall x, p x = true -> q x = true) -> filter p (filter q l) = filter p l.
Proof.
  intros H. induction l as [|x l IH]; [reflexivity|]. cbn. destruct (q x) eqn:E; cbn; [rewrite IH; reflexivity|]. destruct (p x) eqn:E2; [rewrite (H _ E2) in E; discriminate E|exact IH].
Qed.
Lemma count_done i p l : (forall x, p x = true -> by_thread i x = true) -> count p (done_by i l) = count p l.
Proof. intros H. unfold count, done_by. rewrite filter_sub by exact H. reflexivity. Qed.

Theorem every_command s i rest : reachable s -> a_events (astep CMain s) = a_events s ++ AEv_start i :: rest ->
  exists k, forall n sched, k * S n <= thread_steps i sched ->
    ended i (arun (CMain :: sched) s) = true \/
    forall c fs, In (c, fs) (subscriptions s) ->
      n <= count (asks_for i c) (a_events (arun (CMain :: sched) s)) /\
      forall f, In f fs -> n <= count (hands i c f) (a_events (arun (CMain :: sched) s)).
Proof.
  intros Re H. assert (Re1 : reachable (astep CMain s)) by (apply (reachable_run s [CMain] Re)).
  assert (L1 : in_loop (astep CMain s) i).
  { unfold astep in *. destruct (main_step s) as [s'|] eqn:M; [|rewrite <- (app_nil_r (a_events s)) in H at 1; apply app_inv_head in H; discriminate H].
    destruct (reachable_inv _ Re) as [V _]. destruct (main_events _ _ M) as [E|[(out & E & _)|(k & out & Pc & Th & E & Ts)]]; rewrite E in H.
    - rewrite <- (app_nil_r (a_events s)) in H at 1. apply app_inv_head in H. discriminate H.
    - apply app_inv_head in H. discriminate H.
    - apply app_inv_head in H. injection H as <- _. pose proof (I_main _ V) as Mo. unfold main_ok in Mo. rewrite Pc in Mo.
      unfold in_loop. rewrite Ts, nth_set, Nat.eqb_refl. destruct Mo as (_ & _ & j & Th2 & P). assert (j = k) by congruence. subst j. unfold pc_of in P. rewrite P. exact Logic.I. }
  destruct (keeps_asking _ _ Re1 L1) as [k Hk]. exists (k * S (length (subscriptions s))). intros n sched N.
  destruct (Hk (n * length (subscriptions s)) sched) as [D|(new & E & D)]; [nia|left; exact D|right].
  assert (G := goes_round_always s i rest sched Re H). change (arun (CMain :: sched) s) with (arun sched (astep CMain s)) in *.
  destruct G as (answers & l1 & l2 & Ed & T & B).
  assert (A : n * length (subscriptions s) <= length answers).
  { assert (X : count (asks i) (done_by i (a_events (arun sched (astep CMain s)))) = length answers + count (asks i) l2) by (rewrite Ed, count_app, (turns_asks _ _ _ _ _ T); reflexivity).
    pose proof (begun_asks _ _ _ _ B). rewrite count_done in X by (intros [j ? ?|j ? ? ?|j|? ?]; cbn; try discriminate; auto). rewrite E, count_app in X. lia. }
  intros c fs Hc. apply In_nth_error in Hc as [m Hm]. split; [|intros f Hf].
  - rewrite <- (count_done i) by (intros [j ? ?|j ? ? ?|j|? ?]; cbn; try discriminate; destruct (Nat.eqb i j); cbn; auto). rewrite Ed, count_app.
    enough (n <= count (asks_for i c) l1) by lia. apply (turns_round i _ (asks_for i c) m _ Hm) with (n := n) (answers := answers) (k := 0); auto.
    intros r. unfold turn, count. cbn [filter asks_for fst]. rewrite Nat.eqb_refl, same_refl. cbn. lia.
  - rewrite <- (count_done i) by (intros [j ? ?|j ? ? ?|j|? ?]; cbn; try discriminate; destruct (Nat.eqb i j); cbn; auto). rewrite Ed, count_app.
    enough (n <= count (hands i c f) l1) by lia. apply (turns_round i _ (hands i c f) m _ Hm) with (n := n) (answers := answers) (k := 0); auto.
    intros r. unfold turn, count. cbn [filter hands fst snd]. clear - Hf. unfold fires. induction fs as [|g fs IH]; [destruct Hf|]. cbn [map filter hands]. rewrite Nat.eqb_refl, same_refl. cbn [andb].
    destruct (Z.eqb_spec g f) as [->|X]; [cbn; lia|]. destruct Hf as [->|Hf]; [contradiction|apply IH, Hf].
Qed.

(* ---- why a loop ends ---- *)
Theorem leaves_loop s ch i : reachable s -> in_loop s i -> ~ in_loop (astep ch s) i -> exists b, ch = CThread i b /\
  (inside_stop s \/ async_connected s = false \/ (exists c e, a_events (astep ch s) = a_events s ++ [AEv_query i c (Raise e)])
   \/ b = true /\ exists c f r, a_events (astep ch s) = a_events s ++ [AEv_fire i c f r]).
Proof.
  intros Re L N. destruct (reachable_inv _ Re) as [V _]. rewrite in_loop_iff in L, N. destruct L as (p & P & L). destruct ch as [|j b]; unfold astep in *.
  - exfalso. apply N. destruct (main_step s) as [s'|] eqn:H; [|eauto]. destruct (main_frame _ _ V H) as [_ F]. exists p. split; [|exact L]. apply F; [exact P|]. intros ->. discriminate L.
  - destruct (thread_step j b s) as [s'|] eqn:H; [|exfalso; apply N; eauto].
    destruct (thread_frame _ _ _ _ V H) as (_ & _ & _ & _ & _ & _ & _ & _ & _ & F10 & _).
    destruct (Nat.eq_dec i j) as [<-|X]; [|exfalso; apply N; exists p; rewrite F10; auto]. exists b. split; [reflexivity|].
    destruct (thread_step_spec _ _ _ _ V H) as (p0 & P0 & U). assert (p0 = p) by congruence. subst p0.
    assert (Q : forall p' s1, a_threads s1 = a_threads s -> s' = set_tpc i p' s1 -> looping p' = true -> False).
    { intros p' s1 E -> L'. apply N. exists p'. split; [|exact L']. unfold pc_of in *. cbn. rewrite E, nth_set, Nat.eqb_refl, P. reflexivity. }
    pose proof (I_ok _ V _ _ P) as Tk.
    destruct p; cbn [undisturbed_step] in U; try contradiction; try discriminate L; try (exfalso; eapply (Q _ s eq_refl U); reflexivity).
    + destruct (a_running s) eqn:R; [exfalso; apply (Q _ s eq_refl U); reflexivity|]. left. destruct (I_stopped _ V R _ _ P eq_refl) as [Y|Y]; [discriminate Y|]. unfold inside_stop. destruct (a_pc s); try discriminate Y; exact Logic.I.
    + exfalso. apply (Q _ s eq_refl U). destruct (it_keys it); reflexivity.
    + exfalso. apply (Q _ s eq_refl U). destruct (async_connected s); reflexivity.
    + exfalso. apply (Q _ (upd_running false s) eq_refl U). reflexivity.
    + right. left. apply Tk.
    + destruct U as (r & ow & _ & U). destruct r as [r|e]; [exfalso; eapply (Q _ (add_event _ (upd_obd ow s)) eq_refl U); reflexivity|]. right. right. left. exists c, e. subst s'. reflexivity.
    + exfalso. apply (Q _ (upd_dicts (dset (a_cmds s) c r, a_cbs s) s) eq_refl U). reflexivity.
    + destruct U as (l & _ & U). exfalso. apply (Q _ s eq_refl U). reflexivity.
    + destruct cbs as [|f fs]; [exfalso; apply (Q _ s eq_refl U); reflexivity|]. destruct b; [|exfalso; apply (Q _ (add_event (AEv_fire i c f r) s) eq_refl U); reflexivity].
      right. right. right. split; [reflexivity|]. exists c, f, r. subst s'. reflexivity.
Qed.
