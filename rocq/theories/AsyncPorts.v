(* The connection of an Async object is used by one thread at a time. *)
From Coq Require Import ZArith List Bool Lia.
From Verif Require Import Py Num Utils Protocol Decoders Command CommandTable Commands World Elm Obd Async Async2 SpecElm SpecObd SpecAsync SpecAsync2 SpecPorts SpecScan
  PyFacts CommandThms ElmFacts ElmThms ObdFacts ObdThms ObdThms2 ObdThms3 ObdThms4 AsyncFacts AsyncThms AsyncThms2 AsyncCb AsyncCb2 AsyncCb3 ScanThms ConnectThms PortThms.
Import ListNotations.
Open Scope nat_scope.
Local Opaque watch_table unwatch_table obd_close query.

Definition conn (s : astate) : obd * world := (a_obd s, a_world s).
Lemma main_conn s s1 : main_step s = Some s1 ->
  (conn s1 = conn s /\ (a_pc s1 = M_close2 -> a_thread s1 = None) /\ a_pc s <> M_close2) \/ (a_pc s = M_close2 /\ a_pc s1 = M_idle /\ conn s1 = snd (obd_close (conn s))).
Proof.
  intros H. unfold main_step in H. unfold conn. destruct (a_pc s) eqn:P.
  all: try (left; split; [|split; [|discriminate]];
    repeat match type of H with
    | context [match ?x with _ => _ end] => destruct x eqn:?
    | Some _ = Some _ => injection H as H; subst s1
    | None = Some _ => discriminate H
    end; solve [reflexivity | discriminate | assumption | cbn; intros; first [discriminate|congruence]]).
  right. destruct (obd_close (a_obd s, a_world s)) as [r [o w]]. injection H as <-. auto.
Qed.
Lemma thread_conn i b s s1 : thread_step i b s = Some s1 ->
  a_pc s1 = a_pc s /\ (a_thread s = None -> a_thread s1 = None)
  /\ (conn s1 = conn s \/ exists c it, pc_of s i = Some (T_query c it) /\ conn s1 = snd (query c true (conn s))).
Proof.
  intros H. unfold thread_step in H. fold (pc_of s i) in H. unfold conn. destruct (pc_of s i) as [p|]; [|discriminate H].
  destruct p; try discriminate H;
    try (repeat match type of H with
    | context [match ?x with _ => _ end] => destruct x
    | Some _ = Some _ => injection H as H; subst s1
    end; cbn; auto; fail).
  destruct (query c true (a_obd s, a_world s)) as [r [o w]] eqn:Q. injection H as <-. split; [reflexivity|]. split; [auto|]. right. exists c, it. split; [reflexivity|]. rewrite Q. reflexivity.
Qed.
Lemma give_back_conn s s1 : conn (give_back s s1) = conn s1. Proof. reflexivity. Qed.

Definition kinv (s : bstate) : Prop := jinv s /\ (a_pc (b_a s) = M_close2 -> a_thread (b_a s) = None).
Lemma cb_thread s i x : jinv s -> b_in s i = Some x -> a_thread (b_a s) = Some i.
Proof. intros J B. destruct x as [pc op]. destruct (J_in _ J _ _ _ B) as [(c & r & fs & it & P) _]. apply (J_one _ J _ _ P eq_refl). Qed.
Lemma asking_thread s i : jinv s -> asking s i -> a_thread (b_a s) = Some i.
Proof. intros J (c & it & P). apply (J_one _ J _ _ P eq_refl). Qed.
Lemma asking_alone s i j : jinv s -> asking s i -> b_in s j = None.
Proof.
  intros J A. destruct (b_in s j) as [[pc op]|] eqn:B; [|reflexivity]. pose proof (asking_thread _ _ J A) as T. pose proof (cb_thread _ _ _ J B) as T'.
  assert (i = j) by congruence. subst j. destruct (J_in _ J _ _ _ B) as [(c & r & fs & it & P) _]. destruct A as (c' & it' & Q). unfold pc_of in P. congruence.
Qed.
(* a step of an API call made by a callback does not use the connection *)
Lemma cb_conn s i pc op prog s' : calm i pc op (b_a s) -> cb_step i pc op prog s = Some s' -> connection s' = connection s /\ a_pc (b_a s') = a_pc (b_a s).
Proof.
  intros C H. unfold cb_step in H.
  set (js := match pc with M_stop4 j _ => Nat.eqb i j | _ => false end) in H. destruct js.
  - injection H as <-. auto.
  - destruct (main_step (lend pc op prog (b_a s))) as [s1|] eqn:M; [|discriminate H]. injection H as <-. split; [|reflexivity].
    apply main_conn in M as [(E & _)|(E & _)]; [unfold connection, b_a; exact E|]. cbn in E. rewrite E in C. destruct C.
Qed.
Lemma step_conn s ch : kinv s ->
  (connection (bstep ch s) = connection s)
  \/ (exists i c it, ch = BThread i /\ pc_of (b_a s) i = Some (T_query c it) /\ connection (bstep ch s) = snd (query c true (connection s)))
  \/ (ch = BMain /\ user_closing s /\ ~ user_closing (bstep ch s) /\ connection (bstep ch s) = snd (obd_close (connection s))).
Proof.
  intros [J K]. unfold bstep. destruct ch as [|i|i d].
  - destruct (main_step (b_a s)) as [s1|] eqn:M; cbn [option_map]; [|left; reflexivity]. apply main_conn in M as [(E & _)|(E & N & D)]; [left; exact E|].
    right. right. split; [reflexivity|]. split; [exact E|]. split; [unfold user_closing; cbn [b_a]; rewrite N; discriminate|exact D].
  - unfold loop_step. destruct (b_in s i) as [[pc op]|] eqn:B.
    + left. assert (Z : match cb_step i pc op [] s with Some s' => connection s' = connection s | None => True end).
      { destruct (cb_step i pc op [] s) as [s'|] eqn:C; [|exact Logic.I]. apply (cb_conn _ _ _ _ _ _ (proj2 (J_in _ J _ _ _ B)) C). }
      destruct pc; try (destruct (cb_step i _ op [] s); [exact Z|reflexivity]). reflexivity.
    + destruct (thread_step i false (b_a s)) as [s1|] eqn:T; [|left; reflexivity]. apply thread_conn in T as (_ & _ & [E|(c & it & P & E)]); [left; exact E|].
      right. left. exists i, c, it. auto.
  - left. unfold cb_does. destruct (b_in s i) as [[pc op]|] eqn:B; [|reflexivity]. destruct pc; try reflexivity. destruct d as [o| |].
    + destruct (cb_step i M_idle AStop [o] s) as [s'|] eqn:C; [|reflexivity]. apply (cb_conn s i M_idle AStop [o] s' Logic.I C).
    + reflexivity.
    + reflexivity.
Qed.
Lemma k_step s ch : kinv s -> kinv (bstep ch s).
Proof.
  intros [J K]. split; [apply j_step, J|]. unfold bstep. destruct ch as [|i|i d].
  - destruct (main_step (b_a s)) as [s1|] eqn:M; cbn [option_map]; [|exact K]. cbn [b_a]. apply main_conn in M as [(_ & E & _)|(_ & E & _)]; [exact E|congruence].
  - unfold loop_step. destruct (b_in s i) as [[pc op]|] eqn:B.
    + pose proof (cb_thread _ _ _ J B) as T.
      assert (Z : match cb_step i pc op [] s with Some s' => a_pc (b_a s') = M_close2 -> a_thread (b_a s') = None | None => True end).
      { destruct (cb_step i pc op [] s) as [s'|] eqn:C; [|exact Logic.I]. intros X. destruct (cb_conn _ _ _ _ _ _ (proj2 (J_in _ J _ _ _ B)) C) as [_ E]. rewrite E in X. specialize (K X). congruence. }
      destruct pc; try (destruct (cb_step i _ op [] s); [exact Z|exact K]). exact K.
    + destruct (thread_step i false (b_a s)) as [s1|] eqn:T; [|exact K]. cbn [b_a]. apply thread_conn in T as (E & F & _). rewrite E. auto.
  - unfold cb_does. destruct (b_in s i) as [[pc op]|] eqn:B; [|exact K]. destruct pc; try exact K. pose proof (cb_thread _ _ _ J B) as T. destruct d as [o| |].
    + destruct (cb_step i M_idle AStop [o] s) as [s'|] eqn:C; [|exact K]. intros X. destruct (cb_conn s i M_idle AStop [o] s' Logic.I C) as [_ E]. rewrite E in X. specialize (K X). congruence.
    + exact K.
    + exact K.
Qed.
Lemma k_run sched : forall s, kinv s -> kinv (brun sched s).
Proof. induction sched as [|ch l IH]; intros s J; [exact J|]. cbn. apply IH, k_step, J. Qed.
Lemma k_new o w prog : kinv (new_b (new_async o w prog)).
Proof.
  split; [|discriminate]. constructor; cbn [b_a b_in b_log new_b new_async a_thread a_pc].
  - intros i p Q. destruct i; discriminate Q.
  - intros i Q. destruct i; discriminate Q.
  - discriminate.
  - exact Logic.I.
  - discriminate.
  - contradiction.
Qed.
Theorem b_reachable_kinv s : b_reachable s -> kinv s.
Proof. intros (prog & s0 & sched & (cf & port & scan & w & o & w1 & _ & ->) & ->). apply k_run, k_new. Qed.

(* a property of the connection kept by query() and close() holds throughout *)
Lemma conn_run (P : obd * world -> Prop) : (forall c, keeps P (query c true)) -> keeps P obd_close -> forall sched s, kinv s -> P (connection s) -> P (connection (brun sched s)).
Proof.
  intros Q C sched. induction sched as [|ch l IH]; intros s K H; [exact H|]. cbn. apply IH; [apply k_step, K|].
  destruct (step_conn s ch K) as [E|[(i & c & it & _ & _ & E)|(_ & _ & _ & E)]]; rewrite E; [exact H|apply Q, H|apply C, H].
Qed.
Lemma oinv_query c f : keeps (fun s : obd * world => oinv (fst s)) (query c f).
Proof.
  intros [o w] H. destruct (query c f (o, w)) as [r [o' w']] eqn:Q. destruct (query_spec _ _ _ _ _ _ _ H Q) as (t & _ & R). apply (query_run_inv _ _ _ _ _ _ H R).
Qed.
Lemma oinv_close : keeps (fun s : obd * world => oinv (fst s)) obd_close.
Proof.
  intros [o w] H. destruct (obd_close (o, w)) as [r [o' w']] eqn:Q. destruct (obd_close_spec _ _ _ _ _ H Q) as (t & _ & R). apply (close_run_inv _ _ _ _ H R).
Qed.
Lemma async_open cf port scan w o w1 t0 prog sched : new_obd cf port scan w = (Ok tt, (o, w1)) -> w_trace w1 = w_trace w ++ t0 ->
  let s := brun sched (new_b (new_async o w1 prog)) in
  exists t, w_trace (a_world (b_a s)) = w_trace w ++ t0 ++ t
    /\ left_open 0 (t0 ++ t) = Some (pred (length (opened t0)) + match obd_status (a_obd (b_a s)) with NOT_CONNECTED => 0 | _ => 1 end).
Proof.
  intros N T0 s. destruct (new_obd_held _ _ _ _ _ _ N) as (n & L & K). rewrite T0, opened_app, app_length in L. assert (n = length (opened t0)) by lia. subst n.
  assert (OI : oinv (fst (connection s))).
  { apply (conn_run (fun x => oinv (fst x)) (fun c => oinv_query c true) oinv_close sched _ (k_new o w1 prog)).
    destruct (session_oinv cf port scan w t0 [] o w1) as (X & _); [exists (o, w1); repeat split; [exact N|exact T0|constructor]|exact X]. }
  assert (H : oheld (w_trace w) (pred (length (opened t0))) (connection s)).
  { apply (conn_run _ (fun c => oheld_query (w_trace w) _ c true) (oheld_close (w_trace w) _) sched _ (k_new o w1 prog)). exact K. }
  assert (G : oinv (fst (connection s)) /\ exists t, w_trace (snd (connection s)) = (w_trace w ++ t0) ++ t).
  { apply (conn_run (fun x => oinv (fst x) /\ exists t, w_trace (snd x) = (w_trace w ++ t0) ++ t)) with (s := new_b (new_async o w1 prog)).
    - intros c [o2 w2] [O [t E]]. split; [apply (oinv_query c true (o2, w2) O)|]. destruct (query c true (o2, w2)) as [r [o3 w3]] eqn:Q. destruct (query_spec _ _ _ _ _ _ _ O Q) as (t' & E' & _).
      exists (t ++ t'). cbn [snd] in *. rewrite E', E, <- !app_assoc. reflexivity.
    - intros [o2 w2] [O [t E]]. split; [apply (oinv_close (o2, w2) O)|]. destruct (obd_close (o2, w2)) as [r [o3 w3]] eqn:Q. destruct (obd_close_spec _ _ _ _ _ O Q) as (t' & E' & _).
      exists (t ++ t'). cbn [snd] in *. rewrite E', E, <- !app_assoc. reflexivity.
    - apply k_new.
    - split; [|exists []; rewrite app_nil_r; exact T0].
      destruct (session_oinv cf port scan w t0 [] o w1) as (X & _); [exists (o, w1); repeat split; [exact N|exact T0|constructor]|exact X]. }
  destruct G as [_ G]. unfold connection in G. cbn [snd] in G.
  destruct G as [t G]. exists t. rewrite <- app_assoc in G. split; [exact G|]. destruct H as (t' & E & Lo). unfold connection in E, Lo. cbn [fst snd] in *. fold s in E, Lo.
  rewrite G in E. apply app_inv_head in E. subst t'. rewrite Lo. f_equal. f_equal.
  unfold connection in OI. cbn [fst] in OI. unfold ohp, obd_status. unfold oinv in OI. destruct (o_interface (a_obd (b_a s))) as [e|]; [|reflexivity]. unfold hp. destruct OI as [V _].
  destruct (e_port e); [destruct (e_status e); try reflexivity; destruct V as [V _]; discriminate (V eq_refl)|]. destruct V as [_ V]. rewrite V; reflexivity.
Qed.

Lemma others_keep_pc s ch : kinv s -> ch <> BMain -> a_pc (b_a (bstep ch s)) = a_pc (b_a s).
Proof.
  intros [J K] N. unfold bstep. destruct ch as [|i|i d]; [congruence| |].
  - unfold loop_step. destruct (b_in s i) as [[pc op]|] eqn:B.
    + assert (Z : match cb_step i pc op [] s with Some s' => a_pc (b_a s') = a_pc (b_a s) | None => True end).
      { destruct (cb_step i pc op [] s) as [s'|] eqn:C; [|exact Logic.I]. apply (cb_conn _ _ _ _ _ _ (proj2 (J_in _ J _ _ _ B)) C). }
      destruct pc; try (destruct (cb_step i _ op [] s); [exact Z|reflexivity]). reflexivity.
    + destruct (thread_step i false (b_a s)) as [s1|] eqn:T; [|reflexivity]. apply thread_conn in T as (E & _). exact E.
  - unfold cb_does. destruct (b_in s i) as [[pc op]|] eqn:B; [|reflexivity]. destruct pc; try reflexivity. destruct d as [o| |]; try reflexivity.
Qed.
Lemma asking_step s i ch : kinv s -> asking s i -> ch <> BThread i -> asking (bstep ch s) i.
Proof.
  intros [J K] A N. pose proof (asking_alone s i) as Al. destruct A as (c & it & P). assert (A : asking s i) by (exists c, it; exact P). exists c, it. fold (pc_of (b_a s) i) in P. fold (pc_of (b_a (bstep ch s)) i).
  unfold bstep. destruct ch as [|j|j d].
  - destruct (main_step (b_a s)) as [s1|] eqn:M; cbn [option_map]; [|exact P]. apply (proj1 (main_effect _ _ _ _ J M P ltac:(discriminate))).
  - assert (j <> i) by congruence. unfold loop_step. rewrite (Al j J A). destruct (thread_step j false (b_a s)) as [s1|] eqn:T; [|exact P]. cbn [b_a]. rewrite (thread_keeps_other _ _ _ _ _ H T). exact P.
  - unfold cb_does. rewrite (Al j J A). exact P.
Qed.
