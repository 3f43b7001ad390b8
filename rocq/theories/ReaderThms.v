(* Readers. *)
From Coq Require Import ZArith List Bool Lia.
From Verif Require Import Py Num Utils Protocol Decoders Command CommandTable Commands World Elm Obd Async SpecElm SpecObd SpecAsync PyFacts CommandThms ElmFacts ElmThms ObdFacts ObdThms ObdThms2 ObdThms3 ObdThms4 AsyncFacts AsyncThms AsyncThms2 AsyncThms3 AsyncThms4 AsyncThms5 AsyncThms6 AsyncThms7 Readers SpecReaders.
Import ListNotations.
Open Scope nat_scope.
Local Opaque query obd_close watch_table unwatch_table.

Lemma rrun_app a b r : rrun (a ++ b) r = rrun b (rrun a r). Proof. apply fold_left_app. Qed.
Theorem readers_change_nothing sched : forall r, r_a (rrun sched r) = arun (others sched) (r_a r).
Proof.
  induction sched as [|ch sched IH]; intros r; [reflexivity|]. cbn [rrun fold_left]. fold (rrun sched (rstep ch r)). rewrite IH. destruct ch as [ch|j c]; cbn [others flat_map app]; fold (others sched).
  - reflexivity.
  - f_equal. cbn [rstep]. destruct (r_at r j); [reflexivity|]. destruct (dict_mem cmd_eqb _ c); reflexivity.
Qed.
Lemma answers_app_of j a b : answers_of j (a ++ b) = answers_of j a ++ answers_of j b.
Proof. unfold answers_of. rewrite filter_app, map_app. reflexivity. Qed.
Lemma put_same f j x : put_at f j x j = x. Proof. unfold put_at. rewrite Nat.eqb_refl. reflexivity. Qed.
Lemma put_other f j x k : k <> j -> put_at f j x k = f k. Proof. intros N. unfold put_at. destruct (Nat.eqb_spec k j); [contradiction|reflexivity]. Qed.
Lemma watched_iff s c : is_watched s c <-> exists y, dict_get cmd_eqb (a_cmds s) c = Some y.
Proof. rewrite is_watched_mem. unfold dict_mem. destruct (dict_get cmd_eqb (a_cmds s) c); split; eauto; try discriminate. intros [y X]. discriminate X. Qed.

(* a step of another thread leaves reader j where it is *)
Lemma step_other j ch r : (forall c, ch <> RRead j c) -> r_at (rstep ch r) j = r_at r j /\ answers_of j (r_got (rstep ch r)) = answers_of j (r_got r).
Proof.
  intros N. destruct ch as [ch|k c]; [cbn; auto|]. assert (k <> j) as Nk by (intros ->; exact (N c eq_refl)). cbn [rstep].
  assert (A : forall x, answers_of j [(k, c, x)] = []) by (intros x; unfold answers_of; cbn; destruct (Nat.eqb_spec k j); [contradiction|reflexivity]).
  assert (A' : forall d x, answers_of j [(k, d, x)] = []) by (intros d x; unfold answers_of; cbn; destruct (Nat.eqb_spec k j); [contradiction|reflexivity]).
  destruct (r_at r k) as [d|] eqn:E.
  - cbn [r_at r_got]. rewrite put_other by auto. rewrite answers_app_of, A', app_nil_r. auto.
  - destruct (dict_mem cmd_eqb _ c); cbn [r_at r_got]; [rewrite put_other by auto; auto|]. rewrite answers_app_of, A, app_nil_r. auto.
Qed.
(* in a call: it ends with the reader's next step *)
Lemma in_call j c : forall sched r, r_at r j = Some c ->
  (its_steps j sched = 0 /\ answers_of j (r_got (rrun sched r)) = answers_of j (r_got r)) \/
  exists s1 d s2, sched = s1 ++ RRead j d :: s2 /\ answers_of j (r_got (rrun s1 r)) = answers_of j (r_got r) /\ r_at (rrun s1 r) j = Some c /\
    answers_of j (r_got (rstep (RRead j d) (rrun s1 r))) = answers_of j (r_got r) ++ [(c, match dict_get cmd_eqb (a_cmds (r_a (rrun s1 r))) c with Some x => Ok x | None => Raise KeyError end)].
Proof.
  induction sched as [|ch sched IH]; intros r A; [left; split; reflexivity|].
  assert (D : (exists d, ch = RRead j d) \/ forall d, ch <> RRead j d) by (destruct ch as [ch|k d]; [right; discriminate|]; destruct (Nat.eq_dec k j) as [->|N]; [eauto|right; congruence]).
  destruct D as [[d ->]|N].
  - right. exists [], d, sched. split; [reflexivity|]. split; [reflexivity|]. split; [exact A|]. cbn [rrun fold_left rstep]. rewrite A. cbn [r_got]. rewrite answers_app_of. f_equal. unfold answers_of. cbn. rewrite Nat.eqb_refl. reflexivity.
  - destruct (step_other j ch r N) as [E1 E2]. destruct (IH (rstep ch r) ltac:(congruence)) as [[Z0 E]|(s1 & d & s2 & -> & Ea & Eat & Er)].
    + left. split; [|cbn [rrun fold_left]; fold (rrun sched (rstep ch r)); congruence]. unfold its_steps in *. cbn [filter]. destruct ch as [ch|k d]; [exact Z0|]. destruct (Nat.eqb_spec k j) as [->|_]; [destruct (N d eq_refl)|exact Z0].
    + right. exists (ch :: s1), d, s2. split; [reflexivity|]. cbn [rrun fold_left]. fold (rrun s1 (rstep ch r)). split; [congruence|]. split; [exact Eat|]. rewrite Er. congruence.
Qed.
Lemma answers_grow j sched : forall r, exists new, answers_of j (r_got (rrun sched r)) = answers_of j (r_got r) ++ new.
Proof.
  induction sched as [|ch sched IH]; intros r; [exists []; rewrite app_nil_r; reflexivity|]. cbn [rrun fold_left]. fold (rrun sched (rstep ch r)). destruct (IH (rstep ch r)) as [new E]. rewrite E.
  assert (G : exists l, answers_of j (r_got (rstep ch r)) = answers_of j (r_got r) ++ l).
  { destruct ch as [ch|k c]; [exists []; rewrite app_nil_r; reflexivity|]. cbn [rstep]. destruct (r_at r k); [|destruct (dict_mem cmd_eqb _ c)]; cbn [r_got]; try (rewrite answers_app_of; eauto). exists []. rewrite app_nil_r. reflexivity. }
  destruct G as [l ->]. rewrite <- app_assoc. eauto.
Qed.
(* the states while the call goes on *)
Theorem reader_moment r j c sched x rest : at_rest j r -> let r1 := rstep (RRead j c) r in
  answers_of j (r_got (rrun sched r1)) = answers_of j (r_got r) ++ (c, x) :: rest ->
  (exists s1 s2, sched = s1 ++ s2 /\ (s1 = [] \/ answers_of j (r_got (rrun s1 r1)) = answers_of j (r_got r)) /\ x = Ok (latest (r_a (rrun s1 r1)) c)) \/
  (x = Raise KeyError /\ is_watched (r_a r) c /\ exists s1 s2, sched = s1 ++ s2 /\ answers_of j (r_got (rrun s1 r1)) = answers_of j (r_got r) /\ ~ is_watched (r_a (rrun s1 r1)) c).
Proof.
  intros A r1 E. unfold at_rest in A. unfold r1 in *. clear r1. cbn [rstep] in E |- *. rewrite A in E |- *. destruct (dict_mem cmd_eqb (a_cmds (r_a r)) c) eqn:M.
  - set (r1 := mkR (r_a r) (put_at (r_at r) j (Some c)) (r_got r)) in *. destruct (in_call j c sched r1 (put_same _ _ _)) as [[_ X]|(s1 & d & s2 & -> & Ea & Eat & Er)].
    + exfalso. rewrite X in E. cbn [r_got] in E. assert (L : length (answers_of j (r_got r)) = length (answers_of j (r_got r) ++ (c, x) :: rest)) by (rewrite <- E; reflexivity). rewrite app_length in L. cbn in L. lia.
    + rewrite rrun_app in E. cbn [rrun fold_left] in E. fold (rrun s2 (rstep (RRead j d) (rrun s1 r1))) in E. destruct (answers_grow j s2 (rstep (RRead j d) (rrun s1 r1))) as [new G]. fold (rrun s1 r1) in E. rewrite G, Er, <- app_assoc in E. cbn [r_got r1] in E. apply app_inv_head in E. injection E as Ex _.
      destruct (dict_get cmd_eqb (a_cmds (r_a (rrun s1 r1))) c) as [y|] eqn:D.
      * left. exists s1, (RRead j d :: s2). split; [reflexivity|]. split; [right; exact Ea|]. unfold latest. rewrite D. congruence.
      * right. split; [congruence|]. split; [apply is_watched_mem; exact M|]. exists s1, (RRead j d :: s2). split; [reflexivity|]. split; [exact Ea|]. rewrite watched_iff. intros [y X]. congruence.
  - left. exists [], sched. split; [reflexivity|]. split; [left; reflexivity|]. cbn [rrun fold_left r_a].
    destruct (answers_grow j sched (mkR (r_a r) (r_at r) (r_got r ++ [(j, c, Ok empty_response)]))) as [new G]. rewrite G in E. cbn [r_got] in E. rewrite answers_app_of, <- app_assoc in E. apply app_inv_head in E.
    unfold answers_of in E. cbn in E. rewrite Nat.eqb_refl in E. cbn in E. injection E as Ex _. rewrite latest_unwatched; [congruence|]. rewrite is_watched_mem. congruence.
Qed.
Theorem reader_returns r j c sched : at_rest j r -> 1 <= its_steps j sched -> exists x rest, answers_of j (r_got (rrun (RRead j c :: sched) r)) = answers_of j (r_got r) ++ (c, x) :: rest.
Proof.
  intros A N. unfold at_rest in A. cbn [rrun fold_left rstep]. rewrite A. destruct (dict_mem cmd_eqb (a_cmds (r_a r)) c) eqn:M.
  - set (r1 := mkR (r_a r) (put_at (r_at r) j (Some c)) (r_got r)) in *. fold (rrun sched r1). destruct (in_call j c sched r1 (put_same _ _ _)) as [[X _]|(s1 & d & s2 & -> & Ea & Eat & Er)]; [lia|].
    rewrite rrun_app. cbn [rrun fold_left]. fold (rrun s1 r1). fold (rrun s2 (rstep (RRead j d) (rrun s1 r1))). destruct (answers_grow j s2 (rstep (RRead j d) (rrun s1 r1))) as [new G]. rewrite G, Er, <- app_assoc. cbn [app r_got r1]. eauto.
  - fold (rrun sched (mkR (r_a r) (r_at r) (r_got r ++ [(j, c, Ok empty_response)]))). destruct (answers_grow j sched (mkR (r_a r) (r_at r) (r_got r ++ [(j, c, Ok empty_response)]))) as [new ->]. cbn [r_got].
    rewrite answers_app_of, <- app_assoc. unfold answers_of at 2. cbn. rewrite Nat.eqb_refl. cbn. eauto.
Qed.

(* ---- who takes a command out ---- *)
Lemma same_keys s s' c : map fst (a_cmds s') = map fst (a_cmds s) -> is_watched s c -> is_watched s' c.
Proof. intros E (c' & I & S). exists c'. rewrite E. auto. Qed.
Lemma subs_keys s : map fst (subscriptions s) = map fst (a_cmds s).
Proof. unfold subscriptions. rewrite map_map. cbn [fst]. apply map_id. Qed.
Theorem taken_out s ch c : reachable s -> is_watched s c -> ~ is_watched (astep ch s) c ->
  ch = CMain /\ a_running s = false /\ exists o, unwatches o = true /\ a_op s = o /\ a_events (astep ch s) = a_events s ++ [AEv_return o ODone].
Proof.
  intros Re W N. destruct (reachable_inv _ Re) as [V B]. destruct ch as [|i b].
  2:{ exfalso. apply N. apply (same_keys s); [|exact W]. rewrite <- !subs_keys, subs_thread by exact V. reflexivity. }
  split; [reflexivity|].
  destruct (match a_pc s with M_watch _ _ _ | M_unwatch _ _ | M_unwatch_all => false | _ => true end) eqn:K.
  { exfalso. apply N. apply (same_keys s); [|exact W]. rewrite <- !subs_keys, subs_main; [reflexivity|]. destruct (a_pc s); trivial; discriminate K. }
  pose proof (I_main _ V) as M. unfold main_ok in M. split; [destruct (a_pc s); try discriminate K; exact M|].
  unfold astep, main_step in N |- *. destruct (a_pc s) eqn:Pc; try discriminate K.
  - exfalso. apply N. destruct (if force then Ok true else test_cmd (a_obd s) c0) as [[|]|e]; try exact W. destruct (watch_table c0 cb (a_cmds s, a_cbs s)) as [[d1 d2]|e] eqn:T; [|exact W].
    rewrite watched_iff in *. destruct W as [y Y]. exists y. cbn. rewrite (watch_keeps _ _ _ _ _ _ _ T); [exact Y|]. unfold dict_mem. rewrite Y. reflexivity.
  - exists (AUnwatch c0 cb). split; [reflexivity|]. assert (O : a_op s = AUnwatch c0 cb) by (pose proof (B_op _ B) as X; unfold op_ok in X; rewrite Pc in X; exact X).
    split; [exact O|]. destruct (unwatch_table c0 cb (a_cmds s, a_cbs s)) as [d|e]; [|exfalso; apply N; exact W]. cbn. rewrite O. reflexivity.
  - exists AUnwatchAll. split; [reflexivity|]. assert (O : a_op s = AUnwatchAll) by (pose proof (B_op _ B) as X; unfold op_ok in X; rewrite Pc in X; exact X). split; [exact O|]. cbn. rewrite O. reflexivity.
Qed.

Lemma reachable_step ch s : reachable s -> reachable (astep ch s).
Proof. intros (p & s0 & sc & C & ->). exists p, s0, (sc ++ [ch]). split; [exact C|]. unfold arun. rewrite fold_left_app. reflexivity. Qed.
Lemma reads_same j c r : r_a (rstep (RRead j c) r) = r_a r.
Proof. cbn [rstep]. destruct (r_at r j); [reflexivity|]. destruct (dict_mem cmd_eqb _ c); reflexivity. Qed.
Lemma watched_dec s c : is_watched s c \/ ~ is_watched s c.
Proof. rewrite is_watched_mem. destruct (dmem (a_cmds s) c); auto. Qed.
Theorem taken_during c : forall sched r, reachable (r_a r) -> is_watched (r_a r) c -> ~ is_watched (r_a (rrun sched r)) c ->
  exists s1 s2 o, sched = s1 ++ ROther CMain :: s2 /\ let s := r_a (rrun s1 r) in reachable s /\ a_running s = false /\ unwatches o = true /\ a_op s = o /\ a_events (astep CMain s) = a_events s ++ [AEv_return o ODone].
Proof.
  induction sched as [|ch sched IH]; intros r Re W N; [contradiction|]. cbn [rrun fold_left] in N. fold (rrun sched (rstep ch r)) in N.
  destruct ch as [ch|j d].
  - destruct (watched_dec (astep ch (r_a r)) c) as [X|X].
    + destruct (IH (rstep (ROther ch) r) (reachable_step ch _ Re) X N) as (s1 & s2 & o & -> & H). exists (ROther ch :: s1), s2, o. split; [reflexivity|exact H].
    + destruct (taken_out _ _ _ Re W X) as (-> & R & o & U & O & E). exists [], sched, o. split; [reflexivity|]. cbn [rrun fold_left]. cbv zeta. auto 6.
  - destruct (IH (rstep (RRead j d) r)) as (s1 & s2 & o & -> & H); [rewrite reads_same; exact Re|rewrite reads_same; exact W|exact N|]. exists (RRead j d :: s1), s2, o. split; [reflexivity|exact H].
Qed.
Lemma ops_main s s' : main_step s = Some s' -> (a_op s' = a_op s /\ a_prog s' = a_prog s) \/ a_prog s = a_op s' :: a_prog s'.
Proof.
  unfold main_step. intros H. destruct (a_pc s) eqn:Pc; try (injection H as <-).
  - destruct (a_prog s) as [|o rest]; [discriminate H|]. injection H as <-. right. destruct o; cbn zeta; try reflexivity; cbn [a_running upd_prog]; destruct (a_running s); reflexivity.
  - destruct (negb _); auto.
  - destruct (nonempty _); auto.
  - destruct (a_thread s); auto.
  - auto.
  - auto.
  - destruct (a_thread s); auto.
  - destruct (a_thread s); [auto|]. destruct k; auto.
  - auto.
  - destruct (a_thread s); auto.
  - destruct (ended id s); [|discriminate H]. injection H as <-. auto.
  - destruct k; auto.
  - auto.
  - destruct (a_running s); auto.
  - destruct (a_was_running s); auto.
  - destruct (obd_close _) as [r ow]. injection H as <-. auto.
  - destruct (if force then Ok true else test_cmd (a_obd s) c) as [[|]|e]; auto. destruct (watch_table c cb (a_cmds s, a_cbs s)) as [[d1 d2]|e]; auto.
  - destruct (unwatch_table c cb (a_cmds s, a_cbs s)) as [d|e]; auto.
  - auto.
Qed.
Lemma ops_thread i b s s' : thread_step i b s = Some s' -> a_op s' = a_op s /\ a_prog s' = a_prog s.
Proof.
  unfold thread_step. destruct (nth_error (a_threads s) i) as [p|]; [|discriminate]. intros H. destruct p; try discriminate H; try (injection H as <-; auto; fail).
  - injection H as <-. destruct (Nat.eqb _ _ && _); [auto|]. destruct (it_keys it); auto.
  - destruct (query _ _ _) as [r ow]. injection H as <-. auto.
  - destruct cbs; injection H as <-; auto.
Qed.
Lemma no_unwatch_run sched : forall s, unwatches (a_op s) = false -> Forall (fun o => unwatches o = false) (a_prog s) -> unwatches (a_op (arun sched s)) = false.
Proof.
  induction sched as [|ch sched IH]; intros s O P; [exact O|]. cbn [arun fold_left]. fold (arun sched (astep ch s)).
  assert (K : (a_op (astep ch s) = a_op s /\ a_prog (astep ch s) = a_prog s) \/ a_prog s = a_op (astep ch s) :: a_prog (astep ch s)).
  { unfold astep. destruct ch as [|i b]; [destruct (main_step s) eqn:E; [exact (ops_main _ _ E)|auto]|destruct (thread_step i b s) eqn:E; [left; exact (ops_thread _ _ _ _ E)|auto]]. }
  destruct K as [[K1 K2]|K]; [apply IH; congruence|]. rewrite K in P. inversion P; subst. apply IH; assumption.
Qed.
