(* Callbacks that use the API: harmless calls leave everything as it is with callbacks that make none. *)
From Coq Require Import ZArith List Bool Lia.
From Verif Require Import Py Num Utils Protocol Decoders Command CommandTable Commands World Elm Obd Async Async2 SpecElm SpecObd SpecAsync SpecAsync2
  PyFacts CommandThms ElmFacts ElmThms ObdFacts ObdThms ObdThms2 ObdThms3 ObdThms4 AsyncFacts AsyncThms AsyncThms2.
Import ListNotations.
Open Scope nat_scope.

Lemma skipn_exact {A} (l m : list A) : skipn (length l) (l ++ m) = m.
Proof. induction l; cbn; [reflexivity|assumption]. Qed.
Lemma skipn_self {A} (l : list A) : skipn (length l) l = [].
Proof. induction l; cbn; [reflexivity|assumption]. Qed.

Lemma follows_refl s : follows s s.
Proof. exists []. reflexivity. Qed.
Lemma follows_step a b ch : follows a b -> follows a (astep ch b).
Proof. intros [l ->]. exists (l ++ [ch]). unfold arun. rewrite fold_left_app. reflexivity. Qed.
Lemma follows_main a b b' : follows a b -> main_step b = Some b' -> follows a b'.
Proof. intros F H. apply (follows_step _ _ CMain) in F. unfold astep in F. rewrite H in F. exact F. Qed.
Lemma follows_thread a b b' i r : follows a b -> thread_step i r b = Some b' -> follows a b'.
Proof. intros F H. apply (follows_step _ _ (CThread i r)) in F. unfold astep in F. rewrite H in F. exact F. Qed.
Lemma follows_inv a b : ainv a -> follows a b -> ainv b.
Proof.
  intros V [l ->]. revert a V. induction l as [|ch l IH]; intros a V; [exact V|]. cbn. apply IH. unfold astep.
  destruct ch as [|i r]; [destruct (main_step a) eqn:E|destruct (thread_step i r a) eqn:E]; try exact V; [exact (main_step_inv _ _ V E)|].
  exact (thread_step_inv _ _ _ _ V E).
Qed.

Lemma set_nth_comm {A} i j (x y : A) l : i <> j -> set_nth i x (set_nth j y l) = set_nth j y (set_nth i x l).
Proof. revert i j. induction l as [|z l IH]; intros [|i] [|j] N; cbn; try reflexivity; [congruence|]. f_equal. apply IH. congruence. Qed.
Lemma set_nth_twice {A} i (x y : A) l : set_nth i x (set_nth i y l) = set_nth i x l.
Proof. revert i. induction l as [|z l IH]; intros [|i]; cbn; try reflexivity. f_equal. apply IH. Qed.
Lemma set_nth_app {A} i (x y : A) l : i < length l -> set_nth i x (l ++ [y]) = set_nth i x l ++ [y].
Proof. revert i. induction l as [|z l IH]; intros [|i] L; cbn in *; try lia; [reflexivity|]. f_equal. apply IH. lia. Qed.
Lemma set_nth_length {A} i (x : A) l : length (set_nth i x l) = length l.
Proof. revert i. induction l as [|z l IH]; intros [|i]; cbn; auto. Qed.

Local Opaque watch_table unwatch_table.
Ltac proj := unfold finish, set_tpc, upd_threads, upd_pc, upd_thread, upd_running, upd_was, upd_dicts, upd_gen, upd_obd, upd_prog, add_event in *;
  cbn [a_pc a_prog a_op a_running a_was_running a_thread a_threads a_obd a_world a_cmds a_cbs a_gen a_events fst snd] in *.
(* killing thread i commutes with the steps of the others *)
Lemma main_kill i x s s1 : (exists c r fs it, pc_of s i = Some (T_call c r fs it)) -> ainv s -> main_step s = Some s1 -> main_step (set_tpc i x s) = Some (set_tpc i x s1).
Proof.
  intros (c & r & fs & it & P) V H. assert (Li : i < length (a_threads s)) by (apply nth_error_Some; unfold pc_of in P; congruence).
  unfold main_step in *. cbn [a_pc set_tpc upd_threads]. pose proof (I_main _ V) as Mn. unfold main_ok in Mn.
  destruct s as [cmds cbs gen run was th ths o w pc op prog ev]. cbn [a_pc a_prog a_op a_running a_was_running a_thread a_threads a_obd a_world a_cmds a_cbs a_gen a_events set_tpc upd_threads async_connected ended] in *.
  destruct pc; cbn [a_pc a_prog a_op a_running a_was_running a_thread a_threads a_obd a_world a_cmds a_cbs a_gen a_events set_tpc upd_threads async_connected ended] in *.
  - destruct prog as [|o' rest]; [discriminate H|]. injection H as <-. f_equal. destruct o'; cbn; try reflexivity; destruct run; reflexivity.
  - injection H as <-. f_equal. unfold async_connected; cbn. destruct (negb (is_connected o)); reflexivity.
  - injection H as <-. f_equal. destruct (nonempty cmds); reflexivity.
  - injection H as <-. f_equal. destruct th; reflexivity.
  - injection H as <-. reflexivity.
  - injection H as <-. f_equal. proj. rewrite set_nth_length, set_nth_app by exact Li. reflexivity.
  - destruct Mn as (_ & _ & j & Ej & Pj). subst th. injection H as <-. f_equal. proj.
    rewrite (set_nth_comm j i); [reflexivity|]. intros ->. congruence.
  - injection H as <-. f_equal. destruct th, k; reflexivity.
  - injection H as <-. reflexivity.
  - injection H as <-. f_equal. destruct th; reflexivity.
  - unfold ended in *. cbn in *. destruct (nth_error ths id) as [q|] eqn:Q; [|discriminate H]. rewrite nth_set.
    destruct (Nat.eqb_spec i id) as [->|N]; [unfold pc_of in P; cbn in P; rewrite P in Q; injection Q as <-; discriminate H|]. rewrite Q. destruct q; try discriminate H; injection H as <-; reflexivity.
  - injection H as <-. f_equal. destruct k; reflexivity.
  - injection H as <-. reflexivity.
  - injection H as <-. f_equal. destruct run; reflexivity.
  - injection H as <-. f_equal. destruct was; reflexivity.
  - unfold upd_threads. cbn [a_obd a_world]. destruct (obd_close (o, w)) as [rr ow]. injection H as <-. reflexivity.
  - injection H as <-. f_equal. proj. destruct (if force then Ok true else test_cmd o c0) as [[]|e]; try reflexivity. destruct (watch_table c0 cb (cmds, cbs)); reflexivity.
  - injection H as <-. f_equal. proj. destruct (unwatch_table c0 cb (cmds, cbs)); reflexivity.
  - injection H as <-. reflexivity.
Qed.
Lemma thread_kill i x j b s s1 : j <> i -> thread_step j b s = Some s1 -> thread_step j b (set_tpc i x s) = Some (set_tpc i x s1).
Proof.
  intros N H. unfold thread_step in *. cbn [a_threads set_tpc upd_threads]. rewrite nth_set. destruct (Nat.eqb_spec i j); [congruence|].
  destruct s as [cmds cbs gen run was th ths o w pc op prog ev].
  cbn [a_pc a_prog a_op a_running a_was_running a_thread a_threads a_obd a_world a_cmds a_cbs a_gen a_events] in *.
  destruct (nth_error ths j) as [p|]; [|discriminate H].
  assert (C : forall q, set_nth j q (set_nth i x ths) = set_nth i x (set_nth j q ths)) by (intros q; apply set_nth_comm; exact N).
  destruct p; try discriminate H; unfold set_tpc, upd_threads, upd_running, upd_thread, upd_dicts, async_connected in *;
    cbn [a_pc a_prog a_op a_running a_was_running a_thread a_threads a_obd a_world a_cmds a_cbs a_gen a_events] in *;
    try (injection H as <-; proj; rewrite ?C; reflexivity).
  - injection H as <-. destruct (Nat.eqb (it_gen it) gen && negb (Nat.eqb (it_size it) (length cmds))); [proj; rewrite C; reflexivity|]. destruct (it_keys it); proj; rewrite C; reflexivity.
  - destruct (query c true (o, w)) as [q ow]. injection H as <-. proj. rewrite C. reflexivity.
  - destruct cbs0 as [|f fs]; injection H as <-; proj; rewrite C; reflexivity.
Qed.

(* ---- frames of harmless calls ---- *)
Definition mild (pc : mpc) : Prop := match pc with M_idle | M_start1 | M_start2 | M_start3 => True | _ => False end.
Lemma give_back_same s s1 : a_cmds s1 = a_cmds s -> a_cbs s1 = a_cbs s -> a_gen s1 = a_gen s -> a_running s1 = a_running s -> a_was_running s1 = a_was_running s -> a_thread s1 = a_thread s ->
  a_threads s1 = a_threads s -> a_obd s1 = a_obd s -> a_world s1 = a_world s -> (a_events s1 = a_events s \/ exists o out, a_events s1 = a_events s ++ [AEv_return o out]) -> give_back s s1 = s.
Proof.
  unfold give_back. intros -> -> -> -> -> -> -> -> -> E. replace (filter _ _) with (@nil aevent); [rewrite app_nil_r; destruct s; reflexivity|].
  symmetry. destruct E as [->|(o & out & ->)]; [rewrite skipn_self|rewrite skipn_exact]; reflexivity.
Qed.
Ltac same_back := apply give_back_same; try reflexivity; first [left; reflexivity|right; eexists; eexists; reflexivity].
(* a harmless call, or the rest of a start(), in thread i, which is the current thread *)
Lemma mild_step i pc op prog s s' : a_thread (b_a s) = Some i -> mild pc -> (pc = M_idle -> exists o, prog = [o] /\ harmless o (b_a s)) -> cb_step i pc op prog s = Some s' ->
  b_a s' = b_a s /\ (exists pc' op', mild pc' /\ b_in s' = put i (Some (pc', op')) (b_in s))
  /\ (b_log s' = b_log s \/ exists o out, b_log s' = b_log s ++ [(i, o, out)] /\ forall e, out <> ORaised e).
Proof.
  intros Th M H C. unfold cb_step in C. destruct s as [a fin log]. cbn [b_a b_in b_log] in *.
  destruct pc; try contradiction M; cbn [main_step lend] in C; unfold main_step, lend in C; cbn [a_pc upd_pc upd_prog a_prog a_thread a_cmds a_op a_running async_connected a_obd] in C.
  - destruct (H eq_refl) as (o & -> & Hh). injection C as <-. cbn [b_a b_in b_log].
    destruct o; cbn in Hh; try contradiction; cbn [upd_prog upd_pc a_running finish a_pc a_op add_event]; try rewrite Hh; cbn;
      (split; [same_back|]); (split; [eexists; eexists; split; [|reflexivity]; exact Logic.I|]);
      unfold came; cbn; rewrite ?skipn_self, ?skipn_exact; cbn; rewrite ?app_nil_r; first [left; reflexivity|right; eexists; eexists; split; [reflexivity|]; first [discriminate|destruct op; discriminate]].
  - injection C as <-. unfold async_connected; cbn [b_a b_in b_log a_obd upd_pc upd_prog]. destruct (negb (is_connected (a_obd a))); cbn;
      (split; [same_back|]); (split; [eexists; eexists; split; [|reflexivity]; exact Logic.I|]);
      unfold came; cbn; rewrite ?skipn_self, ?skipn_exact; cbn; rewrite ?app_nil_r; first [left; reflexivity|right; eexists; eexists; split; [reflexivity|]; first [discriminate|destruct op; discriminate]].
  - injection C as <-. cbn [b_a b_in b_log]. destruct (nonempty (a_cmds a)); cbn;
      (split; [same_back|]); (split; [eexists; eexists; split; [|reflexivity]; exact Logic.I|]);
      unfold came; cbn; rewrite ?skipn_self, ?skipn_exact; cbn; rewrite ?app_nil_r; first [left; reflexivity|right; eexists; eexists; split; [reflexivity|]; first [discriminate|destruct op; discriminate]].
  - rewrite Th in C. injection C as <-. cbn [b_a b_in b_log]. cbn.
      (split; [same_back|]); (split; [eexists; eexists; split; [|reflexivity]; exact Logic.I|]);
      unfold came; cbn; rewrite ?skipn_self, ?skipn_exact; cbn; rewrite ?app_nil_r; first [left; reflexivity|right; eexists; eexists; split; [reflexivity|]; first [discriminate|destruct op; discriminate]].
Qed.

(* ---- the simulation ---- *)
Record sim (s0 : astate) (s : bstate) : Prop := {
  S_base : follows s0 (b_a s);
  S_in : forall i pc op, b_in s i = Some (pc, op) -> mild pc /\ (exists c r fs it, pc_of (b_a s) i = Some (T_call c r fs it))
           /\ follows s0 (set_tpc i (T_dead CustomError) (b_a s)) }.
Lemma set_tpc_twice i p q s : set_tpc i p (set_tpc i q s) = set_tpc i p s.
Proof. unfold set_tpc, upd_threads. cbn. rewrite set_nth_twice. reflexivity. Qed.
Lemma put_same i x f : put i x f i = x.
Proof. unfold put. rewrite Nat.eqb_refl. reflexivity. Qed.
Lemma put_other i x f j : i <> j -> put i x f j = f j.
Proof. unfold put. destruct (Nat.eqb_spec i j); [contradiction|reflexivity]. Qed.
Lemma put_cases i x f j y : put i x f j = y -> (i = j /\ x = y) \/ (i <> j /\ f j = y).
Proof. unfold put. destruct (Nat.eqb_spec i j); auto. Qed.

Lemma main_keeps_call s s1 i c r fs it : ainv s -> pc_of s i = Some (T_call c r fs it) -> main_step s = Some s1 -> pc_of s1 i = Some (T_call c r fs it).
Proof.
  intros V P H. pose proof (main_kill i (T_call c r fs it) s s1 ltac:(eauto) V H) as K.
  assert (E : set_tpc i (T_call c r fs it) s = s).
  { unfold set_tpc, upd_threads. destruct s. cbn in *. f_equal. unfold pc_of in P. cbn in P. clear - P. revert i P. induction a_threads as [|x l IH]; intros [|i] P; cbn in *; try discriminate; [congruence|]. f_equal. apply IH, P. }
  rewrite E, H in K. injection K as K. rewrite K. unfold pc_of, set_tpc, upd_threads. cbn. rewrite nth_set, Nat.eqb_refl.
  assert (Li : i < length (a_threads s)) by (apply nth_error_Some; unfold pc_of in P; congruence).
  destruct (nth_error (a_threads s1) i) eqn:X; [reflexivity|]. apply nth_error_None in X. exfalso.
  rewrite K in X. unfold set_tpc, upd_threads in X. cbn in X. rewrite set_nth_length in X. 
  revert H X. clear - Li. intros H X. unfold main_step in H.
  assert (G : length (a_threads s) <= length (a_threads s1)).
  { destruct (a_pc s); try (injection H as <-).
    - destruct (a_prog s) as [|o l]; [discriminate H|]. injection H as <-. destruct o; cbn; try lia; destruct (a_running s); cbn; lia.
    - destruct (negb (async_connected s)); cbn; lia.
    - destruct (nonempty (a_cmds s)); cbn; lia.
    - destruct (a_thread s); cbn; lia.
    - cbn; lia.
    - cbn. rewrite app_length. lia.
    - destruct (a_thread s); cbn; rewrite ?set_nth_length; lia.
    - destruct (a_thread s), k; cbn; lia.
    - cbn; lia.
    - destruct (a_thread s); cbn; lia.
    - destruct (ended id s); [injection H as <-|discriminate H]. cbn; lia.
    - destruct k; cbn; lia.
    - cbn; lia.
    - destruct (a_running s); cbn; lia.
    - destruct (a_was_running s); cbn; lia.
    - destruct (obd_close _) as [q ow]. injection H as <-. cbn; lia.
    - destruct (if force then Ok true else test_cmd (a_obd s) c) as [[]|e]; cbn; try lia. destruct (watch_table c cb (a_cmds s, a_cbs s)); cbn; lia.
    - destruct (unwatch_table c cb (a_cmds s, a_cbs s)); cbn; lia.
    - cbn; lia. }
  lia.
Qed.
Lemma thread_keeps_other j b s s1 i : j <> i -> thread_step j b s = Some s1 -> pc_of s1 i = pc_of s i.
Proof.
  intros N H. unfold thread_step in H. unfold pc_of.
  destruct (nth_error (a_threads s) j) as [p|]; [|discriminate H].
  assert (C : forall q x, a_threads x = a_threads s -> nth_error (a_threads (set_tpc j q x)) i = nth_error (a_threads s) i).
  { intros q x E. unfold set_tpc, upd_threads. cbn. rewrite E, nth_set. destruct (Nat.eqb_spec j i); [contradiction|reflexivity]. }
  destruct p; try discriminate H; try (injection H as <-; apply C; reflexivity).
  - injection H as <-. destruct (Nat.eqb _ _ && _); [apply C; reflexivity|]. destruct (it_keys it); apply C; reflexivity.
  - destruct (query c true (a_obd s, a_world s)) as [q ow]. injection H as <-. apply C. reflexivity.
  - destruct cbs as [|f fs]; injection H as <-; apply C; reflexivity.
Qed.

Lemma sim_step s0 s ch : ainv s0 -> sim s0 s -> (forall i o, calls_now ch s i o -> harmless o (b_a s)) -> sim s0 (bstep ch s).
Proof.
  intros V0 [Sb Si] Hp. pose proof (follows_inv _ _ V0 Sb) as V.
  assert (Th : forall i pc op, b_in s i = Some (pc, op) -> a_thread (b_a s) = Some i).
  { intros i pc op E. destruct (Si _ _ _ E) as (_ & (c & r & fs & it & P) & _). exact (I_one _ V _ _ P eq_refl). }
  unfold bstep. destruct ch as [|i|i d].
  - (* the user's thread *)
    destruct (main_step (b_a s)) as [s1|] eqn:H; cbn [option_map]; [|constructor; assumption]. constructor; cbn [b_a b_in].
    + exact (follows_main _ _ _ Sb H).
    + intros i pc op E. destruct (Si _ _ _ E) as (M & (c & r & fs & it & P) & F). split; [exact M|]. split; [exists c, r, fs, it; exact (main_keeps_call _ _ _ _ _ _ _ V P H)|].
      apply (follows_main _ _ _ F). apply main_kill; eauto.
  - (* an update thread *)
    unfold loop_step. destruct (b_in s i) as [[pc op]|] eqn:E.
    + destruct (Si _ _ _ E) as (M & P & F).
      assert (K : forall s', cb_step i pc op [] s = Some s' -> pc <> M_idle -> sim s0 s').
      { intros s' C N. destruct (mild_step i pc op [] s s' (Th _ _ _ E) M ltac:(intros X; contradiction) C) as (Ea & (pc' & op' & M' & Ei) & _).
        constructor; rewrite Ea; [exact Sb|]. intros j pc2 op2 Ej. rewrite Ei in Ej. apply put_cases in Ej as [[<- Ej]|[N' Ej]]; [injection Ej as <- <-; auto|exact (Si _ _ _ Ej)]. }
      assert (X : forall o, match o with Some s' => sim s0 s' | None => True end -> sim s0 (match o with Some s' => s' | None => s end)) by (intros [s'|] Y; [exact Y|constructor; assumption]).
      destruct pc; try contradiction M; try (constructor; assumption); apply X;
        (match goal with |- match cb_step ?a ?b ?c ?d ?e with _ => _ end => destruct (cb_step a b c d e) as [s'|] eqn:C end; [apply (K _ eq_refl); discriminate|exact Logic.I]).
    + destruct (thread_step i false (b_a s)) as [s1|] eqn:H; [|constructor; assumption]. constructor; cbn [b_a b_in].
      * exact (follows_thread _ _ _ _ _ Sb H).
      * intros j pc op Ej.
        assert (Q : j <> i -> b_in s j = Some (pc, op) -> mild pc /\ (exists c r fs it, pc_of s1 j = Some (T_call c r fs it)) /\ follows s0 (set_tpc j (T_dead CustomError) s1)).
        { intros N Ej'. destruct (Si _ _ _ Ej') as (M & (c & r & fs & it & P) & F). split; [exact M|]. split.
          - exists c, r, fs, it. rewrite (thread_keeps_other i false _ _ j ltac:(congruence) H). exact P.
          - apply (follows_thread _ _ _ i false F). apply thread_kill; [congruence|exact H]. }
        destruct (nth_error (a_threads (b_a s)) i) as [p|] eqn:P; [|apply Q; [congruence|exact Ej]].
        assert (Q' : b_in s j = Some (pc, op) -> mild pc /\ (exists c r fs it, pc_of s1 j = Some (T_call c r fs it)) /\ follows s0 (set_tpc j (T_dead CustomError) s1)).
        { intros Ej'. apply Q; [congruence|exact Ej']. }
        destruct p as [| | | | | | | | | | | |c r [|f fs] it| | | |]; try (apply Q'; exact Ej).
        apply put_cases in Ej as [[<- Ej]|[N Ej]]; [|apply Q'; exact Ej]. injection Ej as <- <-. split; [exact Logic.I|].
        pose proof H as H'. unfold thread_step in H'. rewrite P in H'. injection H' as <-. split.
        -- exists c, r, fs, it. unfold pc_of, set_tpc, upd_threads, add_event. cbn. rewrite nth_set, Nat.eqb_refl, P. reflexivity.
        -- rewrite set_tpc_twice. apply (follows_thread _ _ _ i true Sb). unfold thread_step. rewrite P. reflexivity.
  - (* the callback *)
    unfold cb_does. destruct (b_in s i) as [[pc op]|] eqn:E; [|constructor; assumption].
    destruct (Si _ _ _ E) as (M & P & F). destruct pc; try (constructor; assumption). destruct d as [o| |].
    + destruct (cb_step i M_idle AStop [o] s) as [s'|] eqn:C; [|constructor; assumption].
      assert (Hh : harmless o (b_a s)) by (apply (Hp i); split; [reflexivity|exists op; exact E]).
      destruct (mild_step i M_idle AStop [o] s s' (Th _ _ _ E) M ltac:(eauto) C) as (Ea & (pc' & op' & M' & Ei) & _).
      constructor; rewrite Ea; [exact Sb|]. intros j pc2 op2 Ej. rewrite Ei in Ej. apply put_cases in Ej as [[<- Ej]|[N' Ej]]; [injection Ej as <- <-; auto|exact (Si _ _ _ Ej)].
    + constructor; cbn [b_a b_in]; [exact Sb|]. intros j pc op' Ej. apply put_cases in Ej as [[<- Ej]|[N' Ej]]; [discriminate Ej|exact (Si _ _ _ Ej)].
    + constructor; cbn [b_a b_in]; [exact F|]. intros j pc op' Ej. apply put_cases in Ej as [[<- Ej]|[N' Ej]]; [discriminate Ej|]. pose proof (Th _ _ _ Ej). pose proof (Th _ _ _ E). congruence.
Qed.
Theorem sim_run s0 sched : forall s, ainv s0 -> sim s0 s -> polite sched s -> sim s0 (brun sched s).
Proof.
  induction sched as [|ch l IH]; intros s V S P; [exact S|]. destruct P as [P1 P2]. cbn. apply IH; [exact V|apply sim_step; assumption|exact P2].
Qed.
Lemma sim_start s : no_callback s -> sim (b_a s) s.
Proof. intros N. constructor; [apply follows_refl|]. intros i pc op E. rewrite N in E. discriminate E. Qed.
