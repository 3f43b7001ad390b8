(* The user's thread keeps the invariant; reachable states. *)
From Coq Require Import ZArith List Bool Lia.
From Verif Require Import Py Num Utils Protocol Decoders Command CommandTable Commands World Elm Obd Async SpecElm SpecObd PyFacts CommandThms ElmFacts ElmThms ObdFacts ObdThms ObdThms2 ObdThms3 ObdThms4 AsyncFacts.
Import ListNotations.
Open Scope nat_scope.

Lemma close_status o w r o' w' : oinv o -> obd_close (o, w) = (r, (o', w')) -> oinv o' /\ (is_connected o' = true -> is_connected o = true).
Proof.
  intros OI Q. destruct (obd_close_spec _ _ _ _ _ OI Q) as (t & _ & R). destruct (close_run_inv _ _ _ _ OI R) as (OI' & _). split; [exact OI'|].
  unfold oinv in OI. unfold is_connected, obd_status. destruct R as [H|e Hi Hs|e p t x o1 Hi Hs P HR|e p t o1 Hi Hs P HR Hn|e p t o1 Hi Hs P HR Hn|e p t o1 t2 e2 Hi Hs P HR Hn A1 A2 (A3 & A4 & A5)];
    try (cbn; rewrite ?H, ?Hi; discriminate); rewrite Hi in *.
  - assert (Hi0 : o_interface (emptied o) = Some e) by exact Hi. destruct (header_run_inv _ _ _ _ _ _ _ Hi0 OI P HR) as (e' & Hi' & I' & _ & _ & _ & _ & _ & _ & X). rewrite Hi'.
    destruct X as [[-> _]|[-> | ->]]; [auto|auto|discriminate].
  - cbn. rewrite A3. discriminate.
Qed.

(* a step of the user's thread that leaves the threads and the control variables alone *)
Lemma main_move s s1 : ainv s -> a_threads s1 = a_threads s -> a_running s1 = a_running s -> a_thread s1 = a_thread s ->
  oinv (a_obd s1) -> (forall i p, pc_of s i = Some p -> thread_ok s p -> thread_ok s1 p) -> table_ok (a_cmds s1, a_cbs s1) ->
  a_pc s <> M_start5 -> a_pc s <> M_start6 -> (stopping (a_pc s) = true -> stopping (a_pc s1) = true \/ a_thread s = None) -> main_ok s1 -> ainv s1.
Proof.
  intros V Et Er Eh OI Ok Tb N5 N6 St Mn. assert (Pc : forall j, pc_of s1 j = pc_of s j) by (intros j; unfold pc_of; rewrite Et; reflexivity).
  constructor.
  - exact OI.
  - intros i p P L. rewrite Pc in P. rewrite Eh. exact (I_one _ V _ _ P L).
  - intros i P. rewrite Pc in P. destruct (I_new _ V _ P) as [X _]. contradiction.
  - intros i p P. rewrite Pc in P. apply (Ok i); [exact P|]. exact (I_ok _ V _ _ P).
  - intros i T. rewrite Eh in T. destruct (I_thread _ V _ T) as (p & A & B & D). exists p. rewrite Pc. split; [exact A|]. split; [exact B|].
    intros E. destruct (St (D E)); [assumption|congruence].
  - intros R i p P L. rewrite Er in R. rewrite Pc in P. destruct (I_stopped _ V R _ _ P L) as [X|X]; [auto|]. destruct (St X) as [Y|Y]; [auto|].
    pose proof (I_one _ V _ _ P L). congruence.
  - intros R. rewrite Er in R. right. destruct (I_running _ V R) as [X|(i & p & A & B & D)]; [contradiction|]. exists i, p. rewrite Pc, Eh. auto.
  - exact Mn.
  - exact Tb.
Qed.
(* nothing but the position in the call, the log and was_running changes *)
Lemma thread_ok_same s s1 p : a_cmds s1 = a_cmds s -> a_cbs s1 = a_cbs s -> a_gen s1 = a_gen s -> a_running s1 = a_running s -> async_connected s1 = async_connected s -> thread_ok s p -> thread_ok s1 p.
Proof.
  intros E1 E2 E3 E4 E5 H. destruct p; cbn [thread_ok] in *; unfold iter_ok in *; rewrite ?E1, ?E2, ?E3, ?E4, ?E5; exact H.
Qed.
Lemma main_goto s s1 : ainv s -> a_threads s1 = a_threads s -> a_running s1 = a_running s -> a_thread s1 = a_thread s ->
  a_obd s1 = a_obd s -> a_cmds s1 = a_cmds s -> a_cbs s1 = a_cbs s -> a_gen s1 = a_gen s ->
  a_pc s <> M_start5 -> a_pc s <> M_start6 -> (stopping (a_pc s) = true -> stopping (a_pc s1) = true \/ a_thread s = None) -> main_ok s1 -> ainv s1.
Proof.
  intros V Et Er Eh Eo Ec Eb Eg N5 N6 St Mn. apply (main_move s); try assumption.
  - rewrite Eo. apply (I_oinv _ V).
  - intros i p P. apply thread_ok_same; auto. unfold async_connected. rewrite Eo. reflexivity.
  - rewrite Ec, Eb. apply (I_table _ V).
Qed.

(* ---- the tables ---- *)
Lemma watch_table_ok c cb t t' : table_ok t -> watch_table c cb t = Ok t' -> table_ok t'.
Proof.
  destruct t as [cmds cbs]. intros (D1 & D2 & T). cbn [fst snd] in *. unfold watch_table.
  assert (G : table_ok (if dmem cmds c then (cmds, cbs) else (dset cmds c empty_response, dset cbs c []))).
  { destruct (dmem cmds c); [repeat split; assumption|]. split; [apply distinct_set, D1|]. split; [apply distinct_set, D2|]. cbn [fst snd].
    intros c'. rewrite !dmem_set. destruct (cmd_eqb c c'); [reflexivity|apply T]. }
  destruct (if dmem cmds c then (cmds, cbs) else (dset cmds c empty_response, dset cbs c [])) as [m b]. destruct G as (G1 & G2 & G3). cbn [fst snd] in *.
  destruct cb as [f|]; [|intros H; injection H as <-; repeat split; assumption].
  destruct (dget b c) as [l|]; [|discriminate]. destruct (existsb (Z.eqb f) l); intros H; injection H as <-; [repeat split; assumption|].
  split; [exact G1|]. split; [apply distinct_set, G2|]. cbn [fst snd]. intros c' X. rewrite dmem_set, (G3 _ X). apply orb_true_r.
Qed.
Lemma dmem_pop {V} (d : list (command * V)) k k' : distinct (map fst d) -> dmem (dpop d k) k' = negb (cmd_eqb k k') && dmem d k'.
Proof. intros D. unfold dict_mem. rewrite dget_pop by exact D. destruct (cmd_eqb k k'); reflexivity. Qed.
Lemma unwatch_table_ok c cb t t' : table_ok t -> unwatch_table c cb t = Ok t' -> table_ok t'.
Proof.
  destruct t as [cmds cbs]. intros (D1 & D2 & T). cbn [fst snd] in *. unfold unwatch_table.
  assert (G : table_ok (dpop cmds c, dpop cbs c)).
  { split; [apply distinct_pop, D1|]. split; [apply distinct_pop, D2|]. cbn [fst snd]. intros c'. rewrite !dmem_pop by assumption. destruct (cmd_eqb c c'); [discriminate|apply T]. }
  destruct (dmem cmds c) eqn:M; [|intros H; injection H as <-; repeat split; assumption].
  destruct cb as [f|]; [|intros H; injection H as <-; exact G].
  destruct (dget cbs c) as [l|]; [|discriminate]. destruct (existsb (Z.eqb f) l); [|intros H; injection H as <-; exact G].
  destruct (nonempty (list_remove f l)); intros H; injection H as <-; (split; [|split]); cbn [fst snd]; try (apply distinct_set, D2); try exact D1; try (apply distinct_pop, D1);
    intros c' X; rewrite dmem_set; [rewrite (T _ X); apply orb_true_r|]. rewrite dmem_pop in X by exact D1. apply andb_prop in X as [_ X]. rewrite (T _ X). apply orb_true_r.
Qed.

(* while the user's thread changes a table, no thread looks at it *)
Lemma thread_ok_tables s s1 : ainv s -> a_running s = false -> stopping (a_pc s) = false -> a_running s1 = a_running s -> a_obd s1 = a_obd s -> a_pc s <> M_start6 ->
  forall i p, pc_of s i = Some p -> thread_ok s p -> thread_ok s1 p.
Proof.
  intros V R St Er Eo N6 i p P Ok. assert (L : looping p = true -> p = T_disc2).
  { intros L. destruct (I_stopped _ V R _ _ P L) as [X|X]; [exact X|congruence]. }
  unfold thread_ok, async_connected in *. rewrite Er, Eo. destruct p; trivial; specialize (L eq_refl); discriminate L.
Qed.

Theorem main_step_inv s s' : ainv s -> main_step s = Some s' -> ainv s'.
Proof.
  intros V H. unfold main_step in H. pose proof (I_main _ V) as Mn. unfold main_ok in Mn. destruct (a_pc s) eqn:Pc.
  - (* M_idle *)
    destruct (a_prog s) as [|o rest]; [discriminate H|]. injection H as <-. destruct o; cbn zeta;
      try (apply (main_goto s); try reflexivity; try assumption; rewrite ?Pc; try discriminate; exact Logic.I);
      cbn [a_running upd_prog]; destruct (a_running s) eqn:R;
      (apply (main_goto s); try reflexivity; try assumption; rewrite ?Pc; try discriminate; first [exact Logic.I|exact R]).
  - destruct (async_connected s); injection H as <-; (apply (main_goto s); try reflexivity; try assumption; rewrite ?Pc; try discriminate; exact Logic.I).
  - destruct (a_cmds s) eqn:E; cbn [nonempty] in H; injection H as <-; (apply (main_goto s); try reflexivity; try assumption; rewrite ?Pc; try discriminate; try exact Logic.I).
    unfold main_ok. cbn. rewrite E. discriminate.
  - destruct (a_thread s) eqn:E; injection H as <-; (apply (main_goto s); try reflexivity; try assumption; rewrite ?Pc; try discriminate; try exact Logic.I).
    unfold main_ok. cbn. auto.
  - (* running := True *)
    destruct Mn as (Ne & Th). injection H as <-.
    assert (NL : forall i p, pc_of s i = Some p -> looping p = true -> False) by (intros i p P L; pose proof (I_one _ V _ _ P L); congruence).
    constructor; cbn [a_obd a_thread a_pc a_running a_cmds a_cbs upd_running upd_pc].
    + apply (I_oinv _ V).
    + exact (I_one _ V).
    + intros i P. destruct (I_new _ V _ P) as [X _]. congruence.
    + intros i p P. pose proof (I_ok _ V _ _ P) as X. pose proof (NL i p P) as L. destruct p; try exact X; exfalso; apply L; reflexivity.
    + intros i X. congruence.
    + discriminate.
    + auto.
    + unfold main_ok. cbn. auto.
    + apply (I_table _ V).
  - (* a new thread *)
    destruct Mn as (Ne & Th & R). injection H as <-.
    assert (NL : forall i p, pc_of s i = Some p -> looping p = true -> False) by (intros i p P L; pose proof (I_one _ V _ _ P L); congruence).
    match goal with |- ainv ?x => set (s1 := x) end.
    assert (P1 : forall j, pc_of s1 j = if Nat.eqb j (length (a_threads s)) then Some T_new else pc_of s j) by (intros j; apply nth_app_new).
    constructor.
    + apply (I_oinv _ V).
    + intros i p P L. rewrite P1 in P. destruct (Nat.eqb_spec i (length (a_threads s))); [injection P as <-; discriminate L|]. destruct (NL _ _ P L).
    + intros i P. rewrite P1 in P. destruct (Nat.eqb_spec i (length (a_threads s))) as [Hl|]; [rewrite Hl; split; reflexivity|]. destruct (I_new _ V _ P) as [X _]. congruence.
    + intros i p P. rewrite P1 in P. destruct (Nat.eqb_spec i (length (a_threads s))); [injection P as <-; exact Logic.I|]. pose proof (I_ok _ V _ _ P) as X. exact X.
    + intros i X. injection X as <-. exists T_new. rewrite P1, Nat.eqb_refl. split; [reflexivity|]. split; discriminate.
    + intros X. subst s1. cbn in X. congruence.
    + intros _. right. exists (length (a_threads s)), T_new. rewrite P1, Nat.eqb_refl. split; [reflexivity|]. auto.
    + unfold main_ok. cbn [a_pc s1 upd_pc]. split; [exact Ne|]. split; [exact R|]. exists (length (a_threads s)). rewrite P1, Nat.eqb_refl. auto.
    + apply (I_table _ V).
  - (* it starts *)
    destruct Mn as (Ne & R & i & Th & P). rewrite Th in H. injection H as <-.
    match goal with |- ainv ?x => set (s1 := x) end.
    assert (P1 : forall j, pc_of s1 j = if Nat.eqb i j then Some T_while else pc_of s j).
    { intros j. unfold pc_of in *. subst s1. cbn. rewrite nth_set, P. reflexivity. }
    assert (NL : forall j p, pc_of s j = Some p -> looping p = true -> False).
    { intros j p Q L. pose proof (I_one _ V _ _ Q L). assert (j = i) by congruence. subst j. rewrite P in Q. injection Q as <-. discriminate L. }
    constructor.
    + apply (I_oinv _ V).
    + intros j p Q L. rewrite P1 in Q. destruct (Nat.eqb_spec i j) as [->|]; [exact Th|]. destruct (NL _ _ Q L).
    + intros j Q. rewrite P1 in Q. destruct (Nat.eqb_spec i j); [discriminate Q|]. destruct (I_new _ V _ Q) as [_ X]. congruence.
    + intros j p Q. rewrite P1 in Q. destruct (Nat.eqb_spec i j); [injection Q as <-; exact Ne|]. pose proof (I_ok _ V _ _ Q) as X. exact X.
    + intros j X. assert (j = i) by (change (a_thread s1) with (a_thread s) in X; congruence). subst j. exists T_while. rewrite P1, Nat.eqb_refl. split; [reflexivity|]. split; discriminate.
    + intros X. change (a_running s1) with (a_running s) in X. congruence.
    + intros _. right. exists i, T_while. rewrite P1, Nat.eqb_refl. split; [exact Th|]. auto.
    + exact Logic.I.
    + apply (I_table _ V).
  - destruct (a_thread s) eqn:E; [|destruct k]; injection H as <-; (apply (main_goto s); try reflexivity; try assumption; rewrite ?Pc; try discriminate; try exact Logic.I).
  - (* running := False *)
    injection H as <-. constructor; cbn [a_obd a_thread a_pc a_running a_cmds a_cbs upd_running upd_pc].
    + apply (I_oinv _ V).
    + exact (I_one _ V).
    + intros i P. destruct (I_new _ V _ P) as [X _]. congruence.
    + intros i p P. pose proof (I_ok _ V _ _ P) as X. destruct p; try exact X. cbn in X |- *. tauto.
    + intros i X. destruct (I_thread _ V _ X) as (p & A & B & D). exists p. auto.
    + auto.
    + discriminate.
    + unfold main_ok. cbn. reflexivity.
    + apply (I_table _ V).
  - destruct (a_thread s) eqn:E; injection H as <-; (apply (main_goto s); try reflexivity; try assumption; rewrite ?Pc; try discriminate; auto).
    + unfold main_ok. cbn. destruct (I_thread _ V _ E) as (p & A & B & D). split; [exact Mn|]. split; [rewrite E; auto|]. exists p. split; [exact A|].
      intros ->. destruct (I_new _ V _ A). congruence.
  - (* join *)
    destruct Mn as (R & Th & p & P & Np). destruct (ended id s) eqn:E; [|discriminate H]. injection H as <-. apply (main_goto s); try reflexivity; try assumption; rewrite ?Pc; try discriminate; auto.
    unfold main_ok. cbn. split; [exact R|]. intros j q Q. destruct (looping q) eqn:L; [|reflexivity]. pose proof (I_one _ V _ _ Q L) as X.
    assert (j = id) by (destruct Th; congruence). subst j. unfold ended in E. unfold pc_of in Q. cbn in Q. rewrite Q in E. destruct q; discriminate.
  - (* thread := None *)
    destruct Mn as (R & NL).
    assert (G : forall s1, a_threads s1 = a_threads s -> a_running s1 = a_running s -> a_thread s1 = None -> a_obd s1 = a_obd s -> a_cmds s1 = a_cmds s -> a_cbs s1 = a_cbs s -> a_gen s1 = a_gen s -> main_ok s1 -> ainv s1).
    { intros s1 Et Er Eh Eo Ec Eb Eg Mn. assert (P1 : forall j, pc_of s1 j = pc_of s j) by (intros j; unfold pc_of; rewrite Et; reflexivity). constructor.
      - rewrite Eo. apply (I_oinv _ V).
      - intros i p P L. rewrite P1 in P. rewrite (NL _ _ P) in L. discriminate L.
      - intros i P. rewrite P1 in P. destruct (I_new _ V _ P) as [X _]. congruence.
      - intros i p P. rewrite P1 in P. apply (thread_ok_same s); auto. unfold async_connected. rewrite Eo. reflexivity. exact (I_ok _ V _ _ P).
      - intros i X. congruence.
      - intros _ i p P L. rewrite P1 in P. rewrite (NL _ _ P) in L. discriminate L.
      - intros X. congruence.
      - exact Mn.
      - rewrite Ec, Eb. apply (I_table _ V). }
    injection H as <-. destruct k; apply G; try reflexivity; exact Logic.I.
  - injection H as <-. apply (main_goto s); try reflexivity; try assumption; rewrite ?Pc; try discriminate; exact Logic.I.
  - destruct (a_running s); injection H as <-; (apply (main_goto s); try reflexivity; try assumption; rewrite ?Pc; try discriminate; exact Logic.I).
  - destruct (a_was_running s); injection H as <-; (apply (main_goto s); try reflexivity; try assumption; rewrite ?Pc; try discriminate; exact Logic.I).
  - (* close *)
    destruct (obd_close (a_obd s, a_world s)) as [r [o' w']] eqn:Q. injection H as <-. destruct (close_status _ _ _ _ _ (I_oinv _ V) Q) as (OI & C).
    apply (main_move s); try reflexivity; try assumption; rewrite ?Pc; try discriminate.
    + intros i p P Ok. assert (L : looping p = true -> False) by (intros L; pose proof (I_one _ V _ _ P L); congruence).
      destruct p; try exact Logic.I; try (exfalso; apply L; reflexivity). cbn in Ok |- *. unfold async_connected in *. cbn. destruct (is_connected o'); [|reflexivity]. rewrite C in Ok by reflexivity. discriminate Ok.
    + apply (I_table _ V).
  - assert (K : forall s1, a_threads s1 = a_threads s -> a_running s1 = a_running s -> a_thread s1 = a_thread s -> a_obd s1 = a_obd s -> a_pc s1 = M_idle -> table_ok (a_cmds s1, a_cbs s1) -> ainv s1).
    { intros s1 Et Er Eh Eo Ep Tb. apply (main_move s); try assumption; rewrite ?Pc; try discriminate.
      - rewrite Eo. apply (I_oinv _ V).
      - apply thread_ok_tables; try assumption; rewrite Pc; [reflexivity|discriminate].
      - unfold main_ok. rewrite Ep. exact Logic.I. }
    destruct (if force then Ok true else test_cmd (a_obd s) c) as [[|]|x]; [destruct (watch_table c cb (a_cmds s, a_cbs s)) as [d|x] eqn:W| |]; injection H as <-; apply K; try reflexivity; try apply (I_table _ V).
    apply watch_table_ok in W; [|apply (I_table _ V)]. destruct d. exact W.
  - assert (K : forall s1, a_threads s1 = a_threads s -> a_running s1 = a_running s -> a_thread s1 = a_thread s -> a_obd s1 = a_obd s -> a_pc s1 = M_idle -> table_ok (a_cmds s1, a_cbs s1) -> ainv s1).
    { intros s1 Et Er Eh Eo Ep Tb. apply (main_move s); try assumption; rewrite ?Pc; try discriminate.
      - rewrite Eo. apply (I_oinv _ V).
      - apply thread_ok_tables; try assumption; rewrite Pc; [reflexivity|discriminate].
      - unfold main_ok. rewrite Ep. exact Logic.I. }
    destruct (unwatch_table c cb (a_cmds s, a_cbs s)) as [d|x] eqn:W; injection H as <-; apply K; try reflexivity; try apply (I_table _ V).
    apply unwatch_table_ok in W; [|apply (I_table _ V)]. destruct d. exact W.
  - injection H as <-. apply (main_move s); try reflexivity; rewrite ?Pc; try discriminate; try exact V.
    + apply (I_oinv _ V).
    + apply thread_ok_tables; try assumption; try reflexivity; rewrite Pc; [reflexivity|discriminate].
    + repeat split; intros; discriminate.
Qed.

Lemma new_async_inv o w prog : oinv o -> ainv (new_async o w prog).
Proof.
  intros OI. assert (N : forall i, pc_of (new_async o w prog) i = None) by (intros [|]; reflexivity).
  constructor; try (intros; rewrite N in *; discriminate); cbn; try discriminate; try exact Logic.I; [exact OI|].
  repeat split; intros; discriminate.
Qed.
Lemma astep_inv ch s : ainv s -> ainv (astep ch s).
Proof.
  intros V. unfold astep. destruct ch as [|i b].
  - destruct (main_step s) eqn:E; [exact (main_step_inv _ _ V E)|exact V].
  - destruct (thread_step i b s) eqn:E; [exact (thread_step_inv _ _ _ _ V E)|exact V].
Qed.
Lemma arun_inv sched s : ainv s -> ainv (arun sched s).
Proof. revert s. induction sched as [|ch sched IH]; cbn; intros s V; [exact V|]. apply IH, astep_inv, V. Qed.
