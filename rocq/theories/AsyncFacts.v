(* The invariant of all interleavings of the user's thread with the update threads. *)
From Coq Require Import ZArith List Bool Lia.
From Verif Require Import Py Num Utils Protocol Decoders Command CommandTable Commands World Elm Obd Async SpecElm SpecObd PyFacts CommandThms ElmFacts ElmThms ObdFacts ObdThms ObdThms2 ObdThms3 ObdThms4.
Import ListNotations.
Open Scope nat_scope.

(* ---- dictionaries ---- *)
Notation dget := (dict_get cmd_eqb).
Notation dset := (dict_set cmd_eqb).
Notation dpop := (dict_pop cmd_eqb).
Notation dmem := (dict_mem cmd_eqb).
Lemma dget_set {V} (d : list (command * V)) k v k' : dget (dset d k v) k' = if cmd_eqb k k' then Some v else dget d k'.
Proof. apply dict_get_set; [apply cmd_eqb_sym|apply cmd_eqb_trans]. Qed.
Lemma dmem_set {V} (d : list (command * V)) k v k' : dmem (dset d k v) k' = cmd_eqb k k' || dmem d k'.
Proof. apply dict_mem_set; [apply cmd_eqb_sym|apply cmd_eqb_trans]. Qed.
Lemma eqb_congr a b c : cmd_eqb a b = true -> cmd_eqb a c = cmd_eqb b c.
Proof.
  intros H. destruct (cmd_eqb b c) eqn:E; [exact (cmd_eqb_trans _ _ _ H E)|].
  destruct (cmd_eqb a c) eqn:F; [|reflexivity]. rewrite cmd_eqb_sym in H. rewrite (cmd_eqb_trans _ _ _ H F) in E. discriminate E.
Qed.
Lemma dget_congr {V} (d : list (command * V)) a b : cmd_eqb a b = true -> dget d a = dget d b.
Proof.
  intros H. induction d as [|[k v] d IH]; cbn; [reflexivity|].
  rewrite (cmd_eqb_sym k a), (cmd_eqb_sym k b), (eqb_congr _ _ k H), IH. reflexivity.
Qed.
(* no two keys are equal in Python's sense *)
Fixpoint distinct (l : list command) : Prop :=
  match l with [] => True | c :: t => (forall c', In c' t -> cmd_eqb c c' = false) /\ distinct t end.
Lemma dget_none {V} (d : list (command * V)) k : (forall c, In c (map fst d) -> cmd_eqb c k = false) -> dget d k = None.
Proof. induction d as [|[c v] d IH]; cbn; intros H; [reflexivity|]. rewrite (H c) by (left; reflexivity). apply IH. intros c' I. apply H. right. exact I. Qed.
Lemma dget_pop {V} (d : list (command * V)) k k' : distinct (map fst d) -> dget (dpop d k) k' = if cmd_eqb k k' then None else dget d k'.
Proof.
  induction d as [|[c v] d IH]; cbn; intros D; [destruct (cmd_eqb k k'); reflexivity|]. destruct D as [D1 D2].
  destruct (cmd_eqb c k) eqn:E.
  - rewrite (eqb_congr c k k' E). destruct (cmd_eqb k k') eqn:F; [|reflexivity].
    apply dget_none. intros c' I. rewrite cmd_eqb_sym. rewrite <- (eqb_congr c k' c'); [apply D1, I|]. exact (cmd_eqb_trans _ _ _ E F).
  - cbn. rewrite (IH D2). destruct (cmd_eqb c k') eqn:F; [|reflexivity]. destruct (cmd_eqb k k') eqn:G; [|reflexivity].
    rewrite cmd_eqb_sym, (eqb_congr k k' c G), cmd_eqb_sym in E. congruence.
Qed.
Lemma keys_set {V} (d : list (command * V)) k v : dmem d k = true -> map fst (dset d k v) = map fst d.
Proof.
  unfold dict_mem. induction d as [|[c x] d IH]; cbn; [discriminate|]. destruct (cmd_eqb c k) eqn:E; [reflexivity|].
  intros H. cbn. f_equal. apply IH, H.
Qed.
Lemma keys_set_new {V} (d : list (command * V)) k v : dmem d k = false -> map fst (dset d k v) = map fst d ++ [k].
Proof.
  unfold dict_mem. induction d as [|[c x] d IH]; cbn; [reflexivity|]. destruct (cmd_eqb c k) eqn:E; [discriminate|].
  intros H. cbn. f_equal. apply IH, H.
Qed.
Lemma dmem_In {V} (d : list (command * V)) k : In k (map fst d) -> dmem d k = true.
Proof.
  unfold dict_mem. induction d as [|[c x] d IH]; cbn; [tauto|]. intros [->|H]; [rewrite cmd_eqb_refl; reflexivity|].
  destruct (cmd_eqb c k); [reflexivity|]. apply IH, H.
Qed.
Lemma dmem_iff {V} (d : list (command * V)) k : dmem d k = true <-> exists c, In c (map fst d) /\ cmd_eqb c k = true.
Proof.
  split.
  - unfold dict_mem. induction d as [|[c x] d IH]; cbn; [discriminate|]. destruct (cmd_eqb c k) eqn:E; [intros _; exists c; auto|].
    intros H. destruct (IH H) as (c' & I & F). exists c'. auto.
  - intros (c & I & E). apply dmem_In in I. unfold dict_mem in *. rewrite (dget_congr d c k E) in I. exact I.
Qed.
Lemma distinct_app l k : distinct l -> (forall c, In c l -> cmd_eqb c k = false) -> distinct (l ++ [k]).
Proof.
  induction l as [|c l IH]; cbn; intros D H; [split; [tauto|exact Logic.I]|]. destruct D as [D1 D2]. split.
  - intros c' I. apply in_app_or in I as [I|[<-|[]]]; [apply D1, I|]. apply H. left. reflexivity.
  - apply IH; [exact D2|]. intros c' I. apply H. right. exact I.
Qed.
Lemma distinct_set {V} (d : list (command * V)) k v : distinct (map fst d) -> distinct (map fst (dset d k v)).
Proof.
  intros D. destruct (dmem d k) eqn:M; [rewrite keys_set; assumption|]. rewrite keys_set_new by exact M. apply distinct_app; [exact D|].
  intros c I. destruct (cmd_eqb c k) eqn:E; [|reflexivity]. assert (dmem d k = true) by (apply dmem_iff; eauto). congruence.
Qed.
Lemma keys_pop_incl {V} (d : list (command * V)) k c : In c (map fst (dpop d k)) -> In c (map fst d).
Proof. induction d as [|[c' x] d IH]; cbn; [tauto|]. destruct (cmd_eqb c' k); cbn; tauto. Qed.
Lemma distinct_pop {V} (d : list (command * V)) k : distinct (map fst d) -> distinct (map fst (dpop d k)).
Proof.
  induction d as [|[c x] d IH]; cbn; intros D; [exact Logic.I|]. destruct D as [D1 D2]. destruct (cmd_eqb c k); [exact D2|]. cbn.
  split; [|apply IH, D2]. intros c' I. apply D1. eapply keys_pop_incl, I.
Qed.
Lemma length_set {V} (d : list (command * V)) k v : dmem d k = true -> length (dset d k v) = length d.
Proof. intros H. rewrite <- (map_length fst (dset d k v)), keys_set, map_length by exact H. reflexivity. Qed.

(* ---- lists of threads ---- *)
Lemma nth_set {A} (l : list A) i j x : nth_error (set_nth i x l) j = if Nat.eqb i j then match nth_error l i with Some _ => Some x | None => None end else nth_error l j.
Proof.
  revert i j; induction l as [|y l IH]; intros [|i] [|j]; cbn; try reflexivity.
  - destruct (Nat.eqb i j); reflexivity.
  - apply IH.
Qed.
Lemma nth_app_new {A} (l : list A) x j : nth_error (l ++ [x]) j = if Nat.eqb j (length l) then Some x else nth_error l j.
Proof.
  destruct (Nat.eqb_spec j (length l)) as [->|N].
  - rewrite nth_error_app2 by lia. rewrite Nat.sub_diag. reflexivity.
  - destruct (Nat.lt_ge_cases j (length l)); [apply nth_error_app1; assumption|].
    rewrite (proj2 (nth_error_None l j)) by lia. apply nth_error_None. rewrite app_length. cbn. lia.
Qed.

(* ---- the invariant ---- *)
Definition pc_of (s : astate) (i : nat) : option tpc := nth_error (a_threads s) i.
(* the thread has not finished with the loop *)
Definition looping (p : tpc) : bool := match p with T_new | T_return | T_done | T_dead _ => false | _ => true end.
Definition suffix_of {A} (t l : list A) : Prop := exists p, l = p ++ t.
Definition iter_ok (s : astate) (l : list command) (it : iter) : Prop :=
  it_gen it = a_gen s /\ it_size it = length (a_cmds s) /\ suffix_of l (map fst (a_cmds s)).
Definition thread_ok (s : astate) (p : tpc) : Prop :=
  match p with
  | T_new | T_done | T_dead _ => True
  | T_while | T_len | T_for | T_sleep => a_cmds s <> []
  | T_idle => False
  | T_next it => a_cmds s <> [] /\ iter_ok s (it_keys it) it
  | T_conn c it => a_cmds s <> [] /\ iter_ok s (c :: it_keys it) it
  | T_query c it => a_cmds s <> [] /\ iter_ok s (c :: it_keys it) it /\ async_connected s = true
  | T_store c r it => a_cmds s <> [] /\ iter_ok s (c :: it_keys it) it
  | T_cbs c r it => a_cmds s <> [] /\ iter_ok s (c :: it_keys it) it /\ dget (a_cmds s) c = Some r
  | T_call c r fs it => a_cmds s <> [] /\ iter_ok s (c :: it_keys it) it /\ dget (a_cmds s) c = Some r
                        /\ exists l, dget (a_cbs s) c = Some l /\ suffix_of fs l
  | T_disc1 => a_cmds s <> [] /\ async_connected s = false
  | T_disc2 => async_connected s = false /\ a_running s = false
  | T_return => async_connected s = false
  end.
Definition table_ok (t : commands_t * callbacks_t) : Prop :=
  distinct (map fst (fst t)) /\ distinct (map fst (snd t)) /\ forall c, dmem (fst t) c = true -> dmem (snd t) c = true.
Definition stopping (p : mpc) : bool := match p with M_stop3 _ | M_stop4 _ _ | M_stop5 _ => true | _ => false end.
Definition main_ok (s : astate) : Prop :=
  match a_pc s with
  | M_start3 => a_cmds s <> []
  | M_start4 => a_cmds s <> [] /\ a_thread s = None
  | M_start5 => a_cmds s <> [] /\ a_thread s = None /\ a_running s = true
  | M_start6 => a_cmds s <> [] /\ a_running s = true /\ exists i, a_thread s = Some i /\ pc_of s i = Some T_new
  | M_stop3 _ => a_running s = false
  | M_stop4 i _ => a_running s = false /\ (a_thread s = Some i \/ a_thread s = None) /\ exists p, pc_of s i = Some p /\ p <> T_new
  | M_stop5 _ => a_running s = false /\ forall i p, pc_of s i = Some p -> looping p = false
  | M_close2 => a_thread s = None
  | M_watch _ _ _ | M_unwatch _ _ | M_unwatch_all => a_running s = false
  | _ => True
  end.
Record ainv (s : astate) : Prop := {
  I_oinv : oinv (a_obd s);
  I_one : forall i p, pc_of s i = Some p -> looping p = true -> a_thread s = Some i;
  I_new : forall i, pc_of s i = Some T_new -> a_pc s = M_start6 /\ a_thread s = Some i;
  I_ok : forall i p, pc_of s i = Some p -> thread_ok s p;
  I_thread : forall i, a_thread s = Some i -> exists p, pc_of s i = Some p /\ p <> T_return /\ (p = T_done -> stopping (a_pc s) = true);
  I_stopped : a_running s = false -> forall i p, pc_of s i = Some p -> looping p = true -> p = T_disc2 \/ stopping (a_pc s) = true;
  I_running : a_running s = true -> a_pc s = M_start5 \/ exists i p, a_thread s = Some i /\ pc_of s i = Some p /\ (looping p = true \/ p = T_new \/ exists e, p = T_dead e);
  I_main : main_ok s;
  I_table : table_ok (a_cmds s, a_cbs s) }.

Lemma others_not_looping s i p : ainv s -> pc_of s i = Some p -> looping p = true -> forall j q, pc_of s j = Some q -> j <> i ->
  q = T_return \/ q = T_done \/ exists e, q = T_dead e.
Proof.
  intros V P L j q Q N. pose proof (I_one _ V _ _ P L) as E. destruct q; try (pose proof (I_one _ V _ _ Q eq_refl) as F; congruence); eauto.
  destruct (I_new _ V _ Q) as [_ F]. congruence.
Qed.

Lemma query_status c o w r o' w' : oinv o -> query c true (o, w) = (r, (o', w')) -> oinv o' /\ (is_connected o' = true -> is_connected o = true).
Proof.
  intros OI Q. destruct (query_spec _ _ _ _ _ _ _ OI Q) as (t & _ & R). destruct (query_run_inv _ _ _ _ _ _ OI R) as (OI' & _). split; [exact OI'|].
  unfold is_connected. destruct (query_writes _ _ _ _ _ _ OI R) as [(_ & _ & -> & _)|(_ & _ & _ & [(_ & _ & E & _)|(_ & E & _)])].
  - auto.
  - rewrite E. discriminate.
  - rewrite E. auto.
Qed.

(* a step of the update thread that leaves the control variables alone *)
Lemma thread_move i p p' s s1 : ainv s -> pc_of s i = Some p -> looping p = true -> p <> T_disc2 ->
  a_threads s1 = set_nth i p' (a_threads s) -> a_pc s1 = a_pc s -> a_running s1 = a_running s -> a_thread s1 = a_thread s ->
  map fst (a_cmds s1) = map fst (a_cmds s) -> a_cbs s1 = a_cbs s -> oinv (a_obd s1) ->
  (async_connected s1 = true -> async_connected s = true) -> thread_ok s1 p' ->
  (looping p' = true /\ p' <> T_disc2 \/ (exists e, p' = T_dead e) \/ (p' = T_done /\ a_running s = false)) -> ainv s1.
Proof.
  intros V P L N Et Ep Er Eh Ek Eb OI C Ok K.
  assert (Pc : forall j, pc_of s1 j = if Nat.eqb i j then Some p' else pc_of s j).
  { intros j. unfold pc_of in *. rewrite Et, nth_set, P. reflexivity. }
  assert (Ec : a_cmds s1 = [] <-> a_cmds s = []).
  { split; intros X; rewrite X in Ek; [destruct (a_cmds s)|destruct (a_cmds s1)]; cbn in Ek; congruence. }
  pose proof (I_one _ V _ _ P L) as Th.
  assert (Oth : forall j q, pc_of s1 j = Some q -> j = i /\ q = p' \/ j <> i /\ pc_of s j = Some q /\ (q = T_return \/ q = T_done \/ exists e, q = T_dead e)).
  { intros j q Q. rewrite Pc in Q. destruct (Nat.eqb_spec i j) as [->|M]; [injection Q as <-; auto|]. right. assert (M' : j <> i) by congruence. split; [assumption|]. split; [exact Q|]. exact (others_not_looping _ _ _ V P L _ _ Q M'). }
  assert (NT : p' <> T_new). { destruct K as [[K _]|[[e ->]|[-> _]]]; try discriminate. intros ->. discriminate K. }
  constructor.
  - exact OI.
  - intros j q Q Lq. destruct (Oth _ _ Q) as [[-> ->]|(M & Q' & [->|[->|[e ->]]])]; try discriminate Lq. congruence.
  - intros j Q. destruct (Oth _ _ Q) as [[-> E]|(M & Q' & [E|[E|[e E]]])]; congruence.
  - intros j q Q. destruct (Oth _ _ Q) as [[-> ->]|(M & Q' & [->|[->|[e ->]]])]; [exact Ok| | |]; cbn; trivial.
    pose proof (I_ok _ V _ _ Q') as X. cbn in X. destruct (async_connected s1) eqn:Y; [|reflexivity]. rewrite (C eq_refl) in X. discriminate X.
  - intros j Q. rewrite Eh, Th in Q. injection Q as <-. exists p'. rewrite Pc, Nat.eqb_refl. split; [reflexivity|]. split.
    + destruct K as [[K _]|[[e ->]|[-> _]]]; try discriminate. intros ->. discriminate K.
    + intros ->. rewrite Ep. destruct K as [[K _]|[[e K]|[_ K]]]; try discriminate. destruct (I_stopped _ V K _ _ P L); [contradiction|assumption].
  - intros R j q Q Lq. rewrite Er in R. destruct (I_stopped _ V R _ _ P L); [contradiction|]. right. congruence.
  - intros R. rewrite Er in R. right. exists i, p'. rewrite Pc, Nat.eqb_refl, Eh. split; [exact Th|]. split; [reflexivity|].
    destruct K as [[K _]|[K|[_ K]]]; auto. congruence.
  - pose proof (I_main _ V) as M. unfold main_ok in *. rewrite Ep, Er, Eh. destruct (a_pc s); trivial.
    + tauto.
    + tauto.
    + tauto.
    + destruct M as (M1 & M2 & j & M3 & M4). exfalso. assert (j = i) by congruence. subst j. rewrite P in M4. injection M4 as ->. discriminate L.
    + destruct M as (M1 & M2 & q & M3 & M4). split; [exact M1|]. split; [exact M2|]. rewrite Pc. destruct (Nat.eqb_spec i id); eauto.
    + destruct M as (M1 & M2). rewrite (M2 _ _ P) in L. discriminate L.
  - pose proof (I_table _ V) as (T1 & T2 & T3). unfold table_ok in *. cbn [fst snd] in *. rewrite Ek, Eb. split; [exact T1|]. split; [exact T2|].
    intros c X. apply T3. apply dmem_iff. apply dmem_iff in X. rewrite Ek in X. exact X.
Qed.

Lemma suffix_tail {A} (c : A) l m : suffix_of (c :: l) m -> suffix_of l m.
Proof. intros [p ->]. exists (p ++ [c]). rewrite <- app_assoc. reflexivity. Qed.
Lemma suffix_in {A} (c : A) l m : suffix_of (c :: l) m -> In c m.
Proof. intros [p ->]. apply in_or_app. right. left. reflexivity. Qed.
Lemma suffix_refl {A} (l : list A) : suffix_of l l.
Proof. exists []. reflexivity. Qed.

(* what a thread step does, and that it is never disturbed *)
Definition undisturbed_step (s : astate) (i : nat) (b : bool) (p : tpc) (s' : astate) : Prop :=
  match p with
  | T_new | T_done | T_dead _ => False
  | T_while => s' = set_tpc i (if a_running s then T_len else T_done) s
  | T_len => s' = set_tpc i T_for s
  | T_for => s' = set_tpc i (T_next (mkIter (map fst (a_cmds s)) (length (a_cmds s)) (a_gen s))) s
  | T_next it => s' = set_tpc i match it_keys it with
                                | [] => T_sleep
                                | c :: rest => T_conn c (mkIter rest (it_size it) (it_gen it))
                                end s
  | T_conn c it => s' = set_tpc i (if async_connected s then T_query c it else T_disc1) s
  | T_disc1 => s' = set_tpc i T_disc2 (upd_running false s)
  | T_disc2 => s' = set_tpc i T_return (upd_thread None s)
  | T_return => s' = set_tpc i T_done s
  | T_query c it => exists r ow, query c true (a_obd s, a_world s) = (r, ow) /\
      s' = set_tpc i (match r with Ok r => T_store c r it | Raise e => T_dead e end) (add_event (AEv_query i c r) (upd_obd ow s))
  | T_store c r it => s' = set_tpc i (T_cbs c r it) (upd_dicts (dset (a_cmds s) c r, a_cbs s) s)
  | T_cbs c r it => exists l, dget (a_cbs s) c = Some l /\ s' = set_tpc i (T_call c r l it) s
  | T_call c r [] it => s' = set_tpc i (T_next it) s
  | T_call c r (f :: fs) it => s' = set_tpc i (if b then T_dead CustomError else T_call c r fs it) (add_event (AEv_fire i c f r) s)
  | T_sleep => s' = set_tpc i T_while s
  | T_idle => False
  end.
Lemma thread_step_spec i b s s' : ainv s -> thread_step i b s = Some s' -> exists p, pc_of s i = Some p /\ undisturbed_step s i b p s'.
Proof.
  intros V H. unfold thread_step in H. fold (pc_of s i) in H. destruct (pc_of s i) as [p|] eqn:P; [|discriminate H]. exists p. split; [reflexivity|].
  pose proof (I_ok _ V _ _ P) as Ok. destruct p; cbn [undisturbed_step thread_ok] in *; try discriminate H; try (injection H as <-; reflexivity).
  - destruct (a_cmds s) as [|x l] eqn:E; [contradiction|]. injection H as <-. reflexivity.
  - destruct Ok as (_ & G & S & _). rewrite (proj2 (Nat.eqb_eq _ _) S) in H. cbn [negb] in H. rewrite andb_false_r in H. injection H as <-.
    destruct (it_keys it); reflexivity.
  - destruct (query c true (a_obd s, a_world s)) as [r ow] eqn:Q. injection H as <-. exists r, ow. auto.
  - destruct Ok as (_ & (_ & _ & Su) & _). apply suffix_in, dmem_In in Su. pose proof (I_table _ V) as (_ & _ & T). apply T in Su. cbn [snd] in Su.
    unfold dict_mem in Su. destruct (dget (a_cbs s) c) as [l|]; [|discriminate Su]. injection H as <-. eauto.
  - destruct cbs; injection H as <-; reflexivity.
  - contradiction.
Qed.

Lemma iter_ok_same s s1 l it : a_gen s1 = a_gen s -> map fst (a_cmds s1) = map fst (a_cmds s) -> iter_ok s l it -> iter_ok s1 l it.
Proof. intros G K (A & B & C). split; [congruence|]. rewrite K. split; [|exact C]. rewrite B, <- (map_length fst), <- K, map_length. reflexivity. Qed.

Theorem thread_step_inv i b s s' : ainv s -> thread_step i b s = Some s' -> ainv s'.
Proof.
  intros V H. destruct (thread_step_spec _ _ _ _ V H) as (p & P & U). pose proof (I_ok _ V _ _ P) as Ok.
  assert (Mv : forall p', looping p = true -> p <> T_disc2 -> thread_ok (set_tpc i p' s) p' ->
     (looping p' = true /\ p' <> T_disc2 \/ (exists e, p' = T_dead e) \/ (p' = T_done /\ a_running s = false)) -> ainv (set_tpc i p' s)).
  { intros p' L N Ok' K. refine (thread_move i p p' s (set_tpc i p' s) V P L N eq_refl eq_refl eq_refl eq_refl eq_refl eq_refl (I_oinv _ V) _ Ok' K). auto. }
  destruct p; cbn [undisturbed_step] in U; try contradiction.
  - subst s'. destruct (a_running s) eqn:R; apply Mv; try discriminate; auto; cbn; try exact Logic.I; auto. left. split; [reflexivity|discriminate].
  - subst s'. apply Mv; try discriminate; auto. left. split; [reflexivity|discriminate].
  - subst s'. apply Mv; try discriminate; auto; [|left; split; [reflexivity|discriminate]]. cbn in *. split; [exact Ok|]. split; [reflexivity|]. split; [reflexivity|]. apply suffix_refl.
  - subst s'. cbn in Ok. destruct Ok as (Ne & G & S & Su). destruct (it_keys it) as [|c rest] eqn:E; apply Mv; try discriminate; auto; try (left; split; [reflexivity|discriminate]); cbn.
    split; [exact Ne|]. split; [exact G|]. split; [exact S|exact Su].
  - subst s'. cbn in Ok. destruct Ok as (Ne & It). destruct (async_connected s) eqn:C; apply Mv; try discriminate; auto; try (left; split; [reflexivity|discriminate]); cbn; auto.
  - (* running := False *)
    subst s'. cbn in Ok. destruct Ok as (Ne & C). pose proof (I_one _ V _ _ P eq_refl) as Th.
    assert (Pc : forall j, pc_of (set_tpc i T_disc2 (upd_running false s)) j = if Nat.eqb i j then Some T_disc2 else pc_of s j).
    { intros j. unfold pc_of in *. cbn. rewrite nth_set, P. reflexivity. }
    assert (Oth : forall j q, pc_of (set_tpc i T_disc2 (upd_running false s)) j = Some q -> j = i /\ q = T_disc2 \/ j <> i /\ pc_of s j = Some q /\ (q = T_return \/ q = T_done \/ exists e, q = T_dead e)).
    { intros j q Q. rewrite Pc in Q. destruct (Nat.eqb_spec i j) as [->|M]; [injection Q as <-; auto|]. right. assert (M' : j <> i) by congruence. split; [assumption|]. split; [exact Q|]. exact (others_not_looping _ _ _ V P eq_refl _ _ Q M'). }
    constructor; cbn [a_obd a_thread a_pc a_running a_cmds a_cbs set_tpc upd_threads upd_running].
    + apply (I_oinv _ V).
    + intros j q Q Lq. destruct (Oth _ _ Q) as [[-> ->]|(M & Q' & [->|[->|[e ->]]])]; try discriminate Lq. exact Th.
    + intros j Q. destruct (Oth _ _ Q) as [[-> E]|(M & Q' & [E|[E|[e E]]])]; discriminate E.
    + intros j q Q. destruct (Oth _ _ Q) as [[-> ->]|(M & Q' & [->|[->|[e ->]]])]; cbn; auto.
    + intros j Q. rewrite Th in Q. injection Q as <-. exists T_disc2. rewrite Pc, Nat.eqb_refl. split; [reflexivity|]. split; discriminate.
    + intros _ j q Q Lq. destruct (Oth _ _ Q) as [[-> ->]|(M & Q' & [->|[->|[e ->]]])]; try discriminate Lq. auto.
    + discriminate.
    + pose proof (I_main _ V) as M. unfold main_ok in *. cbn [a_pc a_thread a_running a_cmds set_tpc upd_threads upd_running]. destruct (a_pc s); trivial.
      * destruct M as (_ & M & _). congruence.
      * destruct M as (_ & _ & j & M & M'). assert (j = i) by congruence. subst j. congruence.
      * destruct M as (M1 & M2 & q & M3 & M4). split; [reflexivity|]. split; [exact M2|]. rewrite Pc. destruct (Nat.eqb_spec i id); [exists T_disc2; split; [reflexivity|discriminate]|eauto].
      * destruct M as (M1 & M2). pose proof (M2 _ _ P) as X. discriminate X.
    + apply (I_table _ V).
  - (* thread := None *)
    subst s'. cbn in Ok. destruct Ok as (C & R). pose proof (I_one _ V _ _ P eq_refl) as Th.
    assert (Pc : forall j, pc_of (set_tpc i T_return (upd_thread None s)) j = if Nat.eqb i j then Some T_return else pc_of s j).
    { intros j. unfold pc_of in *. cbn. rewrite nth_set, P. reflexivity. }
    assert (Oth : forall j q, pc_of (set_tpc i T_return (upd_thread None s)) j = Some q -> j = i /\ q = T_return \/ j <> i /\ pc_of s j = Some q /\ (q = T_return \/ q = T_done \/ exists e, q = T_dead e)).
    { intros j q Q. rewrite Pc in Q. destruct (Nat.eqb_spec i j) as [->|M]; [injection Q as <-; auto|]. right. assert (M' : j <> i) by congruence. split; [assumption|]. split; [exact Q|]. exact (others_not_looping _ _ _ V P eq_refl _ _ Q M'). }
    constructor; cbn [a_obd a_thread a_pc a_running a_cmds a_cbs set_tpc upd_threads upd_thread].
    + apply (I_oinv _ V).
    + intros j q Q Lq. destruct (Oth _ _ Q) as [[-> ->]|(M & Q' & [->|[->|[e ->]]])]; discriminate Lq.
    + intros j Q. destruct (Oth _ _ Q) as [[-> E]|(M & Q' & [E|[E|[e E]]])]; discriminate E.
    + intros j q Q. destruct (Oth _ _ Q) as [[-> ->]|(M & Q' & [->|[->|[e ->]]])]; cbn; auto.
    + discriminate.
    + intros _ j q Q Lq. destruct (Oth _ _ Q) as [[-> ->]|(M & Q' & [->|[->|[e ->]]])]; discriminate Lq.
    + intros X. congruence.
    + pose proof (I_main _ V) as M. unfold main_ok in *. cbn [a_pc a_thread a_running a_cmds set_tpc upd_threads upd_thread]. destruct (a_pc s); trivial.
      * destruct M as (M & _). auto.
      * destruct M as (_ & M & _). congruence.
      * destruct M as (_ & M & _). congruence.
      * destruct M as (M1 & M2 & q & M3 & M4). split; [exact M1|]. split; [auto|]. rewrite Pc. destruct (Nat.eqb_spec i id); [exists T_return; split; [reflexivity|discriminate]|eauto].
      * destruct M as (M1 & M2). pose proof (M2 _ _ P) as X. discriminate X.
    + apply (I_table _ V).
  - (* return *)
    subst s'.
    assert (Pc : forall j, pc_of (set_tpc i T_done s) j = if Nat.eqb i j then Some T_done else pc_of s j).
    { intros j. unfold pc_of in *. cbn. rewrite nth_set, P. reflexivity. }
    constructor; cbn [a_obd a_thread a_pc a_running a_cmds a_cbs set_tpc upd_threads].
    + apply (I_oinv _ V).
    + intros j q Q Lq. rewrite Pc in Q. destruct (Nat.eqb_spec i j); [injection Q as <-; discriminate Lq|]. exact (I_one _ V _ _ Q Lq).
    + intros j Q. rewrite Pc in Q. destruct (Nat.eqb_spec i j); [discriminate Q|]. exact (I_new _ V _ Q).
    + intros j q Q. rewrite Pc in Q. destruct (Nat.eqb_spec i j); [injection Q as <-; exact Logic.I|]. pose proof (I_ok _ V _ _ Q) as X. destruct q; exact X.
    + intros j Q. destruct (I_thread _ V _ Q) as (q & A & B & D). exists q. rewrite Pc. destruct (Nat.eqb_spec i j) as [->|]; [|auto]. rewrite P in A. injection A as <-. contradiction.
    + intros R j q Q Lq. rewrite Pc in Q. destruct (Nat.eqb_spec i j); [injection Q as <-; discriminate Lq|]. exact (I_stopped _ V R _ _ Q Lq).
    + intros R. destruct (I_running _ V R) as [A|(j & q & A & B & D)]; [auto|]. right. exists j, q. rewrite Pc. destruct (Nat.eqb_spec i j) as [->|]; [|auto].
      rewrite P in B. injection B as <-. destruct D as [D|[D|[e D]]]; discriminate D.
    + pose proof (I_main _ V) as M. unfold main_ok in *. cbn [a_pc a_thread a_running a_cmds set_tpc upd_threads]. destruct (a_pc s); trivial.
      * destruct M as (M1 & M2 & j & M3 & M4). split; [exact M1|]. split; [exact M2|]. exists j. split; [exact M3|]. rewrite Pc. destruct (Nat.eqb_spec i j) as [->|]; [congruence|exact M4].
      * destruct M as (M1 & M2 & q & M3 & M4). split; [exact M1|]. split; [exact M2|]. rewrite Pc. destruct (Nat.eqb_spec i id); [exists T_done; split; [reflexivity|discriminate]|eauto].
      * destruct M as (M1 & M2). split; [exact M1|]. intros j q Q. rewrite Pc in Q. destruct (Nat.eqb_spec i j); [injection Q as <-; reflexivity|exact (M2 _ _ Q)].
    + apply (I_table _ V).
  - (* query *)
    destruct U as (r & [o' w'] & Q & ->). cbn in Ok. destruct Ok as (Ne & It & C). destruct (query_status _ _ _ _ _ _ (I_oinv _ V) Q) as (OI & St).
    eapply (thread_move i (T_query c it) _ s _ V P eq_refl ltac:(discriminate)); [reflexivity|reflexivity|reflexivity|reflexivity|reflexivity|reflexivity|exact OI| | |].
    + intros _. exact C.
    + destruct r; cbn; auto.
    + destruct r; [left; split; [reflexivity|discriminate]|]. right. left. eauto.
  - (* store *)
    subst s'. cbn in Ok. destruct Ok as (Ne & It). assert (Mm : dmem (a_cmds s) c = true) by (apply dmem_In; destruct It as (_ & _ & Su); eapply suffix_in, Su).
    eapply (thread_move i (T_store c r it) _ s _ V P eq_refl ltac:(discriminate)); [reflexivity|reflexivity|reflexivity|reflexivity| |reflexivity|exact (I_oinv _ V)| | |].
    + cbn. apply keys_set, Mm.
    + auto.
    + cbn. split; [intros X; apply Ne; apply (f_equal (@length _)) in X; rewrite length_set in X by exact Mm; destruct (a_cmds s); [reflexivity|discriminate X]|]. split.
      * apply (iter_ok_same s); [reflexivity| |exact It]. cbn. apply keys_set, Mm.
      * rewrite dget_set, cmd_eqb_refl. reflexivity.
    + left. split; [reflexivity|discriminate].
  - (* callbacks *)
    destruct U as (l & D & ->). cbn in Ok. destruct Ok as (Ne & It & G). apply Mv; try discriminate; auto; [|left; split; [reflexivity|discriminate]].
    cbn. split; [exact Ne|]. split; [exact It|]. split; [exact G|]. exists l. split; [exact D|apply suffix_refl].
  - cbn in Ok. destruct Ok as (Ne & It & G & l & D & Su). destruct cbs as [|f fs].
    + subst s'. apply Mv; try discriminate; auto; [|left; split; [reflexivity|discriminate]]. cbn. split; [exact Ne|]. destruct It as (A & B & E). split; [exact A|]. split; [exact B|]. eapply suffix_tail, E.
    + subst s'. destruct b.
      * eapply (thread_move i _ _ s _ V P eq_refl ltac:(discriminate)); [reflexivity|reflexivity|reflexivity|reflexivity|reflexivity|reflexivity|exact (I_oinv _ V)| | |]; [auto|exact Logic.I|]. right. left. eauto.
      * eapply (thread_move i _ _ s _ V P eq_refl ltac:(discriminate)); [reflexivity|reflexivity|reflexivity|reflexivity|reflexivity|reflexivity|exact (I_oinv _ V)| | |]; [auto| |left; split; [reflexivity|discriminate]].
        cbn. split; [exact Ne|]. split; [exact It|]. split; [exact G|]. exists l. split; [exact D|]. eapply suffix_tail, Su.
  - subst s'. apply Mv; try discriminate; auto. left. split; [reflexivity|discriminate].
Qed.
