(* What an Async object does with its connection is a history of queries (and perhaps close()) of an OBD object; responses come from queries. *)
From Coq Require Import ZArith List Bool Lia.
From Verif Require Import Py Num Utils Protocol Decoders Command CommandTable Commands World Elm Obd Async SpecElm SpecObd SpecAsync PyFacts CommandThms ElmFacts ElmThms ObdFacts ObdThms ObdThms2 AsyncFacts AsyncThms.
Import ListNotations.
Open Scope nat_scope.
Local Opaque query obd_close watch_table unwatch_table.

(* a query by an update thread, as a step in a history of the connection *)
Definition by_update (l : list aevent) : list (command * res (option response)) :=
  flat_map (fun e => match e with AEv_query _ c r => [(c, match r with Ok q => Ok (Some q) | Raise x => Raise x end)] | _ => [] end) l.
Definition of_history (h : list step) : list (command * res (option response)) :=
  flat_map (fun x => match st_op x with OpQuery c _ => [(c, st_result x)] | _ => [] end) h.
Definition loop_op (W : command -> Prop) (x : step) : Prop := match st_op x with OpQuery c force => force = true /\ W c | OpClose => True | _ => False end.
Definition queried_by (s : astate) (i : nat) (c : command) (r : response) : Prop := In (AEv_query i c (Ok r)) (a_events s).

Definition tpc_from (W : command -> Prop) (q : command -> response -> Prop) (p : tpc) : Prop :=
  match p with
  | T_next it => Forall W (it_keys it)
  | T_conn c it | T_query c it => W c /\ Forall W (it_keys it)
  | T_store c r it | T_cbs c r it | T_call c r _ it => W c /\ Forall W (it_keys it) /\ q c r
  | _ => True
  end.
Definition key_from (W : command -> Prop) (s : astate) (e : command * response) : Prop :=
  W (fst e) /\ (snd e = empty_response \/ exists i c, cmd_eqb c (fst e) = true /\ queried_by s i c (snd e)).
Record from (W : command -> Prop) (s0 s : astate) : Prop := {
  F_hist : exists h, history (a_obd s0, a_world s0) h (a_obd s, a_world s) /\ Forall (loop_op W) h /\ of_history h = by_update (a_events s);
  F_keys : Forall (key_from W s) (a_cmds s);
  F_tpc : forall i p, nth_error (a_threads s) i = Some p -> tpc_from W (queried_by s i) p;
  F_pc : forall c cb f, a_pc s = M_watch c cb f -> W c;
  F_prog : forall c cb f, In (AWatch c cb f) (a_prog s) -> W c;
  F_fire : forall i c f r, In (AEv_fire i c f r) (a_events s) -> queried_by s i c r;
  F_ret : forall c r, In (AEv_return (AQuery c) (OResponse r)) (a_events s) -> r = empty_response \/ exists i c', cmd_eqb c' c = true /\ queried_by s i c' r
}.
Lemma cmd_eqb_same a b : cmd_eqb a b = true <-> c_command a = c_command b /\ c_header a = c_header b.
Proof. unfold cmd_eqb. rewrite andb_true_iff, !text_eqb_iff. reflexivity. Qed.
Lemma set_keys {V} (P : command * V -> Prop) (l : list (command * V)) c v : Forall P l -> (forall k w, cmd_eqb k c = true -> P (k, w) -> P (k, v)) -> P (c, v) -> Forall P (dict_set cmd_eqb l c v).
Proof.
  intros F H1 H2. induction F as [|[k w] l Pk F IH]; cbn [dict_set]; [auto|]. destruct (cmd_eqb k c) eqn:E; constructor; eauto.
Qed.
Lemma pop_keys {V} (P : command * V -> Prop) (l : list (command * V)) c : Forall P l -> Forall P (dict_pop cmd_eqb l c).
Proof. intros F. induction F as [|[k w] l Pk F IH]; cbn [dict_pop]; [auto|]. destruct (cmd_eqb k c) eqn:E; auto. Qed.
Lemma get_key {V} (P : command * V -> Prop) (l : list (command * V)) c v : Forall P l -> dict_get cmd_eqb l c = Some v -> exists k, cmd_eqb k c = true /\ P (k, v).
Proof. intros F. induction F as [|[k w] l Pk F IH]; cbn [dict_get]; [discriminate|]. destruct (cmd_eqb k c) eqn:E; [|exact IH]. intros H. injection H as <-. eauto. Qed.
Local Transparent watch_table unwatch_table.
Lemma watch_from (P : command * response -> Prop) c cb cmds cbs cmds' cbs' : Forall P cmds -> P (c, empty_response) -> watch_table c cb (cmds, cbs) = Ok (cmds', cbs') -> Forall P cmds'.
Proof.
  intros F Pc. unfold watch_table. destruct (dict_mem cmd_eqb cmds c) eqn:M.
  - destruct cb as [f|]; [|intros H; injection H as <- <-; exact F]. destruct (dict_get cmd_eqb cbs c) as [l|]; [|discriminate]. destruct (existsb (Z.eqb f) l); intros H; injection H as <- <-; exact F.
  - assert (G : Forall P (dict_set cmd_eqb cmds c empty_response)).
    { unfold dict_mem in M. destruct (dict_get cmd_eqb cmds c) eqn:E; [discriminate M|]. clear M. induction F as [|[k w] l Pk F IH]; cbn [dict_set]; [auto|]. cbn [dict_get] in E. destruct (cmd_eqb k c); [discriminate E|]. constructor; auto. }
    destruct cb as [f|]; [|intros H; injection H as <- <-; exact G]. destruct (dict_get cmd_eqb _ c) as [l|]; [|discriminate]. destruct (existsb (Z.eqb f) l); intros H; injection H as <- <-; exact G.
Qed.
Lemma unwatch_from (P : command * response -> Prop) c cb cmds cbs cmds' cbs' : Forall P cmds -> unwatch_table c cb (cmds, cbs) = Ok (cmds', cbs') -> Forall P cmds'.
Proof.
  intros F. unfold unwatch_table. destruct (dict_mem cmd_eqb cmds c); [|intros H; injection H as <- <-; exact F].
  destruct cb as [f|]; [|intros H; injection H as <- <-; apply pop_keys, F]. destruct (dict_get cmd_eqb cbs c) as [l|]; [|discriminate].
  destruct (existsb (Z.eqb f) l); [|intros H; injection H as <- <-; apply pop_keys, F]. destruct (nonempty _); intros H; injection H as <- <-; [exact F|apply pop_keys, F].
Qed.
Local Opaque watch_table unwatch_table.

(* a step that neither asks nor changes the table *)
Lemma key_mono W s s1 e : incl (a_events s) (a_events s1) -> key_from W s e -> key_from W s1 e.
Proof. intros I (A & B). split; [exact A|]. destruct B as [B|(i & c & E & Q)]; [auto|]. right. exists i, c. split; [exact E|]. apply I, Q. Qed.
Lemma tpc_mono W s s1 i p : incl (a_events s) (a_events s1) -> tpc_from W (queried_by s i) p -> tpc_from W (queried_by s1 i) p.
Proof. intros I H. destruct p; cbn [tpc_from] in *; auto; destruct H as (A & B & C); (split; [exact A|]; split; [exact B|]; apply I, C). Qed.
Lemma by_update_app a b : by_update (a ++ b) = by_update a ++ by_update b.
Proof. apply flat_map_app. Qed.


Lemma hist_quiet W s0 s s1 new : from W s0 s -> a_obd s1 = a_obd s -> a_world s1 = a_world s -> a_events s1 = a_events s ++ new -> by_update new = [] ->
  exists h, history (a_obd s0, a_world s0) h (a_obd s1, a_world s1) /\ Forall (loop_op W) h /\ of_history h = by_update (a_events s1).
Proof.
  intros F -> -> -> B. destruct (F_hist _ _ _ F) as (h & H & G & E). exists h. rewrite by_update_app, B, app_nil_r. auto.
Qed.
Lemma nth_set {A} (l : list A) : forall i j (p q : A), nth_error (set_nth i p l) j = Some q -> nth_error l j = Some q \/ (j = i /\ q = p).
Proof.
  induction l as [|x l IH]; intros [|i] [|j] p q; cbn [set_nth nth_error]; try discriminate; auto.
  - intros H. injection H as <-. auto.
  - intros H. apply IH in H as [H|[-> ->]]; auto.
Qed.

(* a step that leaves the connection alone *)
Lemma from_quiet W s0 s s1 new : from W s0 s -> a_obd s1 = a_obd s -> a_world s1 = a_world s -> a_events s1 = a_events s ++ new -> by_update new = [] ->
  (a_cmds s1 = a_cmds s \/ Forall (key_from W s1) (a_cmds s1)) ->
  (forall i p, nth_error (a_threads s1) i = Some p -> nth_error (a_threads s) i = Some p \/ tpc_from W (queried_by s1 i) p) ->
  (forall c cb f, a_pc s1 = M_watch c cb f -> a_pc s = M_watch c cb f \/ W c) -> incl (a_prog s1) (a_prog s) ->
  (forall i c f r, In (AEv_fire i c f r) new -> queried_by s i c r) ->
  (forall c r, In (AEv_return (AQuery c) (OResponse r)) new -> r = empty_response \/ exists i c', cmd_eqb c' c = true /\ queried_by s i c' r) ->
  from W s0 s1.
Proof.
  intros F O Wd E B K T P G Fi Re. assert (I : incl (a_events s) (a_events s1)) by (rewrite E; apply incl_appl, incl_refl). constructor.
  - eapply hist_quiet; eauto.
  - destruct K as [K|K]; [|exact K]. rewrite K. eapply Forall_impl; [|exact (F_keys _ _ _ F)]. intros e. apply key_mono, I.
  - intros i p N. destruct (T i p N) as [N'|N']; [|exact N']. eapply tpc_mono; [exact I|]. exact (F_tpc _ _ _ F i p N').
  - intros c cb f N. destruct (P c cb f N) as [N'|N']; [|exact N']. exact (F_pc _ _ _ F c cb f N').
  - intros c cb f N. apply G in N. exact (F_prog _ _ _ F c cb f N).
  - intros i c f r N. rewrite E in N. apply in_app_or in N as [N|N]; apply I; [exact (F_fire _ _ _ F i c f r N)|exact (Fi i c f r N)].
  - intros c r N. rewrite E in N. apply in_app_or in N as [N|N]; [destruct (F_ret _ _ _ F c r N) as [X|(i & c' & X & Y)]|destruct (Re c r N) as [X|(i & c' & X & Y)]]; auto; right; exists i, c'; split; [exact X|apply I, Y|exact X|apply I, Y].
Qed.
Lemma cmd_eqb_comp a b c : cmd_eqb a b = true -> cmd_eqb b c = true -> cmd_eqb a c = true.
Proof. rewrite !cmd_eqb_same. intros [-> ->] [-> ->]. auto. Qed.
(* the user's thread *)
Ltac fin Go Nil := match goal with
  | |- from _ _ (finish ?out ?x) => eapply (Go _ [AEv_return _ out]); try reflexivity; auto; try discriminate; try apply incl_refl; try (intros ? ? ? ? [?|[]]; discriminate);
      intros ? ? [X|[]]; repeat (match type of X with context [match ?y with _ => _ end] => destruct y end); discriminate X
  | |- from _ _ _ => apply (Go _ []); try reflexivity; auto; try discriminate; try (cbn; rewrite app_nil_r; reflexivity); try apply Nil; apply incl_refl
  end.
Lemma from_main W s0 s s1 : oinv (a_obd s) -> from W s0 s -> main_step s = Some s1 -> from W s0 s1.
Proof.
  intros OI F H. unfold main_step in H.
  assert (Go : forall s1 new, a_obd s1 = a_obd s -> a_world s1 = a_world s -> a_events s1 = a_events s ++ new -> by_update new = [] ->
    (a_cmds s1 = a_cmds s \/ Forall (key_from W s1) (a_cmds s1)) -> (forall i p, nth_error (a_threads s1) i = Some p -> nth_error (a_threads s) i = Some p \/ tpc_from W (queried_by s1 i) p) ->
    (forall c cb f, a_pc s1 = M_watch c cb f -> a_pc s = M_watch c cb f \/ W c) -> incl (a_prog s1) (a_prog s) -> (forall i c f r, ~ In (AEv_fire i c f r) new) ->
    (forall c r, ~ In (AEv_return (AQuery c) (OResponse r)) new) -> from W s0 s1).
  { intros x new X1 X2 X3 X4 X5 X6 X7 X8 X9 X10. eapply (from_quiet W s0 s x new); try eassumption; [intros i c f r X; destruct (X9 i c f r X)|intros c r X; destruct (X10 c r X)]. }
  assert (Ret : forall o out s2, (forall r, out <> OResponse r) -> (forall i c f r, ~ In (AEv_fire i c f r) [AEv_return o out]) /\ (forall c r, ~ In (AEv_return (AQuery c) (OResponse r)) [AEv_return o out]) /\ by_update [AEv_return o out] = [] /\ s2 = s2 :> astate).
  { intros o out s2 N. split; [intros i c f r [X|[]]; discriminate X|]. split; [intros c r [X|[]]; injection X as X Y; exact (N r Y)|]. auto. }
  assert (Nil : (forall i c f r, ~ In (AEv_fire i c f r) []) /\ (forall c r, ~ In (AEv_return (AQuery c) (OResponse r)) [])) by (split; intros; intros []).
  destruct (a_pc s) eqn:P.
  - (* idle *)
    destruct (a_prog s) as [|o rest] eqn:Pr; [discriminate|]. injection H as <-.
    assert (Inc : incl rest (o :: rest)) by apply incl_tl, incl_refl.
    assert (Plain : forall p, (forall c cb f, p = M_watch c cb f -> W c) -> from W s0 (upd_pc p (upd_prog o rest s))).
    { intros p X. apply (Go _ []); try reflexivity; auto; try (cbn [a_events upd_pc upd_prog]; rewrite app_nil_r; reflexivity); try apply Nil; try exact Inc. intros c cb f Y. right. exact (X _ _ _ Y). }
    assert (Fin : forall out, (forall r, out <> OResponse r) -> from W s0 (finish out (upd_prog o rest s))).
    { intros out X. destruct (Ret o out s X) as (R1 & R2 & R3 & _). apply (Go _ [AEv_return o out]); try reflexivity; auto; try exact Inc; discriminate. }
    assert (Wo : forall c cb f, o = AWatch c cb f -> W c) by (intros c cb f ->; apply (F_prog _ _ _ F c cb f); rewrite Pr; left; reflexivity).
    destruct o as [| | | | |c cb f|c cb| |c]; try (apply Plain; discriminate); cbn [a_running upd_prog].
    + destruct (a_running s); [apply Fin; discriminate|]. apply Plain. intros c' cb' f' X. injection X as <- <- <-. exact (Wo _ _ _ eq_refl).
    + destruct (a_running s); [apply Fin; discriminate|]. apply Plain; discriminate.
    + destruct (a_running s); [apply Fin; discriminate|]. apply Plain; discriminate.
    + eapply (from_quiet W s0 s _ [_]); [exact F|reflexivity|reflexivity|reflexivity|reflexivity|auto|auto|discriminate|rewrite Pr; exact Inc|intros i c' f r [X|[]]; discriminate X|].
      intros c' r [X|[]]. cbn [a_cmds upd_prog a_op] in X. injection X as <- <-. destruct (dict_get cmd_eqb (a_cmds s) c) as [r|] eqn:G; [|auto].
      destruct (get_key _ _ _ _ (F_keys _ _ _ F) G) as (k & E & _ & Q). cbn [fst snd] in Q. destruct Q as [Q|(i & c' & E' & Q)]; [auto|]. right. exists i, c'. split; [exact (cmd_eqb_comp _ _ _ E' E)|exact Q].
  - injection H as <-. destruct (negb (async_connected s)); fin Go Nil.
  - injection H as <-. destruct (nonempty (a_cmds s)); fin Go Nil.
  - injection H as <-. destruct (a_thread s); fin Go Nil.
  - injection H as <-. fin Go Nil.
  - injection H as <-. apply (Go _ []); try reflexivity; auto; try (cbn; rewrite app_nil_r; reflexivity); try apply Nil; try apply incl_refl; try discriminate.
    intros i p N. cbn [a_threads upd_pc upd_thread upd_threads] in N. destruct (Nat.lt_ge_cases i (length (a_threads s))) as [L|L]; [rewrite nth_error_app1 in N by exact L; auto|].
    rewrite nth_error_app2 in N by exact L. right. destruct (i - length (a_threads s)) as [|k]; [injection N as <-; exact Logic.I|destruct k; discriminate N].
  - injection H as <-. destruct (a_thread s) as [j|]; [|fin Go Nil].
    eapply (Go _ [AEv_start j; AEv_return (a_op s) _]); try reflexivity; auto; try apply incl_refl; try discriminate.
    + cbn. rewrite <- app_assoc. reflexivity.
    + intros i p N. cbn in N. apply nth_set in N as [N|[-> ->]]; [auto|right; exact Logic.I].
    + intros i c f r [X|[X|[]]]; discriminate X.
    + intros c r [X|[X|[]]]; [discriminate X|]. destruct (a_op s); discriminate X.
  - injection H as <-. destruct (a_thread s); [fin Go Nil|]. destruct k; fin Go Nil.
  - injection H as <-. fin Go Nil.
  - injection H as <-. destruct (a_thread s); fin Go Nil.
  - destruct (ended id s); [|discriminate]. injection H as <-. fin Go Nil.
  - injection H as <-. destruct k; fin Go Nil.
  - injection H as <-. fin Go Nil.
  - injection H as <-. destruct (a_running s); fin Go Nil.
  - injection H as <-. destruct (a_was_running s); fin Go Nil.
  - (* close *)
    destruct (obd_close (a_obd s, a_world s)) as [r [o w]] eqn:Q. injection H as <-. destruct (F_hist _ _ _ F) as (h & Hh & G & E).
    destruct (obd_close_spec _ _ _ _ _ OI Q) as (t & T & _). cbn [fst snd] in *.
    constructor; cbn [a_obd a_world a_events a_cmds a_threads a_pc a_prog finish add_event upd_pc upd_obd fst snd].
    + exists (h ++ [mkStep OpClose t (match r with Ok _ => Ok None | Raise x => Raise x end)]). split; [|split].
      * eapply history_snoc; [exact Hh| |exact T]. cbn [run_op]. unfold bind. rewrite Q. destruct r as [[]|]; reflexivity.
      * apply Forall_app. split; [exact G|]. constructor; [exact Logic.I|constructor].
      * unfold of_history. rewrite flat_map_app. fold (of_history h). rewrite E, by_update_app. reflexivity.
    + eapply Forall_impl; [|exact (F_keys _ _ _ F)]. intros e. apply key_mono. apply incl_appl, incl_refl.
    + intros i p N. eapply tpc_mono; [|exact (F_tpc _ _ _ F i p N)]. apply incl_appl, incl_refl.
    + discriminate.
    + exact (F_prog _ _ _ F).
    + intros i c f q N. apply in_app_or in N as [N|[N|[]]]; [|discriminate N]. apply in_or_app. left. exact (F_fire _ _ _ F i c f q N).
    + intros c q N. apply in_app_or in N as [N|[N|[]]].
      * destruct (F_ret _ _ _ F c q N) as [X|(i & c' & X & Y)]; [auto|]. right. exists i, c'. split; [exact X|]. apply in_or_app. left. exact Y.
      * destruct r; discriminate N.
  - injection H as <-. destruct (if force then Ok true else test_cmd (a_obd s) c) as [[]|]; [|fin Go Nil|fin Go Nil].
    destruct (watch_table c cb (a_cmds s, a_cbs s)) as [[cs bs]|] eqn:Wt; [|fin Go Nil].
    apply (Go _ [AEv_return (a_op s) ODone]); try reflexivity; auto; try discriminate; try apply incl_refl; try (apply (Ret (a_op s) ODone s); discriminate).
    right. cbn [a_cmds finish add_event upd_pc upd_dicts fst]. eapply watch_from; [|  |exact Wt].
    + eapply Forall_impl; [|exact (F_keys _ _ _ F)]. intros e. apply key_mono. apply incl_appl, incl_refl.
    + split; [exact (F_pc _ _ _ F _ _ _ P)|left; reflexivity].
  - injection H as <-. destruct (unwatch_table c cb (a_cmds s, a_cbs s)) as [[cs bs]|] eqn:Wt; [|fin Go Nil].
    apply (Go _ [AEv_return (a_op s) ODone]); try reflexivity; auto; try discriminate; try apply incl_refl; try (apply (Ret (a_op s) ODone s); discriminate).
    right. cbn [a_cmds finish add_event upd_pc upd_dicts fst]. eapply unwatch_from; [|exact Wt].
    eapply Forall_impl; [|exact (F_keys _ _ _ F)]. intros e. apply key_mono. apply incl_appl, incl_refl.
  - injection H as <-. apply (Go _ [AEv_return (a_op s) ODone]); try reflexivity; auto; try discriminate; try apply incl_refl; try (apply (Ret (a_op s) ODone s); discriminate).
    right. constructor.
Qed.

(* an update thread *)
Lemma from_thread W s0 s j b s1 : oinv (a_obd s) -> from W s0 s -> thread_step j b s = Some s1 -> from W s0 s1.
Proof.
  intros OI F H. unfold thread_step in H. destruct (nth_error (a_threads s) j) as [p|] eqn:N; [|discriminate]. pose proof (F_tpc _ _ _ F j p N) as Tp.
  assert (Go : forall s2 new p', a_obd s2 = a_obd s -> a_world s2 = a_world s -> a_events s2 = a_events s ++ new -> by_update new = [] ->
    (a_cmds s2 = a_cmds s \/ Forall (key_from W s2) (a_cmds s2)) -> a_threads s2 = a_threads s -> tpc_from W (queried_by s j) p' -> a_pc s2 = a_pc s -> a_prog s2 = a_prog s ->
    (forall i c f r, In (AEv_fire i c f r) new -> queried_by s i c r) -> (forall c r, ~ In (AEv_return (AQuery c) (OResponse r)) new) -> from W s0 (set_tpc j p' s2)).
  { intros s2 new p' O Wd E B K T P' Pc Pg Fi Re. assert (I : incl (a_events s) (a_events s2)) by (rewrite E; apply incl_appl, incl_refl). eapply (from_quiet W s0 s _ new); eauto.
    - intros i q X. cbn [a_threads set_tpc upd_threads] in X. rewrite T in X. apply nth_set in X as [X|[-> ->]]; [auto|]. right. eapply tpc_mono; [exact I|exact P'].
    - intros c cb f X. left. rewrite <- Pc. exact X.
    - cbn [a_prog set_tpc upd_threads]. rewrite Pg. apply incl_refl.
    - intros c r X. destruct (Re c r X). }
  assert (Plain : forall s2 p', a_obd s2 = a_obd s -> a_world s2 = a_world s -> a_events s2 = a_events s -> a_cmds s2 = a_cmds s -> a_threads s2 = a_threads s -> a_pc s2 = a_pc s -> a_prog s2 = a_prog s ->
    tpc_from W (queried_by s j) p' -> from W s0 (set_tpc j p' s2)).
  { intros s2 p' X1 X2 X3 X4 X5 X6 X7 X8. apply (Go s2 []); auto; [rewrite app_nil_r; exact X3|intros i c f r []]. }
  destruct p as [| | | |it|c it| | | |c it|c r it|c r it|c r [|f fs] it| | | |]; try discriminate H; cbn [tpc_from] in Tp.
  - injection H as <-. apply Plain; try reflexivity. destruct (a_running s); exact Logic.I.
  - injection H as <-. apply Plain; try reflexivity. destruct (nonempty _); exact Logic.I.
  - injection H as <-. apply Plain; try reflexivity. cbn [tpc_from it_keys]. apply Forall_map. eapply Forall_impl; [|exact (F_keys _ _ _ F)]. intros e X. apply X.
  - injection H as <-. destruct (_ && _); [apply Plain; try reflexivity; exact Logic.I|]. destruct (it_keys it) as [|c rest] eqn:K; apply Plain; try reflexivity; try exact Logic.I.
    cbn [tpc_from it_keys]. inversion Tp; auto.
  - injection H as <-. apply Plain; try reflexivity. destruct (async_connected s); [exact Tp|exact Logic.I].
  - injection H as <-. apply Plain; try reflexivity; exact Logic.I.
  - injection H as <-. apply Plain; try reflexivity; exact Logic.I.
  - injection H as <-. apply Plain; try reflexivity; exact Logic.I.
  - (* query *)
    destruct (query c true (a_obd s, a_world s)) as [r [o w]] eqn:Q. injection H as <-. destruct (F_hist _ _ _ F) as (h & Hh & G & E).
    destruct (query_spec _ _ _ _ _ _ _ OI Q) as (t & T & _). destruct Tp as (Wc & Wi).
    constructor; cbn [a_obd a_world a_events a_cmds a_threads a_pc a_prog set_tpc add_event upd_threads upd_obd fst snd].
    + exists (h ++ [mkStep (OpQuery c true) t (match r with Ok q => Ok (Some q) | Raise x => Raise x end)]). split; [|split].
      * eapply history_snoc; [exact Hh| |exact T]. cbn [run_op]. unfold bind. rewrite Q. destruct r; reflexivity.
      * apply Forall_app. split; [exact G|]. constructor; [split; [reflexivity|exact Wc]|constructor].
      * unfold of_history. rewrite flat_map_app. fold (of_history h). rewrite E, by_update_app. reflexivity.
    + eapply Forall_impl; [|exact (F_keys _ _ _ F)]. intros e. apply key_mono. apply incl_appl, incl_refl.
    + intros i p X. apply nth_set in X as [X|[-> ->]]; [eapply tpc_mono; [|exact (F_tpc _ _ _ F i p X)]; apply incl_appl, incl_refl|].
      destruct r as [q|]; [|exact Logic.I]. split; [exact Wc|]. split; [exact Wi|]. apply in_or_app. right. left. reflexivity.
    + exact (F_pc _ _ _ F).
    + exact (F_prog _ _ _ F).
    + intros i c' f q X. apply in_app_or in X as [X|[X|[]]]; [|discriminate X]. apply in_or_app. left. exact (F_fire _ _ _ F i c' f q X).
    + intros c' q X. apply in_app_or in X as [X|[X|[]]]; [|discriminate X].
      destruct (F_ret _ _ _ F c' q X) as [Y|(i & c2 & Y & Z')]; [auto|]. right. exists i, c2. split; [exact Y|]. apply in_or_app. left. exact Z'.
  - injection H as <-. destruct Tp as (Wc & Wi & Qc). apply (Go _ []); try reflexivity; auto; try (cbn; rewrite app_nil_r; reflexivity); try (intros; intros []).
    + right. cbn [a_cmds upd_dicts fst]. apply set_keys; [eapply Forall_impl; [|exact (F_keys _ _ _ F)]; intros e; apply key_mono, incl_refl| |].
      * intros k v X (Y & _). split; [exact Y|]. right. exists j, c. cbn [fst snd]. split; [rewrite cmd_eqb_same in *; destruct X as [-> ->]; auto|exact Qc].
      * split; [exact Wc|]. right. exists j, c. cbn [fst snd]. split; [rewrite cmd_eqb_same; auto|exact Qc].
    + cbn [tpc_from]. auto.
    + intros i c' f q [].
  - injection H as <-. apply Plain; try reflexivity. destruct (dict_get cmd_eqb (a_cbs s) c); [exact Tp|exact Logic.I].
  - injection H as <-. apply Plain; try reflexivity. cbn [tpc_from]. apply Tp.
  - injection H as <-. apply (Go _ [AEv_fire j c f r]); try reflexivity; auto.
    + destruct b; [exact Logic.I|]. exact Tp.
    + intros i c' f' r' [X|[]]. injection X as <- <- <- <-. apply Tp.
    + intros c' q [X|[]]. discriminate X.
  - injection H as <-. apply Plain; try reflexivity; exact Logic.I.
  - injection H as <-. apply Plain; try reflexivity; exact Logic.I.
Qed.
Lemma from_step W s0 ch s : oinv (a_obd s) -> from W s0 s -> from W s0 (astep ch s).
Proof.
  intros OI F. unfold astep. destruct ch as [|i b]; [destruct (main_step s) eqn:E|destruct (thread_step i b s) eqn:E]; auto; [eapply from_main|eapply from_thread]; eauto.
Qed.
Lemma from_new (W : command -> Prop) o w prog : (forall c cb f, In (AWatch c cb f) prog -> W c) -> from W (new_async o w prog) (new_async o w prog).
Proof.
  intros H. constructor; cbn [new_async a_obd a_world a_events a_cmds a_threads a_pc a_prog]; try discriminate.
  - exists []. split; [apply history_nil|]. split; [constructor|reflexivity].
  - constructor.
  - intros [|i] p X; discriminate X.
  - exact H.
  - intros i c f r [].
  - intros c r [].
Qed.
Lemma from_run (W : command -> Prop) s0 sched : forall s, ainv s -> from W s0 s -> from W s0 (arun sched s).
Proof.
  induction sched as [|ch l IH]; intros s V F; [exact F|]. change (arun (ch :: l) s) with (arun l (astep ch s)). apply IH; [|apply from_step; [apply I_oinv, V|exact F]].
  exact (arun_inv [ch] s V).
Qed.
(* what a step does with the connection *)
Inductive kind_of_step (s s1 : astate) : Prop :=
| ks_none new : a_obd s1 = a_obd s -> a_world s1 = a_world s -> a_events s1 = a_events s ++ new -> by_update new = [] -> kind_of_step s s1
| ks_query i c it r o w : nth_error (a_threads s) i = Some (T_query c it) -> query c true (a_obd s, a_world s) = (r, (o, w)) -> a_obd s1 = o -> a_world s1 = w -> a_events s1 = a_events s ++ [AEv_query i c r] -> kind_of_step s s1
| ks_close r o w op out : a_pc s = M_close2 -> obd_close (a_obd s, a_world s) = (r, (o, w)) -> a_obd s1 = o -> a_world s1 = w -> a_events s1 = a_events s ++ [AEv_return op out] -> kind_of_step s s1.
Ltac none := match goal with
  | |- kind_of_step _ (finish ?out ?x) => eapply (ks_none _ _ [_]); reflexivity
  | |- kind_of_step _ (set_tpc _ _ (add_event ?e _)) => eapply (ks_none _ _ [_]); reflexivity
  | _ => eapply (ks_none _ _ []); first [reflexivity|symmetry; apply app_nil_r]
  end.
Lemma step_kinds ch s : kind_of_step s (astep ch s).
Proof.
  unfold astep. destruct ch as [|i b].
  - destruct (main_step s) as [s1|] eqn:H; [|none]. unfold main_step in H. destruct (a_pc s) eqn:P.
    1:{ destruct (a_prog s) as [|o rest]; [discriminate|]. injection H as <-. destruct o; cbn [a_running upd_prog]; try none; destruct (a_running s); none. }
    15:{ destruct (obd_close (a_obd s, a_world s)) as [r [o w]] eqn:Q. injection H as <-. eapply (ks_close _ _ r o w); eauto; reflexivity. }
    all: try (destruct (ended id s); [|discriminate H]); injection H as <-;
      repeat match goal with |- kind_of_step _ (if ?b then _ else _) => destruct b | |- kind_of_step _ (match ?x with _ => _ end) => destruct x end; try none.
    eapply (ks_none _ _ [_; _]); [reflexivity|reflexivity|cbn; rewrite <- app_assoc; reflexivity|reflexivity].
  - destruct (thread_step i b s) as [s1|] eqn:H; [|none]. unfold thread_step in H. destruct (nth_error (a_threads s) i) as [p|] eqn:N; [|discriminate].
    destruct p as [| | | |it|c it| | | |c it|c r it|c r it|c r [|f fs] it| | | |]; try discriminate H.
    9:{ destruct (query c true (a_obd s, a_world s)) as [r [o w]] eqn:Q. injection H as <-. eapply (ks_query _ _ i c it r o w); eauto; reflexivity. }
    all: injection H as <-; try none.
    destruct (_ && _); [none|]. destruct (it_keys it); none.
Qed.
