(* What a query does, completely; and the invariant of connections. *)
From Coq Require Import ZArith List Bool Lia.
From Verif Require Import Py Num Utils Protocol Decoders Command CommandTable Commands World Elm Obd SpecElm SpecObd ElmFacts ElmThms.
Import ListNotations.
Open Scope Z_scope.
Ltac Zify.zify_post_hook ::= Z.div_mod_to_equations.

Definition good_class (c : pclass) : Prop := c = UnknownProtocol \/ exists id, lookup id = Some c.
Definition einv (e : elm) : Prop :=
  (e_status e = NOT_CONNECTED <-> e_port e = None)
  /\ (e_status e <> NOT_CONNECTED -> exists p, e_protocol e = Some p /\ good_class (p_class p)).
Definition awake (e : elm) : elm := mkElm (e_status e) (e_port e) (e_protocol e) false (e_timeout e).

Lemma writes_app a b : writes (a ++ b) = writes a ++ writes b.
Proof. apply flat_map_app. Qed.
Lemma writes_reads rs : writes (map EvRead rs) = [].
Proof. induction rs; cbn; auto. Qed.
Lemma writes_exchange m n cmd t lines : exchange m n cmd t lines -> writes t = [line cmd].
Proof. intros (k & rs & -> & _). cbn. rewrite writes_reads. reflexivity. Qed.
Lemma writes_failed m n cmd t : failed_exchange m n cmd t -> exists k, writes t = firstn k [line cmd].
Proof.
  intros H. destruct H.
  - exists 0%nat. reflexivity.
  - exists 1%nat. reflexivity.
  - exists 1%nat. cbn. rewrite writes_app, writes_reads. reflexivity.
  - exists 1%nat. cbn. rewrite writes_app, writes_reads. reflexivity.
Qed.
Lemma writes_sends a cmd t lines : sends a cmd t lines -> writes t = wake_lines a ++ [line cmd].
Proof.
  intros (t1 & t2 & -> & H1 & H2). rewrite writes_app, (writes_exchange _ _ _ _ _ H2). destruct a.
  - destruct H1 as [l H1]. rewrite (writes_exchange _ _ _ _ _ H1). reflexivity.
  - subst. reflexivity.
Qed.
Lemma exchange_no_close m n cmd t lines : exchange m n cmd t lines -> ~ io_error t.
Proof.
  intros (k & rs & -> & H & _). intros [[D|I]|[D|I]]; try discriminate D.
  - apply in_map_iff in I as (x & D & _). discriminate D.
  - apply in_map_iff in I as (x & E & I). injection E as ->.
    assert (A : forall r b, attempt m r b -> ~ In None r).
    { intros r b [chunks last _ _ _|chunks _] X.
      - apply in_map_iff in X as (y & D & _). discriminate D.
      - apply in_app_or in X as [X|[X|[]]]; [apply in_map_iff in X as (y & D & _); discriminate D|discriminate X]. }
    clear - H I A. induction H; [eapply A; eassumption|]. apply in_app_or in I as [I|I]; [eapply A; eassumption|auto].
Qed.
Lemma io_error_app a b : io_error (a ++ b) -> io_error a \/ io_error b.
Proof. intros [H|H]; apply in_app_or in H as [H|H]; unfold io_error; auto. Qed.
Lemma sends_no_error a cmd t lines : sends a cmd t lines -> ~ io_error t.
Proof.
  intros (t1 & t2 & -> & H1 & H2) I. apply io_error_app in I as [I|I].
  - destruct a; [destruct H1 as [l H1]; exact (exchange_no_close _ _ _ _ _ H1 I)|]. subst t1. destruct I as [I|I]; destruct I.
  - exact (exchange_no_close _ _ _ _ _ H2 I).
Qed.

Lemma call_nil p : call p [] = Ok [].
Proof. reflexivity. Qed.
Lemma status_eqb_eq a b : status_eqb a b = true <-> a = b.
Proof. destruct a, b; cbn; split; congruence. Qed.
Lemma status_nc e : e_status e <> NOT_CONNECTED -> status_eqb (e_status e) NOT_CONNECTED = false.
Proof. intros H. destruct (status_eqb (e_status e) NOT_CONNECTED) eqn:E; [apply status_eqb_eq in E; contradiction|reflexivity]. Qed.

Lemma sap_nc cmd e w : e_status e = NOT_CONNECTED -> send_and_parse cmd (e, w) = (Ok None, (e, w)).
Proof. intros H. unfold send_and_parse, bind, elm_of, gets. cbn [fst]. rewrite H. reflexivity. Qed.
Lemma normal_power_nc e w : e_status e = NOT_CONNECTED -> elm_normal_power (e, w) = (Ok None, (e, w)).
Proof. intros H. unfold elm_normal_power, bind, elm_of, gets. cbn [fst]. rewrite H. reflexivity. Qed.
Lemma low_power_nc e w : e_status e = NOT_CONNECTED -> elm_low_power (e, w) = (Ok None, (e, w)).
Proof. intros H. unfold elm_low_power, bind, elm_of, gets. cbn [fst]. rewrite H. reflexivity. Qed.

Lemma normal_power_spec e w p r e' w' : e_status e <> NOT_CONNECTED -> e_port e = Some p -> elm_normal_power (e, w) = (r, (e', w')) ->
  exists t, w_trace w' = w_trace w ++ t /\
  ((exists lines, asks 12 (str " ") t lines /\ r = Ok (Some lines) /\ e' = awake e)
   \/ (failed_exchange [PROMPT] 12 (str " ") t /\ r = Ok (Some []) /\ e' = awake (dead e))).
Proof.
  intros Hs Hp H. unfold elm_normal_power in H. unfold bind at 1 in H. unfold elm_of, gets in H. cbn [fst] in H. rewrite (status_nc e Hs) in H.
  apply bind_inv in H. destruct H as [(lines & [e1 w1] & H1 & H)|(x & H1 & ->)];
    destruct (elm_send_spec _ _ e w p _ _ _ Hp H1) as (t & T & [(l & E & -> & A)|(E & -> & F)]); try discriminate E; injection E as ->; rewrite tries_false in *;
    cbn in H; injection H as <- <- <-; exists t; (split; [exact T|]).
  - left. eauto.
  - right. auto.
Qed.

Lemma cut_wake cmd t : failed_exchange [PROMPT] 12 (str " ") t -> cut_short true cmd t.
Proof.
  intros F. split; [eapply failed_io; eassumption|]. split; [exact (failed_closing _ _ _ _ F)|].
  destruct F; cbn; [exists 0%nat|exists 1%nat|exists 1%nat|exists 1%nat]; try reflexivity; cbn; rewrite writes_app, writes_reads; reflexivity.
Qed.
Lemma cut_cmd (a : bool) cmd t1 t2 : (if a then exists l, asks 12 (str " ") t1 l else t1 = []) -> failed_exchange [PROMPT] 12 cmd t2 -> cut_short a cmd (t1 ++ t2).
Proof.
  intros H F. split; [apply io_app_r; eapply failed_io; eassumption|]. split.
  - destruct (failed_closing _ _ _ _ F) as [t' ->]. exists (t1 ++ t'). apply app_assoc.
  - destruct (writes_failed _ _ _ _ F) as [k K]. rewrite writes_app, K. destruct a; cbn [wake_lines].
    + destruct H as [l H]. rewrite (writes_exchange _ _ _ _ _ H). exists (S k). reflexivity.
    + subst t1. exists k. reflexivity.
Qed.
Lemma sap_spec cmd e w r e' w' : einv e -> e_status e <> NOT_CONNECTED -> send_and_parse cmd (e, w) = (r, (e', w')) ->
  exists p t, e_protocol e = Some p /\ w_trace w' = w_trace w ++ t /\
  ((exists lines, sends (e_low_power e) cmd t lines /\ e' = awake e
      /\ r = match call p lines with Ok ms => Ok (Some ms) | Raise x => Raise x end)
   \/ (cut_short (e_low_power e) cmd t /\ r = Ok (Some []) /\ e' = dead (awake e))).
Proof.
  intros (I1 & I2) Hs H. destruct (I2 Hs) as (p & Hpr & _). exists p.
  destruct (e_port e) as [pt|] eqn:Hp; [|exfalso; apply Hs, I1; reflexivity].
  unfold send_and_parse in H. unfold bind at 1 in H. unfold elm_of at 1, gets in H. cbn [fst] in H. rewrite (status_nc e Hs) in H.
  unfold bind at 1 in H. unfold elm_of at 1, gets in H. cbn [fst] in H.
  assert (Fin : forall e1 w1 t1, w_trace w1 = w_trace w ++ t1 -> e_protocol e1 = Some p ->
    (do lines <- elm_send cmd false; do p <- elm_of e_protocol; match p with None => raise TypeError | Some p => do ms <- of_res (call p lines); ret (Some ms) end) (e1, w1) = (r, (e', w')) ->
    (forall q, e_port e1 = Some q -> exists t2, w_trace w' = w_trace w ++ t1 ++ t2 /\
       ((exists lines, asks 12 cmd t2 lines /\ e' = e1 /\ r = match call p lines with Ok ms => Ok (Some ms) | Raise x => Raise x end)
        \/ (failed_exchange [PROMPT] 12 cmd t2 /\ r = Ok (Some []) /\ e' = dead e1)))
    /\ (e_port e1 = None -> w' = w1 /\ r = Ok (Some []) /\ e' = e1)).
  { intros e1 w1 t1 T1 P1 X. split.
    - intros q Hq. apply bind_inv in X. destruct X as [(lines & [e2 w2] & H1 & X)|(x & H1 & ->)];
      destruct (elm_send_spec _ _ e1 w1 q _ _ _ Hq H1) as (t & T & [(l & E & -> & A)|(E & -> & F)]); try discriminate E; injection E as ->; rewrite tries_false in *;
      exists t.
      + unfold bind, elm_of, gets in X. cbn [fst] in X. rewrite P1 in X. cbn in X. unfold of_res in X. destruct (call p l) as [ms|x] eqn:C;
          injection X as <- <- <-; (split; [rewrite T, T1, app_assoc; reflexivity|]); left; exists l; rewrite C; auto.
      + unfold bind, elm_of, gets in X. cbn [fst dead e_protocol] in X. rewrite P1 in X. unfold of_res in X. rewrite call_nil in X. cbn in X. injection X as <- <- <-.
        split; [rewrite T, T1, app_assoc; reflexivity|]. right. auto.
    - intros Hn. apply bind_inv in X. rewrite (elm_send_none _ _ _ _ Hn) in X.
      destruct X as [(lines & s1 & H1 & X)|(x & H1 & _)]; [|discriminate H1]. injection H1 as <- <-.
      unfold bind, elm_of, gets in X. cbn [fst] in X. rewrite P1 in X. unfold of_res in X. rewrite call_nil in X.
      injection X as <- <- <-. auto. }
  destruct (e_low_power e) eqn:L.
  - unfold bind at 1 in H. unfold bind at 1 in H. destruct (elm_normal_power (e, w)) as [r1 [e1 w1]] eqn:N.
    destruct (normal_power_spec _ _ _ _ _ _ Hs Hp N) as (t1 & T1 & [(l & A & -> & ->)|(F & -> & ->)]); cbv beta iota delta [ret] in H.
    + destruct (Fin (awake e) w1 t1 T1 Hpr H) as [K _]. destruct (K pt Hp) as (t2 & T & C). exists (t1 ++ t2). split; [exact Hpr|]. split; [exact T|].
      destruct C as [(lines & B & -> & ->)|(B & -> & ->)].
      * left. exists lines. split; [|auto]. exists t1, t2. eauto.
      * right. split; [|auto]. apply cut_cmd; eauto.
    + destruct (Fin (awake (dead e)) w1 t1 T1 Hpr H) as [_ K]. destruct (K eq_refl) as (-> & -> & ->). exists t1. split; [exact Hpr|]. split; [exact T1|].
      right. split; [|split; reflexivity]. apply cut_wake, F.
  - unfold bind at 1 in H. cbv beta iota delta [ret] in H.
    assert (T0 : w_trace w = w_trace w ++ []) by (rewrite app_nil_r; reflexivity).
    destruct (Fin _ _ _ T0 Hpr H) as [K _]. destruct (K pt Hp) as (t2 & T & C). exists t2. split; [exact Hpr|]. split; [exact T|].
    assert (W : awake e = e) by (destruct e; cbn in *; rewrite L; reflexivity). rewrite W.
    destruct C as [(lines & B & -> & ->)|(B & -> & ->)].
    + left. exists lines. split; [|auto]. exists [], t2. auto.
    + right. split; [|auto]. apply (cut_cmd false cmd [] t2); auto.
Qed.

(* ---- the object, updated ---- *)
Definition with_elm (e : elm) (o : obd) : obd :=
  mkObd (Some e) (o_supported o) (o_fast o) (o_timeout o) (o_last_command o) (o_last_header o) (o_frame_counts o).
Definition with_header (h : bytes) (o : obd) : obd :=
  mkObd (o_interface o) (o_supported o) (o_fast o) (o_timeout o) (o_last_command o) h (o_frame_counts o).
Definition with_command (s : bytes) (o : obd) : obd :=
  mkObd (o_interface o) (o_supported o) (o_fast o) (o_timeout o) (if nonempty s then s else o_last_command o) (o_last_header o) (o_frame_counts o).
Definition with_count (c : command) (n : nat) (o : obd) : obd :=
  mkObd (o_interface o) (o_supported o) (o_fast o) (o_timeout o) (o_last_command o) (o_last_header o)
        (if dict_mem cmd_eqb (o_frame_counts o) c then o_frame_counts o else dict_set cmd_eqb (o_frame_counts o) c n).
Definition oinv (o : obd) : Prop := match o_interface o with Some e => einv e | None => True end.

Lemma on_sap cmd o e w r o' w' : o_interface o = Some e -> einv e -> e_status e <> NOT_CONNECTED ->
  on_interface (send_and_parse cmd) (o, w) = (r, (o', w')) ->
  exists p t, e_protocol e = Some p /\ w_trace w' = w_trace w ++ t /\
  ((exists lines, sends (e_low_power e) cmd t lines /\ o' = with_elm (awake e) o
      /\ r = match call p lines with Ok ms => Ok (Some ms) | Raise x => Raise x end)
   \/ (cut_short (e_low_power e) cmd t /\ r = Ok (Some []) /\ o' = with_elm (dead (awake e)) o)).
Proof.
  intros Hi I Hs H. unfold on_interface in H. rewrite Hi in H. destruct (send_and_parse cmd (e, w)) as [r1 [e1 w1]] eqn:S.
  injection H as <- <- <-. destruct (sap_spec _ _ _ _ _ _ I Hs S) as (p & t & P & T & C). exists p, t. split; [exact P|]. split; [exact T|].
  destruct C as [(l & A & -> & ->)|(A & -> & ->)]; [left; exists l|right]; auto.
Qed.
Lemma on_sap_nc cmd o e w : o_interface o = Some e -> e_status e = NOT_CONNECTED -> on_interface (send_and_parse cmd) (o, w) = (Ok None, (o, w)).
Proof. intros Hi Hs. unfold on_interface. rewrite Hi, (sap_nc _ _ _ Hs). rewrite <- Hi. destruct o; reflexivity. Qed.

(* the header phase *)
Inductive header_run (o : obd) (e : elm) (p : protocol) (h : bytes) : list event -> option exn -> obd -> Prop :=
| h_same : h = o_last_header o -> header_run o e p h [] None o
| h_ack t lines ms : h <> o_last_header o -> sends (e_low_power e) (str "AT SH " ++ h ++ str " ") t lines -> call p lines = Ok ms -> acknowledges ms ->
    header_run o e p h t None (with_header h (with_elm (awake e) o))
| h_nak t lines ms : h <> o_last_header o -> sends (e_low_power e) (str "AT SH " ++ h ++ str " ") t lines -> call p lines = Ok ms -> ~ acknowledges ms ->
    header_run o e p h t None (with_elm (awake e) o)
| h_raise t lines x : h <> o_last_header o -> sends (e_low_power e) (str "AT SH " ++ h ++ str " ") t lines -> call p lines = Raise x ->
    header_run o e p h t (Some x) (with_elm (awake e) o)
| h_cut t : h <> o_last_header o -> cut_short (e_low_power e) (str "AT SH " ++ h ++ str " ") t ->
    header_run o e p h t None (with_elm (dead (awake e)) o).

Lemma set_header_spec h o e w r o' w' : o_interface o = Some e -> einv e -> e_status e <> NOT_CONNECTED ->
  set_header h (o, w) = (r, (o', w')) ->
  exists p t, e_protocol e = Some p /\ w_trace w' = w_trace w ++ t
    /\ header_run o e p h t (match r with Ok _ => None | Raise x => Some x end) o' /\ (r = Ok tt \/ exists x, r = Raise x).
Proof.
  intros Hi I Hs H. unfold set_header in H. unfold bind at 1 in H. unfold obd_of, gets in H. cbn [fst] in H.
  destruct (text_eqb h (o_last_header o)) eqn:E.
  - apply text_eqb_iff in E. cbn in H. injection H as <- <- <-. destruct (proj2 I Hs) as (p & P & _). exists p, []. rewrite app_nil_r.
    split; [exact P|]. split; [reflexivity|]. split; [constructor; exact E|auto].
  - assert (N : h <> o_last_header o) by (intros X; apply text_eqb_iff in X; congruence).
    apply bind_inv in H. destruct H as [(ms & [o1 w1] & H1 & H)|(x & H1 & ->)];
    destruct (on_sap _ _ _ _ _ _ _ Hi I Hs H1) as (p & t & P & T & [(l & A & -> & R)|(A & R & ->)]); try discriminate R; exists p, t.
    + destruct (call p l) as [ms'|x] eqn:C; [|discriminate R]. injection R as ->.
      split; [exact P|].
      assert (J : set_last_header h (with_elm (awake e) o, w1) = (Ok tt, (with_header h (with_elm (awake e) o), w1))) by reflexivity.
      destruct ms' as [|m ms'].
      * injection H as <- <- <-. split; [exact T|]. split; [|auto]. eapply h_nak; try eassumption. discriminate.
      * destruct (text_eqb (join [10] (map m_raw (m :: ms'))) (str "OK")) eqn:K; cbn [negb] in H.
        -- rewrite J in H. injection H as <- <- <-. split; [exact T|]. split; [|auto]. eapply h_ack; try eassumption. apply text_eqb_iff in K. exact K.
        -- injection H as <- <- <-. split; [exact T|]. split; [|auto]. eapply h_nak; try eassumption. intros X. apply text_eqb_iff in X. congruence.
    + injection R as ->. injection H as <- <- <-. split; [exact P|]. split; [exact T|]. split; [|auto]. apply h_cut; assumption.
    + destruct (call p l) as [ms|y] eqn:C; [discriminate R|]. injection R as ->.
      split; [exact P|]. split; [exact T|]. split; [|eauto]. eapply h_raise; eassumption.
Qed.

(* a whole query *)
Inductive query_run (o : obd) (c : command) (force : bool) : list event -> res response -> obd -> Prop :=
| q_unconnected : obd_status o = NOT_CONNECTED -> query_run o c force [] (Ok empty_response) o
| q_refused : obd_status o <> NOT_CONNECTED -> ~ may_send o c force -> query_run o c force [] (Ok empty_response) o
| q_header_raise e p t x o1 : o_interface o = Some e -> e_status e <> NOT_CONNECTED -> e_protocol e = Some p -> may_send o c force ->
    header_run o e p (c_header c) t (Some x) o1 -> query_run o c force t (Raise x) o1
| q_header_cut e p t o1 : o_interface o = Some e -> e_status e <> NOT_CONNECTED -> e_protocol e = Some p -> may_send o c force ->
    header_run o e p (c_header c) t None o1 -> obd_status o1 = NOT_CONNECTED ->
    query_run o c force t (if dict_mem cmd_eqb (o_frame_counts o) c then Ok empty_response else Raise TypeError)
      (with_command (build_command_string o c) o1)
| q_cut e p t1 o1 e1 t2 : o_interface o = Some e -> e_status e <> NOT_CONNECTED -> e_protocol e = Some p -> may_send o c force ->
    header_run o e p (c_header c) t1 None o1 -> o_interface o1 = Some e1 -> e_status e1 <> NOT_CONNECTED ->
    cut_short (e_low_power e1) (build_command_string o c) t2 ->
    query_run o c force (t1 ++ t2) (Ok empty_response)
      (with_count c 0 (with_command (build_command_string o c) (with_elm (dead (awake e1)) o1)))
| q_parse_raise e p t1 o1 e1 t2 lines x : o_interface o = Some e -> e_status e <> NOT_CONNECTED -> e_protocol e = Some p -> may_send o c force ->
    header_run o e p (c_header c) t1 None o1 -> o_interface o1 = Some e1 -> e_status e1 <> NOT_CONNECTED ->
    sends (e_low_power e1) (build_command_string o c) t2 lines -> call p lines = Raise x ->
    query_run o c force (t1 ++ t2) (Raise x) (with_elm (awake e1) o1)
| q_done e p t1 o1 e1 t2 lines ms : o_interface o = Some e -> e_status e <> NOT_CONNECTED -> e_protocol e = Some p -> may_send o c force ->
    header_run o e p (c_header c) t1 None o1 -> o_interface o1 = Some e1 -> e_status e1 <> NOT_CONNECTED ->
    sends (e_low_power e1) (build_command_string o c) t2 lines -> call p lines = Ok ms ->
    query_run o c force (t1 ++ t2) (match ms with [] => Ok empty_response | _ => cmd_call c ms end)
      (with_count c (count_frames ms) (with_command (build_command_string o c) (with_elm (awake e1) o1))).

Lemma einv_awake e : einv e -> einv (awake e).
Proof. intros I. exact I. Qed.
Lemma einv_dead e : einv (dead e).
Proof. split; [split; reflexivity|]. intros H. exfalso. apply H. reflexivity. Qed.
Lemma header_run_inv o e p h t x o' : o_interface o = Some e -> einv e -> e_protocol e = Some p -> header_run o e p h t x o' ->
  exists e', o_interface o' = Some e' /\ einv e' /\ e_protocol e' = Some p /\ o_supported o' = o_supported o /\ o_fast o' = o_fast o /\ o_timeout o' = o_timeout o
    /\ o_last_command o' = o_last_command o /\ o_frame_counts o' = o_frame_counts o
    /\ (e' = e /\ t = [] \/ e' = awake e \/ e' = dead (awake e)).
Proof.
  intros Hi I P H. destruct H; cbn [o_interface o_supported o_fast o_timeout o_last_command o_frame_counts with_header with_elm].
  - exists e. repeat (split; [assumption || reflexivity|]). auto.
  - exists (awake e). repeat (split; [assumption || reflexivity|]). auto.
  - exists (awake e). repeat (split; [assumption || reflexivity|]). auto.
  - exists (awake e). repeat (split; [assumption || reflexivity|]). auto.
  - exists (dead (awake e)). split; [reflexivity|]. split; [apply einv_dead|]. repeat (split; [assumption || reflexivity|]). auto.
Qed.
Lemma build_same o o' c : o_fast o' = o_fast o -> o_last_command o' = o_last_command o -> o_frame_counts o' = o_frame_counts o ->
  build_command_string o' c = build_command_string o c.
Proof. intros A B C. unfold build_command_string. rewrite A, B, C. reflexivity. Qed.

(* may the command be sent: the test, and its meaning *)
Lemma cmd_eqb_iff a b : cmd_eqb a b = true <-> c_command a = c_command b /\ c_header a = c_header b.
Proof. unfold cmd_eqb. rewrite andb_true_iff, !text_eqb_iff. reflexivity. Qed.
Lemma in_set_iff c l : in_set c l = true <-> exists c', In c' l /\ c_command c' = c_command c /\ c_header c' = c_header c.
Proof.
  unfold in_set. rewrite existsb_exists. split; intros (c' & I & H); exists c'; (split; [exact I|]); apply cmd_eqb_iff; exact H.
Qed.
Lemma test_cmd_spec o c e : o_interface o = Some e -> einv e -> e_status e <> NOT_CONNECTED ->
  exists b, test_cmd o c = Ok b /\ (b = true <-> may_send o c false).
Proof.
  intros Hi I Hs. destruct (proj2 I Hs) as (p & P & _). unfold test_cmd, supports, may_send.
  destruct (in_set c (o_supported o)) eqn:S; cbn [negb].
  2:{ exists false. split; [reflexivity|]. split; [discriminate|]. intros [D|(D & _)]; [discriminate|]. apply in_set_iff in D. congruence. }
  apply in_set_iff in S. destruct (oz_eqb (c_mode c) (Some 6)) eqn:M.
  - rewrite Hi. unfold elm_protocol_id. rewrite P. cbn [rbind]. eexists. split; [reflexivity|].
    unfold obd_protocol_id. rewrite Hi. unfold elm_protocol_id. rewrite P. rewrite existsb_exists. split.
    + intros (x & X & Y). apply text_eqb_iff in Y. subst x. right. split; [exact S|]. eauto.
    + intros [D|(_ & D)]; [discriminate|]. destruct D as (id & E & J).
      * unfold oz_eqb in M. destruct (c_mode c) as [m|]; [|discriminate]. apply Z.eqb_eq in M. subst. reflexivity.
      * injection E as E. rewrite E. exists id. split; [exact J|]. apply text_eqb_iff. reflexivity.
  - exists true. split; [reflexivity|]. split; [|auto]. intros _. right. split; [exact S|]. intros E. rewrite E in M. discriminate.
Qed.

Theorem query_spec c force o w r o' w' : oinv o -> query c force (o, w) = (r, (o', w')) ->
  exists t, w_trace w' = w_trace w ++ t /\ query_run o c force t r o'.
Proof.
  intros OI H. unfold query in H. unfold bind at 1 in H. unfold obd_of at 1, gets at 1 in H. cbn [fst] in H.
  destruct (status_eqb (obd_status o) NOT_CONNECTED) eqn:S.
  { apply status_eqb_eq in S. injection H as <- <- <-. exists []. rewrite app_nil_r. split; [reflexivity|]. apply q_unconnected, S. }
  assert (Hn : obd_status o <> NOT_CONNECTED) by (intros X; apply status_eqb_eq in X; congruence). clear S.
  unfold obd_status in Hn. unfold oinv in OI. destruct (o_interface o) as [e|] eqn:Hi; [|contradiction].
  assert (Hn' : obd_status o <> NOT_CONNECTED) by (unfold obd_status; rewrite Hi; exact Hn).
  assert (A : exists b, (if force then ret true else fun s => (test_cmd (fst s) c, s)) (o, w) = (Ok b, (o, w)) /\ (b = true <-> may_send o c force)).
  { destruct force.
    - exists true. split; [reflexivity|]. unfold may_send. tauto.
    - destruct (test_cmd_spec o c e Hi OI Hn) as (b & B & C). exists b. cbn [fst]. rewrite B. auto. }
  destruct A as (b & A & B). unfold bind at 1 in H. rewrite A in H. destruct b; cbn [negb] in H.
  2:{ injection H as <- <- <-. exists []. rewrite app_nil_r. split; [reflexivity|]. apply q_refused; [exact Hn'|]. intros X. apply B in X. discriminate. }
  assert (MS : may_send o c force) by (apply B; reflexivity). clear A B.
  apply bind_inv in H. destruct H as [([] & [o1 w1] & H1 & H)|(x & H1 & ->)];
    destruct (set_header_spec _ _ _ _ _ _ _ Hi OI Hn H1) as (p & t1 & P & T1 & HR & _).
  2:{ exists t1. split; [exact T1|]. eapply q_header_raise; eassumption. }
  destruct (header_run_inv _ _ _ _ _ _ _ Hi OI P HR) as (e1 & Hi1 & I1 & P1 & Q1 & Q2 & Q3 & Q4 & Q5 & _).
  unfold bind at 1 in H. unfold obd_of at 1, gets at 1 in H. cbn [fst] in H. rewrite (build_same o o1 c Q2 Q4 Q5) in H.
  set (s := build_command_string o c) in *.
  assert (SC : forall o2 w2, (if nonempty s then set_last_command s else ret tt) (o2, w2) = (Ok tt, (with_command s o2, w2))).
  { intros o2 w2. unfold with_command. destruct (nonempty s); [reflexivity|]. destruct o2; reflexivity. }
  assert (CT : forall o2 w2 n, (do counts <- obd_of o_frame_counts;
      (if dict_mem cmd_eqb counts c then ret tt else set_frame_counts (dict_set cmd_eqb counts c n))) (o2, w2) = (Ok tt, (with_count c n o2, w2))).
  { intros o2 w2 n. unfold bind, obd_of, gets. cbn [fst]. unfold with_count. destruct (dict_mem cmd_eqb (o_frame_counts o2) c); [destruct o2; reflexivity|reflexivity]. }
  destruct (status_eqb (e_status e1) NOT_CONNECTED) eqn:S1.
  { apply status_eqb_eq in S1. unfold bind at 1 in H. rewrite (on_sap_nc _ _ _ _ Hi1 S1) in H.
    unfold bind at 1 in H. rewrite SC in H. unfold bind at 1 in H. unfold obd_of at 1, gets at 1 in H. cbn [fst] in H.
    change (o_frame_counts (with_command s o1)) with (o_frame_counts o1) in H. rewrite Q5 in H.
    exists t1. assert (S1' : obd_status o1 = NOT_CONNECTED) by (unfold obd_status; rewrite Hi1; exact S1).
    pose proof (q_header_cut o c force e p t1 o1 Hi Hn P MS HR S1') as Q.
    destruct (dict_mem cmd_eqb (o_frame_counts o) c); cbn in H; injection H as <- <- <-; (split; [exact T1|exact Q]). }
  assert (Hn1 : e_status e1 <> NOT_CONNECTED) by (intros X; apply status_eqb_eq in X; congruence).
  apply bind_inv in H. destruct H as [(msgs & [o2 w2] & H2 & H)|(x & H2 & ->)];
    destruct (on_sap _ _ _ _ _ _ _ Hi1 I1 Hn1 H2) as (p' & t2 & P' & T2 & [(l & A & -> & R)|(A & R & ->)]); try discriminate R; rewrite P1 in P'; injection P' as <-;
    exists (t1 ++ t2); rewrite T1, <- app_assoc in T2.
  - destruct (call p l) as [ms|y] eqn:C; [|discriminate R]. injection R as ->.
    unfold bind at 1 in H. rewrite SC in H.
    assert (Y : (do! (do counts <- obd_of o_frame_counts; if dict_mem cmd_eqb counts c then ret tt else set_frame_counts (dict_set cmd_eqb counts c (count_frames ms)));
                 match ms with [] => ret empty_response | _ => of_res (cmd_call c ms) end) (with_command s (with_elm (awake e1) o1), w2) = (r, (o', w'))).
    { rewrite <- H. unfold bind at 1 2 3. destruct (obd_of o_frame_counts (with_command s (with_elm (awake e1) o1), w2)) as [[cs|] [o3 w3]]; [|reflexivity].
      unfold bind at 1. destruct (dict_mem cmd_eqb cs c); destruct ms; reflexivity. }
    clear H. unfold bind at 1 in Y. rewrite CT in Y.
    pose proof (q_done o c force e p t1 o1 e1 t2 l ms Hi Hn P MS HR Hi1 Hn1 A C) as Q. fold s in Q.
    destruct ms; cbn in Y; injection Y as <- <- <-; (split; [exact T2|exact Q]).
  - injection R as ->. unfold bind at 1 in H. rewrite SC in H.
    assert (Y : (do! (do counts <- obd_of o_frame_counts; if dict_mem cmd_eqb counts c then ret tt else set_frame_counts (dict_set cmd_eqb counts c 0%nat));
                 ret empty_response) (with_command s (with_elm (dead (awake e1)) o1), w2) = (r, (o', w'))).
    { rewrite <- H. unfold bind at 1 2 3. destruct (obd_of o_frame_counts (with_command s (with_elm (dead (awake e1)) o1), w2)) as [[cs|] [o3 w3]]; [|reflexivity].
      unfold bind at 1. destruct (dict_mem cmd_eqb cs c); reflexivity. }
    clear H. unfold bind at 1 in Y. rewrite CT in Y. injection Y as <- <- <-.
    split; [exact T2|]. eapply q_cut; eassumption.
  - destruct (call p l) as [ms|y] eqn:C; [discriminate R|]. injection R as ->. split; [exact T2|]. eapply q_parse_raise; eassumption.
Qed.
