(* Properties C34, C35, C37-C40, C42: the adapter. *)
From Coq Require Import ZArith List Bool Lia.
From Verif Require Import Py Num Utils Protocol Decoders Command CommandTable Commands World Elm Obd SpecElm ElmFacts ElmThms ChopThms.
Import ListNotations.
Open Scope Z_scope.

(* answers as an adapter gives them: text, carriage return, prompt *)
Definition says (s : text) : option bytes := Some (s ++ [13; 62]).
(* an adapter on a car with an 11 bit CAN bus *)
Definition good_answers : list (option bytes) :=
  [Some [127; 62]; says (str "ELM327 v1.5"); says (str "ATE0" ++ [13] ++ str "OK"); says (str "OK"); says (str "OK"); says (str "12.3V");
   says (str "OK"); says (str "SEARCHING..." ++ [13] ++ str "7E8 06 41 00 BE 7F B8 13"); says (str "A6")].
Definition fresh (answers : list (option bytes)) : world := mkWorld [] [] answers [] [].
Definition car := new_elm (str "/dev/ttyUSB0") None None 100 true false (fresh good_answers).
Definition plugged : elm := mkElm CAR_CONNECTED (Some (mkPort (str "p") 9600 10000)) (Some unknown_protocol) false 100.

(* ------------------------------------------------------------------ C34 *)
(* one command: the lines and everything else are the same, whatever the chunks *)
Theorem C34_answer : forall cmd delay e w1 w2, rechopped_world w1 w2 ->
  exists r e' w1' w2', elm_send cmd delay (e, w1) = (r, (e', w1')) /\ elm_send cmd delay (e, w2) = (r, (e', w2')) /\ rechopped_world w1' w2'.
Proof. intros cmd delay. exact (blind_send cmd delay). Qed.
(* the lines are those of the bytes up to and including the prompt *)
Theorem C34_lines : forall cmd delay e p w chunks s rest, e_port e = Some p -> w_writes w = [] ->
  w_reads w = map Some chunks ++ rest -> Forall (fun c => c <> []) chunks -> concat chunks = s ++ [PROMPT] -> ~ In PROMPT s ->
  forall lines, answer_lines (s ++ [PROMPT]) lines -> lines <> [] ->
  exists w', elm_send cmd delay (e, w) = (Ok lines, (e, w')) /\ w_reads w' = rest.
Proof.
  intros cmd delay e p w chunks s rest Hp Hw Hr F E N lines L Ne. apply answer_lines_fun in L. unfold elm_send, elm_send_gen.
  unfold bind at 1. unfold elm_write, port_write. rewrite Hp, Hw.
  unfold bind at 1. unfold elm_read. rewrite Hp. unfold emit. cbn [w_reads]. rewrite Hr. change ELM_PROMPT with [62].
  destruct (loop_prompt chunks s rest F E N) as (evs & -> & _). change (s ++ [62]) with (s ++ [PROMPT]). rewrite <- L. clear L.
  destruct lines as [|l ls]; [congruence|]. eexists. split; [destruct (retries delay); reflexivity|reflexivity].
Qed.
(* and no others: the lines are determined by the bytes *)
Theorem C34_lines_determined : forall s l1 l2, answer_lines s l1 -> answer_lines s l2 -> l1 = l2.
Proof. intros s l1 l2 H1 H2. apply answer_lines_fun in H1, H2. congruence. Qed.
(* whole sessions: construction with a given baud rate, then any calls except low_power() (which does not wait for the prompt) *)
Theorem C34_connect : forall cf b port scan, cf_baudrate cf = Some b -> forall w1 w2, rechopped_world w1 w2 ->
  exists r o w1' w2', new_obd cf port scan w1 = (r, (o, w1')) /\ new_obd cf port scan w2 = (r, (o, w2')) /\ rechopped_world w1' w2'.
Proof. exact blind_new_obd. Qed.
Theorem C34_session : forall ops, Forall (fun o => o <> OpLowPower) ops -> forall o w1 w2, rechopped_world w1 w2 ->
  exists rs o' w1' w2', run_ops ops (o, w1) = (rs, (o', w1')) /\ run_ops ops (o, w2) = (rs, (o', w2')) /\ rechopped_world w1' w2'.
Proof. exact blind_run_ops. Qed.
Example C34_example :
  rechopped_world (fresh [says (str "41 0C 1A F8"); says (str "OK")])
                  (fresh [Some (str "41 0"); Some (str "C 1A F8"); Some [13]; Some [62]; Some (str "O"); Some (str "K"); Some [13; 62]])
  /\ fst (elm_send (str "010C") false (plugged, fresh [Some (str "41 0"); Some (str "C 1A F8"); Some [13]; Some [62]; Some (str "O")])) = Ok [str "41 0C 1A F8"].
Proof.
  assert (N : forall l : list Z, existsb (Z.eqb 62) l = false -> ~ In PROMPT l).
  { intros l H I. assert (existsb (Z.eqb 62) l = true) by (apply existsb_exists; exists 62; auto). congruence. }
  split; [|vm_compute; reflexivity]. repeat split.
  apply (rechopped_cons [says (str "41 0C 1A F8")] (map Some [str "41 0"; str "C 1A F8"; [13]; [62]]) [says (str "OK")] (map Some [str "O"; str "K"; [13; 62]])).
  - apply (same_prompt [str "41 0C 1A F8" ++ [13; 62]] [str "41 0"; str "C 1A F8"; [13]; [62]] (str "41 0C 1A F8" ++ [13])); try reflexivity; [repeat (constructor; [discriminate|]); constructor..|].
    apply N. vm_compute. reflexivity.
  - apply (rechopped_cons [says (str "OK")] (map Some [str "O"; str "K"; [13; 62]]) [] []); [|constructor].
    apply (same_prompt [str "OK" ++ [13; 62]] [str "O"; str "K"; [13; 62]] (str "OK" ++ [13])); try reflexivity; [repeat (constructor; [discriminate|]); constructor..|].
    apply N. vm_compute. reflexivity.
Qed.

(* ------------------------------------------------------------------ C35 *)
Definition tidy (l : text) : Prop :=
  Forall (fun c => c <> 0 /\ c <> 10 /\ c <> 13) l
  /\ (l = [] \/ (exists c t, l = c :: t /\ ~ In c white) /\ (exists c t, l = t ++ [c] /\ ~ In c white)).
Theorem C35_lines : forall cmd delay e w lines s', elm_send cmd delay (e, w) = (Ok lines, s') -> Forall tidy lines.
Proof.
  intros cmd delay e w lines [e' w'] H. destruct (e_port e) as [p|] eqn:Hp.
  - destruct (elm_send_spec cmd delay e w p _ _ _ Hp H) as (t & _ & [(l & E & _ & n & rs & _ & Hh & _)|(E & _)]); injection E as ->; [|constructor].
    assert (A : exists bs, answer_lines bs l).
    { clear -Hh. induction Hh; eauto. }
    destruct A as [bs A]. rewrite Forall_forall. intros x Hl. destruct (line_chars bs l x A Hl) as [F D]. split; [|exact D].
    eapply Forall_impl; [|exact F]. intros c (I & H1 & H2). split; [|auto]. intros ->. apply utf8_ascii in I; [|lia]. apply body_in in I as [_ I]. auto.
  - rewrite elm_send_none in H by exact Hp. injection H as H _ _. subst lines. constructor.
Qed.
Theorem C35_no_prompt : forall s, ~ In PROMPT s -> forall lines, answer_lines (s ++ [PROMPT]) lines -> Forall (fun l => ~ In PROMPT l) lines.
Proof.
  intros s N lines A. rewrite Forall_forall. intros l Hl I. destruct (line_chars _ lines l A Hl) as [F _]. rewrite Forall_forall in F.
  destruct (F _ I) as (H & _). apply utf8_ascii in H; [|unfold PROMPT; lia]. eapply body_prompt; eassumption.
Qed.
(* what one read yields is exactly the lines of the bytes received *)
Theorem C35_read : forall e w p r e' w', e_port e = Some p -> elm_read [PROMPT] (e, w) = (r, (e', w')) ->
  (exists rs bs lines, r = Ok lines /\ attempt [PROMPT] rs bs /\ w_trace w' = w_trace w ++ map EvRead rs /\ answer_lines bs lines)
  \/ (r = Ok [] /\ io_error (skipn (length (w_trace w)) (w_trace w'))).
Proof.
  intros e w p r e' w' Hp H. apply (elm_read_spec _ e w p) in H; [|discriminate|exact Hp].
  destruct H as [(rs & bs & l & -> & _ & T & A & L)|(rs & -> & _ & T & B)]; [left; eauto 10|right]. split; [reflexivity|].
  rewrite T. rewrite skipn_app, skipn_all, Nat.sub_diag. cbn. apply io_app_l. destruct B. right. rewrite map_app. apply in_or_app. right. left. reflexivity.
Qed.
Example C35_example : fst (elm_send (str "0100") false (plugged, fresh [Some ([0; 32; 55; 69; 200; 56; 13; 10] ++ str " 41 00 " ++ [13; 0; 62])])) = Ok [str "7E8"; str "41 00"].
Proof. vm_compute. reflexivity. Qed.

(* ------------------------------------------------------------------ C37 *)
(* the constructor, completely: what it does on the port and the object it makes *)
Theorem C37_constructor : forall name baud proto timeout check slp w r w',
  new_elm name baud proto timeout check slp w = (r, w') ->
  exists t, w_trace w' = w_trace w ++ t /\
  ((exists e st sel b, r = Ok e /\ startup name baud proto timeout check slp t st sel b /\ e_status e = st
      /\ (st = NOT_CONNECTED -> e_port e = None)
      /\ (st <> NOT_CONNECTED -> exists b', b = Some b' /\ e_port e = Some (mkPort name b' 10000) /\ e_low_power e = false /\ e_timeout e = timeout)
      /\ (st <> NOT_CONNECTED -> match sel with
         | None => e_protocol e = Some unknown_protocol
         | Some (id, a) => exists c p, lookup id = Some c /\ new_protocol c a = Ok p /\ e_protocol e = Some p
         end))
   \/ (io_error t /\ (exists t', t = EvOpen name true :: t') /\ (forall e, r = Ok e -> e_status e = NOT_CONNECTED /\ e_port e = None /\ closing t)
         /\ (forall x, r = Raise x -> x = AttributeError \/ x = SerialError \/ exists c r0, new_protocol c r0 = Raise x))
   \/ (exists c r0 x, new_protocol c r0 = Raise x /\ r = Raise x)).
Proof. exact new_elm_spec. Qed.
(* Car Connected: everything was acknowledged, the voltage was not below 6, a protocol was selected *)
Theorem C37_car_connected_partial : forall name baud proto timeout check slp w e w',
  new_elm name baud proto timeout check slp w = (Ok e, w') -> e_status e = CAR_CONNECTED ->
  exists t0 t1 t2 t3 id a, w_trace w' = w_trace w ++ t0 ++ t1 ++ t2 ++ t3 /\ ready t1
    /\ (if check then exists l v, asks 12 (str "AT RV") t2 [l] /\ voltage l = Some v /\ ~ below_six v else t2 = [])
    /\ selection proto t3 (Some (id, a)).
Proof.
  intros name baud proto timeout check slp w e w' H S. apply new_elm_spec in H. destruct H as (t & T & [H|[(_ & _ & H & _)|(c & r0 & x & _ & H)]]); [| |discriminate H].
  - destruct H as (e0 & st & sel & b & E & St & E2 & _). injection E as <-. rewrite S in E2. subst st. inversion St; subst.
    + destruct check; discriminate.
    + match goal with P : power _ ?t3 _, Sel : selection _ ?t4 _ |- _ => exists (EvOpen name true :: wake slp ++ t1), t2, t3, t4, id, r end.
      split; [rewrite T; cbn [app]; rewrite <- !app_assoc; reflexivity|]. split; [assumption|]. split; [|assumption].
      match goal with P : power _ _ _ |- _ => inversion P; subst end; [reflexivity|]. eauto.
  - destruct (H e eq_refl) as (H1 & _). congruence.
Qed.
(* OBD Connected: the same without a protocol, and only if the voltage was checked *)
Theorem C37_obd_connected : forall name baud proto timeout check slp w e w',
  new_elm name baud proto timeout check slp w = (Ok e, w') -> e_status e = OBD_CONNECTED ->
  check = true /\ exists t0 t1 t2 t3 l v, w_trace w' = w_trace w ++ t0 ++ t1 ++ t2 ++ t3 /\ ready t1
    /\ asks 12 (str "AT RV") t2 [l] /\ voltage l = Some v /\ ~ below_six v /\ selection proto t3 None.
Proof.
  intros name baud proto timeout check slp w e w' H S. apply new_elm_spec in H. destruct H as (t & T & [H|[(_ & _ & H & _)|(c & r0 & x & _ & H)]]); [| |discriminate H].
  - destruct H as (e0 & st & sel & b & E & St & E2 & _). injection E as <-. rewrite S in E2. subst st. inversion St; subst.
    destruct check; [|discriminate]. split; [reflexivity|].
    match goal with P : power _ ?t3 _, Sel : selection _ ?t4 _ |- _ => exists (EvOpen name true :: wake slp ++ t1), t2, t3, t4; inversion P; subst end.
    eexists _, _. split; [rewrite T; cbn [app]; rewrite <- !app_assoc; reflexivity|]. split; [assumption|]. split; [eassumption|]. split; [eassumption|]. auto.
  - destruct (H e eq_refl) as (H1 & _). congruence.
Qed.
(* Not Connected, with the port closed, in all other cases: an object that is not Not Connected went through the dialogue *)
Theorem C37_not_connected : forall name baud proto timeout check slp w e w',
  new_elm name baud proto timeout check slp w = (Ok e, w') ->
  (e_status e = NOT_CONNECTED /\ e_port e = None
     /\ exists t, w_trace w' = w_trace w ++ t /\ (t = [EvOpen name false] \/ exists t', t = EvOpen name true :: t' ++ [EvClose]))
  \/ (e_status e <> NOT_CONNECTED /\ exists p, e_port e = Some p /\ exists t0 t1 t2, w_trace w' = w_trace w ++ t0 ++ t1 ++ t2 /\ ready t1
      /\ (check = true -> exists t3 t4 l v, t2 = t3 ++ t4 /\ asks 12 (str "AT RV") t3 [l] /\ voltage l = Some v)).
Proof.
  intros name baud proto timeout check slp w e w' H. apply new_elm_spec in H. destruct H as (t & T & [H|[(_ & (t' & Et) & H & _)|(c & r0 & x & _ & H)]]); [| |discriminate H].
  - destruct H as (e0 & st & sel & b & E & St & E2 & P1 & P2 & _). injection E as <-.
    destruct (status_eqb st NOT_CONNECTED) eqn:Est.
    + left. assert (st = NOT_CONNECTED) by (destruct st; try discriminate Est; reflexivity). rewrite H in St, E2, P1. clear H. split; [congruence|]. split; [auto|]. exists t. split; [exact T|].
      inversion St; subst; auto; right.
      * exists (wake slp ++ t1 ++ [EvWrite (str "ATZ" ++ [CR])]). rewrite <- !app_assoc. reflexivity.
      * exists (wake slp ++ t1 ++ t2 ++ [EvWrite (str "ATZ" ++ [CR])]). rewrite <- !app_assoc. reflexivity.
      * exists (wake slp ++ t1 ++ t2 ++ t3 ++ [EvWrite (str "ATZ" ++ [CR])]). rewrite <- !app_assoc. reflexivity.
      * destruct check; discriminate.
    + right. assert (N : st <> NOT_CONNECTED) by (intros ->; discriminate Est). split; [congruence|]. destruct (P2 N) as (b' & _ & P & _). eexists. split; [exact P|].
      inversion St; subst; try congruence.
      * exists (EvOpen name true :: wake slp ++ t1), t2, t3. split; [rewrite T; cbn [app]; rewrite <- !app_assoc; reflexivity|]. split; [assumption|].
        intros ->. match goal with P : power _ _ _ |- _ => inversion P; subst end. eexists t3, [], _, _. rewrite app_nil_r. eauto.
      * exists (EvOpen name true :: wake slp ++ t1), t2, (t3 ++ t4). split; [rewrite T; cbn [app]; rewrite <- !app_assoc; reflexivity|]. split; [assumption|].
        intros ->. match goal with P : power _ _ _ |- _ => inversion P; subst end. eauto 10.
      * exists (EvOpen name true :: wake slp ++ t1), t2, (t3 ++ t4). split; [rewrite T; cbn [app]; rewrite <- !app_assoc; reflexivity|]. split; [assumption|].
        intros ->. match goal with P : power _ _ _ |- _ => inversion P; subst end. eauto 10.
  - left. destruct (H e eq_refl) as (H1 & H2 & (t2 & C)). split; [exact H1|]. split; [exact H2|]. exists t. split; [exact T|]. right.
    destruct t2 as [|x t2]; rewrite Et in C; [discriminate C|]. injection C as <- ->. exists t2. exact Et.
Qed.
(* no exception without an I/O error, except from an unusable answer to 0100 (C13) *)
Theorem C37_exceptions_partial : forall name baud proto timeout check slp w x w',
  new_elm name baud proto timeout check slp w = (Raise x, w') ->
  (exists t, w_trace w' = w_trace w ++ t /\ io_error t) \/ (exists c answer, new_protocol c answer = Raise x).
Proof.
  intros name baud proto timeout check slp w x w' H. apply new_elm_spec in H. destruct H as (t & T & [H|[(I & _)|(c & r0 & y & E & H)]]).
  - destruct H as (e0 & st & sel & b & E & _). discriminate E.
  - left. eauto.
  - right. injection H as <-. eauto.
Qed.
(* the full claim is false: a voltage that is not a number passes for 6 volts ... *)
Theorem C37_nan_refuted : exists w e w', new_elm (str "/dev/ttyUSB0") (Some 38400) (Some (str "6")) 100 true false w = (Ok e, w')
  /\ e_status e = CAR_CONNECTED /\ In (EvRead (says (str "nan"))) (w_trace w').
Proof.
  exists (fresh [says (str "ELM327 v1.5"); says (str "OK"); says (str "OK"); says (str "OK"); says (str "nan"); says (str "OK"); says (str "7E8 06 41 00 BE 7F B8 13")]).
  eexists _, _. split; [vm_compute; reflexivity|]. split; [reflexivity|]. vm_compute. tauto.
Qed.
(* ... an I/O error during baud detection escapes from the constructor, leaving the port open ... *)
Theorem C37_baud_error_refuted : exists w x w', new_elm (str "/dev/ttyUSB0") None None 100 true false w = (Raise x, w') /\ ~ In EvClose (w_trace w').
Proof.
  exists (fresh [None]). eexists _, _. split; [vm_compute; reflexivity|]. cbn. intros H. repeat (destruct H as [H|H]; [discriminate H|]). destruct H.
Qed.
(* ... and so does one that hits the goodbye after a failed acknowledgement *)
Theorem C37_close_error_refuted : exists w w', new_elm (str "/dev/ttyUSB0") (Some 38400) None 100 true false w = (Raise AttributeError, w').
Proof.
  exists (mkWorld [] [WOk; WOk; WFailBefore] [says (str "ELM327 v1.5"); says (str "?")] [] []). eexists. vm_compute. reflexivity.
Qed.
Example C37_example : exists e w', car = (Ok e, w') /\ e_status e = CAR_CONNECTED /\ elm_protocol_id e = Ok (str "6")
  /\ e_port e = Some (mkPort (str "/dev/ttyUSB0") 38400 10000).
Proof. eexists _, _. split; [vm_compute; reflexivity|]. vm_compute. auto. Qed.

(* ------------------------------------------------------------------ C38 *)
(* the dialogue by which the protocol was chosen, and protocol_id() *)
Theorem C38_selected : forall name baud proto timeout check slp w e w',
  new_elm name baud proto timeout check slp w = (Ok e, w') -> e_status e = CAR_CONNECTED ->
  exists t0 t id answer, w_trace w' = w_trace w ++ t0 ++ t /\ selection proto t (Some (id, answer)) /\ In id known_ids /\ elm_protocol_id e = Ok id.
Proof.
  intros name baud proto timeout check slp w e w' H S. apply new_elm_spec in H. destruct H as (t & T & [H|[(_ & _ & H & _)|(c & r0 & x & _ & H)]]); [| |discriminate H].
  - destruct H as (e0 & st & sel & b & E & St & E2 & _ & _ & P). injection E as <-. rewrite S in E2. subst st. specialize (P ltac:(discriminate)). inversion St; subst.
    + destruct check; discriminate.
    + exists (EvOpen name true :: wake slp ++ t1 ++ t2 ++ t3), t4, id, r. split; [rewrite T; cbn [app]; rewrite <- !app_assoc; reflexivity|]. split; [assumption|].
      destruct P as (c & p & L & N & P). destruct (lookup_known id c L) as (K1 & K2 & _). split; [exact K1|]. unfold elm_protocol_id. rewrite P.
      assert (p_class p = c) by (unfold new_protocol in N; destruct (protocol_call c (initial_map c) r); [cbn in N|discriminate N]; destruct (log_map _); [cbn in N; injection N as <-; reflexivity|discriminate N]). congruence.
  - destruct (H e eq_refl) as (H1 & _). congruence.
Qed.
(* no protocol: the object stays unconnected to the car exactly after a dialogue without a usable protocol *)
Theorem C38_not_selected : forall name baud proto timeout check slp w e w',
  new_elm name baud proto timeout check slp w = (Ok e, w') -> e_status e = OBD_CONNECTED \/ (e_status e = ELM_CONNECTED /\ check = false) ->
  exists t0 t, w_trace w' = w_trace w ++ t0 ++ t /\ selection proto t None.
Proof.
  intros name baud proto timeout check slp w e w' H S. apply new_elm_spec in H. destruct H as (t & T & [H|[(_ & _ & H & _)|(c & r0 & x & _ & H)]]); [| |discriminate H].
  - destruct H as (e0 & st & sel & b & E & St & E2 & _ & _ & P). injection E as <-. subst st.
    inversion St; subst; try (destruct S as [S|[S ?]]; rewrite S in *; congruence).
    + destruct S as [S|[S ->]]; [congruence|]. match goal with P : power false _ _ |- _ => inversion P end.
    + exists (EvOpen name true :: wake slp ++ t1 ++ t2 ++ t3), t4. split; [rewrite T; cbn [app]; rewrite <- !app_assoc; reflexivity|assumption].
  - destruct (H e eq_refl) as (H1 & _). destruct S as [S|[S _]]; congruence.
Qed.
Theorem C38_refused : forall id e w, ~ In id known_ids -> set_protocol (Some id) (e, w) = (Ok false, (e, w)).
Proof. intros id e w N. cbn [set_protocol]. rewrite (proj2 (mem_known_false id) N). reflexivity. Qed.
Example C38_example : exists e w', new_elm (str "/dev/ttyUSB0") (Some 38400) None 100 false false
    (fresh [says (str "ELM327 v1.5"); says (str "OK"); says (str "OK"); says (str "OK"); says (str "OK"); says (str "?"); says (str "Z9");
            says (str "OK"); says (str "UNABLE TO CONNECT"); says (str "OK"); says (str "7E8 06 41 00 BE 7F B8 13")]) = (Ok e, w')
  /\ e_status e = CAR_CONNECTED /\ elm_protocol_id e = Ok (str "8").
Proof. eexists _, _. split; [vm_compute; reflexivity|]. vm_compute. auto. Qed.

(* ------------------------------------------------------------------ C39 *)
(* proved: the 0100 request was sent and was not answered UNABLE TO CONNECT *)
Theorem C39_asked_partial : forall name baud proto timeout check slp w e w',
  new_elm name baud proto timeout check slp w = (Ok e, w') -> e_status e = CAR_CONNECTED ->
  exists t0 t1 t2 n answer, w_trace w' = w_trace w ++ t0 ++ t1 ++ t2 /\ asks n (str "0100") t1 answer /\ ~ unable answer.
Proof.
  intros name baud proto timeout check slp w e w' H S. destruct (C38_selected _ _ _ _ _ _ _ _ _ H S) as (t0 & t & id & a & T & Sel & _). clear H S.
  assert (Tn : forall ids t res, tries_in_turn ids t res -> forall id a, res = Some (id, a) -> exists t1 t2, t = t1 ++ t2 /\ asks 12 (str "0100") t2 a /\ ~ unable a).
  { clear. intros ids t res H. induction H as [|id ids t r (t1 & l1 & t2 & -> & _ & A) U|id ids t r t' res P U H IH]; intros id' a E.
    - discriminate E.
    - injection E as <- <-. eauto.
    - destruct (IH _ _ E) as (t1 & t2 & -> & A & N). exists (t ++ t1), t2. rewrite app_assoc. auto. }
  inversion Sel; subst.
  - match goal with P : probes _ _ _ |- _ => destruct P as (t1 & l1 & t2 & -> & _ & A) end. exists (t0 ++ t1), t2, [], 12%nat, a.
    rewrite app_nil_r, <- app_assoc. auto.
  - exists (t0 ++ t1), t2, t3, 1%nat, a. rewrite <- app_assoc. auto.
  - match goal with X : tries_in_turn _ _ _ |- _ => destruct (Tn _ _ _ X _ _ eq_refl) as (x & y & -> & A & N) end.
    exists (t0 ++ t1 ++ t2 ++ t3 ++ x), y, [], 12%nat, a. rewrite app_nil_r, <- !app_assoc. auto.
Qed.
(* the full claim is false: no car at all is needed *)
Theorem C39_no_data_refuted : exists w e w', new_elm (str "/dev/ttyUSB0") (Some 38400) None 100 true false w = (Ok e, w')
  /\ e_status e = CAR_CONNECTED /\ In (EvRead (says (str "NO DATA"))) (w_trace w').
Proof.
  exists (fresh [says (str "ELM327 v1.5"); says (str "OK"); says (str "OK"); says (str "OK"); says (str "12.3V"); says (str "OK"); says (str "NO DATA"); says (str "6")]).
  eexists _, _. split; [vm_compute; reflexivity|]. split; [reflexivity|]. vm_compute. tauto.
Qed.
Theorem C39_silence_refuted : exists w e w', new_elm (str "/dev/ttyUSB0") (Some 38400) (Some (str "6")) 100 true false w = (Ok e, w')
  /\ e_status e = CAR_CONNECTED /\ w_reads w = [says (str "ELM327 v1.5"); says (str "OK"); says (str "OK"); says (str "OK"); says (str "12.3V")].
Proof.
  exists (fresh [says (str "ELM327 v1.5"); says (str "OK"); says (str "OK"); says (str "OK"); says (str "12.3V")]).
  eexists _, _. split; [vm_compute; reflexivity|]. split; reflexivity.
Qed.

(* ------------------------------------------------------------------ C40 *)
Theorem C40_detection : forall name proto timeout check slp w r w', ~ (exists rest, name = str "/dev/pts" ++ rest) ->
  new_elm name None proto timeout check slp w = (r, w') ->
  exists t, w_trace w' = w_trace w ++ t /\
  (t = [EvOpen name false] \/ io_error t \/ (exists c a x, new_protocol c a = Raise x /\ r = Raise x)
   \/ exists e td rest res, r = Ok e /\ t = EvOpen name true :: wake slp ++ EvTimeout timeout :: td ++ EvTimeout 10000 :: rest
        /\ detects baud_rates td res
        /\ match res with
           | Some b => forall p, e_port e = Some p -> p = mkPort name b 10000
           | None => rest = [EvWrite (str "ATZ" ++ [CR]); EvClose] /\ e_status e = NOT_CONNECTED /\ e_port e = None
           end).
Proof.
  intros name proto timeout check slp w r w' N H. apply new_elm_spec in H. destruct H as (t & T & H). exists t. split; [exact T|].
  destruct H as [(e & st & sel & b & -> & St & E & P1 & P2 & _)|[(I & _)|H]]; [|right; left; exact I|right; right; left; exact H].
  assert (Opn : forall t1 res, opening name timeout None t1 res -> exists td, t1 = EvTimeout timeout :: td ++ [EvTimeout 10000] /\ detects baud_rates td res).
  { intros t1 res O. inversion O; subst; [contradiction|]. eauto. }
  inversion St; subst; [left; reflexivity|right; right; right..];
    match goal with O : opening _ _ _ _ _ |- _ => destruct (Opn _ _ O) as (td & -> & D) end; eexists e, td, _, _; (split; [reflexivity|]);
    (split; [cbn [app]; rewrite <- ?app_assoc; cbn [app]; rewrite <- ?app_assoc; cbn [app]; reflexivity|]); (split; [exact D|]); cbn beta iota.
  - split; [reflexivity|]. auto.
  - intros p Hp. rewrite P1 in Hp by auto. discriminate Hp.
  - intros p Hp. rewrite P1 in Hp by auto. discriminate Hp.
  - intros p Hp. destruct P2 as (b' & Eb & P2 & _); [congruence|]. injection Eb as <-. congruence.
  - intros p Hp. destruct P2 as (b' & Eb & P2 & _); [destruct check; congruence|]. injection Eb as <-. congruence.
  - intros p Hp. destruct P2 as (b' & Eb & P2 & _); [congruence|]. injection Eb as <-. congruence.
Qed.
(* what detects says: the rates before the chosen one, each answered without a prompt; none after it *)
Theorem C40_first : forall td b, detects baud_rates td (Some b) -> exists before after,
  baud_rates = before ++ b :: after /\ flat_map (fun ev => match ev with EvBaud x => [x] | _ => [] end) td = before ++ [b].
Proof.
  intros td b D. remember (Some b) as res eqn:E. revert E. generalize dependent baud_rates. intros l D. induction D; intros E; [discriminate E| |].
  - injection E as ->. exists [], rest. auto.
  - destruct (IHD E) as (be & af & -> & F). exists (b0 :: be), af. cbn. rewrite F. auto.
Qed.
(* the full claim is false when the port fails while rates are tried: the exception escapes, the port stays open *)
Theorem C40_error_refuted : exists w x w', new_elm (str "/dev/ttyUSB0") None None 100 true false w = (Raise x, w') /\ ~ In EvClose (w_trace w').
Proof. exact C37_baud_error_refuted. Qed.
Example C40_example : exists e w', new_elm (str "/dev/ttyUSB0") None None 100 true false (fresh (Some (str "?") :: Some [] :: good_answers)) = (Ok e, w')
  /\ e_port e = Some (mkPort (str "/dev/ttyUSB0") 230400 10000).
Proof. eexists _, _. split; [vm_compute; reflexivity|]. reflexivity. Qed.

(* ------------------------------------------------------------------ C42 *)
(* every command: at most 12 attempts (1 after a pause), each ended by the prompt, by silence or by an exception *)
Theorem C42_attempts : forall cmd delay e w p r e' w', e_port e = Some p -> elm_send cmd delay (e, w) = (r, (e', w')) ->
  exists t, w_trace w' = w_trace w ++ t /\
  ((exists lines, r = Ok lines /\ exchange [PROMPT] (if delay then 1 else 12) cmd t lines)
   \/ (r = Ok [] /\ failed_exchange [PROMPT] (if delay then 1 else 12) cmd t)).
Proof.
  intros cmd delay e w p r e' w' Hp H. destruct (elm_send_spec cmd delay e w p r e' w' Hp H) as (t & T & D). exists t. split; [exact T|].
  assert (E : tries delay = if delay then 1%nat else 12%nat) by (destruct delay; [exact tries_true|exact tries_false]). rewrite E in D.
  destruct D as [(l & -> & _ & A)|(-> & _ & A)]; [left; eauto|right; auto].
Qed.
(* silence for ever: exactly 12 attempts *)
Example C42_example : w_trace (snd (snd (elm_send (str "0100") false (plugged, fresh [])))) = EvWrite (str "0100" ++ [13]) :: repeat (EvRead (Some [])) 12
  /\ e_port plugged <> None.
Proof. split; [vm_compute; reflexivity|discriminate]. Qed.

Print Assumptions C34_answer.
Print Assumptions C34_connect.
Print Assumptions C34_session.
Print Assumptions C35_lines.
Print Assumptions C37_constructor.
Print Assumptions C37_car_connected_partial.
Print Assumptions C38_selected.
Print Assumptions C39_asked_partial.
Print Assumptions C40_detection.
Print Assumptions C42_attempts.
