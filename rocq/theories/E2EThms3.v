(* A query on a healthy port. *)
From Coq Require Import ZArith List Bool Lia.
From Verif Require Import Py Num Utils Protocol Decoders Command CommandTable Commands World Elm Obd SpecWire SpecProto SpecCmd SpecElm SpecObd SpecE2E
  PyFacts ElmFacts ElmThms ObdFacts ObdThms ObdThms2 ProtocolFacts Properties_Elm E2EThms.
Import ListNotations.
Open Scope Z_scope.

Lemma dead_no_port e : e_port (dead e) = None.
Proof. reflexivity. Qed.
Lemma healthy_send cmd e p w chunks s rest lines : e_port e = Some p -> w_writes w = [] ->
  w_reads w = map Some chunks ++ rest -> Forall (fun c => c <> []) chunks -> concat chunks = s ++ [PROMPT] -> ~ In PROMPT s ->
  answer_lines (s ++ [PROMPT]) lines -> lines <> [] ->
  exists w' t, elm_send cmd false (e, w) = (Ok lines, (e, w')) /\ w_reads w' = rest /\ w_trace w' = w_trace w ++ t /\ asks 12 cmd t lines.
Proof.
  intros Hp Hw Hr F E N L Ne. destruct (C34_lines cmd false e p w chunks s rest Hp Hw Hr F E N lines L Ne) as (w' & S & R).
  destruct (elm_send_spec cmd false e w p _ _ _ Hp S) as (t & T & [(l & El & _ & X)|(_ & Ed & _)]).
  - exists w', t. split; [exact S|]. split; [exact R|]. split; [exact T|]. injection El as <-. exact X.
  - exfalso. apply (f_equal e_port) in Ed. rewrite Hp in Ed. discriminate Ed.
Qed.
Lemma healthy_query o e c force w p pt chunks s rest lines : oinv o -> o_interface o = Some e -> e_status e <> NOT_CONNECTED -> e_port e = Some pt ->
  e_low_power e = false -> e_protocol e = Some p -> may_send o c force -> c_header c = o_last_header o -> w_writes w = [] ->
  w_reads w = map Some chunks ++ rest -> Forall (fun c => c <> []) chunks -> concat chunks = s ++ [PROMPT] -> ~ In PROMPT s ->
  answer_lines (s ++ [PROMPT]) lines -> lines <> [] ->
  exists r o' w' t, query c force (o, w) = (r, (o', w')) /\ w_trace w' = w_trace w ++ t /\ asks 12 (build_command_string o c) t lines
    /\ r = match call p lines with Ok [] => Ok empty_response | Ok ms => cmd_call c ms | Raise x => Raise x end.
Proof.
  intros OI Hi Hs Hpt Hl Hp MS Hh Hw Hr F E N L Ne.
  destruct (healthy_send (build_command_string o c) e pt w chunks s rest lines Hpt Hw Hr F E N L Ne) as (w' & t & S & R & T & A).
  assert (Q : exists r o', query c force (o, w) = (r, (o', w')) /\ r = match call p lines with Ok [] => Ok empty_response | Ok ms => cmd_call c ms | Raise x => Raise x end).
  2:{ destruct Q as (r & o' & Q & Er). exists r, o', w', t. auto. }
  unfold query. unfold bind at 1. unfold obd_of at 1, gets at 1. cbn [fst].
  replace (status_eqb (obd_status o) NOT_CONNECTED) with false.
  2:{ unfold obd_status. rewrite Hi. destruct (e_status e); try reflexivity. contradiction. }
  assert (B : (if force then ret true else fun s => (test_cmd (fst s) c, s)) (o, w) = (Ok true, (o, w))).
  { destruct force; [reflexivity|]. cbn [fst]. unfold oinv in OI. rewrite Hi in OI. destruct (test_cmd_spec o c e Hi OI Hs) as (b & B & C).
    rewrite B. apply C in MS. rewrite MS. reflexivity. }
  unfold bind at 1. rewrite B. cbn [negb]. unfold bind at 1.
  assert (SH : set_header (c_header c) (o, w) = (Ok tt, (o, w))).
  { unfold set_header, bind, obd_of, gets. cbn [fst]. rewrite Hh. rewrite (proj2 (text_eqb_iff _ _) eq_refl). reflexivity. }
  rewrite SH. unfold bind at 1. unfold obd_of at 1, gets at 1. cbn [fst].
  assert (SP : on_interface (send_and_parse (build_command_string o c)) (o, w)
    = (match call p lines with Ok ms => Ok (Some ms) | Raise x => Raise x end, (with_elm e o, w'))).
  { unfold on_interface. rewrite Hi. unfold send_and_parse. unfold bind at 1, elm_of at 1, gets at 1. cbn [fst].
    replace (status_eqb (e_status e) NOT_CONNECTED) with false by (destruct (e_status e); try reflexivity; contradiction).
    unfold bind at 1, elm_of at 1, gets at 1. cbn [fst]. rewrite Hl. unfold bind at 1. unfold ret at 1. unfold bind at 1. rewrite S.
    unfold bind at 1, elm_of at 1, gets at 1. cbn [fst]. rewrite Hp. destruct (call p lines) as [ms|x]; reflexivity. }
  unfold bind at 1. rewrite SP. clear SP SH B. destruct (call p lines) as [ms|x]; [|eauto].
  set (str0 := build_command_string o c). 
  assert (SC : forall o2 w2, (if nonempty str0 then set_last_command str0 else ret tt) (o2, w2) = (Ok tt, (with_command str0 o2, w2))).
  { intros o2 w2. unfold with_command. destruct (nonempty str0); [reflexivity|]. destruct o2; reflexivity. }
  unfold bind at 1. rewrite SC. unfold bind at 1. unfold obd_of at 1, gets at 1. cbn [fst]. unfold bind at 1.
  destruct (dict_mem _ _ _); destruct ms; do 2 eexists; (split; [reflexivity|reflexivity]).
Qed.
