(* C46, continued: the commands that are never sent with a limit on the number of answers. *)
From Coq Require Import ZArith List Bool Lia String.
From Verif Require Import Py Num Utils Protocol Decoders Command CommandTable Commands World Elm Obd SpecCmd SpecElm SpecObd PyFacts CommandThms ElmFacts ElmThms
  ObdFacts ObdThms ObdThms2 ObdThms3 ObdThms4 Properties_Elm Properties_Commands Properties_Protocol Properties_Decoders Properties_Obd.
Import ListNotations.
Open Scope string_scope. Open Scope list_scope. Open Scope Z_scope.

(* the commands whose answer may come from any number of ECUs, or is the adapter's own, and their requests *)
Definition in_full : list (string * string) := [("GET_DTC", "03"); ("CLEAR_DTC", "04"); ("GET_CURRENT_DTC", "07"); ("ELM_VERSION", "ATI"); ("ELM_VOLTAGE", "ATRV")].
(* on a fast connection too, after any history, these requests go out as they are (or as an empty line, if the same request was the last one) *)
Theorem C46_in_full : forall cf port scan w t0 h o w1 name req c force r o' w2 t, session cf port scan w t0 h (o, w1) -> In (name, req) in_full -> In c all_commands -> c_name c = str name ->
  query c force (o, w1) = (r, (o', w2)) -> w_trace w2 = w_trace w1 ++ t ->
  (t = [] /\ r = Ok empty_response /\ (obd_status o = NOT_CONNECTED \/ ~ may_send o c force))
  \/ transmits o c t r (str req) \/ (str req = o_last_command o /\ transmits o c t r []).
Proof.
  intros cf port scan w t0 h o w1 name req c force r o' w2 t S I Ic N H T.
  assert (K : forallb (fun nr => forallb (fun c => negb (text_eqb (c_name c) (str (fst nr))) || (text_eqb (c_command c) (str (snd nr)) && negb (c_fast c))) all_commands) in_full = true) by (vm_compute; reflexivity).
  rewrite forallb_forall in K. specialize (K _ I). rewrite forallb_forall in K. specialize (K _ Ic). cbn [fst snd] in K. rewrite (proj2 (text_eqb_iff _ _) N) in K. cbn [negb orb] in K.
  apply andb_true_iff in K as [K1 K2]. apply text_eqb_iff in K1. apply negb_true_iff in K2.
  destruct (cf_fast cf) eqn:F.
  - destruct (C46_fast _ _ _ _ _ _ _ _ _ _ _ _ _ _ S F H T) as [A|(s & [(X & _)|(_ & ->)] & A)]; [left; exact A|congruence|right]. rewrite K1 in A. destruct A as [A|[B A]]; [left; exact A|right; split; assumption].
  - destruct (C45_unaltered _ _ _ _ _ _ _ _ _ _ _ _ _ _ S F H T) as [A|A]; [left; exact A|right; left]. rewrite <- K1. exact A.
Qed.
(* asked twice, with the answers of two ECUs the first time: the second request is an empty line, and after another command the request itself *)
Definition codes := cmd "GET_DTC".
Example C46_in_full_example :
  let h := fst (outcome (setup true) (fresh (up ++ [says (str "7E8 04 43 01 01 43"); says (str "7E8 04 43 01 01 43"); says (str "7E8 04 41 0C 1A F8"); says (str "7E8 04 43 01 01 43")])) [OpQuery codes true; OpQuery codes true; rpm; OpQuery codes true]) in
  In ("GET_DTC", "03") in_full /\ In codes all_commands /\ c_name codes = str "GET_DTC"
  /\ map (fun s => writes (st_events s)) h = [[line (str "03")]; [line []]; [line (str "010C")]; [line (str "03")]].
Proof. cbv zeta. split; [left; reflexivity|]. split; [apply (cmd_named "GET_DTC"); vm_compute; congruence|]. split; vm_compute; reflexivity. Qed.
