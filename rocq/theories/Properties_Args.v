(* Properties C105, C106: a call means what the documented signature says. Specification: SpecArgs.v. *)
From Coq Require Import ZArith List Bool Lia String.
From Verif Require Import Py Num Utils Protocol Decoders Command CommandTable Commands World Elm Obd Async Timed Args SpecArgs PyFacts ElmThms ArgThms.
Import ListNotations.
Open Scope string_scope. Open Scope list_scope. Open Scope Z_scope.

(* ------------------------------------------------------------------ OBD() *)
(* whatever mix of positional and keyword arguments: every argument gets where the documented signature says; a call the signature does not allow raises TypeError *)
Theorem C105_obd : forall pos kw, once kw ->
  (forall portstr baudrate protocol fast timeout check_voltage start_low_power,
     means doc_obd pos kw [portstr; baudrate; protocol; fast; timeout; check_voltage; start_low_power] ->
     obd_new pos kw = Ok (fast, [portstr; baudrate; protocol; timeout; check_voltage; start_low_power]))
  /\ ((forall vs, ~ means doc_obd pos kw vs) -> obd_new pos kw = Raise TypeError).
Proof. exact obd_new_spec. Qed.
Definition text_or_none (v : arg) (o : option text) : Prop := v = PNone /\ o = None \/ exists t, v = PText t /\ o = Some t.
Definition int_or_none (v : arg) (o : option Z) : Prop := v = PNone /\ o = None \/ exists z, v = PInt z /\ o = Some z.
(* with arguments of the documented kinds: the connection the other theorems are about *)
Theorem C105_config : forall pos kw portstr baudrate protocol fast timeout check_voltage start_low_power p b pr, once kw ->
  means doc_obd pos kw [portstr; baudrate; protocol; PBool fast; PSeconds timeout; PBool check_voltage; PBool start_low_power] ->
  text_or_none portstr p -> int_or_none baudrate b -> text_or_none protocol pr ->
  exists o cf, obd_new pos kw = Ok o /\ config_of o = Some (p, cf)
    /\ cf_baudrate cf = b /\ cf_protocol cf = pr /\ cf_fast cf = fast /\ cf_timeout cf = timeout /\ cf_check_voltage cf = check_voltage /\ cf_start_low_power cf = start_low_power.
Proof.
  intros pos kw portstr baudrate protocol fast timeout check_voltage start_low_power p b pr O M P B Pr.
  exists (PBool fast, [portstr; baudrate; protocol; PSeconds timeout; PBool check_voltage; PBool start_low_power]), (mkConfig b pr fast timeout check_voltage start_low_power).
  split; [apply (proj1 (obd_new_spec pos kw O)); exact M|]. split; [|repeat split].
  destruct P as [[-> ->]|(t & -> & ->)], B as [[-> ->]|(z & -> & ->)], Pr as [[-> ->]|(t' & -> & ->)]; reflexivity.
Qed.
(* the documented signature gives every call at most one meaning *)
Theorem C105_one_meaning : forall pos kw vs vs', once kw -> means doc_obd pos kw vs -> means doc_obd pos kw vs' -> vs = vs'.
Proof. intros pos kw vs vs' O. apply means_one; [exact obd_differ|exact O]. Qed.

(* ------------------------------------------------------------------ Async() *)
(* as documented with at most six positional arguments; what is missing is the seventh, see C106_async_refuted *)
Theorem C106_async_partial : forall pos kw portstr baudrate protocol fast timeout check_voltage delay_cmds, once kw -> (List.length pos <= 6)%nat ->
  means doc_async pos kw [portstr; baudrate; protocol; fast; timeout; check_voltage; delay_cmds] ->
  async_new pos kw = Ok (fast, [portstr; baudrate; protocol; timeout; check_voltage; PBool false], delay_cmds).
Proof. exact async_documented. Qed.
(* every call of OBD() is also one of Async(), with the same effect and the documented delay of 0.25 s *)
Theorem C105_async_as_obd : forall pos kw portstr baudrate protocol fast timeout check_voltage start_low_power, once kw ->
  means doc_obd pos kw [portstr; baudrate; protocol; fast; timeout; check_voltage; start_low_power] ->
  async_new pos kw = Ok (fast, [portstr; baudrate; protocol; timeout; check_voltage; start_low_power], PSeconds 250).
Proof. exact async_as_obd. Qed.
Lemma doc_positional sg vs : List.length vs = List.length sg -> means sg vs [] vs.
Proof.
  intros L. split; [|split; [exact L|intros k v H; apply by_position; exact H]]. split; [lia|]. split; [intros n v []|]. intros k p H Lk.
  assert (k < List.length sg)%nat by (apply nth_error_Some; rewrite H; discriminate). lia.
Qed.
(* the documented signature leaves out start_low_power: a delay given by position in the documented place is taken for start_low_power, and the delay stays 0.25 s *)
Theorem C106_async_refuted : forall portstr baudrate protocol fast timeout check_voltage delay_cmds,
  let pos := [portstr; baudrate; protocol; fast; timeout; check_voltage; delay_cmds] in
  means doc_async pos [] pos
  /\ async_new pos [] = Ok (fast, [portstr; baudrate; protocol; timeout; check_voltage; delay_cmds], PSeconds 250).
Proof. intros. split; [apply doc_positional; reflexivity|reflexivity]. Qed.

(* ------------------------------------------------------------------ query(), watch(), unwatch() *)
(* as documented when the command is given by position (what is missing: by the documented keyword, C106_query_refuted); both classes *)
Theorem C106_query_partial : forall pos kw vs, once kw -> (1 <= List.length pos)%nat ->
  (call_args obd_query_sig pos kw = Ok vs <-> means doc_query pos kw vs) /\ (call_args async_query_sig pos kw = Ok vs <-> means doc_query pos kw vs).
Proof.
  intros pos kw vs O L. split; [change obd_query_sig with (sig_of code_query)|change async_query_sig with (sig_of code_async_query)]; (apply means_iff_like; [differ|exact O|reflexivity|]);
    intros [|k] Lk; try lia; reflexivity.
Qed.
Theorem C106_watch_partial : forall pos kw vs, once kw -> (1 <= List.length pos)%nat -> (call_args watch_sig pos kw = Ok vs <-> means doc_watch pos kw vs).
Proof. intros pos kw vs O L. change watch_sig with (sig_of code_watch). apply means_iff_like; [differ|exact O|reflexivity|]. intros [|k] Lk; try lia; reflexivity. Qed.
Theorem C106_unwatch_partial : forall pos kw vs, once kw -> (1 <= List.length pos)%nat -> (call_args unwatch_sig pos kw = Ok vs <-> means doc_unwatch pos kw vs).
Proof. intros pos kw vs O L. change unwatch_sig with (sig_of code_unwatch). apply means_iff_like; [differ|exact O|reflexivity|]. intros [|k] Lk; try lia; reflexivity. Qed.
(* the parameter documented as command has other names in the code *)
Lemma by_keyword v : once [(str "command", v)].
Proof. constructor; [intros []|constructor]. Qed.
Theorem C106_query_refuted : forall v,
  means doc_query [] [(str "command", v)] [v; PBool false] /\ call_args obd_query_sig [] [(str "command", v)] = Raise TypeError /\ call_args async_query_sig [] [(str "command", v)] = Raise TypeError
  /\ means doc_watch [] [(str "command", v)] [v; PNone; PBool false] /\ call_args watch_sig [] [(str "command", v)] = Raise TypeError
  /\ means doc_unwatch [] [(str "command", v)] [v; PNone] /\ call_args unwatch_sig [] [(str "command", v)] = Raise TypeError.
Proof.
  intros v.
  assert (D : forall sg vs, names_differ sg -> call_args (sig_of sg) [] [(str "command", v)] = Ok vs -> means sg [] [(str "command", v)] vs) by (intros sg vs N H; apply call_spec in H; [exact H|exact N|apply by_keyword]).
  split; [apply D; [differ|reflexivity]|]. split; [reflexivity|]. split; [reflexivity|]. split; [apply D; [differ|reflexivity]|]. split; [reflexivity|]. split; [apply D; [differ|reflexivity]|]. reflexivity.
Qed.

(* ------------------------------------------------------------------ OBDCommand() *)
(* as documented when at least the first four arguments are given by position: each becomes a property *)
Theorem C106_command_partial : forall pos kw name desc command nbytes decoder ecu fast header, once kw -> (4 <= List.length pos)%nat ->
  means doc_command pos kw [PText name; PText desc; PBytes command; PInt nbytes; PDecoder decoder; PInt ecu; PBool fast; PBytes header] ->
  exists c, command_new pos kw = Ok (Some c) /\ c_name c = name /\ c_desc c = desc /\ c_command c = command /\ c_bytes c = nbytes /\ c_decode c = decoder /\ c_ecu c = ecu /\ c_fast c = fast /\ c_header c = header.
Proof.
  intros pos kw name desc command nbytes decoder ecu fast header O L M. exists (mkCommand name desc command nbytes decoder ecu fast header). split; [|repeat split].
  unfold command_new. change command_sig with (sig_of code_command).
  assert (H : call_args (sig_of code_command) pos kw = Ok [PText name; PText desc; PBytes command; PInt nbytes; PDecoder decoder; PInt ecu; PBool fast; PBytes header]).
  { apply (means_iff_like doc_command code_command); [differ|exact O|reflexivity| |exact M]. intros k Lk. do 4 (destruct k as [|k]; [lia|]). reflexivity. }
  rewrite H. reflexivity.
Qed.
(* a call that is not allowed by it raises TypeError *)
Theorem C106_command_error : forall pos kw, once kw -> (4 <= List.length pos)%nat -> (forall vs, ~ means doc_command pos kw vs) -> command_new pos kw = Raise TypeError.
Proof.
  intros pos kw O L N. unfold command_new. change command_sig with (sig_of code_command). rewrite (call_raises code_command pos kw); [reflexivity|differ|exact O|].
  intros vs M. apply (N vs). apply (means_like code_command doc_command); [reflexivity| |exact M]. intros k Lk. do 4 (destruct k as [|k]; [lia|]). reflexivity.
Qed.
(* the fourth is documented as bytes and called _bytes in the code *)
Definition named_command : list (text * arg) :=
  [(str "name", PText (str "X")); (str "desc", PText (str "x")); (str "command", PBytes (str "0100")); (str "bytes", PInt 4); (str "decoder", PDecoder D_raw_string)].
Theorem C106_command_refuted :
  once named_command /\ means doc_command [] named_command [PText (str "X"); PText (str "x"); PBytes (str "0100"); PInt 4; PDecoder D_raw_string; PInt 255; PBool false; PBytes (str "7E0")]
  /\ command_new [] named_command = Raise TypeError.
Proof.
  assert (O : once named_command) by (unfold once; repeat (constructor; [vm_compute; intuition discriminate|]); constructor).
  split; [exact O|]. split; [|vm_compute; reflexivity]. apply call_spec; [differ|exact O|vm_compute; reflexivity].
Qed.

(* ------------------------------------------------------------------ examples *)
Definition my_call : list arg * list (text * arg) := ([PText (str "/dev/ttyUSB0"); PInt 38400], [(str "start_low_power", PBool true); (str "fast", PBool false)]).
Example C105_example : once (snd my_call) /\ means doc_obd (fst my_call) (snd my_call) [PText (str "/dev/ttyUSB0"); PInt 38400; PNone; PBool false; PSeconds 100; PBool true; PBool true]
  /\ obd_new (fst my_call) (snd my_call) = Ok (PBool false, [PText (str "/dev/ttyUSB0"); PInt 38400; PNone; PSeconds 100; PBool true; PBool true]).
Proof.
  assert (O : once (snd my_call)) by (unfold once; repeat (constructor; [vm_compute; intuition discriminate|]); constructor).
  split; [exact O|]. split; [|vm_compute; reflexivity]. apply call_spec; [exact obd_differ|exact O|vm_compute; reflexivity].
Qed.
(* a keyword for a parameter that has a positional argument *)
Example C105_example_error : (forall vs, ~ means doc_obd [PNone] [(str "portstr", PNone)] vs) /\ obd_new [PNone] [(str "portstr", PNone)] = Raise TypeError.
Proof.
  split; [|vm_compute; reflexivity]. intros vs M. apply call_spec in M; [vm_compute in M; discriminate M|exact obd_differ|constructor; [intros []|constructor]].
Qed.
Example C106_example_async : let kw := [(str "delay_cmds", PSeconds 0)] in once kw /\ means doc_async [PNone] kw [PNone; PNone; PNone; PBool true; PSeconds 100; PBool true; PSeconds 0].
Proof.
  cbv zeta. split; [constructor; [intros []|constructor]|]. apply call_spec; [differ|constructor; [intros []|constructor]|vm_compute; reflexivity].
Qed.
Example C106_example_watch : let kw := [(str "force", PBool true)] in once kw /\ means doc_watch [PText (str "c"); PCallback 3] kw [PText (str "c"); PCallback 3; PBool true].
Proof.
  cbv zeta. split; [constructor; [intros []|constructor]|]. apply call_spec; [differ|constructor; [intros []|constructor]|vm_compute; reflexivity].
Qed.
Example C106_example_command : let pos := [PText (str "RPM"); PText (str "Engine RPM"); PBytes (str "010C"); PInt 4; PDecoder D_raw_string; PInt 1; PBool true] in
  means doc_command pos [] (pos ++ [PBytes (str "7E0")]).
Proof. cbv zeta. apply call_spec; [differ|constructor|vm_compute; reflexivity]. Qed.

Print Assumptions C105_obd.
Print Assumptions C105_config.
Print Assumptions C106_async_partial.
Print Assumptions C106_command_partial.
