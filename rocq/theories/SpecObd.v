(* Specification vocabulary for OBD connections. No proofs in this file. *)
From Coq Require Import ZArith List Bool.
From Verif Require Import Py Num Utils Protocol Decoders Command CommandTable Commands World Elm Obd SpecElm.
Import ListNotations.
Open Scope Z_scope.

(* a line on the wire *)
Definition line (s : bytes) : bytes := s ++ [CR].
Definition wake_line : bytes := line (str " ").
Definition header_line (h : bytes) : bytes := line (str "AT SH " ++ h ++ str " ").
(* cmd was sent, after a wake-up if the adapter was asleep, and answered with these lines *)
Definition sends (asleep : bool) (cmd : bytes) (t : list event) (lines : list text) : Prop :=
  exists t1 t2, t = t1 ++ t2 /\ (if asleep then exists l, asks 12 (str " ") t1 l else t1 = []) /\ asks 12 cmd t2 lines.
Definition wake_lines (asleep : bool) : list bytes := if asleep then [wake_line] else [].
(* the same, cut short by an exception of the port, which was closed then *)
Definition cut_short (asleep : bool) (cmd : bytes) (t : list event) : Prop :=
  io_error t /\ (exists t', t = t' ++ [EvClose]) /\ exists k, writes t = firstn k (wake_lines asleep ++ [line cmd]).
(* the answer to a header change counts as an acknowledgement *)
Definition acknowledges (ms : list message) : Prop := join [10] (map m_raw ms) = str "OK".

(* one call after the construction: the call, the port activity during it, and its result *)
Record step := mkStep { st_op : op; st_events : list event; st_result : res (option response) }.
(* what a user did with an object, oldest call first *)
Inductive history (s0 : obd * world) : list step -> obd * world -> Prop :=
| history_nil : history s0 [] s0
| history_snoc h s1 p r s2 t : history s0 h s1 -> run_op p s1 = (r, s2) -> w_trace (snd s2) = w_trace (snd s1) ++ t ->
    history s0 (h ++ [mkStep p t r]) s2.
(* an object made by OBD(...), with port activity t0, and then used *)
Definition session (cf : config) (port : option text) (scan : list text) (w : world) (t0 : list event) (h : list step) (s : obd * world) : Prop :=
  exists s0, new_obd cf port scan w = (Ok tt, s0) /\ w_trace (snd s0) = w_trace w ++ t0 /\ history s0 h s.

(* is the adapter asleep, as far as the object knows *)
Definition asleep (o : obd) : bool := match o_interface o with Some e => e_low_power e | None => false end.
(* may the command be sent? *)
Definition may_send (o : obd) (c : command) (force : bool) : Prop :=
  force = true \/
  (exists c', In c' (o_supported o) /\ c_command c' = c_command c /\ c_header c' = c_header c)
  /\ (c_mode c = Some 6 -> exists id, obd_protocol_id o = Ok id /\ In id [str "6"; str "7"; str "8"; str "9"]).

(* the lines a query of c hands to the port when the string s stands for its request *)
Definition header_lines (o : obd) (c : command) : list bytes :=
  if text_eqb (c_header c) (o_last_header o) then [] else [header_line (c_header c)].
Definition request (o : obd) (c : command) (s : bytes) : list bytes := wake_lines (asleep o) ++ header_lines o c ++ [line s].
(* the frame count on record for a command (commands are the same if request and header are) *)
Definition recorded (o : obd) (c : command) (n : nat) : Prop := dict_get cmd_eqb (o_frame_counts o) c = Some n.
Definition unrecorded (o : obd) (c : command) : Prop := dict_get cmd_eqb (o_frame_counts o) c = None.
(* a decimal number *)
Definition decimal (n : nat) (s : text) : Prop :=
  s <> [] /\ Forall (fun d => 48 <= d <= 57) s /\ fold_left (fun v d => 10 * v + (d - 48)) s 0 = Z.of_nat n
  /\ (forall r, s = 48 :: r -> r = []).
(* the full string a fast query stands for *)
Definition stands_for (o : obd) (c : command) (s : bytes) : Prop :=
  (c_fast c = true /\ exists n d, recorded o c n /\ decimal n d /\ s = c_command c ++ d)
  \/ ((c_fast c = false \/ unrecorded o c) /\ s = c_command c).

(* low power was acknowledged, and nothing but further low power requests was sent since *)
Inductive sleeps : list step -> Prop :=
| sleeps_now h t r lines : exchange (str "OK") 1 (str "ATLP") t lines -> In (str "OK") lines -> sleeps (h ++ [mkStep OpLowPower t r])
| sleeps_still h p t r : sleeps h -> t = [] \/ p = OpLowPower -> sleeps (h ++ [mkStep p t r]).

(* lines by which no request is made: an empty line (which repeats one), and lines for the adapter itself *)
Definition repetition (x : bytes) : Prop := x = [CR].
Definition adapter_line (x : bytes) : Prop := x = wake_line \/ x = line (str "ATLP") \/ exists h, x = header_line h.

(* ---- supported commands ---- *)
(* bit i of the listing g stands for the table command c *)
Definition announces (g : command) (bits : list bool) (c : command) : Prop :=
  exists mode pid i, c_mode g = Some mode /\ c_pid g = Some pid /\ nth_error bits i = Some true /\
  let q := pid + Z.of_nat i + 1 in
  In c all_commands /\ match c_pid c with Some p => p | None => 0 end = q /\ (c_mode c = Some mode \/ mode = 1 /\ c_mode c = Some 2).
(* the listings requested while connecting, in order, each with the bits of its answer *)
Inductive listings : list command -> obd * world -> list (command * list bool) -> obd * world -> Prop :=
| ls_nil s : listings [] s [] s
| ls_skip g gs s ans s' : ~ may_send (fst s) g false -> listings gs s ans s' -> listings (g :: gs) s ans s'
| ls_null g gs s r s1 ans s' : may_send (fst s) g false -> query g false s = (Ok r, s1) -> is_null r = true ->
    listings gs s1 ans s' -> listings (g :: gs) s ans s'
| ls_bits g gs s r o1 w1 b l ans s' : may_send (fst s) g false -> query g false s = (Ok r, (o1, w1)) -> is_null r = false -> r_value r = VBits b ->
    (forall c, In c l <-> In c (o_supported o1) \/ announces g (ba_iter b) c) ->
    listings gs (mkObd (o_interface o1) l (o_fast o1) (o_timeout o1) (o_last_command o1) (o_last_header o1) (o_frame_counts o1), w1) ans s' ->
    listings (g :: gs) s ((g, ba_iter b) :: ans) s'.
(* supported without asking *)
Definition base_names : list text :=
  [str "PIDS_A"; str "PIDS_9A"; str "MIDS_A"; str "GET_DTC"; str "CLEAR_DTC"; str "GET_CURRENT_DTC"; str "ELM_VERSION"; str "ELM_VOLTAGE"].
Definition is_base (c : command) : Prop := In c all_commands /\ In (c_name c) base_names.

(* ---- the choice of a port ---- *)
(* adapters tried one after the other, and what became of each *)
Inductive tried (cf : config) : list text -> world -> list elm -> world -> Prop :=
| tried_none w : tried cf [] w [] w
| tried_one p ports w e w1 l w2 :
    new_elm p (cf_baudrate cf) (cf_protocol cf) (cf_timeout cf) (cf_check_voltage cf) (cf_start_low_power cf) w = (Ok e, w1) ->
    tried cf ports w1 l w2 -> tried cf (p :: ports) w (e :: l) w2.

(* ---- headers ---- *)
Definition no_header_line (l : list bytes) : Prop := forall x h, In x l -> x <> header_line h.
(* the header the adapter uses after these lines, if it obeys all of them: the last one set, or the one it starts with *)
Definition header_in_force (l : list bytes) (h : bytes) : Prop :=
  (exists a b, l = a ++ header_line h :: b /\ no_header_line b) \/ (no_header_line l /\ h = str "7E0").
(* every header change in this port activity was answered OK *)
Definition headers_accepted (t : list event) : Prop :=
  forall u v x h lines, t = u ++ x ++ v -> asks 12 (str "AT SH " ++ h ++ str " ") x lines -> lines = [str "OK"].
Definition plain_request (s : step) : Prop :=
  match st_op s with OpQuery c _ => forall h, c_command c <> str "AT SH " ++ h ++ str " " | _ => True end.
