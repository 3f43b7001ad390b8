(* Specification vocabulary for connecting to a willing adapter and car. No proofs in this file. *)
From Coq Require Import ZArith List Bool.
From Verif Require Import Py Num Utils Protocol Decoders Command CommandTable Commands World Elm Obd SpecWire SpecBits SpecProto SpecCmd SpecElm SpecObd SpecE2E.
Import ListNotations.
Open Scope Z_scope.

(* no operation on the port raises, and opening it succeeds *)
Definition calm (w : world) : Prop := w_opens w = [] /\ w_writes w = [] /\ w_confs w = [].
(* one answer: bytes up to a prompt, in any chunks, that stand for these lines; at least one *)
Definition reply (rs : list (option bytes)) (lines : list text) : Prop :=
  exists chunks s, rs = map Some chunks /\ Forall (fun c => c <> []) chunks /\ concat chunks = s ++ [PROMPT] /\ ~ In PROMPT s
    /\ answer_lines (s ++ [PROMPT]) lines /\ lines <> [].
(* one after the other *)
Inductive replies : list (list text) -> list (option bytes) -> Prop :=
| replies_nil : replies [] []
| replies_cons lines ls a rs : reply a lines -> replies ls rs -> replies (lines :: ls) (a ++ rs).

(* finding_baud name baud rs b: the reads rs answer the search for the baud rate, and b is found. Nothing is read if the rate is given
   or the port is a pseudo terminal; otherwise up to five answers that do not end with a prompt, then one that does. *)
Definition no_prompt (r : option bytes) : Prop := exists bs, r = Some bs /\ forall x, bs <> x ++ [PROMPT].
Inductive finding_baud (name : text) : option Z -> list (option bytes) -> Z -> Prop :=
| fb_given b : finding_baud name (Some b) [] b
| fb_pts : (exists rest, name = str "/dev/pts" ++ rest) -> finding_baud name None [] 9600
| fb_search misses x b : ~ (exists rest, name = str "/dev/pts" ++ rest) -> Forall no_prompt misses ->
    nth_error [38400; 9600; 230400; 115200; 57600; 19200] (length misses) = Some b ->
    finding_baud name None (misses ++ [Some (x ++ [PROMPT])]) b.

(* willing check proto id r ls: the answers ls of an adapter in good order, with a car that uses protocol id and answers r to 0100:
   to ATZ anything; to ATE0 something with OK; to ATH1 and ATL0 OK; to AT RV, if asked, a voltage of at least 6; to ATTP or ATSP0 anything; to
   0100 r; and, if no protocol was asked for, to ATDPN the protocol *)
Definition willing (check : bool) (proto : option text) (id : text) (r : list text) (ls : list (list text)) : Prop :=
  In id known_ids /\ ~ unable r /\
  exists hello echo volts chosen rest, ls = [hello; echo; [str "OK"]; [str "OK"]] ++ volts ++ chosen :: r :: rest
    /\ (exists l, In l echo /\ holds (str "OK") l)
    /\ (if check then exists l v, volts = [[l]] /\ voltage l = Some v /\ ~ below_six v else volts = [])
    /\ match proto with
       | Some id' => id' = id /\ rest = []
       | None => exists p, reports p id /\ rest = [[p]]
       end.

(* ---- the listings of supported commands ---- *)
(* a listing may be asked for: it is known to be supported; for monitors (mode 06) only on CAN *)
Definition may_list (p : protocol) (sup : list command) (g : command) : Prop :=
  (exists c, In c sup /\ c_command c = c_command g /\ c_header c = c_header g)
  /\ (c_mode g = Some 6 -> In (pc_id (p_class p)) [str "6"; str "7"; str "8"; str "9"]).
Definition bits_of (d : bytes) : list bool := map (bit_of d) (seq 0 (nbits d)).
(* car_lists p gs sup rs sup': asked for the listings gs in this order, as far as they are supported, the car answers with the reads rs; the supported
   commands are sup before and sup' after it. Of each answer counts what the first ECU heeded says, cut or padded with zeros to the length
   the command expects: two bytes, then the bits. *)
Inductive car_lists (p : protocol) : list command -> list command -> list (option bytes) -> list command -> Prop :=
| cl_end sup : car_lists p [] sup [] sup
| cl_skip g gs sup rs sup' : ~ may_list p sup g -> car_lists p gs sup rs sup' -> car_lists p (g :: gs) sup rs sup'
| cl_text g gs sup a l rs sup' : may_list p sup g -> reply a [l] -> ~ hex_line l -> car_lists p gs sup rs sup' -> (* NO DATA *)
    car_lists p (g :: gs) sup (a ++ rs) sup'
| cl_bits g gs sup a lines h1 h2 data d sup1 rs sup' : may_list p sup g -> reply a lines ->
    (exists ms, call p lines = Ok ms) ->            (* see C09 for what is not parsed *)
    speaks p (c_ecu g) lines (h1 :: data) -> h1 <> 67 -> resized (c_bytes g) (h1 :: data) (h1 :: h2 :: d) ->
    (forall c, In c sup1 <-> In c sup \/ announces g (bits_of d) c) ->
    car_lists p gs sup1 rs sup' -> car_lists p (g :: gs) sup (a ++ rs) sup'.
