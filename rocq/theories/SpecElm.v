(* Specification vocabulary for the serial line: independent of the model of elm327.py (only the type of port
   activity, World.event, is shared). No proofs in this file. *)
From Coq Require Import ZArith List Bool.
From Verif Require Import Py Num Utils World.
Import ListNotations.
Open Scope Z_scope.

Definition PROMPT : Z := 62.   (* '>' *)
Definition CR : Z := 13.

(* ---- what was written ---- *)
Definition writes (t : list event) : list bytes :=
  flat_map (fun ev => match ev with EvSend _ b => [b] | _ => [] end) t.
(* an exception came from the port *)
Definition io_error (t : list event) : Prop := In EvFail t \/ In (EvRead None) t.

(* ---- lines of text ---- *)
(* the characters str.strip() removes *)
Definition white : list Z :=
  [9; 10; 11; 12; 13; 28; 29; 30; 31; 32; 133; 160; 5760; 8192; 8193; 8194; 8195; 8196; 8197; 8198; 8199; 8200; 8201;
   8202; 8232; 8233; 8239; 8287; 12288].
(* s with the white space around it removed *)
Definition stripped (s t : text) : Prop :=
  exists a b, s = a ++ t ++ b /\ Forall (fun c => In c white) a /\ Forall (fun c => In c white) b
    /\ (t = [] \/ (exists c t', t = c :: t' /\ ~ In c white) /\ (exists c t', t = t' ++ [c] /\ ~ In c white)).
(* the non-empty pieces of s between line ends *)
Inductive pieces : text -> list text -> Prop :=
| pieces_nil : pieces [] []
| pieces_end c s l : In c [10; 13] -> pieces s l -> pieces (c :: s) l
| pieces_last p : p <> [] -> Forall (fun c => ~ In c [10; 13]) p -> pieces p [p]
| pieces_cons p c s l : p <> [] -> Forall (fun c => ~ In c [10; 13]) p -> In c [10; 13] -> pieces s l ->
    pieces (p ++ c :: s) (p :: l).
(* the lines an answer stands for: null characters and a prompt at the very end do not count, invalid UTF-8 is ignored *)
Definition body (s : bytes) : bytes :=
  let s := filter (fun c => negb (c =? 0)) s in
  match rev s with c :: r => if c =? PROMPT then rev r else s | [] => s end.
Definition answer_lines (s : bytes) (lines : list text) : Prop :=
  exists ps, pieces (utf8_ignore (body s)) ps /\ Forall2 stripped ps lines.

(* ---- one attempt to read an answer ---- *)
(* m occurs in s *)
Definition holds (m s : list Z) : Prop := exists a b, s = a ++ m ++ b.
(* non-empty chunks of bytes in which the end marker m does not occur *)
Definition quiet (m : bytes) (chunks : list bytes) : Prop := Forall (fun c => c <> []) chunks /\ ~ holds m (concat chunks).
(* attempt m rs bs: the reads rs of one attempt and the bytes they brought; it ended at the marker or at a timeout *)
Inductive attempt (m : bytes) : list (option bytes) -> bytes -> Prop :=
| attempt_marker chunks last : quiet m chunks -> last <> [] -> holds m (concat (chunks ++ [last])) ->
    attempt m (map Some (chunks ++ [last])) (concat (chunks ++ [last]))
| attempt_timeout chunks : quiet m chunks -> attempt m (map Some chunks ++ [Some []]) (concat chunks).
(* one that ended with an exception *)
Inductive broken (m : bytes) : list (option bytes) -> Prop :=
| broken_read chunks : quiet m chunks -> broken m (map Some chunks ++ [None]).

(* heard m n rs lines: n attempts with the reads rs in all, the last of which brought these lines, the others none *)
Inductive heard (m : bytes) : nat -> list (option bytes) -> list text -> Prop :=
| heard_last rs bs lines : attempt m rs bs -> answer_lines bs lines -> heard m 1 rs lines
| heard_more rs bs n rest lines : attempt m rs bs -> answer_lines bs [] -> heard m n rest lines ->
    heard m (S n) (rs ++ rest) lines.

(* ---- a command and its answer ---- *)
(* exchange m max cmd t lines: the port activity t was: cmd was written, and these lines were the answer, after at
   most max attempts (further attempts are only made while there are no lines) *)
Definition exchange (m : bytes) (max : nat) (cmd : bytes) (t : list event) (lines : list text) : Prop :=
  exists n rs, t = EvWrite (cmd ++ [CR]) :: map EvRead rs /\ heard m n rs lines /\ (n <= max)%nat /\ (lines <> [] \/ n = max).
(* failed_exchange: it was cut short by an exception of the port, which was then closed *)
Inductive failed_exchange (m : bytes) (max : nat) (cmd : bytes) : list event -> Prop :=
| failed_before : failed_exchange m max cmd [EvFail; EvClose]
| failed_after : failed_exchange m max cmd [EvWrite (cmd ++ [CR]); EvFail; EvClose]
| failed_first rs : broken m rs -> failed_exchange m max cmd (EvWrite (cmd ++ [CR]) :: map EvRead rs ++ [EvClose])
| failed_later n rs0 rs : heard m n rs0 [] -> (n < max)%nat -> broken m rs ->
    failed_exchange m max cmd (EvWrite (cmd ++ [CR]) :: map EvRead (rs0 ++ rs) ++ [EvClose]).

(* ---- the adapter's start-up dialogue ---- *)
(* cmd was sent and answered with these lines; with a pause of one second before reading there is a single attempt *)
Definition asks (max : nat) (cmd : text) (t : list event) (lines : list text) : Prop := exchange [PROMPT] max cmd t lines.
Definition unable (lines : list text) : Prop := exists l, In l lines /\ holds (str "UNABLE TO CONNECT") l.
(* protocol identifiers, and the order of attempts *)
Definition known_ids : list text := [str "1"; str "2"; str "3"; str "4"; str "5"; str "6"; str "7"; str "8"; str "9"; str "A"].
Definition attempt_order : list text := [str "6"; str "8"; str "1"; str "7"; str "9"; str "2"; str "3"; str "4"; str "5"; str "A"].
(* protocol id was selected by hand and the answer to 0100 was r *)
Definition probes (id : text) (t : list event) (r : list text) : Prop :=
  exists t1 l1 t2, t = t1 ++ t2 /\ asks 12 (str "ATTP" ++ id) t1 l1 /\ asks 12 (str "0100") t2 r.
(* one after the other until one is not answered UNABLE TO CONNECT *)
Inductive tries_in_turn : list text -> list event -> option (text * list text) -> Prop :=
| turn_out : tries_in_turn [] [] None
| turn_hit id ids t r : probes id t r -> ~ unable r -> tries_in_turn (id :: ids) t (Some (id, r))
| turn_miss id ids t r t' res : probes id t r -> unable r -> tries_in_turn ids t' res -> tries_in_turn (id :: ids) (t ++ t') res.
(* the adapter's report p names protocol id, perhaps with the mark A for automatic *)
Definition reports (p id : text) : Prop := In id known_ids /\ (p = id \/ p = 65 :: id).
(* selection proto t res: the dialogue t by which a protocol is chosen; res = its identifier and the answer to 0100 *)
Inductive selection : option text -> list event -> option (text * list text) -> Prop :=
| sel_refused id : ~ In id known_ids -> selection (Some id) [] None
| sel_manual id t r : In id known_ids -> probes id t r -> ~ unable r -> selection (Some id) t (Some (id, r))
| sel_manual_unable id t r : In id known_ids -> probes id t r -> unable r -> selection (Some id) t None
| sel_unable t1 t2 l1 r : asks 1 (str "ATSP0") t1 l1 -> asks 1 (str "0100") t2 r -> unable r ->
    selection None (t1 ++ t2) None
| sel_auto t1 t2 t3 l1 r p id : asks 1 (str "ATSP0") t1 l1 -> asks 1 (str "0100") t2 r -> ~ unable r ->
    asks 12 (str "ATDPN") t3 [p] -> reports p id -> selection None (t1 ++ t2 ++ t3) (Some (id, r))
| sel_tried t1 t2 t3 t4 l1 r p res : asks 1 (str "ATSP0") t1 l1 -> asks 1 (str "0100") t2 r -> ~ unable r ->
    asks 12 (str "ATDPN") t3 [p] -> (forall id, ~ reports p id) -> tries_in_turn attempt_order t4 res ->
    selection None (t1 ++ t2 ++ t3 ++ t4) res
| sel_confused t1 t2 t3 l1 r l3 : asks 1 (str "ATSP0") t1 l1 -> asks 1 (str "0100") t2 r -> ~ unable r ->
    asks 12 (str "ATDPN") t3 l3 -> length l3 <> 1%nat -> selection None (t1 ++ t2 ++ t3) None.

(* ---- baud rates ---- *)
Definition baud_rates : list Z := [38400; 9600; 230400; 115200; 57600; 19200].
(* rates tried in order until a reply ends with the prompt *)
Inductive detects : list Z -> list event -> option Z -> Prop :=
| detect_out : detects [] [] None
| detect_hit b rest bs : detects (b :: rest) [EvBaud b; EvWrite [127; 127; CR]; EvRead (Some (bs ++ [PROMPT]))] (Some b)
| detect_miss b rest bs t res : (forall bs', bs <> bs' ++ [PROMPT]) -> detects rest t res ->
    detects (b :: rest) ([EvBaud b; EvWrite [127; 127; CR]; EvRead (Some bs)] ++ t) res.

(* ---- the whole start-up ---- *)
(* ATZ, then ATE0, ATH1 and ATL0 acknowledged *)
Definition ready (t : list event) : Prop :=
  exists tz te th tl lz le, t = tz ++ te ++ th ++ tl /\ asks 1 (str "ATZ") tz lz
    /\ asks 12 (str "ATE0") te le /\ (exists l, In l le /\ holds (str "OK") l)
    /\ asks 12 (str "ATH1") th [str "OK"] /\ asks 12 (str "ATL0") tl [str "OK"].
(* ATZ sent, but one of the three settings was not acknowledged *)
Definition not_ready (t : list event) : Prop :=
  exists tz lz t', t = tz ++ t' /\ asks 1 (str "ATZ") tz lz /\
  ((exists le, asks 12 (str "ATE0") t' le /\ ~ (exists l, In l le /\ holds (str "OK") l))
   \/ (exists te le th lh, t' = te ++ th /\ asks 12 (str "ATE0") te le /\ (exists l, In l le /\ holds (str "OK") l)
         /\ asks 12 (str "ATH1") th lh /\ lh <> [str "OK"])
   \/ (exists te le th tl ll, t' = te ++ th ++ tl /\ asks 12 (str "ATE0") te le /\ (exists l, In l le /\ holds (str "OK") l)
         /\ asks 12 (str "ATH1") th [str "OK"] /\ asks 12 (str "ATL0") tl ll /\ ll <> [str "OK"])).
(* the rate the port is set to: given, left alone on a pseudo terminal, or detected *)
Inductive opening (name : text) (timeout : Z) : option Z -> list event -> option Z -> Prop :=
| opening_given b : opening name timeout (Some b) [EvBaud b] (Some b)
| opening_pts : (exists rest, name = str "/dev/pts" ++ rest) -> opening name timeout None [] (Some 9600)
| opening_auto t res : ~ (exists rest, name = str "/dev/pts" ++ rest) -> detects baud_rates t res ->
    opening name timeout None (EvTimeout timeout :: t ++ [EvTimeout 10000]) res.
Definition good_bye : list event := [EvWrite (str "ATZ" ++ [CR]); EvClose].
(* ---- the voltage ---- *)
(* the number in an answer to AT RV: the text without the letter v, as float() reads it *)
Definition voltage (l : text) : option spec_float := py_float (filter (fun c => negb (c =? 118)) (lower l)).
Definition below_six (v : spec_float) : Prop := flt v (float_of_Z 6) = true.
(* outcome: Some true = go on, Some false = too low, None = no voltage was reported *)
Inductive power : bool -> list event -> option bool -> Prop :=
| power_unchecked : power false [] (Some true)
| power_good t l v : asks 12 (str "AT RV") t [l] -> voltage l = Some v -> ~ below_six v -> power true t (Some true)
| power_low t l v : asks 12 (str "AT RV") t [l] -> voltage l = Some v -> below_six v -> power true t (Some false)
| power_bad t r : asks 12 (str "AT RV") t r -> (forall l v, r = [l] -> voltage l <> Some v) -> power true t None.

(* startup t st sel baud: the port activity of a constructor call without I/O errors, the resulting status, the
   protocol selected (with the answer to 0100), and the baud rate in use *)
Section Startup.
  Context (name : text) (baud : option Z) (proto : option text) (timeout : Z) (check start_low_power : bool).
  Definition wake : list event := if start_low_power then [EvWrite (str " " ++ [CR])] else [].
  Inductive startup : list event -> status -> option (text * list text) -> option Z -> Prop :=
  | st_no_port : startup [EvOpen name false] NOT_CONNECTED None None
  | st_no_baud t1 : opening name timeout baud t1 None ->
      startup (EvOpen name true :: wake ++ t1 ++ good_bye) NOT_CONNECTED None None
  | st_no_ack t1 t2 b : opening name timeout baud t1 (Some b) -> not_ready t2 ->
      startup (EvOpen name true :: wake ++ t1 ++ t2 ++ good_bye) NOT_CONNECTED None None
  | st_no_volts t1 t2 t3 b : opening name timeout baud t1 (Some b) -> ready t2 -> power check t3 None ->
      startup (EvOpen name true :: wake ++ t1 ++ t2 ++ t3 ++ good_bye) NOT_CONNECTED None None
  | st_low_volts t1 t2 t3 b : opening name timeout baud t1 (Some b) -> ready t2 -> power check t3 (Some false) ->
      startup (EvOpen name true :: wake ++ t1 ++ t2 ++ t3) ELM_CONNECTED None (Some b)
  | st_no_protocol t1 t2 t3 t4 b : opening name timeout baud t1 (Some b) -> ready t2 -> power check t3 (Some true) ->
      selection proto t4 None ->
      startup (EvOpen name true :: wake ++ t1 ++ t2 ++ t3 ++ t4) (if check then OBD_CONNECTED else ELM_CONNECTED) None (Some b)
  | st_car t1 t2 t3 t4 b id r : opening name timeout baud t1 (Some b) -> ready t2 -> power check t3 (Some true) ->
      selection proto t4 (Some (id, r)) ->
      startup (EvOpen name true :: wake ++ t1 ++ t2 ++ t3 ++ t4) CAR_CONNECTED (Some (id, r)) (Some b).
End Startup.

(* ---- the same bytes in other chunks ---- *)
(* one answer: the bytes up to the prompt; or bytes without a prompt before a timeout (an empty read) or an exception *)
Definition non_empty_chunks (c : list bytes) : Prop := Forall (fun x => x <> []) c.
Inductive same_answer : list (option bytes) -> list (option bytes) -> Prop :=
| same_prompt c1 c2 s : non_empty_chunks c1 -> non_empty_chunks c2 -> concat c1 = s ++ [PROMPT] -> concat c2 = s ++ [PROMPT] ->
    ~ In PROMPT s -> same_answer (map Some c1) (map Some c2)
| same_silence c1 c2 s fin : non_empty_chunks c1 -> non_empty_chunks c2 -> concat c1 = s -> concat c2 = s -> ~ In PROMPT s ->
    fin = Some [] \/ fin = None -> same_answer (map Some c1 ++ [fin]) (map Some c2 ++ [fin]).
(* a sequence of answers; the last one may be followed by silence for ever *)
Inductive rechopped : list (option bytes) -> list (option bytes) -> Prop :=
| rechopped_nil : rechopped [] []
| rechopped_last c1 c2 s : non_empty_chunks c1 -> non_empty_chunks c2 -> concat c1 = s -> concat c2 = s -> ~ In PROMPT s ->
    rechopped (map Some c1) (map Some c2)
| rechopped_cons a1 a2 r1 r2 : same_answer a1 a2 -> rechopped r1 r2 -> rechopped (a1 ++ r1) (a2 ++ r2).
(* port activity other than reads *)
Definition no_reads (t : list event) : list event := filter (fun ev => match ev with EvRead _ => false | _ => true end) t.
(* two environments that differ in the chunks only *)
Definition rechopped_world (w1 w2 : world) : Prop :=
  w_opens w1 = w_opens w2 /\ w_writes w1 = w_writes w2 /\ w_confs w1 = w_confs w2 /\ rechopped (w_reads w1) (w_reads w2)
  /\ no_reads (w_trace w1) = no_reads (w_trace w2).
