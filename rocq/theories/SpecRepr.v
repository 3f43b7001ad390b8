(* Reading Python: the little of the Python language reference (2.4.1 String and bytes literals, 2.4.5 Integer literals, 6.3.4 Calls) that
   is needed to evaluate an expression that makes an OBDCommand. Written without looking at how the code prints. A reader takes the
   text and gives the value and what is left of the text; None is a syntax error, or something this small reader does not know. *)
From Coq Require Import ZArith List Bool.
From Verif Require Import Py Protocol Decoders Command.
Import ListNotations.
Open Scope Z_scope.

(* a hexadecimal digit, either case *)
Definition hexdig (c : Z) : option Z :=
  if (48 <=? c) && (c <=? 57) then Some (c - 48)
  else if (97 <=? c) && (c <=? 102) then Some (c - 87)
  else if (65 <=? c) && (c <=? 70) then Some (c - 55)
  else None.
Fixpoint hexnum (acc : Z) (ds : text) : option Z :=
  match ds with [] => Some acc | d :: ds => match hexdig d with Some v => hexnum (16 * acc + v) ds | None => None end end.

(* put a character in front of what was read *)
Definition add (c : option Z) (r : option (text * text)) : option (text * text) :=
  match c, r with Some c, Some (v, rest) => Some (c :: v, rest) | _, _ => None end.

(* the inside of a short string literal, after the opening quote q, up to and with the closing quote. Escapes: a backslash and
   one of: backslash, either quote, a b f n r t v, xhh, and in a str only uhhhh and Uhhhhhhhh. A line break in a short string is an error, so is
   a NUL character or a surrogate in the source; a character of a bytes literal is ASCII. *)
Definition surrogate (c : Z) : bool := (55296 <=? c) && (c <=? 57343).
Fixpoint inside (is_bytes : bool) (q : Z) (s : text) : option (text * text) :=
  match s with
  | [] => None
  | c :: r0 =>
      if c =? 92 then
        match r0 with
        | e :: r =>
            if existsb (Z.eqb e) [92; 39; 34] then add (Some e) (inside is_bytes q r)
            else if e =? 97 then add (Some 7) (inside is_bytes q r)
            else if e =? 98 then add (Some 8) (inside is_bytes q r)
            else if e =? 102 then add (Some 12) (inside is_bytes q r)
            else if e =? 110 then add (Some 10) (inside is_bytes q r)
            else if e =? 114 then add (Some 13) (inside is_bytes q r)
            else if e =? 116 then add (Some 9) (inside is_bytes q r)
            else if e =? 118 then add (Some 11) (inside is_bytes q r)
            else if e =? 120 then match r with a :: b :: r => add (hexnum 0 [a; b]) (inside is_bytes q r) | _ => None end
            else if (e =? 117) && negb is_bytes then
              match r with a :: b :: c :: d :: r => add (hexnum 0 [a; b; c; d]) (inside is_bytes q r) | _ => None end
            else if (e =? 85) && negb is_bytes then
              match r with
              | a :: b :: c :: d :: a' :: b' :: c' :: d' :: r =>
                  match hexnum 0 [a; b; c; d; a'; b'; c'; d'] with
                  | Some v => if v <=? 1114111 then add (Some v) (inside is_bytes q r) else None
                  | None => None
                  end
              | _ => None
              end
            else None
        | [] => None
        end
      else if c =? q then Some ([], r0)
      else if (c =? 0) || (c =? 10) || (c =? 13) || surrogate c || (is_bytes && (127 <? c)) then None
      else add (Some c) (inside is_bytes q r0)
  end.
(* a str literal and a bytes literal; a literal of three quotes (or the empty literal followed by a quote) is not read *)
Definition quoted (is_bytes : bool) (s : text) : option (text * text) :=
  match s with
  | q :: r =>
      if (q =? 39) || (q =? 34) then
        match inside is_bytes q r with
        | Some ([], q' :: rest) => if q' =? q then None else Some ([], q' :: rest)
        | x => x
        end
      else None
  | [] => None
  end.
Definition str_literal (s : text) : option (text * text) := quoted false s.
Definition bytes_literal (s : text) : option (text * text) := match s with c :: r => if c =? 98 then quoted true r else None | [] => None end.

(* digits; a decimal integer, maybe negative, without superfluous zeros *)
Fixpoint digits (s : text) : text * text :=
  match s with
  | c :: r => if (48 <=? c) && (c <=? 57) then let '(d, rest) := digits r in (c :: d, rest) else ([], s)
  | [] => ([], [])
  end.
Definition natural (s : text) : option (Z * text) :=
  match digits s with
  | ([], _) => None
  | (c :: d, rest) =>
      if (c =? 48) && nonempty d then None else Some (fold_left (fun v c => 10 * v + (c - 48)) (c :: d) 0, rest)
  end.
Definition integer (s : text) : option (Z * text) :=
  match s with
  | c :: r => if c =? 45 then match natural r with Some (v, rest) => Some (- v, rest) | None => None end else natural s
  | [] => None
  end.

(* a dotted name *)
Definition name_char (c : Z) : bool :=
  ((48 <=? c) && (c <=? 57)) || ((65 <=? c) && (c <=? 90)) || ((97 <=? c) && (c <=? 122)) || (c =? 95) || (c =? 46).
Fixpoint dotted (s : text) : text * text :=
  match s with
  | c :: r => if name_char c then let '(n, rest) := dotted r in (c :: n, rest) else ([], s)
  | [] => ([], [])
  end.
(* this text must come next *)
Fixpoint token (t s : text) : option text :=
  match t, s with
  | [], _ => Some s
  | a :: t, b :: s => if a =? b then token t s else None
  | _ :: _, [] => None
  end.
(* after a comma *)
Fixpoint spaces (s : text) : text := match s with c :: r => if c =? 32 then spaces r else s | [] => [] end.
Definition comma (s : text) : option text := match s with c :: r => if c =? 44 then Some (spaces r) else None | [] => None end.

(* the constants of class ECU, docs/Connections.md:143-160, protocols/protocol.py:52-61 *)
Definition ecu_value (s : text) : option (Z * text) :=
  let '(n, rest) := dotted s in
  if text_eqb n (str "ECU.ALL") then Some (255, rest)
  else if text_eqb n (str "ECU.ALL_KNOWN") then Some (254, rest)
  else if text_eqb n (str "ECU.UNKNOWN") then Some (1, rest)
  else if text_eqb n (str "ECU.ENGINE") then Some (2, rest)
  else if text_eqb n (str "ECU.TRANSMISSION") then Some (4, rest)
  else integer s.
Definition bool_value (s : text) : option (bool * text) :=
  let '(n, rest) := dotted s in
  if text_eqb n (str "True") then Some (true, rest)
  else if text_eqb n (str "False") then Some (false, rest)
  else None.

Notation "'read' p '<-' m 'in' k" := (match m with Some p => k | None => None end) (at level 200, p pattern, m at level 100, k at level 200).
(* eval(s), for an expression of the form
     OBDCommand(<str>, <str>, <bytes>, <int>, raw_string, ecu=..., fast=...[, header=<bytes>])
   An absent header is the default, b"7E0" (docs/Custom Commands.md). *)
Definition eval_command (s : text) : option command :=
  read s <- token (str "OBDCommand(") s in
  read (name, s) <- str_literal s in read s <- comma s in
  read (desc, s) <- str_literal s in read s <- comma s in
  read (request, s) <- bytes_literal s in read s <- comma s in
  read (n, s) <- integer s in read s <- comma s in
  read s <- token (str "raw_string") s in read s <- comma s in
  read s <- token (str "ecu=") s in read (ecu, s) <- ecu_value s in read s <- comma s in
  read s <- token (str "fast=") s in read (fast, s) <- bool_value s in
  if text_eqb s (str ")") then Some (mkCommand name desc request n D_raw_string ecu fast (str "7E0"))
  else
    read s <- comma s in
    read s <- token (str "header=") s in read (header, s) <- bytes_literal s in
    if text_eqb s (str ")") then Some (mkCommand name desc request n D_raw_string ecu fast header) else None.

(* a str: code points; bytes *)
Definition a_str (t : text) : Prop := Forall (fun c => 0 <= c <= 1114111) t.
Definition a_bytes (b : text) : Prop := Forall (fun c => 0 <= c <= 255) b.
