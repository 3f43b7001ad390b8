(* Python numbers: unbounded ints, and floats as IEEE 754 binary64 computed by the pure Gallina
   functions of Coq.Floats.SpecFloat (round to nearest, ties to even). No proofs in this file. *)
From Coq Require Import ZArith List Bool.
From Coq Require Export Floats.SpecFloat.
From Verif Require Import Py.
Import ListNotations.
Open Scope Z_scope.

Definition prec64 := 53.
Definition emax64 := 1024.
Definition fadd := SFadd prec64 emax64.
Definition fsub := SFsub prec64 emax64.
Definition fmul := SFmul prec64 emax64.
Definition fdiv := SFdiv prec64 emax64.
Definition flt := SFltb.
Definition fle := SFleb.

(* float(n) for an int n, and the conversion done by mixed int/float arithmetic.
   Simplification: an int too large for a float becomes an infinity instead of OverflowError
   (the ints that reach this are at most 24 bits wide). *)
Definition float_of_Z (n : Z) : spec_float := binary_normalize prec64 emax64 n 0 false.

(* the binary64 number nearest to (-1)^s * num/den, for num >= 0 and den > 0: a decimal literal or
   the result of float(text). The quotient is computed to at least 55 bits plus a sticky bit. *)
Definition float_of_ratio (s : bool) (num den : Z) : spec_float :=
  if num =? 0 then S754_zero s
  else
    let k := Z.log2 den - Z.log2 num + 56 in
    let a := if 0 <=? k then num * 2 ^ k else num in
    let b := if 0 <=? k then den else den * 2 ^ (- k) in
    let m := 2 * (a / b) + (if a mod b =? 0 then 0 else 1) in
    binary_normalize prec64 emax64 (if s then - m else m) (- k - 1) s.

Inductive num : Type :=
| PyInt (z : Z)
| PyFloat (f : spec_float).

(* x * y, x + y, x - y, x / y for ints and floats *)
Definition to_float (x : num) : spec_float :=
  match x with PyInt z => float_of_Z z | PyFloat f => f end.
Definition num_mul (x y : num) : num :=
  match x, y with PyInt a, PyInt b => PyInt (a * b) | _, _ => PyFloat (fmul (to_float x) (to_float y)) end.
Definition num_add (x y : num) : num :=
  match x, y with PyInt a, PyInt b => PyInt (a + b) | _, _ => PyFloat (fadd (to_float x) (to_float y)) end.
Definition num_sub (x y : num) : num :=
  match x, y with PyInt a, PyInt b => PyInt (a - b) | _, _ => PyFloat (fsub (to_float x) (to_float y)) end.
(* only used with a float operand *)
Definition num_div (x y : num) : num := PyFloat (fdiv (to_float x) (to_float y)).

(* x <= y *)
Definition num_le (x y : num) : bool :=
  match x, y with PyInt a, PyInt b => a <=? b | _, _ => fle (to_float x) (to_float y) end.
Definition num_lt (x y : num) : bool :=
  match x, y with PyInt a, PyInt b => a <? b | _, _ => flt (to_float x) (to_float y) end.

(* ------------------------------------------------------------------ *)
(* float(text) *)
(* zeros of the Unicode decimal digit ranges (category Nd) beyond ASCII *)
Definition nd_zeros : list Z :=
  [1632; 1776; 1984; 2406; 2534; 2662; 2790; 2918; 3046; 3174; 3302; 3430; 3558; 3664; 3792; 3872; 4160; 4240;
   6112; 6160; 6470; 6608; 6784; 6800; 6992; 7088; 7232; 7248; 42528; 43216; 43264; 43472; 43504; 43600; 44016;
   65296; 66720; 68912; 69734; 69872; 69942; 70096; 70384; 70736; 70864; 71248; 71360; 71472; 71904; 72016; 72784;
   73040; 73120; 92768; 92864; 93008; 120782; 120792; 120802; 120812; 120822; 123200; 123632; 125264; 130032].
Definition to_ascii_digit (c : Z) : Z :=
  match find (fun z => (z <=? c) && (c <=? z + 9)) nd_zeros with
  | Some z => 48 + (c - z)
  | None => c
  end.
Definition is_digit (c : Z) : bool := (48 <=? c) && (c <=? 57).

(* underscores are allowed only between digits *)
Fixpoint underscores_ok (prev_digit : bool) (l : text) : bool :=
  match l with
  | [] => true
  | c :: t =>
      if c =? 95 then prev_digit && (match t with d :: _ => is_digit d | [] => false end) && underscores_ok false t
      else underscores_ok (is_digit c) t
  end.
Fixpoint take_digits (l : text) : text * text :=
  match l with
  | [] => ([], [])
  | c :: t => if is_digit c then let (a, b) := take_digits t in (c :: a, b) else ([], l)
  end.
Definition digits_value (l : text) : Z := fold_left (fun a c => a * 10 + (c - 48)) l 0.
Definition take_sign (l : text) : bool * text :=
  match l with
  | c :: t => if c =? 45 then (true, t) else if c =? 43 then (false, t) else (false, l)
  | [] => (false, [])
  end.
Definition scaled (s : bool) (m e : Z) : spec_float :=
  if 0 <=? e then float_of_ratio s (m * 10 ^ e) 1 else float_of_ratio s m (10 ^ (- e)).

(* float(text): None stands for ValueError. The argument is stripped of white space, Unicode digits count as
   digits, underscores between digits are dropped, then: [sign] (inf | infinity | nan | digits[.digits][e[sign]digits]). *)
Definition py_float (s : text) : option spec_float :=
  let s := map to_ascii_digit (strip_by uspace s) in
  if negb (underscores_ok false s) then None else
  let s := lower (remove_char 95 s) in
  let (neg, r) := take_sign s in
  if text_eqb r (str "inf") || text_eqb r (str "infinity") then Some (S754_infinity neg)
  else if text_eqb r (str "nan") then Some S754_nan
  else
    let (ip, r) := take_digits r in
    let (fp, r) := match r with
                   | c :: t => if c =? 46 then take_digits t else ([], r)
                   | [] => ([], [])
                   end in
    if negb (nonempty ip || nonempty fp) then None else
    let m := digits_value (ip ++ fp) in
    let e0 := - zlen fp in
    match r with
    | [] => Some (scaled neg m e0)
    | c :: t =>
        if c =? 101 then
          let (eneg, t) := take_sign t in
          let (ed, rest) := take_digits t in
          if nonempty ed && negb (nonempty rest) then
            Some (scaled neg m (e0 + (if eneg then - digits_value ed else digits_value ed)))
          else None
        else None
    end.
