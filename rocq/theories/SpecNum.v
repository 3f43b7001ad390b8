(* The real number a Python number stands for, written without any helper of the model. Used to state the properties
   about decoded physical quantities. No proofs. *)
From Coq Require Import ZArith Reals.
From Verif Require Import Py Num.
Open Scope R_scope.

(* a float is a finite double (sign, mantissa, exponent), a zero, an infinity or a NaN *)
Definition float_real (x : spec_float) : R :=
  match x with
  | S754_finite s m e => (if s then -1 else 1) * IZR (Zpos m) * powerRZ 2 e
  | _ => 0
  end.
Definition float_finite (x : spec_float) : Prop :=
  match x with S754_finite _ _ _ | S754_zero _ => True | _ => False end.

Definition num_real (x : num) : R := match x with PyInt z => IZR z | PyFloat f => float_real f end.
Definition num_finite (x : num) : Prop := match x with PyInt _ => True | PyFloat f => float_finite f end.

(* x is a finite number within err of r *)
Definition within (err : R) (x : num) (r : R) : Prop := num_finite x /\ Rabs (num_real x - r) <= err.
(* x is exactly r *)
Definition exactly (x : num) (r : R) : Prop := num_finite x /\ num_real x = r.

(* the raw number in some bytes: big-endian, two's complement when signed *)
From Coq Require Import List.
From Verif Require Import SpecBits UasTable.
Definition raw_value (signed : bool) (d : bytes) : Z :=
  let v := big_endian d in
  let n := (8 * Z.of_nat (length d))%Z in
  if (signed && (2 ^ (n - 1) <=? v))%bool%Z then (v - 2 ^ n)%Z else v.
(* a number as written in the source: the decimal fraction itself, not a float *)
Definition lit_real (l : lit) : R := match l with LInt z => IZR z | LDec n d => IZR n / IZR d end.
