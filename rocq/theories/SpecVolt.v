(* A voltage as the adapter prints it, and what it means to read it correctly. No proofs. *)
From Coq Require Import ZArith List Reals.
From Verif Require Import Py Num SpecNum.
Import ListNotations.
Open Scope Z_scope.

Definition digit (c : Z) : Prop := 48 <= c <= 57.
(* the number written by decimal digits *)
Fixpoint decimal (l : text) : Z :=
  match l with
  | [] => 0
  | c :: t => (c - 48) * 10 ^ Z.of_nat (length t) + decimal t
  end.
(* printed l whole frac: the text l is the digits whole, a point, the digits frac (the point and frac may be missing), perhaps a V *)
Definition printed (l whole frac : text) : Prop :=
  Forall digit whole /\ Forall digit frac /\ whole ++ frac <> [] /\
  exists unit, In unit [[]; str "V"; str "v"] /\ ((frac = [] /\ l = whole ++ unit) \/ l = whole ++ str "." ++ frac ++ unit).
Definition printed_value (whole frac : text) : R := (IZR (decimal (whole ++ frac)) / 10 ^ length frac)%R.
(* x is a double at least as close to r as any double m * 2^e *)
Definition nearest_double (x : spec_float) (r : R) : Prop :=
  float_finite x /\ forall m e : Z, Z.abs m < 2 ^ 53 -> -1074 <= e <= 971 ->
    (Rabs (float_real x - r) <= Rabs (IZR m * powerRZ 2 e - r))%R.
(* what may stand in "inf", "infinity" or "nan" with a sign or a V, in either case; and the underscore *)
Definition special_chars : text := str "infINFtyTYaAvV+-_".
