(* Specification: exactly which frames of one ECU are put together, and how, when frames may be lost, repeated or out of order. *)
From Coq Require Import ZArith List Bool Permutation.
From Verif Require Import Py SpecWire.
Import ListNotations.
Open Scope Z_scope.

(* A consecutive frame carries the last hex digit of its number only. One with digit q that arrives right after the one taken for number p is
   taken for the number in p's group of 16 (0-15, 16-31, ...) with that digit, or in the next group if that lies more than 7 before p. *)
Definition taken_after (p q : Z) : Z := let n := 16 * (p / 16) + q in if n <? p - 7 then n + 16 else n.
Fixpoint taken_from (p : Z) (qs : list Z) : list Z := match qs with [] => [] | q :: l => taken_after p q :: taken_from (taken_after p q) l end.
(* the first to arrive is taken for the number that is its digit *)
Definition taken (qs : list Z) : list Z := match qs with [] => [] | q :: l => q :: taken_from q l end.
Definition one_to (n : nat) : list Z := map Z.of_nat (seq 1 n).

Definition firsts (frames : list bytes) : list bytes := filter (fun x => frame_type x =? 1) frames.
Definition consecutives (frames : list bytes) : list bytes := filter (fun x => frame_type x =? 2) frames.
(* the data of the frames of one ECU, in order of arrival, are understood as this payload *)
Inductive understood : list bytes -> bytes -> Prop :=
| understood_single n d : 0 <= n < 16 -> understood [n :: d] (firstn (Z.to_nat n) d)
| understood_multi frames pci lo d ord :
    (2 <= length frames)%nat -> firsts frames = [pci :: lo :: d] -> consecutives frames <> [] -> length ord = length (consecutives frames) ->
    (* ord: the consecutive frames arranged by the numbers they are taken for, which must be 1, 2, 3, ... *)
    Permutation (combine (taken (map number (consecutives frames))) (consecutives frames)) (combine (one_to (length ord)) ord) ->
    understood frames (firstn (Z.to_nat (256 * (pci mod 16) + lo)) (d ++ List.concat (map (@tl Z) ord))).

(* the frames of a segmented message with these indices arrived in this order (0 is the first frame; any may be missing or come twice); js is the
   arrangement of the consecutive ones by the numbers they are taken for. There is none if these are not 1, 2, 3, ... *)
Definition consecutive_ones (order : list nat) : list nat := filter (fun i => negb (Nat.eqb i 0)) order.
Definition arranged_as (order js : list nat) : Prop :=
  count_occ Nat.eq_dec order 0%nat = 1%nat /\ js <> [] /\ length js = length (consecutive_ones order) /\
  Permutation (combine (taken (map (fun i => Z.of_nat i mod 16) (consecutive_ones order))) (consecutive_ones order)) (combine (one_to (length js)) js).
(* the bytes of the first frame and of those frames, cut to the announced length *)
Definition put_together (frames : list bytes) (n : nat) (js : list nat) : bytes :=
  firstn n (skipn 2 (nth 0 frames []) ++ List.concat (map (fun j => tl (nth j frames [])) js)).
(* every frame arrives at most d places from where it should *)
Definition displaced_by (d : Z) (order : list nat) : Prop := forall k i, nth_error order k = Some i -> Z.abs (Z.of_nat i - Z.of_nat k) <= d.
