(* Specification notions for the protocol properties. From the model only the type family (which protocol
   family is in use) is taken; nothing here refers to how lines are parsed. *)
From Coq Require Import ZArith List Bool Permutation.
From Verif Require Import Py Protocol SpecWire SpecBits.
Import ListNotations.
Open Scope Z_scope.

(* a legacy line from ECU t with 2 to 7 data bytes *)
Definition legacy_from (t : Z) (line : text) (data : bytes) : Prop :=
  exists b1 b2 ck, Forall is_byte ([b1; b2; t] ++ data ++ [ck]) /\ legacy_line b1 b2 t line data ck
                   /\ (2 <= length data <= 7)%nat.
(* an acceptable line from ECU t, by protocol family *)
Definition sent_by (f : family) (t : Z) (line : text) (data : bytes) : Prop :=
  match f with FCan w => frame_from w t line data | FLegacy => legacy_from t line data | FUnknown => False end.
Definition is_from (f : family) (t : Z) (line : text) : Prop := exists data, sent_by f t line data.

(* digits of the identifier *)
Definition id_size (w : Z) : nat := if w =? 11 then 3%nat else 8%nat.
(* hex lines that are no acceptable frame *)
Inductive malformed : family -> text -> Prop :=
| malformed_can_odd w line ds : shows line ds ->
    Nat.even (length ds) = (w =? 11) -> malformed (FCan w) line          (* half a byte is missing *)
| malformed_can_length w line ds n : shows line ds ->
    length ds = (id_size w + 2 * n)%nat -> (n < 2 \/ 8 < n)%nat -> malformed (FCan w) line
| malformed_can_short w line ds : shows line ds -> (length ds < id_size w + 4)%nat -> malformed (FCan w) line
| malformed_can_type w line h pci d : id_width h = w -> id_ok h -> Forall is_byte (pci :: d) ->
    can_line h line (pci :: d) -> 3 <= pci / 16 -> malformed (FCan w) line
| malformed_can_zero w line h d : id_width h = w -> id_ok h -> Forall is_byte d ->
    can_line h line (0 :: d) -> malformed (FCan w) line
| malformed_can_zero_first w line h d : id_width h = w -> id_ok h -> Forall is_byte d ->
    can_line h line (16 :: 0 :: d) -> malformed (FCan w) line
| malformed_legacy_odd line ds : shows line ds -> Nat.even (length ds) = false -> malformed FLegacy line
| malformed_legacy_length line ds : shows line ds -> (length ds < 12 \/ 22 < length ds)%nat -> malformed FLegacy line.

(* the order of arrival of consecutive frames is recovered from their numbers modulo 16 if the first to arrive is
   among the first 15 and, whenever number q arrives right after number p, q lies at most 7 before p and in the same
   group of 16 (0-15, 16-31, ...), or at most 8 after p if it lies in the next group *)
Definition follows (p q : Z) : Prop := (q / 16 = p / 16 /\ p - 7 <= q) \/ (q / 16 = p / 16 + 1 /\ q <= p + 8).
Inductive tolerable_from : Z -> list Z -> Prop :=
| tolerable_nil p : tolerable_from p []
| tolerable_cons p q l : follows p q -> tolerable_from q l -> tolerable_from p (q :: l).
Definition tolerable (order : list Z) : Prop :=
  match order with [] => True | q :: l => 1 <= q <= 15 /\ tolerable_from q l end.

(* the lines printed for the frames with these indices, in this order of arrival *)
Definition printed (h : can_id) (frames : list bytes) (order : list nat) (lines : list text) : Prop :=
  Forall2 (fun i line => exists d, nth_error frames i = Some d /\ can_line h line d) order lines.
Definition consecutive_indices (order : list nat) : list Z := map Z.of_nat (filter (fun i => negb (Nat.eqb i 0)) order).

(* which of the ECUs that answered 0100 (with their data) is the engine; id is the protocol's engine id *)
Inductive engine_of (id : Z) : list (Z * bytes) -> Z -> Prop :=
| engine_only t d : engine_of id [(t, d)] t
| engine_known rs : (2 <= length rs)%nat -> In id (map fst rs) -> engine_of id rs id
| engine_most_bits pre t d post :
    (2 <= length (pre ++ (t, d) :: post))%nat -> ~ In id (map fst (pre ++ (t, d) :: post)) ->
    0 < ones d -> (forall r, In r pre -> ones (snd r) < ones d) -> (forall r, In r post -> ones (snd r) <= ones d) ->
    engine_of id (pre ++ (t, d) :: post) t.
