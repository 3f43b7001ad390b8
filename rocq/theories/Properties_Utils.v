(* Properties C32-C33: bit arrays and byte helpers. *)
From Coq Require Import ZArith List Bool Lia.
From Verif Require Import Py Utils SpecWire SpecBits UtilsThms Examples.
Import ListNotations.
Open Scope Z_scope.

(* ------------------------------------------------------------------ C32 *)
Theorem C32_elements : forall d i, Forall is_byte d ->
  ba_get (ba_of d) i = if (0 <=? i) && (i <? 8 * Z.of_nat (length d)) then bit_of d (Z.to_nat i) else false.
Proof. exact ba_get_eq. Qed.
Theorem C32_length : forall d, Forall is_byte d -> ba_len (ba_of d) = 8 * Z.of_nat (length d).
Proof. exact ba_len_eq. Qed.
Theorem C32_iteration : forall d, Forall is_byte d -> ba_iter (ba_of d) = map (bit_of d) (seq 0 (8 * length d)).
Proof. exact ba_iter_eq. Qed.
Theorem C32_slices : forall d a b, Forall is_byte d ->
  ba_slice (ba_of d) a b = map (bit_of d) (seq a (Nat.min b (8 * length d) - a)).
Proof.
  intros d a b F. unfold ba_slice, slice. rewrite (ba_of_eq d F). unfold nbits.
  assert (G : forall n k s (f : nat -> bool), firstn k (map f (seq s n)) = map f (seq s (Nat.min k n))).
  { intros n. induction n as [|n IH]; intros [|k] s f; try reflexivity. cbn. f_equal. apply IH. }
  assert (H : forall n k s (f : nat -> bool), skipn k (map f (seq s n)) = map f (seq (s + k) (n - k))).
  { intros n. induction n as [|n IH]; intros [|k] s f; try reflexivity; cbn; rewrite ?Nat.add_0_r; try reflexivity.
    rewrite IH. do 2 f_equal. lia. }
  rewrite H, G. cbn [Nat.add]. do 2 f_equal. lia.
Qed.
Theorem C32_counts : forall d, Forall is_byte d ->
  num_set (ba_of d) = ones d /\ num_set (ba_of d) + num_cleared (ba_of d) = ba_len (ba_of d).
Proof. intros d F. split; [exact (num_set_eq d F)|apply num_set_cleared]. Qed.
(* the bits a..b-1 read as a number *)
Theorem C32_value : forall d a b, Forall is_byte d -> (a <= b <= 8 * length d)%nat ->
  ba_value (ba_of d) a b = big_endian d / 2 ^ Z.of_nat (8 * length d - b) mod 2 ^ Z.of_nat (b - a).
Proof. exact ba_value_eq. Qed.
Example C32_example : Forall is_byte [190; 31] /\ bit_of [190; 31] 0 = true /\ bit_of [190; 31] 1 = false /\ bit_of [190; 31] 15 = true
  /\ ba_value (ba_of [190; 31]) 4 12 = 225.
Proof. split; [bytes_ok|]. vm_compute. auto. Qed.

(* ------------------------------------------------------------------ C33 *)
Theorem C33_bytes_to_int : forall d, bytes_to_int d = big_endian d.
Proof. exact bytes_to_int_eq. Qed.
Theorem C33_decodes_encoding : forall n v, 0 <= v < 256 ^ Z.of_nat n -> bytes_to_int (encode n v) = v.
Proof. exact bytes_to_int_encode. Qed.
Theorem C33_encodes_decoding : forall d, Forall is_byte d -> encode (length d) (bytes_to_int d) = d.
Proof. exact encode_bytes_to_int. Qed.
Theorem C33_bytes_to_hex : forall d, Forall is_byte d ->
  bytes_to_hex d = flat_map (fun b => [lower_digit (b / 16); lower_digit (b mod 16)]) d.
Proof. exact bytes_to_hex_eq. Qed.
Theorem C33_twos_comp : forall n v, 1 <= n -> 0 <= v < 2 ^ n ->
  - 2 ^ (n - 1) <= twos_comp v n < 2 ^ (n - 1) /\ twos_comp v n mod 2 ^ n = v.
Proof. exact twos_comp_spec. Qed.
Example C33_example : bytes_to_int [1; 2; 3] = 66051 /\ encode 3 66051 = [1; 2; 3] /\ twos_comp 255 8 = -1 /\ twos_comp 32768 16 = -32768
  /\ bytes_to_hex [10; 255] = str "0aff".
Proof. vm_compute. auto 10. Qed.

Print Assumptions C32_elements.
Print Assumptions C32_slices.
Print Assumptions C32_value.
Print Assumptions C33_bytes_to_int.
Print Assumptions C33_encodes_decoding.
Print Assumptions C33_bytes_to_hex.
Print Assumptions C33_twos_comp.
