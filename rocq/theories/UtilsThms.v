(* Bit arrays and byte helpers: C32, C33 *)
From Coq Require Import ZArith List Bool Lia.
From Coq Require Import ZifyBool ZifyNat.
From Verif Require Import Py Utils SpecWire SpecBits PyFacts WireFacts.
Import ListNotations.
Open Scope Z_scope.
Ltac Zify.zify_post_hook ::= Z.div_mod_to_equations.
Arguments Z.div : simpl never.
Arguments Z.modulo : simpl never.
Arguments Z.mul : simpl never.
Arguments Z.add : simpl never.
Arguments Z.sub : simpl never.
Arguments Z.land : simpl never.
Arguments Z.testbit : simpl never.

Definition byte_bits (b : Z) : list bool := map (fun i => Z.testbit b (7 - Z.of_nat i)) (seq 0 8).
Lemma padded_bin b : is_byte b -> (let v := bin b in repeat false (8 - length v) ++ v) = byte_bits b.
Proof.
  intros H.
  pose (P := fun b => let v := bin b in
     if list_eq_dec Bool.bool_dec (repeat false (8 - length v) ++ v) (byte_bits b) then true else false).
  assert (E : P b = true) by (apply (byte_sweep P); [vm_compute; reflexivity|exact H]).
  unfold P in E. destruct (list_eq_dec _ _ _); [assumption|discriminate].
Qed.
Lemma byte_bits_length b : length (byte_bits b) = 8%nat.
Proof. reflexivity. Qed.
Lemma ba_of_bits d : Forall is_byte d -> ba_of d = flat_map byte_bits d.
Proof.
  intros F. unfold ba_of. rewrite flat_map_concat_map. f_equal. apply map_ext_in. intros b Hb.
  rewrite Forall_forall in F. apply padded_bin, F, Hb.
Qed.
Lemma bit_of_cons b d i : bit_of (b :: d) (8 + i) = bit_of d i.
Proof.
  unfold bit_of. replace ((8 + i) / 8)%nat with (S (i / 8)) by lia. replace ((8 + i) mod 8)%nat with (i mod 8)%nat by lia. reflexivity.
Qed.
Lemma seq_8 n : seq 0 (8 + n) = seq 0 8 ++ map (fun i => (8 + i)%nat) (seq 0 n).
Proof.
  rewrite seq_app. f_equal. cbn [Nat.add]. clear. assert (G : forall s k, seq (s + k) n = map (fun i => (s + i)%nat) (seq k n)).
  { induction n as [|n IH]; intros s k; cbn; [reflexivity|]. f_equal. replace (S (s + k)) with (s + S k)%nat by lia. apply IH. }
  exact (G 8%nat 0%nat).
Qed.
Lemma flat_bits d : flat_map byte_bits d = map (bit_of d) (seq 0 (nbits d)).
Proof.
  unfold nbits. induction d as [|b d IH]; [reflexivity|]. cbn [flat_map length].
  replace (8 * S (length d))%nat with (8 + 8 * length d)%nat by lia. rewrite seq_8, map_app, map_map. rewrite IH. f_equal.
  apply map_ext. intros; symmetry; apply bit_of_cons.
Qed.
Lemma ba_of_eq d : Forall is_byte d -> ba_of d = map (bit_of d) (seq 0 (nbits d)).
Proof. intros F. rewrite ba_of_bits, flat_bits by exact F. reflexivity. Qed.
Lemma ba_len_eq d : Forall is_byte d -> ba_len (ba_of d) = 8 * Z.of_nat (length d).
Proof. intros F. unfold ba_len, zlen. rewrite ba_of_eq, map_length, seq_length by exact F. unfold nbits. lia. Qed.
Lemma ba_get_eq d key : Forall is_byte d ->
  ba_get (ba_of d) key = if (0 <=? key) && (key <? 8 * Z.of_nat (length d)) then bit_of d (Z.to_nat key) else false.
Proof.
  intros F. unfold ba_get. rewrite <- (ba_len_eq d F). unfold ba_len. destruct (_ && _) eqn:E; [|reflexivity].
  rewrite ba_of_eq in * by exact F. unfold zlen in E. rewrite map_length, seq_length in E.
  rewrite (nth_indep _ false (bit_of d 0%nat)) by (rewrite map_length, seq_length; lia).
  rewrite map_nth, seq_nth by lia. reflexivity.
Qed.
Lemma ba_iter_eq d : Forall is_byte d -> ba_iter (ba_of d) = map (bit_of d) (seq 0 (nbits d)).
Proof. apply ba_of_eq. Qed.
Lemma filter_map_swap {A B} (g : A -> B) (P : B -> bool) l : filter P (map g l) = map g (filter (fun x => P (g x)) l).
Proof. induction l as [|x l IH]; cbn; [reflexivity|]. destruct (P (g x)); cbn; rewrite IH; reflexivity. Qed.
Lemma num_set_eq d : Forall is_byte d -> num_set (ba_of d) = ones d.
Proof.
  intros F. unfold num_set, count_true, ones, zlen. rewrite ba_of_eq, filter_map_swap, map_length by exact F. reflexivity.
Qed.
Lemma num_set_cleared a : num_set a + num_cleared a = ba_len a.
Proof.
  unfold num_set, num_cleared, ba_len, count_true, zlen.
  assert (length (filter (fun b => b) a) + length (filter negb a) = length a)%nat; [|lia].
  induction a as [|[] a IH]; cbn; lia.
Qed.

(* numbers *)
Lemma int2_app a b : int2 (a ++ b) = 2 ^ Z.of_nat (length b) * int2 a + int2 b.
Proof.
  unfold int2. rewrite fold_left_app. generalize (fold_left (fun v (x : bool) => 2 * v + (if x then 1 else 0)) a 0). intros x.
  induction b as [|y b IH] using rev_ind; [cbn; lia|].
  rewrite !fold_left_app. cbn [fold_left]. rewrite IH, app_length. cbn [length].
  rewrite Nat2Z.inj_add, Z.pow_add_r by lia. change (2 ^ Z.of_nat 1) with 2. lia.
Qed.
Lemma int2_bound l : 0 <= int2 l < 2 ^ Z.of_nat (length l).
Proof.
  induction l as [|y l IH] using rev_ind; [cbn; lia|]. rewrite int2_app, app_length. cbn [length].
  rewrite Nat2Z.inj_add, Z.pow_add_r by lia. change (2 ^ Z.of_nat 1) with 2. unfold int2 at 2 4. cbn [fold_left]. destruct y; lia.
Qed.
Lemma big_endian_app a b : big_endian (a ++ b) = 256 ^ Z.of_nat (length b) * big_endian a + big_endian b.
Proof.
  unfold big_endian. rewrite fold_left_app. generalize (fold_left (fun v x => 256 * v + x) a 0). intros x.
  induction b as [|y b IH] using rev_ind; [cbn; lia|].
  rewrite !fold_left_app. cbn [fold_left]. rewrite IH, app_length. cbn [length].
  rewrite Nat2Z.inj_add, Z.pow_add_r by lia. change (256 ^ Z.of_nat 1) with 256. lia.
Qed.
Lemma big_endian_bound d : Forall is_byte d -> 0 <= big_endian d < 256 ^ Z.of_nat (length d).
Proof.
  induction d as [|y d IH] using rev_ind; intros F; [cbn; lia|]. apply Forall_app in F. destruct F as [F1 F2]. inversion F2; subst.
  rewrite big_endian_app, app_length. cbn [length].
  rewrite Nat2Z.inj_add, Z.pow_add_r by lia. change (256 ^ Z.of_nat 1) with 256. specialize (IH F1).
  unfold big_endian at 2 4. cbn [fold_left]. unfold is_byte in *. lia.
Qed.
Lemma int2_byte b : is_byte b -> int2 (byte_bits b) = b.
Proof.
  intros H. apply Z.eqb_eq. apply (byte_sweep (fun b => int2 (byte_bits b) =? b)); [vm_compute; reflexivity|exact H].
Qed.
Lemma pow_256 n : 2 ^ Z.of_nat (8 * n) = 256 ^ Z.of_nat n.
Proof. rewrite Nat2Z.inj_mul, Z.pow_mul_r by lia. reflexivity. Qed.
Lemma ba_length d : Forall is_byte d -> length (ba_of d) = (8 * length d)%nat.
Proof. intros F. pose proof (ba_len_eq d F) as H. unfold ba_len, zlen in H. lia. Qed.
Lemma int2_ba d : Forall is_byte d -> int2 (ba_of d) = big_endian d.
Proof.
  induction d as [|b d IH] using rev_ind; intros F; [reflexivity|]. apply Forall_app in F. destruct F as [F1 F2].
  rewrite ba_of_bits by (apply Forall_app; auto). rewrite flat_map_app, <- (ba_of_bits d F1). cbn [flat_map]. rewrite app_nil_r.
  rewrite int2_app, (IH F1), byte_bits_length. inversion F2; subst. rewrite int2_byte by assumption.
  rewrite big_endian_app. reflexivity.
Qed.
Lemma skipn_add {A} (l : list A) n : forall m, skipn m (skipn n l) = skipn (n + m) l.
Proof. revert n; induction l as [|x l IH]; intros [|n] m; cbn; rewrite ?skipn_nil; auto. Qed.
Lemma ba_value_eq d s e : Forall is_byte d -> (s <= e <= nbits d)%nat ->
  ba_value (ba_of d) s e = big_endian d / 2 ^ Z.of_nat (nbits d - e) mod 2 ^ Z.of_nat (e - s).
Proof.
  intros F H. rewrite <- (int2_ba d F). set (a := ba_of d).
  assert (L : length a = nbits d) by (apply ba_length; exact F).
  assert (E : ba_value a s e = int2 (slice s e a)) by (unfold ba_value; destruct (slice s e a); reflexivity).
  rewrite E. clear E.
  assert (D : a = firstn s a ++ slice s e a ++ skipn e a).
  { unfold slice. rewrite <- (firstn_skipn s a) at 1. f_equal. rewrite <- (firstn_skipn (e - s) (skipn s a)) at 1. f_equal.
    rewrite skipn_add. f_equal. lia. }
  assert (L2 : length (slice s e a) = (e - s)%nat) by (unfold slice; rewrite firstn_length, skipn_length; lia).
  assert (L3 : length (skipn e a) = (nbits d - e)%nat) by (rewrite skipn_length; lia).
  rewrite D at 2. rewrite app_assoc, int2_app, L3.
  pose proof (int2_bound (skipn e a)) as B. rewrite L3 in B.
  rewrite Z.mul_comm, Z.div_add_l by (apply Z.pow_nonzero; lia). rewrite (Z.div_small (int2 (skipn e a))) by exact B.
  rewrite Z.add_0_r, int2_app, L2. pose proof (int2_bound (slice s e a)) as B2. rewrite L2 in B2.
  rewrite Z.mul_comm, Z.add_comm, Z.mod_add by (apply Z.pow_nonzero; lia). symmetry. apply Z.mod_small. exact B2.
Qed.

Lemma bytes_to_int_eq d : bytes_to_int d = big_endian d.
Proof.
  unfold bytes_to_int.
  assert (G : forall l v p, 0 <= p -> fold_left (fun (vp : Z * Z) b => (fst vp + b * 2 ^ snd vp, snd vp + 8)) l (v, p)
                          = (v + 2 ^ p * big_endian (rev l), p + 8 * Z.of_nat (length l))).
  { induction l as [|b l IH]; intros v p Hp; cbn [fold_left rev length].
    - change (big_endian []) with 0. f_equal; lia.
    - cbn [fst snd]. rewrite IH by lia. rewrite big_endian_app. cbn [length]. change (256 ^ Z.of_nat 1) with 256.
      change (big_endian [b]) with (256 * 0 + b). rewrite Z.pow_add_r by lia. change (2 ^ 8) with 256. f_equal; lia. }
  rewrite G by lia. cbn [fst]. rewrite rev_involutive. change (2 ^ 0) with 1. lia.
Qed.
Lemma encode_length n v : length (encode n v) = n.
Proof. revert v; induction n as [|n IH]; intros v; [reflexivity|]. cbn. rewrite app_length, IH. cbn. lia. Qed.
Lemma encode_bytes n v : Forall is_byte (encode n v).
Proof.
  revert v; induction n as [|n IH]; intros v; [constructor|]. cbn. apply Forall_app. split; [apply IH|].
  constructor; [unfold is_byte; lia|constructor].
Qed.
Lemma bytes_to_int_encode n v : 0 <= v < 256 ^ Z.of_nat n -> bytes_to_int (encode n v) = v.
Proof.
  rewrite bytes_to_int_eq. revert v; induction n as [|n IH]; intros v H.
  - cbn in *. lia.
  - rewrite Nat2Z.inj_succ, Z.pow_succ_r in H by lia. cbn [encode]. rewrite big_endian_app, IH.
    + cbn [length]. change (256 ^ Z.of_nat 1) with 256. change (big_endian [v mod 256]) with (256 * 0 + v mod 256). lia.
    + pose proof (Z.pow_pos_nonneg 256 (Z.of_nat n) ltac:(lia) ltac:(lia)). lia.
Qed.
Lemma encode_bytes_to_int d : Forall is_byte d -> encode (length d) (bytes_to_int d) = d.
Proof.
  rewrite bytes_to_int_eq. induction d as [|b d IH] using rev_ind; intros F; [reflexivity|]. apply Forall_app in F. destruct F as [F1 F2].
  inversion F2 as [|? ? Hb _]; subst. unfold is_byte in Hb. rewrite app_length. cbn [length]. replace (length d + 1)%nat with (S (length d)) by lia.
  cbn [encode]. rewrite big_endian_app. cbn [length]. change (256 ^ Z.of_nat 1) with 256. change (big_endian [b]) with (256 * 0 + b).
  replace ((256 * big_endian d + (256 * 0 + b)) / 256) with (big_endian d) by lia.
  replace ((256 * big_endian d + (256 * 0 + b)) mod 256) with b by lia. rewrite IH by exact F1. reflexivity.
Qed.
Definition hex_of (d : bytes) : text := flat_map (fun b => [lower_digit (b / 16); lower_digit (b mod 16)]) d.
Lemma bytes_to_hex_eq d : Forall is_byte d -> bytes_to_hex d = hex_of d.
Proof.
  intros F. unfold bytes_to_hex. rewrite fold_left_app_acc. cbn [app]. unfold hex_of. rewrite flat_map_concat_map. f_equal.
  apply map_ext_in. intros b Hb. rewrite Forall_forall in F. specialize (F b Hb).
  pose (P := fun b => text_eqb (let bh := hex b in repeat 48 (2 - length bh) ++ bh) [lower_digit (b / 16); lower_digit (b mod 16)]).
  apply text_eqb_eq. apply (byte_sweep P); [vm_compute; reflexivity|exact F].
Qed.
Lemma twos_comp_spec n v : 1 <= n -> 0 <= v < 2 ^ n ->
  - 2 ^ (n - 1) <= twos_comp v n < 2 ^ (n - 1) /\ twos_comp v n mod 2 ^ n = v.
Proof.
  intros Hn Hv. unfold twos_comp. rewrite !Z.shiftl_1_l.
  assert (E : 2 ^ n = 2 * 2 ^ (n - 1)) by (rewrite <- Z.pow_succ_r by lia; f_equal; lia).
  pose proof (Z.pow_pos_nonneg 2 (n - 1) ltac:(lia) ltac:(lia)) as P0.
  assert (T : (Z.land v (2 ^ (n - 1)) =? 0) = (v <? 2 ^ (n - 1))).
  { assert (Hb : Z.testbit v (n - 1) = negb (v <? 2 ^ (n - 1))).
    { rewrite Z.testbit_odd, Z.shiftr_div_pow2 by lia. destruct (Z.ltb_spec v (2 ^ (n - 1))).
      - rewrite Z.div_small by lia. reflexivity.
      - replace (v / 2 ^ (n - 1)) with 1; [reflexivity|]. apply (Z.div_unique v _ 1 (v - 2 ^ (n - 1))); lia. }
    destruct (Z.ltb_spec v (2 ^ (n - 1))) as [H|H]; cbn in Hb.
    - apply Z.eqb_eq. apply Z.bits_inj'. intros i Hi. rewrite Z.land_spec, Z.bits_0.
      destruct (Z.eq_dec i (n - 1)) as [->|Ni]; [rewrite Hb; reflexivity|]. rewrite Z.pow2_bits_false by lia. apply andb_false_r.
    - apply Z.eqb_neq. intros Z0. assert (X : Z.testbit (Z.land v (2 ^ (n - 1))) (n - 1) = true).
      { rewrite Z.land_spec, Hb, Z.pow2_bits_true by lia. reflexivity. }
      rewrite Z0, Z.bits_0 in X. discriminate. }
  rewrite T. destruct (Z.ltb_spec v (2 ^ (n - 1))); cbn [negb].
  - split; [lia|]. apply Z.mod_small; lia.
  - split; [lia|]. replace (v - 2 ^ n) with (v + (-1) * 2 ^ n) by lia. rewrite Z.mod_add by lia. apply Z.mod_small; lia.
Qed.
