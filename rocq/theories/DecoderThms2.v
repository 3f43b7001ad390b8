(* Decoders, continued: bits, enumerations, monitors, strings. *)
From Coq Require Import ZArith List Bool Lia String Permutation.
From Coq Require Import ZifyBool ZifyNat.
From Verif Require Import Py Num Utils Protocol Codes UasTable Decoders Command CommandTable Commands SpecWire SpecBits SpecCmd
  PyFacts WireFacts ProtocolFacts UtilsThms EcuMapThms CommandThms DecoderThms.
Import ListNotations.
Open Scope Z_scope.
Ltac Zify.zify_post_hook ::= Z.div_mod_to_equations.
Arguments Z.div : simpl never. Arguments Z.modulo : simpl never. Arguments Z.mul : simpl never. Arguments Z.add : simpl never. Arguments Z.sub : simpl never. Arguments Z.land : simpl never.

Lemma Forall1 (b : Z) : is_byte b -> Forall is_byte [b].
Proof. intros; constructor; [assumption|constructor]. Qed.

(* the bits of one byte, most significant first *)
Lemma ba_1 b : is_byte b -> ba_of [b] = map (fun i => Z.testbit b (7 - Z.of_nat i)) (seq 0 8).
Proof. intros H. rewrite ba_of_eq by (apply Forall1; exact H). reflexivity. Qed.

(* ------------------------------------------------------------------ air status *)
Definition air_result (b : Z) : res value :=
  match find (fun k => b =? 2 ^ Z.of_nat k) (seq 0 8) with
  | Some k => match nth_error AIR_STATUS k with Some t => Ok (VText t) | None => Raise IndexError end
  | None => Ok VNone
  end.
Definition rv_eqb (a b : res value) : bool :=
  match a, b with
  | Ok VNone, Ok VNone => true
  | Ok (VText s), Ok (VText t) => text_eqb s t
  | Raise IndexError, Raise IndexError => true
  | _, _ => false
  end.
Lemma rv_eqb_eq a b : rv_eqb a b = true -> a = b.
Proof.
  destruct a as [[]|[]], b as [[]|[]]; cbn; try discriminate; try reflexivity. intros H. apply text_eqb_eq in H. congruence.
Qed.
Lemma air_eq m rest h1 h2 b : is_byte b -> m_data m = [h1; h2; b] -> dec_air_status (m :: rest) = air_result b.
Proof.
  intros Hb E. unfold dec_air_status. rewrite (body_cons m rest h1 h2 [b] E). cbn [rbind]. apply rv_eqb_eq.
  exact (byte_sweep (fun b => rv_eqb (if num_set (ba_of [b]) =? 1 then let! i := index_true (ba_slice (ba_of [b]) 0 8) in let! s := get AIR_STATUS (7 - i) in Ok (VText s) else Ok VNone) (air_result b))
    ltac:(vm_compute; reflexivity) b Hb).
Qed.

(* ------------------------------------------------------------------ fuel status *)
Definition half_result (b : Z) : text :=
  match find (fun k => b =? 2 ^ Z.of_nat k) (seq 0 8) with
  | Some k => match nth_error FUEL_STATUS k with Some t => t | None => [] end
  | None => []
  end.
Lemma half_eq b : is_byte b -> fuel_status_half (map (fun i => Z.testbit b (7 - Z.of_nat i)) (seq 0 8)) = Ok (half_result b).
Proof.
  intros H.
  pose proof (byte_sweep (fun b => match fuel_status_half (map (fun i => Z.testbit b (7 - Z.of_nat i)) (seq 0 8)) with Ok t => text_eqb t (half_result b) | _ => false end)
    ltac:(vm_compute; reflexivity) b H) as E. cbv beta in E.
  destruct (fuel_status_half _); [|discriminate]. apply text_eqb_eq in E. congruence.
Qed.
Lemma fuel_eq m rest h1 h2 a b : is_byte a -> is_byte b -> m_data m = [h1; h2; a; b] ->
  dec_fuel_status (m :: rest) = Ok (if negb (nonempty (half_result a)) && negb (nonempty (half_result b)) then VNone else VPair (half_result a) (half_result b)).
Proof.
  intros Ha Hb E. unfold dec_fuel_status. rewrite (body_cons m rest h1 h2 [a; b] E). cbn [rbind].
  assert (F : Forall is_byte [a; b]) by (constructor; [exact Ha|apply Forall1; exact Hb]).
  rewrite (ba_of_eq _ F). cbv zeta.
  change (ba_slice (map (bit_of [a; b]) (seq 0 (nbits [a; b]))) 0 8) with (map (fun i => Z.testbit a (7 - Z.of_nat i)) (seq 0 8)).
  change (ba_slice (map (bit_of [a; b]) (seq 0 (nbits [a; b]))) 8 16) with (map (fun i => Z.testbit b (7 - Z.of_nat i)) (seq 0 8)).
  rewrite (half_eq a Ha), (half_eq b Hb). cbn [rbind]. destruct (_ && _); reflexivity.
Qed.

(* ------------------------------------------------------------------ table look-ups by number *)
Lemma compliance_eq m rest h1 h2 b : is_byte b -> m_data m = [h1; h2; b] ->
  dec_obd_compliance (m :: rest) = Ok (match nth_error OBD_COMPLIANCE (Z.to_nat b) with Some t => VText t | None => VNone end).
Proof.
  intros Hb E. unfold dec_obd_compliance. rewrite (body_cons m rest h1 h2 [b] E). cbn [rbind get nth_error].
  unfold is_byte in Hb. destruct (Z.ltb_spec b (zlen OBD_COMPLIANCE)) as [H|H]; unfold zlen in H.
  - unfold get. destruct (nth_error OBD_COMPLIANCE (Z.to_nat b)) eqn:N; [reflexivity|]. apply nth_error_None in N. lia.
  - replace (nth_error OBD_COMPLIANCE (Z.to_nat b)) with (@None text); [reflexivity|]. symmetry. apply nth_error_None. lia.
Qed.
Lemma fuel_type_eq m rest h1 h2 b d : is_byte b -> m_data m = h1 :: h2 :: b :: d ->
  dec_fuel_type (m :: rest) = Ok (match nth_error FUEL_TYPES (Z.to_nat b) with Some t => VText t | None => VNone end).
Proof.
  intros Hb E. unfold dec_fuel_type. rewrite (body_cons m rest h1 h2 (b :: d) E). cbn [rbind get nth_error].
  unfold is_byte in Hb. destruct (Z.ltb_spec b (zlen FUEL_TYPES)) as [H|H]; unfold zlen in H.
  - unfold get. destruct (nth_error FUEL_TYPES (Z.to_nat b)) eqn:N; [reflexivity|]. apply nth_error_None in N. lia.
  - replace (nth_error FUEL_TYPES (Z.to_nat b)) with (@None text); [reflexivity|]. symmetry. apply nth_error_None. lia.
Qed.

(* ------------------------------------------------------------------ O2 sensors, auxiliary input *)
Lemma o2_eq m rest h1 h2 b : is_byte b -> m_data m = [h1; h2; b] ->
  dec_o2_sensors (m :: rest) = Ok (VTuple [[]; map (Z.testbit b) [7; 6; 5; 4]; map (Z.testbit b) [3; 2; 1; 0]]).
Proof.
  intros Hb E. unfold dec_o2_sensors. rewrite (body_cons m rest h1 h2 [b] E). cbn [rbind]. rewrite (ba_1 b Hb). reflexivity.
Qed.
Lemma o2_alt_eq m rest h1 h2 b : is_byte b -> m_data m = [h1; h2; b] ->
  dec_o2_sensors_alt (m :: rest) = Ok (VTuple [[]; map (Z.testbit b) [7; 6]; map (Z.testbit b) [5; 4]; map (Z.testbit b) [3; 2]; map (Z.testbit b) [1; 0]]).
Proof.
  intros Hb E. unfold dec_o2_sensors_alt. rewrite (body_cons m rest h1 h2 [b] E). cbn [rbind]. rewrite (ba_1 b Hb). reflexivity.
Qed.
Lemma aux_eq m rest h1 h2 b d : is_byte b -> m_data m = h1 :: h2 :: b :: d ->
  dec_aux_input_status (m :: rest) = Ok (VBool (Z.testbit b 7)).
Proof.
  intros Hb E. unfold dec_aux_input_status. rewrite (body_cons m rest h1 h2 (b :: d) E). cbn [rbind get nth_error]. do 2 f_equal.
  apply eqb_prop. exact (byte_sweep (fun b => Bool.eqb (Z.land (Z.shiftr b 7) 1 =? 1) (Z.testbit b 7)) ltac:(vm_compute; reflexivity) b Hb).
Qed.

(* ------------------------------------------------------------------ status *)
Definition spark_dict (bits : bitarray) := load_tests bits 16 24 (rev SPARK_TESTS) (load_tests bits 13 9 (rev BASE_TESTS) initial_tests).
Definition compression_dict (bits : bitarray) := load_tests bits 16 24 (rev COMPRESSION_TESTS) (load_tests bits 13 9 (rev BASE_TESTS) initial_tests).
Ltac nth_cases i H :=
  do 8 (destruct i as [|i]; [first [discriminate H | injection H as <-; reflexivity]|]); destruct i; discriminate H.
Lemma base_spark bits i name : nth_error BASE_TESTS i = Some (Some name) ->
  dict_get otext_eqb (spark_dict bits) (Some name) = Some (mkStatusTest (Some name) (ba_get bits (15 - Z.of_nat i)) (negb (ba_get bits (11 - Z.of_nat i)))).
Proof. intros H. nth_cases i H. Qed.
Lemma base_compression bits i name : nth_error BASE_TESTS i = Some (Some name) ->
  dict_get otext_eqb (compression_dict bits) (Some name) = Some (mkStatusTest (Some name) (ba_get bits (15 - Z.of_nat i)) (negb (ba_get bits (11 - Z.of_nat i)))).
Proof. intros H. nth_cases i H. Qed.
Lemma spark_tests bits i name : nth_error SPARK_TESTS i = Some (Some name) ->
  dict_get otext_eqb (spark_dict bits) (Some name) = Some (mkStatusTest (Some name) (ba_get bits (23 - Z.of_nat i)) (negb (ba_get bits (31 - Z.of_nat i)))).
Proof. intros H. nth_cases i H. Qed.
Lemma compression_tests bits i name : nth_error COMPRESSION_TESTS i = Some (Some name) ->
  dict_get otext_eqb (compression_dict bits) (Some name) = Some (mkStatusTest (Some name) (ba_get bits (23 - Z.of_nat i)) (negb (ba_get bits (31 - Z.of_nat i)))).
Proof. intros H. nth_cases i H. Qed.
Ltac in_cases H N := cbn in H; repeat (destruct H as [H|H]; [first [discriminate H | injection H as <-; first [reflexivity | exfalso; apply N; cbn; tauto]]|]); destruct H.
Lemma spark_null bits name : In (Some name) COMPRESSION_TESTS -> ~ In (Some name) SPARK_TESTS ->
  dict_get otext_eqb (spark_dict bits) (Some name) = Some (mkStatusTest (Some []) false false).
Proof. intros H N. in_cases H N. Qed.
Lemma compression_null bits name : In (Some name) SPARK_TESTS -> ~ In (Some name) COMPRESSION_TESTS ->
  dict_get otext_eqb (compression_dict bits) (Some name) = Some (mkStatusTest (Some []) false false).
Proof. intros H N. in_cases H N. Qed.
Lemma status_eq m rest h1 h2 a b c d : is_byte a -> is_byte b -> is_byte c -> is_byte d -> m_data m = [h1; h2; a; b; c; d] ->
  exists s, dec_status (m :: rest) = Ok (VStatus s)
    /\ st_MIL s = Z.testbit a 7 /\ st_DTC_count s = a mod 128
    /\ st_ignition_type s = (if Z.testbit b 3 then str "compression" else str "spark")
    /\ (forall i name, nth_error BASE_TESTS i = Some (Some name) ->
         dict_get otext_eqb (st_tests s) (Some name) = Some (mkStatusTest (Some name) (Z.testbit b (Z.of_nat i)) (negb (Z.testbit b (Z.of_nat i + 4)))))
    /\ (forall i name, nth_error (if Z.testbit b 3 then COMPRESSION_TESTS else SPARK_TESTS) i = Some (Some name) ->
         dict_get otext_eqb (st_tests s) (Some name) = Some (mkStatusTest (Some name) (Z.testbit c (Z.of_nat i)) (negb (Z.testbit d (Z.of_nat i)))))
    /\ (forall name, In (Some name) (if Z.testbit b 3 then SPARK_TESTS else COMPRESSION_TESTS) ->
         ~ In (Some name) (if Z.testbit b 3 then COMPRESSION_TESTS else SPARK_TESTS) ->
         dict_get otext_eqb (st_tests s) (Some name) = Some (mkStatusTest (Some []) false false)).
Proof.
  intros Ha Hb Hc Hd E. unfold dec_status. rewrite (body_cons m rest h1 h2 [a; b; c; d] E). cbn [rbind].
  assert (F : Forall is_byte [a; b; c; d]) by (repeat (apply Forall_cons; [assumption|]); apply Forall_nil).
  set (bs := ba_of [a; b; c; d]).
  assert (G : forall k, (k < 32)%nat -> ba_get bs (Z.of_nat k) = bit_of [a; b; c; d] k).
  { intros k Hk. unfold bs. rewrite ba_get_eq by exact F. cbn [length]. replace (_ && _) with true by lia. rewrite Nat2Z.id. reflexivity. }
  assert (V : ba_value bs 1 8 = a mod 128).
  { unfold bs. rewrite ba_value_eq; [|exact F|unfold nbits; cbn; lia]. unfold nbits, big_endian. cbn [length fold_left].
    change (2 ^ Z.of_nat (8 * 4 - 8)) with 16777216. change (2 ^ Z.of_nat (8 - 1)) with 128. unfold is_byte in *. lia. }
  assert (B1 : forall i, (i < 8)%nat -> ba_get bs (15 - Z.of_nat i) = Z.testbit b (Z.of_nat i)).
  { intros i Hi. replace (15 - Z.of_nat i) with (Z.of_nat (15 - i)) by lia. rewrite G by lia. do 8 (destruct i as [|i]; [reflexivity|]). lia. }
  assert (B2 : forall i, (i < 8)%nat -> ba_get bs (23 - Z.of_nat i) = Z.testbit c (Z.of_nat i)).
  { intros i Hi. replace (23 - Z.of_nat i) with (Z.of_nat (23 - i)) by lia. rewrite G by lia. do 8 (destruct i as [|i]; [reflexivity|]). lia. }
  assert (B3 : forall i, (i < 8)%nat -> ba_get bs (31 - Z.of_nat i) = Z.testbit d (Z.of_nat i)).
  { intros i Hi. replace (31 - Z.of_nat i) with (Z.of_nat (31 - i)) by lia. rewrite G by lia. do 8 (destruct i as [|i]; [reflexivity|]). lia. }
  assert (B4 : forall i, (i < 4)%nat -> ba_get bs (11 - Z.of_nat i) = Z.testbit b (Z.of_nat i + 4)).
  { intros i Hi. replace (11 - Z.of_nat i) with (15 - Z.of_nat (i + 4)) by lia. rewrite B1 by lia. f_equal. lia. }
  assert (T : ba_get bs 12 = Z.testbit b 3) by (apply (B1 3%nat); lia). rewrite T.
  change (load_tests bs 16 24 (rev COMPRESSION_TESTS) (load_tests bs 13 9 (rev BASE_TESTS) initial_tests)) with (compression_dict bs).
  change (load_tests bs 16 24 (rev SPARK_TESTS) (load_tests bs 13 9 (rev BASE_TESTS) initial_tests)) with (spark_dict bs).
  assert (LB : forall i name, nth_error BASE_TESTS i = Some (Some name) -> (i < 3)%nat) by (intros i name H; apply (nth_error_Some BASE_TESTS); congruence).
  destruct (Z.testbit b 3) eqn:T3; cbn [get nth_error IGNITION_TYPE rbind]; eexists; (split; [reflexivity|]); cbn [st_MIL st_DTC_count st_ignition_type st_tests];
    (split; [exact (G 0%nat ltac:(lia))|]); (split; [exact V|]); (split; [reflexivity|]).
  - split; [|split].
    + intros i name H. rewrite (base_compression bs i name H). specialize (LB i name H). rewrite B1, B4 by lia. reflexivity.
    + intros i name H. rewrite (compression_tests bs i name H). assert (i < 8)%nat by (apply (nth_error_Some COMPRESSION_TESTS); congruence). rewrite B2, B3 by lia. reflexivity.
    + intros name. apply compression_null.
  - split; [|split].
    + intros i name H. rewrite (base_spark bs i name H). specialize (LB i name H). rewrite B1, B4 by lia. reflexivity.
    + intros i name H. rewrite (spark_tests bs i name H). assert (i < 8)%nat by (apply (nth_error_Some SPARK_TESTS); congruence). rewrite B2, B3 by lia. reflexivity.
    + intros name. apply spark_null.
Qed.
