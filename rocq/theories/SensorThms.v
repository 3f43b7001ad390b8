(* the scalar decoders *)
From Coq Require Import ZArith Reals Psatz Lia Bool Lra List String.
From Flocq Require Import Core.
From Verif Require Import Py Utils Num UasTable Protocol Decoders SpecWire SpecBits SpecNum SpecSensors FloatFacts FloatRatio NumFacts UtilsThms DecoderThms3 UasThms.
Import ListNotations.
Open Scope R_scope.

Lemma nrep_F n : (0 <= n < 2 ^ 53)%Z -> nrep (F n 1) (IZR n).
Proof.
  intros H. unfold F. cbn [nrep].
  assert (n <? 0 = false)%Z as -> by (apply Z.ltb_ge; lia). rewrite Z.abs_eq by lia.
  replace (IZR n) with (rnd (signed_ratio false n 1)) by (unfold signed_ratio; replace (1 * (IZR n / IZR 1)) with (IZR n) by (simpl; field); apply rnd_int; lia).
  apply rep_ratio; [lia|lia|]. replace (IZR n / IZR 1) with (IZR n) by (simpl; field).
  apply Rle_trans with (bpow radix2 53); [|apply bpow_le; lia]. rewrite bpow_IZR by lia. apply IZR_le. lia.
Qed.
Lemma near_F n : (0 <= n < 2 ^ 53)%Z -> near 0 (F n 1) (IZR n).
Proof. intros H. apply near_exact, nrep_F, H. Qed.

Lemma moderate_ratio a b : (Z.abs a <= 2 ^ 60)%Z -> (0 < b <= 2 ^ 60)%Z -> moderate (IZR a / IZR b).
Proof.
  intros A B. pose proof (lit_moderate (LDec a b)) as M. cbn [lit_real lit_ok] in M. destruct M as [M|M].
  - rewrite !andb_true_iff, !Z.leb_le, Z.ltb_lt. lia.
  - now left.
  - right. destruct M as [M1 M2]. split; [eapply Rle_trans; [|exact M1]|eapply Rle_trans; [exact M2|]]; apply bpow_le; lia.
Qed.
Lemma moderate_int a : (Z.abs a <= 2 ^ 60)%Z -> moderate (IZR a).
Proof. intros A. replace (IZR a) with (IZR a / IZR 1) by (simpl; field). apply moderate_ratio; lia. Qed.

Lemma near_within n x r : (n <= 3)%nat -> near n x r -> within (powerRZ 2 (-51) * Rabs r) x r.
Proof.
  intros L (v & X & E). apply nrep_num in X. destruct X as [Fx <-]. split; [exact Fx|].
  eapply Rle_trans; [exact E|]. apply Rmult_le_compat_r; [apply Rabs_pos|]. eapply Rle_trans; [apply grow_mono, L|apply grow_3].
Qed.
Lemma within_weaken e e' x r r' : within e x r -> r = r' -> e <= e' -> within e' x r'.
Proof. intros [A B] <- L. split; [exact A|lra]. Qed.
Lemma two51 : 0 <= powerRZ 2 (-51). Proof. apply powerRZ_le. lra. Qed.

(* one rounding bound covers both shapes of error *)
Lemma finish_near s d n x r : (n <= 3)%nat -> near n x r -> (IZR (s_div s) <> 0) -> r = s_value s d -> within (s_error s d) x (s_value s d).
Proof.
  intros L N Z E. eapply within_weaken; [apply (near_within n); eassumption|exact E|].
  unfold s_error. apply Rmult_le_compat_l; [apply two51|]. rewrite E. unfold s_value.
  replace ((IZR (s_raw s d) * IZR (s_mul s) + IZR (s_add s)) / IZR (s_div s))
    with (IZR (s_raw s d) * IZR (s_mul s) / IZR (s_div s) + IZR (s_add s) / IZR (s_div s)) by (field; exact Z).
  apply Rabs_triang.
Qed.
Lemma finish_sum s d x r1 r2 : sum_near 3 x r1 r2 -> (IZR (s_div s) <> 0) ->
  r1 = IZR (s_raw s d) * IZR (s_mul s) / IZR (s_div s) -> r2 = IZR (s_add s) / IZR (s_div s) -> within (s_error s d) x (s_value s d).
Proof.
  intros N Z E1 E2. eapply within_weaken; [apply sum_near_within; eassumption| |].
  - rewrite E1, E2. unfold s_value. field. exact Z.
  - rewrite E1, E2. unfold s_error. lra.
Qed.

(* decoding d with dec gives what s documents *)
Definition decodes_as (dec : list message -> res value) (s : sensor) : Prop :=
  forall m rest h1 h2 d, m_data m = h1 :: h2 :: d -> Forall is_byte d -> length d = s_len s ->
  exists x, dec (m :: rest) = Ok (VQty x (str (s_unit s))) /\ within (s_error s d) x (s_value s d).

Lemma body_of m rest h1 h2 d : m_data m = h1 :: h2 :: d -> body (m :: rest) = Ok d.
Proof. intros E. unfold body. cbn. rewrite E. reflexivity. Qed.

Definition sensor1 (mul add div : Z) (unit : String.string) : sensor := mkSensor [] 1 0 1 mul add div unit 0 0.
(* same formula and unit *)
Definition same_formula (a b : sensor) : bool :=
  (Nat.eqb (s_len a) (s_len b) && Nat.eqb (s_first a) (s_first b) && Nat.eqb (s_count a) (s_count b)
   && (s_mul a =? s_mul b)%Z && (s_add a =? s_add b)%Z && (s_div a =? s_div b)%Z && String.eqb (s_unit a) (s_unit b))%bool.
Lemma decodes_same dec a b : same_formula a b = true -> decodes_as dec a -> decodes_as dec b.
Proof.
  unfold same_formula. rewrite !andb_true_iff, !Nat.eqb_eq, !Z.eqb_eq, String.eqb_eq. intros ((((((E1 & E2) & E3) & E4) & E5) & E6) & E7).
  intros H m rest h1 h2 d E Fd L. destruct (H m rest h1 h2 d E Fd ltac:(congruence)) as (x & X & W). exists x. rewrite <- E7. split; [exact X|].
  unfold s_error, s_value, s_raw in *. now rewrite <- E2, <- E3, <- E4, <- E5, <- E6.
Qed.

Ltac start := let E := fresh "E" in let Fd := fresh "Fd" in let L := fresh "L" in
  intros m rest h1 h2 d E Fd L; cbn [s_len] in L;
  repeat (destruct d as [|? d]; [try discriminate L|cbn [length] in L; try discriminate L]);
  repeat match goal with H : Forall _ (_ :: _) |- _ => inversion H; clear H; subst end; unfold is_byte in *.
Ltac value := unfold s_value, s_raw, s_mul, s_add, s_div, s_first, s_count, big_endian; cbn [firstn skipn fold_left];
  repeat (rewrite minus_IZR || rewrite plus_IZR || rewrite mult_IZR); simpl (IZR 0); try field; try lra.
Ltac result d := eexists; split; [rewrite (body_of _ _ _ _ d) by eassumption; cbn [get nth_error]; reflexivity|].

Lemma percent_ok n : (1 <= n)%nat -> decodes_as dec_percent (mkSensor [] n 0 1 100 0 255 "percent" 0 0).
Proof.
  intros N m rest h1 h2 d E Fd L. cbn [s_len] in L. destruct d as [|a d]; [cbn in L; lia|]. inversion Fd; subst. unfold is_byte in *.
  unfold dec_percent. rewrite (body_of _ _ _ _ _ E). cbn [get nth_error]. eexists. split; [reflexivity|].
  apply (finish_near _ _ 2 _ (IZR a * IZR 100 / IZR 255)); [lia| |cbn; lra|value].
  apply near_div; [|apply nrep_F; lia|lra|lia|rewrite <- mult_IZR; apply moderate_ratio; lia].
  apply (near_mul 0 0); [apply near_int; lia|apply near_F; lia|lia|rewrite <- mult_IZR; apply moderate_int; lia|exact Logic.I].
Qed.
Lemma percent_centered_ok n : (1 <= n)%nat -> decodes_as dec_percent_centered (mkSensor [] n 0 1 100 (-12800) 128 "percent" 0 0).
Proof.
  intros N m rest h1 h2 d E Fd L. cbn [s_len] in L. destruct d as [|a d]; [cbn in L; lia|]. inversion Fd; subst. unfold is_byte in *.
  unfold dec_percent_centered. rewrite (body_of _ _ _ _ _ E). cbn [get nth_error num_sub]. eexists. split; [reflexivity|].
  apply (finish_near _ _ 2 _ (IZR (a - 128) * IZR 100 / IZR 128)); [lia| |cbn; lra|value].
  apply near_div; [|apply nrep_F; lia|lra|lia|rewrite <- mult_IZR; apply moderate_ratio; lia].
  apply (near_mul 0 0); [apply near_int; lia|apply near_F; lia|lia|rewrite <- mult_IZR; apply moderate_int; lia|exact Logic.I].
Qed.
Lemma big1 a : big_endian [a] = a. Proof. reflexivity. Qed.
Lemma big2 a b : big_endian [a; b] = (256 * a + b)%Z. Proof. unfold big_endian. cbn [fold_left]. lia. Qed.
Lemma count_ok : decodes_as dec_count (mkSensor [] 1 0 1 1 0 1 "count" 0 0).
Proof.
  start. unfold dec_count. rewrite (body_of _ _ _ _ _ E). eexists. split; [reflexivity|]. rewrite bytes_to_int_eq, big1.
  apply (finish_near _ _ 0 _ (IZR z)); [lia|apply near_int; lia|cbn; lra|value].
Qed.
Lemma temp_ok : decodes_as dec_temp (mkSensor [] 1 0 1 1 (-40) 1 "celsius" 0 0).
Proof.
  start. unfold dec_temp. rewrite (body_of _ _ _ _ _ E). eexists. split; [reflexivity|]. rewrite bytes_to_int_eq, big1. cbn [num_sub].
  apply (finish_near _ _ 0 _ (IZR (z - 40))); [lia|apply near_int; lia|cbn; lra|value].
Qed.
Lemma fuel_pressure_ok : decodes_as dec_fuel_pressure (mkSensor [] 1 0 1 3 0 1 "kilopascal" 0 0).
Proof.
  start. unfold dec_fuel_pressure. rewrite (body_of _ _ _ _ _ E). cbn [get nth_error num_mul]. eexists. split; [reflexivity|].
  apply (finish_near _ _ 0 _ (IZR (z * 3))); [lia|apply near_int; lia|cbn; lra|value].
Qed.
Lemma pressure_ok : decodes_as dec_pressure (mkSensor [] 1 0 1 1 0 1 "kilopascal" 0 0).
Proof.
  start. unfold dec_pressure. rewrite (body_of _ _ _ _ _ E). cbn [get nth_error num_mul]. eexists. split; [reflexivity|].
  apply (finish_near _ _ 0 _ (IZR z)); [lia|apply near_int; lia|cbn; lra|value].
Qed.
Lemma max_maf_ok : decodes_as dec_max_maf (mkSensor [] 4 0 1 10 0 1 "gps" 0 0).
Proof.
  start. unfold dec_max_maf. rewrite (body_of _ _ _ _ _ E). cbn [get nth_error num_mul]. eexists. split; [reflexivity|].
  apply (finish_near _ _ 0 _ (IZR (z * 10))); [lia|apply near_int; lia|cbn; lra|value].
Qed.
Lemma timing_advance_ok : decodes_as dec_timing_advance (mkSensor [] 1 0 1 1 (-128) 2 "degree" 0 0).
Proof.
  start. unfold dec_timing_advance. rewrite (body_of _ _ _ _ _ E). cbn [get nth_error num_sub]. eexists. split; [reflexivity|].
  apply (finish_near _ _ 1 _ (IZR (z - 128) / IZR 2)); [lia| |cbn; lra|value].
  apply near_div; [apply near_int; lia|apply nrep_F; lia|lra|lia|apply moderate_ratio; lia].
Qed.
Lemma sensor_voltage_ok : decodes_as dec_sensor_voltage (mkSensor [] 2 0 1 1 0 200 "volt" 0 0).
Proof.
  start. unfold dec_sensor_voltage. rewrite (body_of _ _ _ _ _ E). cbn [get nth_error]. eexists. split; [reflexivity|].
  apply (finish_near _ _ 1 _ (IZR z / IZR 200)); [lia| |cbn; lra|value].
  apply near_div; [apply near_int; lia|apply nrep_F; lia|lra|lia|apply moderate_ratio; lia].
Qed.
Lemma sensor_voltage_big_ok : decodes_as dec_sensor_voltage_big (mkSensor [] 4 2 2 8 0 65535 "volt" 0 0).
Proof.
  start. unfold dec_sensor_voltage_big. rewrite (body_of _ _ _ _ _ E). unfold slice. cbn [firstn skipn Nat.sub]. eexists. split; [reflexivity|].
  rewrite bytes_to_int_eq, big2.
  apply (finish_near _ _ 2 _ (IZR (256 * z1 + z2) * IZR 8 / IZR 65535)); [lia| |cbn; lra|value].
  apply near_div; [|split; [lia|reflexivity]|lra|lia|rewrite <- mult_IZR; apply moderate_ratio; lia].
  apply (near_mul 0 0); [apply near_int; lia|apply near_F; lia|lia|rewrite <- mult_IZR; apply moderate_int; lia|exact Logic.I].
Qed.
Lemma current_centered_ok : decodes_as dec_current_centered (mkSensor [] 4 2 2 1 (-32768) 256 "milliampere" 0 0).
Proof.
  start. unfold dec_current_centered. rewrite (body_of _ _ _ _ _ E). unfold slice. cbn [firstn skipn Nat.sub]. eexists. split; [reflexivity|].
  rewrite bytes_to_int_eq, big2.
  assert (N : sum_near 2 (num_sub (num_div (PyInt (256 * z1 + z2)) (F 256 1)) (PyInt 128)) (IZR (256 * z1 + z2) / IZR 256) (- IZR 128)).
  { apply near_sub; [|apply (near_weaken 0); [lia|apply near_int; lia]|lia| | |exact Logic.I].
    - apply near_div; [apply near_int; lia|apply nrep_F; lia|lra|lia|apply moderate_ratio; lia].
    - destruct (moderate_ratio (256 * z1 + z2) 256) as [-> |[_ M]]; [lia|lia|rewrite Rabs_R0; apply bpow_ge_0|exact M].
    - destruct (moderate_int 128) as [-> |[_ M]]; [lia|rewrite Rabs_R0; apply bpow_ge_0|exact M]. }
  eapply finish_sum; [|cbn; lra| |].
  - destruct N as (v & X & B). exists v. split; [exact X|]. eapply Rle_trans; [exact B|]. apply Rmult_le_compat_r; [|apply grow_mono; lia].
    apply Rplus_le_le_0_compat; apply Rabs_pos.
  - value.
  - value.
Qed.
Lemma abs_evap_ok : decodes_as dec_abs_evap_pressure (mkSensor [] 2 0 2 1 0 200 "kilopascal" 0 0).
Proof.
  start. unfold dec_abs_evap_pressure. rewrite (body_of _ _ _ _ _ E). eexists. split; [reflexivity|]. rewrite bytes_to_int_eq, big2.
  apply (finish_near _ _ 1 _ (IZR (256 * z + z0) / IZR 200)); [lia| |cbn; lra|value].
  apply near_div; [apply near_int; lia|apply nrep_F; lia|lra|lia|apply moderate_ratio; lia].
Qed.
Lemma evap_alt_ok : decodes_as dec_evap_pressure_alt (mkSensor [] 2 0 2 1 (-32767) 1 "pascal" 0 0).
Proof.
  start. unfold dec_evap_pressure_alt. rewrite (body_of _ _ _ _ _ E). eexists. split; [reflexivity|]. rewrite bytes_to_int_eq, big2. cbn [num_sub].
  apply (finish_near _ _ 0 _ (IZR (256 * z + z0 - 32767))); [lia|apply near_int; lia|cbn; lra|value].
Qed.
Lemma inject_timing_ok : decodes_as dec_inject_timing (mkSensor [] 2 0 2 1 (-26880) 128 "degree" 0 0).
Proof.
  start. unfold dec_inject_timing. rewrite (body_of _ _ _ _ _ E). eexists. split; [reflexivity|]. rewrite bytes_to_int_eq, big2. cbn [num_sub].
  apply (finish_near _ _ 1 _ (IZR (256 * z + z0 - 26880) / IZR 128)); [lia| |cbn; lra|value].
  apply near_div; [apply near_int; lia|apply nrep_F; lia|lra|lia|apply moderate_ratio; lia].
Qed.
Lemma near_F_dec n d : lit_ok (LDec n d) = true -> near 1 (F n d) (IZR n / IZR d).
Proof. apply (near_lit (LDec n d)). Qed.
Lemma fuel_rate_ok : decodes_as dec_fuel_rate (mkSensor [] 2 0 2 1 0 20 "liters_per_hour" 0 0).
Proof.
  start. unfold dec_fuel_rate. rewrite (body_of _ _ _ _ _ E). eexists. split; [reflexivity|]. rewrite bytes_to_int_eq, big2.
  apply (finish_near _ _ 2 _ (IZR (256 * z + z0) * (IZR 5 / IZR 100))); [lia| |cbn; lra|value].
  apply (near_mul 0 1); [apply near_int; lia|apply near_F_dec; reflexivity|lia| |exact Logic.I].
  replace (IZR (256 * z + z0) * (IZR 5 / IZR 100)) with (IZR ((256 * z + z0) * 5) / IZR 100) by (rewrite mult_IZR; field). apply moderate_ratio; lia.
Qed.
Lemma absolute_load_ok : decodes_as dec_absolute_load (mkSensor [] 2 0 2 100 0 255 "percent" 0 0).
Proof.
  start. unfold dec_absolute_load. rewrite (body_of _ _ _ _ _ E). eexists. split; [reflexivity|]. rewrite bytes_to_int_eq, big2.
  apply (finish_near _ _ 2 _ (IZR (256 * z + z0) * (IZR 100 / IZR 255))); [lia| |cbn; lra|value].
  apply (near_mul 0 1); [apply near_int; lia| |lia| |exact Logic.I].
  - apply near_div; [apply near_F; lia|apply nrep_F; lia|lra|lia|apply moderate_ratio; lia].
  - replace (IZR (256 * z + z0) * (IZR 100 / IZR 255)) with (IZR ((256 * z + z0) * 100) / IZR 255) by (rewrite mult_IZR; field). apply moderate_ratio; lia.
Qed.
(* a table entry, unsigned *)
Lemma uas_ok_sensor id sc un off n mul add div :
  dict_get Z.eqb UAS_IDS id = Some (UAS false sc (str un) off) -> (1 <= n <= 5)%nat ->
  IZR div <> 0 -> lit_real sc = IZR mul / IZR div -> lit_real off = IZR add / IZR div ->
  decodes_as (dec_uas id) (mkSensor [] n 0 n mul add div un 0 0).
Proof.
  intros G N Z E1 E2 m rest h1 h2 d E Fd L. cbn [s_len] in L.
  pose proof (proj2 (z_dict_In UAS_IDS id _ UAS_keys) G) as I.
  destruct (uas_value id false sc (str un) off d I Fd ltac:(lia)) as (x & C & S). exists x. split.
  - unfold dec_uas. rewrite (body_of _ _ _ _ _ E), G. cbn [rbind]. rewrite C. reflexivity.
  - eapply finish_sum; [exact S|exact Z| |exact E2]. rewrite E1. unfold s_raw. cbn [s_first s_count s_mul s_div skipn].
    rewrite firstn_all2 by lia. unfold raw_value. cbn [andb]. unfold Rdiv. ring.
Qed.

(* exact arithmetic on small integers and quarters *)
Lemma rnd_dyadic n e : (Z.abs n < 2 ^ 53)%Z -> (-1074 <= e)%Z -> rnd (IZR n * bpow radix2 e) = IZR n * bpow radix2 e.
Proof.
  intros H He. apply round_generic; auto with typeclass_instances.
  apply generic_format_FLT. exists (Float radix2 n e); simpl; try lia. reflexivity.
Qed.
Lemma evap_exact m rest h1 h2 a b d : m_data m = h1 :: h2 :: a :: b :: d -> is_byte a -> is_byte b ->
  exists x, dec_evap_pressure (m :: rest) = Ok (VQty x (str "pascal")) /\
    exactly x (IZR (raw_value true [a; b] - (if (b <? 128)%Z then 0 else 256)) / 4).
Proof.
  intros E Ha Hb. unfold dec_evap_pressure. rewrite (body_of _ _ _ _ _ E). cbn [get nth_error rbind].
  eexists. split; [reflexivity|].
  assert (T : forall v, is_byte v -> twos_comp v 8 = if (v <? 128)%Z then v else (v - 256)%Z).
  { intros v Hv. unfold is_byte in Hv. pose proof (twos_raw [v] (Forall_cons v Hv (Forall_nil _)) (le_n 1)) as X.
    rewrite bytes_to_int_eq, big1 in X. change (zlen [v] * 8)%Z with 8%Z in X. rewrite X. unfold raw_value. rewrite big1. cbn [andb length].
    change (2 ^ (8 * Z.of_nat 1 - 1))%Z with 128%Z. change (2 ^ (8 * Z.of_nat 1))%Z with 256%Z.
    destruct (Z.leb_spec 128 v), (Z.ltb_spec v 128); lia. }
  rewrite (T a Ha), (T b Hb). unfold is_byte in *.
  set (a' := if (a <? 128)%Z then a else (a - 256)%Z). set (b' := if (b <? 128)%Z then b else (b - 256)%Z).
  assert (Ra : (-128 <= a' < 128)%Z) by (unfold a'; destruct (Z.ltb_spec a 128); lia).
  assert (Rb : (-128 <= b' < 128)%Z) by (unfold b'; destruct (Z.ltb_spec b 128); lia).
  assert (V : (raw_value true [a; b] - (if (b <? 128)%Z then 0 else 256) = a' * 256 + b')%Z).
  { unfold raw_value. rewrite big2. cbn [andb length]. change (2 ^ (8 * Z.of_nat 2 - 1))%Z with 32768%Z. change (2 ^ (8 * Z.of_nat 2))%Z with 65536%Z.
    unfold a', b'. destruct (Z.leb_spec 32768 (256 * a + b)), (Z.ltb_spec a 128), (Z.ltb_spec b 128); lia. }
  rewrite V. apply nrep_num.
  assert (M : nrep (num_mul (PyInt a') (F 256 1)) (IZR (a' * 256))).
  { unfold F. cbn [num_mul nrep]. change (PyFloat (float_of_ratio (256 <? 0)%Z (Z.abs 256) 1)) with (F 256 1).
    rewrite <- (rnd_int (a' * 256)) by lia. rewrite mult_IZR. apply rep_mul.
    - apply rep_int; lia.
    - exact (nrep_float _ _ (nrep_F 256 ltac:(lia))).
    - rewrite <- mult_IZR. apply int_bound; [|lia]. assert (2 ^ 53 <= 2 ^ 1000)%Z by (apply Z.pow_le_mono_r; lia). lia. }
  assert (A : nrep (num_add (num_mul (PyInt a') (F 256 1)) (PyInt b')) (IZR (a' * 256 + b'))).
  { pose proof (nrep_float _ _ M) as M'. change (num_add (num_mul (PyInt a') (F 256 1)) (PyInt b')) with (PyFloat (fadd (to_float (num_mul (PyInt a') (F 256 1))) (float_of_Z b'))).
    cbn [nrep]. rewrite <- (rnd_int (a' * 256 + b')) by lia. rewrite plus_IZR. apply rep_add; [exact M'|apply rep_int; lia|].
    rewrite <- plus_IZR. apply int_bound; [|lia]. assert (2 ^ 53 <= 2 ^ 1000)%Z by (apply Z.pow_le_mono_r; lia). lia. }
  cbn [num_div nrep].
  assert (Q : IZR (a' * 256 + b') / 4 = rnd (IZR (a' * 256 + b') / IZR 4)).
  { replace (IZR (a' * 256 + b') / IZR 4) with (IZR (a' * 256 + b') * bpow radix2 (-2)) by (change (bpow radix2 (-2)) with (/ IZR (Z.pow_pos 2 2)); change (Z.pow_pos 2 2) with 4%Z; reflexivity).
    rewrite rnd_dyadic by lia. change (bpow radix2 (-2)) with (/ IZR (Z.pow_pos 2 2)). change (Z.pow_pos 2 2) with 4%Z. reflexivity. }
  rewrite Q. apply rep_div; [exact (nrep_float _ _ A)|exact (nrep_float _ _ (nrep_F 4 ltac:(lia)))|lra|].
  destruct (moderate_ratio (a' * 256 + b') 4) as [-> |[_ B]]; [lia|lia|rewrite Rabs_R0; apply bpow_ge_0|].
  eapply Rle_trans; [exact B|apply bpow_le; lia].
Qed.
