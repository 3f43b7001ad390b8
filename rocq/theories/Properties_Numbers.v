(* Properties C23, C24, C29: physical quantities computed in IEEE double precision.
   These proofs use the real numbers of the standard library, so they depend on its axioms (see DESIGN.md). *)
From Coq Require Import ZArith List Bool Lia String Reals Lra.
From Flocq Require Import Core.
From Verif Require Import Py Num Utils Protocol Codes UasTable Decoders Command CommandTable Commands SpecWire SpecBits SpecProto SpecCmd
  SpecNum SpecSensors PyFacts CanFacts UtilsThms CommandThms DecoderThms DecoderThms3 FloatFacts FloatRatio NumFacts UasThms SensorThms Properties_Decoders.
Import ListNotations.
Open Scope string_scope. Open Scope list_scope. Open Scope Z_scope.

(* ------------------------------------------------------------------ C23 *)
(* any command, built in or the user's, that decodes through the table *)
Theorem C23_linear : forall id signed scale unit offset c ms d,
  In (id, UAS signed scale unit offset) UAS_IDS -> c_decode c = D_uas id -> 0 <= c_ecu c ->
  answered c ms d -> Forall is_byte d -> (1 <= List.length d <= 5)%nat ->
  exists x, evaluates c ms (VQty x unit) /\
    within (powerRZ 2 (-51) * (Rabs (IZR (raw_value signed d) * lit_real scale) + Rabs (lit_real offset)))%R
           x (IZR (raw_value signed d) * lit_real scale + lit_real offset)%R.
Proof.
  intros id s sc un off c ms d I D Hc (m & h1 & h2 & W & R) Fd L.
  destruct (uas_value id s sc un off d I Fd L) as (x & C & S). exists x. split; [|apply sum_near_within, S].
  apply (answers_call c ms d (Ok (VQty x un)) Hc (first_answers c ms m h1 h2 d Hc W R)).
  intros m' rest g1 g2 E. rewrite D. cbn [run_decoder]. unfold dec_uas. rewrite (body_of _ _ _ _ _ E).
  apply (z_dict_In UAS_IDS id _ UAS_keys) in I. rewrite I. cbn [rbind]. rewrite C. reflexivity.
Qed.
(* the values, minima and maxima of monitor tests *)
Theorem C23_monitor_values : forall id signed scale unit offset mid tid v1 v2 l1 l2 h1 h2 t,
  In (id, UAS signed scale unit offset) UAS_IDS -> Forall is_byte [v1; v2; l1; l2; h1; h2] ->
  block_test [mid; tid; id; v1; v2; l1; l2; h1; h2] t ->
  let means (o : option tval) (d : bytes) := exists x, o = Some (TQty x unit) /\
    within (powerRZ 2 (-51) * (Rabs (IZR (raw_value signed d) * lit_real scale) + Rabs (lit_real offset)))%R
           x (IZR (raw_value signed d) * lit_real scale + lit_real offset)%R in
  means (t_value t) [v1; v2] /\ means (t_min t) [l1; l2] /\ means (t_max t) [h1; h2].
Proof.
  intros id s sc un off mid tid v1 v2 l1 l2 h1 h2 t I Fd (mid' & tid' & id' & v1' & v2' & l1' & l2' & h1' & h2' & u' & nm & ds & v & lo & hi & E & Iu & _ & Cv & Cl & Ch & ->) means.
  injection E as <- <- <- <- <- <- <- <- <-.
  assert (u' = UAS s sc un off) as -> by (apply (z_dict_In UAS_IDS id _ UAS_keys) in I; apply (z_dict_In UAS_IDS id _ UAS_keys) in Iu; congruence).
  assert (G : forall a b w, is_byte a -> is_byte b -> uas_call (UAS s sc un off) [a; b] = Ok w -> means (Some w) [a; b]).
  { intros a b w Ha Hb C. destruct (uas_value id s sc un off [a; b] I ltac:(repeat constructor; apply Ha || apply Hb) ltac:(cbn; lia)) as (x & C' & S).
    exists x. split; [congruence|]. apply sum_near_within, S. }
  repeat match goal with H : Forall _ (_ :: _) |- _ => inversion H; clear H; subst end.
  cbn [t_value t_min t_max]. auto.
Qed.
(* the signed units are those with ids from 0x80 *)
Theorem C23_signed_ids : forall id signed scale unit offset, In (id, UAS signed scale unit offset) UAS_IDS -> (signed = true <-> 128 <= id).
Proof.
  intros id s sc un off I.
  assert (T : forallb (fun e => match snd e with UAS s _ _ _ => eqb s (128 <=? fst e) | UAS_any => fst e <? 128 end) UAS_IDS = true) by (vm_compute; reflexivity).
  rewrite forallb_forall in T. specialize (T _ I). cbn [fst snd] in T. apply eqb_prop in T. rewrite T. apply Z.leb_le.
Qed.
(* all the ids that decode to numbers: every entry but 0x2E *)
Theorem C23_numeric_ids : forall id x, In (id, x) UAS_IDS -> id <> 46 -> exists signed scale unit offset, x = UAS signed scale unit offset.
Proof.
  intros id x I N.
  assert (T : forallb (fun e => match snd e with UAS _ _ _ _ => true | UAS_any => fst e =? 46 end) UAS_IDS = true) by (vm_compute; reflexivity).
  rewrite forallb_forall in T. specialize (T _ I). destruct x; [eauto|]. cbn in T. apply Z.eqb_eq in T. congruence.
Qed.
Example C23_example : In (22, UAS false (LDec 1 10) (str "celsius") (LDec (-400) 10)) UAS_IDS /\ raw_value false [3; 232] = 1000
  /\ answered (cmd "CATALYST_TEMP_B1S1") [engine_message [65; 60; 3; 232]] [3; 232] /\ raw_value true [255; 254] = -2.
Proof.
  split; [apply (z_dict_In UAS_IDS _ _ UAS_keys); reflexivity|]. split; [reflexivity|]. split; [|reflexivity].
  apply (head_answered _ _ _ 65 60); [apply (cmd_named "CATALYST_TEMP_B1S1"); vm_compute; congruence|left; reflexivity|reflexivity|reflexivity].
Qed.

(* ------------------------------------------------------------------ C24 *)

(* decoder and number of bytes of the commands of a sensor *)
Lemma sensor_command s (tag : decoder -> bool) c : named (s_names s) c ->
  forallb (fun c => negb (existsb (text_eqb (c_name c)) (map str (s_names s))) || (tag (c_decode c) && (c_bytes c =? Z.of_nat (s_len s) + 2))) all_commands = true ->
  tag (c_decode c) = true /\ c_bytes c = Z.of_nat (s_len s) + 2.
Proof.
  intros N F. pose proof (named_check _ (fun c => tag (c_decode c) && (c_bytes c =? Z.of_nat (s_len s) + 2)) c N F) as K.
  cbv beta in K. apply andb_true_iff in K. destruct K as [K1 K2]. apply Z.eqb_eq in K2. auto.
Qed.
Lemma answered_length c ms d n : answered c ms d -> c_bytes c = Z.of_nat n + 2 -> List.length d = n.
Proof. intros (m & h1 & h2 & _ & [R _]) E. destruct (R ltac:(lia)) as [L _]. cbn [List.length] in L. lia. Qed.
Definition in_range (s : sensor) : Prop := forall d, Forall is_byte d -> List.length d = s_len s -> (s_min s <= s_value s d <= s_max s)%R.
Definition sensor_right (s : sensor) : Prop := forall c ms d, named (s_names s) c -> answered c ms d -> Forall is_byte d ->
  exists x, evaluates c ms (VQty x (str (s_unit s))) /\ within (s_error s d) x (s_value s d) /\ (s_min s <= s_value s d <= s_max s)%R.
Lemma sensor_right_by s (D : decoder) (tag : decoder -> bool) :
  (forall d, tag d = true -> d = D) ->
  forallb (fun c => negb (existsb (text_eqb (c_name c)) (map str (s_names s))) || (tag (c_decode c) && (c_bytes c =? Z.of_nat (s_len s) + 2))) all_commands = true ->
  decodes_as (run_decoder D) s -> in_range s -> sensor_right s.
Proof.
  intros T F Dec Rg c ms d N A Fd. destruct (sensor_command s tag c N F) as [K1 K2]. apply T in K1.
  pose proof (answered_length c ms d _ A K2) as L. pose proof A as (m & h1 & h2 & W & R). destruct N as [I _].
  pose proof (all_nonneg c I) as Hc. pose proof (first_answers c ms m h1 h2 d Hc W R) as An.
  destruct An as (m0 & rest & g1 & g2 & P & E). destruct (Dec m0 rest g1 g2 d E Fd L) as (x & X & Wx).
  exists x. split; [|split; [exact Wx|apply Rg; assumption]].
  pose proof (cmd_call_prepared c ms _ Hc P) as C. rewrite K1, X in C. eexists. split; [exact C|reflexivity].
Qed.
Lemma raw_range s d : Forall is_byte d -> List.length d = s_len s -> (s_first s + s_count s <= s_len s)%nat ->
  (0 <= IZR (s_raw s d) <= IZR (2 ^ (8 * Z.of_nat (s_count s)) - 1))%R.
Proof.
  intros Fd L B. unfold s_raw. set (e := firstn (s_count s) (skipn (s_first s) d)).
  assert (Fe : Forall is_byte e) by (apply Forall_firstn, Forall_skipn, Fd).
  assert (Le : List.length e = s_count s) by (unfold e; rewrite firstn_length, skipn_length; lia).
  pose proof (big_endian_bound e Fe) as Be. rewrite Le in Be. split; [apply (IZR_le 0); lia|apply IZR_le; lia].
Qed.
Ltac range := let d := fresh in let H1 := fresh in let H2 := fresh in intros d H1 H2; let B := fresh in pose proof (raw_range _ d H1 H2) as B; specialize (B ltac:(cbn; lia));
  unfold s_value; let r := fresh in set (r := IZR (s_raw _ d)) in *; cbn [s_count s_mul s_add s_div s_min s_max] in *;
  match type of B with (_ <= _ <= IZR ?e)%R => let v := eval vm_compute in e in change (IZR e) with (IZR v) in B end; lra.
Ltac sensor_case D tg L := apply (sensor_right_by _ D tg); [intros []; cbn; congruence|vm_compute; reflexivity|
  refine (decodes_same _ _ _ _ L); reflexivity|range].
Ltac sensor_uas i L := apply (sensor_right_by _ (D_uas i) (fun x => match x with D_uas j => j =? i | _ => false end));
  [intros []; try discriminate; rewrite Z.eqb_eq; intros ->; reflexivity|vm_compute; reflexivity|
   refine (decodes_same _ _ _ _ L); reflexivity|range].
Ltac uas_entry := eapply uas_ok_sensor; [reflexivity|lia|lra|cbn; lra|cbn; lra].

Theorem C24_sensors : forall s c ms d, In s sensors -> named (s_names s) c -> answered c ms d -> Forall is_byte d ->
  exists x, evaluates c ms (VQty x (str (s_unit s))) /\ within (s_error s d) x (s_value s d) /\ (s_min s <= s_value s d <= s_max s)%R.
Proof.
  assert (G : Forall sensor_right sensors).
  { unfold sensors.
    constructor; [sensor_case D_percent (fun x => match x with D_percent => true | _ => false end) (percent_ok 1 (le_n 1))|].
    constructor; [sensor_case D_percent_centered (fun x => match x with D_percent_centered => true | _ => false end) (percent_centered_ok 1 (le_n 1))|].
    constructor; [sensor_case D_percent_centered (fun x => match x with D_percent_centered => true | _ => false end) (percent_centered_ok 2 (le_S _ _ (le_n 1)))|].
    constructor; [sensor_case D_temp (fun x => match x with D_temp => true | _ => false end) temp_ok|].
    constructor; [sensor_case D_fuel_pressure (fun x => match x with D_fuel_pressure => true | _ => false end) fuel_pressure_ok|].
    constructor; [sensor_case D_pressure (fun x => match x with D_pressure => true | _ => false end) pressure_ok|].
    constructor; [sensor_uas 7 (ltac:(uas_entry) : decodes_as (dec_uas 7) (mkSensor [] 2 0 2 1 0 4 "rpm" 0 0))|].
    constructor; [sensor_uas 9 (ltac:(uas_entry) : decodes_as (dec_uas 9) (mkSensor [] 1 0 1 1 0 1 "kph" 0 0))|].
    constructor; [sensor_case D_timing_advance (fun x => match x with D_timing_advance => true | _ => false end) timing_advance_ok|].
    constructor; [sensor_uas 39 (ltac:(uas_entry) : decodes_as (dec_uas 39) (mkSensor [] 2 0 2 1 0 100 "grams_per_second" 0 0))|].
    constructor; [sensor_case D_sensor_voltage (fun x => match x with D_sensor_voltage => true | _ => false end) sensor_voltage_ok|].
    constructor; [sensor_uas 18 (ltac:(uas_entry) : decodes_as (dec_uas 18) (mkSensor [] 2 0 2 1 0 1 "second" 0 0))|].
    constructor; [sensor_uas 37 (ltac:(uas_entry) : decodes_as (dec_uas 37) (mkSensor [] 2 0 2 1 0 1 "kilometer" 0 0))|].
    constructor; [sensor_uas 25 (ltac:(uas_entry) : decodes_as (dec_uas 25) (mkSensor [] 2 0 2 79 0 1000 "kilopascal" 0 0))|].
    constructor; [sensor_uas 27 (ltac:(uas_entry) : decodes_as (dec_uas 27) (mkSensor [] 2 0 2 10 0 1 "kilopascal" 0 0))|].
    constructor; [sensor_case D_sensor_voltage_big (fun x => match x with D_sensor_voltage_big => true | _ => false end) sensor_voltage_big_ok|].
    constructor; [sensor_uas 1 (ltac:(uas_entry) : decodes_as (dec_uas 1) (mkSensor [] 1 0 1 1 0 1 "count" 0 0))|].
    constructor; [sensor_case D_current_centered (fun x => match x with D_current_centered => true | _ => false end) current_centered_ok|].
    constructor; [sensor_uas 22 (ltac:(uas_entry) : decodes_as (dec_uas 22) (mkSensor [] 2 0 2 1 (-400) 10 "celsius" 0 0))|].
    constructor; [sensor_uas 11 (ltac:(uas_entry) : decodes_as (dec_uas 11) (mkSensor [] 2 0 2 1 0 1000 "volt" 0 0))|].
    constructor; [sensor_case D_absolute_load (fun x => match x with D_absolute_load => true | _ => false end) absolute_load_ok|].
    constructor; [sensor_uas 30 (ltac:(uas_entry) : decodes_as (dec_uas 30) (mkSensor [] 2 0 2 305 0 10000000 "ratio" 0 0))|].
    constructor; [sensor_uas 52 (ltac:(uas_entry) : decodes_as (dec_uas 52) (mkSensor [] 2 0 2 1 0 1 "minute" 0 0))|].
    constructor; [sensor_case D_max_maf (fun x => match x with D_max_maf => true | _ => false end) max_maf_ok|].
    constructor; [sensor_case D_abs_evap_pressure (fun x => match x with D_abs_evap_pressure => true | _ => false end) abs_evap_ok|].
    constructor; [sensor_case D_evap_pressure_alt (fun x => match x with D_evap_pressure_alt => true | _ => false end) evap_alt_ok|].
    constructor; [sensor_case D_inject_timing (fun x => match x with D_inject_timing => true | _ => false end) inject_timing_ok|].
    constructor; [sensor_case D_fuel_rate (fun x => match x with D_fuel_rate => true | _ => false end) fuel_rate_ok|].
    constructor; [sensor_case D_count (fun x => match x with D_count => true | _ => false end) count_ok|].
    constructor. }
  intros s c ms d I. rewrite Forall_forall in G. exact (G s I c ms d).
Qed.
(* EVAP_VAPOR_PRESSURE is documented as the two's complement 16-bit number over 4, between -8192 and 8192 Pa *)
Theorem C24_evap_pressure_partial : forall c ms a b, named ["EVAP_VAPOR_PRESSURE"] c -> answered c ms [a; b] -> is_byte a -> is_byte b -> b < 128 ->
  exists x, evaluates c ms (VQty x (str "pascal")) /\ exactly x (IZR (raw_value true [a; b]) / 4)%R.
Proof.
  intros c ms a b N (m & h1 & h2 & W & R) Ha Hb Lb. 
  assert (D : c_decode c = D_evap_pressure) by (pose proof (named_check _ (fun c => match c_decode c with D_evap_pressure => true | _ => false end) _ N ltac:(vm_compute; reflexivity)) as K;
    cbv beta in K; destruct (c_decode c); congruence).
  destruct N as [I _]. pose proof (all_nonneg c I) as Hc.
  destruct (first_answers c ms m h1 h2 _ Hc W R) as (m0 & rest & g1 & g2 & P & E).
  destruct (evap_exact m0 rest g1 g2 a b [] E Ha Hb) as (x & X & Wx). exists x.
  replace (b <? 128) with true in Wx by (symmetry; apply Z.ltb_lt; exact Lb). rewrite Z.sub_0_r in Wx. split; [|exact Wx].
  pose proof (cmd_call_prepared c ms _ Hc P) as C. rewrite D in C. cbn [run_decoder] in C. rewrite X in C. eexists. split; [exact C|reflexivity].
Qed.
(* a low byte of 128 or more is taken as negative too: the result is 64 Pa too low *)
Theorem C24_evap_pressure_low_byte : forall c ms a b, named ["EVAP_VAPOR_PRESSURE"] c -> answered c ms [a; b] -> is_byte a -> is_byte b -> 128 <= b ->
  exists x, evaluates c ms (VQty x (str "pascal")) /\ exactly x (IZR (raw_value true [a; b]) / 4 - 64)%R.
Proof.
  intros c ms a b N (m & h1 & h2 & W & R) Ha Hb Lb. 
  assert (D : c_decode c = D_evap_pressure) by (pose proof (named_check _ (fun c => match c_decode c with D_evap_pressure => true | _ => false end) _ N ltac:(vm_compute; reflexivity)) as K;
    cbv beta in K; destruct (c_decode c); congruence).
  destruct N as [I _]. pose proof (all_nonneg c I) as Hc.
  destruct (first_answers c ms m h1 h2 _ Hc W R) as (m0 & rest & g1 & g2 & P & E).
  destruct (evap_exact m0 rest g1 g2 a b [] E Ha Hb) as (x & X & Wx). exists x.
  replace (b <? 128) with false in Wx by (symmetry; apply Z.ltb_ge; exact Lb). split.
  - pose proof (cmd_call_prepared c ms _ Hc P) as C. rewrite D in C. cbn [run_decoder] in C. rewrite X in C. eexists. split; [exact C|reflexivity].
  - destruct Wx as [F1 F2]. split; [exact F1|]. rewrite F2, minus_IZR. lra.
Qed.
Lemma one_answer name a b c0 d0 : get_name (str name) <> Raise KeyError -> c_ecu (cmd name) = ECU_ENGINE ->
  m_data (constrain (c_bytes (cmd name)) (engine_message [65; c0; a; b])) = [65; c0; a; b] -> d0 = [a; b] ->
  named [name] (cmd name) /\ answered (cmd name) [engine_message [65; c0; a; b]] d0.
Proof.
  intros G E C ->. pose proof (cmd_named name G) as N. split; [exact N|]. destruct N as [I _].
  apply (head_answered _ _ _ 65 c0); auto.
Qed.
Theorem C24_evap_pressure_refuted :
  ~ (forall c ms a b, named ["EVAP_VAPOR_PRESSURE"] c -> answered c ms [a; b] -> is_byte a -> is_byte b ->
     exists x, evaluates c ms (VQty x (str "pascal")) /\ (-8192 <= num_real x <= 8192)%R).
Proof.
  intros H. destruct (one_answer "EVAP_VAPOR_PRESSURE" 128 128 50 [128; 128]) as [N A]; [vm_compute; congruence|reflexivity|reflexivity|reflexivity|].
  assert (B : is_byte 128) by (unfold is_byte; lia).
  destruct (H _ _ 128 128 N A B B) as (x & (r & C & V) & R).
  destruct (C24_evap_pressure_low_byte _ _ 128 128 N A B B ltac:(lia)) as (x' & (r' & C' & V') & _ & X).
  rewrite C in C'. injection C' as <-. rewrite V in V'. injection V' as <-. rewrite X in R.
  change (raw_value true [128; 128]) with (-32640)%Z in R. lra.
Qed.
(* decoders.py documents FUEL_RATE as 0 to 3212 l/h; the two bytes allow 3276.75 *)
Theorem C24_fuel_rate_range_refuted :
  ~ (forall c ms d, named ["FUEL_RATE"] c -> answered c ms d -> Forall is_byte d ->
     exists x, evaluates c ms (VQty x (str "liters_per_hour")) /\ (0 <= num_real x <= 3212)%R).
Proof.
  intros H. destruct (one_answer "FUEL_RATE" 255 255 94 [255; 255]) as [N A]; [vm_compute; congruence|reflexivity|reflexivity|reflexivity|].
  assert (B : Forall is_byte [255; 255]) by (repeat constructor; unfold is_byte; lia).
  destruct (H _ _ _ N A B) as (x & (r & C & V) & R).
  assert (I : In (mkSensor ["FUEL_RATE"] 2 0 2 1 0 20 "liters_per_hour" 0 (327675 / 100)) sensors) by (unfold sensors; do 27 right; left; reflexivity).
  destruct (C24_sensors _ _ _ _ I N A B) as (x' & (r' & C' & V') & [_ W] & _).
  rewrite C in C'. injection C' as <-. rewrite V in V'. injection V' as <-.
  unfold s_value, s_error, s_raw in W. cbn [s_first s_count s_mul s_add s_div skipn firstn] in W. change (big_endian [255; 255]) with 65535%Z in W.
  assert (P : (powerRZ 2 (-51) <= / 1024)%R).
  { change 2%R with (IZR radix2). rewrite <- bpow_powerRZ. replace (/ 1024)%R with (bpow radix2 (-10)) by (simpl; lra). apply bpow_le. lia. }
  assert (Q : (0 <= powerRZ 2 (-51))%R) by apply two51.
  rewrite (Rabs_pos_eq (65535 * 1 / 20)) in W by lra. rewrite (Rabs_pos_eq (0 / 20)) in W by lra. apply Rabs_le_inv in W. nra.
Qed.
Example C24_example : exists s, In s sensors /\ named (s_names s) (cmd "RPM") /\ answered (cmd "RPM") [engine_message [65; 12; 26; 248]] [26; 248]
  /\ s_value s [26; 248] = 1726%R.
Proof.
  exists (mkSensor ["RPM"] 2 0 2 1 0 4 "rpm" 0 (1638375 / 100)). split; [unfold sensors; do 6 right; left; reflexivity|].
  destruct (one_answer "RPM" 26 248 12 [26; 248]) as [N A]; [vm_compute; congruence|reflexivity|reflexivity|reflexivity|].
  split; [exact N|]. split; [exact A|]. unfold s_value, s_raw. cbn [s_first s_count s_mul s_add s_div skipn firstn]. change (big_endian [26; 248]) with 6904%Z. lra.
Qed.

(* ------------------------------------------------------------------ C29 *)
(* every units id but 0x2E, whose values are not numbers *)
Theorem C29_verdict_partial : forall c ms m h d bs mon tid mid id v1 v2 l1 l2 h1 h2,
  is_monitor c -> first_with (for_it c) ms m -> m_data m = h :: d -> blocks9 d bs -> evaluates c ms (VMonitor mon) ->
  last_with (usable tid) bs [mid; tid; id; v1; v2; l1; l2; h1; h2] -> Forall is_byte [v1; v2; l1; l2; h1; h2] -> id <> 46 ->
  let signed := 128 <=? id in
  test_passed (monitor_get_tid mon tid) = true <->
  raw_value signed [l1; l2] <= raw_value signed [v1; v2] <= raw_value signed [h1; h2].
Proof.
  intros c ms m h d bs mon tid mid id v1 v2 l1 l2 h1 h2 Hm W E B Ev Lw Fb N signed.
  destruct (C28_monitor_results c ms m h d bs Hm W E B) as (mon' & Ev' & G & _).
  assert (mon' = mon) as -> by (destruct Ev as (r & C & V), Ev' as (r' & C' & V'); congruence).
  destruct (C28_block_test tid [mid; tid; id; v1; v2; l1; l2; h1; h2] eq_refl) as (t & Bt & _); [destruct Lw as (? & ? & _ & U & _); exact U|].
  rewrite (G tid _ t Lw Bt).
  destruct Bt as (mid' & tid' & id' & v1' & v2' & l1' & l2' & h1' & h2' & u' & nm & ds & v & lo & hi & Eq & Iu & _ & Cv & Cl & Ch & ->).
  injection Eq as <- <- <- <- <- <- <- <- <-.
  destruct (C23_numeric_ids id u' Iu N) as (s & sc & un & off & ->).
  assert (Es : signed = s).
  { unfold signed. pose proof (C23_signed_ids id s sc un off Iu) as K. destruct s; [apply Z.leb_le, K; reflexivity|]. apply Z.leb_gt. destruct (Z.lt_ge_cases id 128) as [|X]; [assumption|]. apply K in X. discriminate. }
  rewrite Es. clear Es signed.
  repeat match goal with H : Forall _ (_ :: _) |- _ => inversion H; clear H; subst end.
  assert (O : forall a b c d x y, is_byte a -> is_byte b -> is_byte c -> is_byte d -> uas_call (UAS s sc un off) [a; b] = Ok x -> uas_call (UAS s sc un off) [c; d] = Ok y ->
    tval_le x y = true <-> raw_value s [a; b] <= raw_value s [c; d]).
  { intros a0 b0 c0 d0 x y Ha Hb Hc Hd Cx Cy.
    destruct (uas_order id s sc un off [a0; b0] [c0; d0] Iu) as (x1 & x2 & C1 & C2 & Le); [auto using Forall_cons..|reflexivity|reflexivity|].
    rewrite Cx in C1. rewrite Cy in C2. injection C1 as ->. injection C2 as ->. exact Le. }
  cbn [test_passed t_tid t_value t_min t_max]. rewrite andb_true_iff.
  rewrite (O l1 l2 v1 v2 lo v) by assumption. rewrite (O v1 v2 h1 h2 v hi) by assumption. tauto.
Qed.
(* units id 0x2E: each of the three is just zero or not zero *)
Theorem C29_boolean_id : forall c ms m h d bs mon tid mid v1 v2 l1 l2 h1 h2,
  is_monitor c -> first_with (for_it c) ms m -> m_data m = h :: d -> blocks9 d bs -> evaluates c ms (VMonitor mon) ->
  last_with (usable tid) bs [mid; tid; 46; v1; v2; l1; l2; h1; h2] ->
  let set a b := ~ (a = 0 /\ b = 0) in
  test_passed (monitor_get_tid mon tid) = true <-> (set l1 l2 -> set v1 v2) /\ (set v1 v2 -> set h1 h2).
Proof.
  intros c ms m h d bs mon tid mid v1 v2 l1 l2 h1 h2 Hm W E B Ev Lw set.
  destruct (C28_monitor_results c ms m h d bs Hm W E B) as (mon' & Ev' & G & _).
  assert (mon' = mon) as -> by (destruct Ev as (r & C & V), Ev' as (r' & C' & V'); congruence).
  destruct (C28_block_test tid [mid; tid; 46; v1; v2; l1; l2; h1; h2] eq_refl) as (t & Bt & _); [destruct Lw as (? & ? & _ & U & _); exact U|].
  rewrite (G tid _ t Lw Bt).
  destruct Bt as (mid' & tid' & id' & v1' & v2' & l1' & l2' & h1' & h2' & u' & nm & ds & v & lo & hi & Eq & Iu & _ & Cv & Cl & Ch & ->).
  injection Eq as <- <- <- <- <- <- <- <- <-.
  apply (z_dict_In UAS_IDS 46 _ UAS_keys) in Iu. vm_compute in Iu. injection Iu as <-.
  cbn [uas_call] in Cv, Cl, Ch. injection Cv as <-. injection Cl as <-. injection Ch as <-.
  cbn [test_passed t_tid t_value t_min t_max tval_le existsb].
  assert (S : forall a b, (negb (a =? 0) || (negb (b =? 0) || false))%bool = true <-> set a b).
  { intros a b. unfold set. rewrite orb_false_r, orb_true_iff, !negb_true_iff, !Z.eqb_neq. lia. }
  rewrite andb_true_iff. rewrite <- (S l1 l2), <- (S v1 v2), <- (S h1 h2).
  destruct (negb (l1 =? 0) || _)%bool, (negb (v1 =? 0) || _)%bool, (negb (h1 =? 0) || _)%bool; cbn; intuition congruence.
Qed.
(* so with id 0x2E a raw 2 passes between 1 and 1 *)
Theorem C29_verdict_refuted :
  ~ (forall c ms m h d bs mon tid mid id v1 v2 l1 l2 h1 h2,
  is_monitor c -> first_with (for_it c) ms m -> m_data m = h :: d -> blocks9 d bs -> evaluates c ms (VMonitor mon) ->
  last_with (usable tid) bs [mid; tid; id; v1; v2; l1; l2; h1; h2] -> Forall is_byte [v1; v2; l1; l2; h1; h2] ->
  let signed := 128 <=? id in
  test_passed (monitor_get_tid mon tid) = true <->
  raw_value signed [l1; l2] <= raw_value signed [v1; v2] <= raw_value signed [h1; h2]).
Proof.
  intros H. set (b := [1; 5; 46; 0; 2; 0; 1; 0; 1]).
  assert (M : is_monitor (cmd "MONITOR_O2_B1S1")) by (split; [apply (cmd_named "MONITOR_O2_B1S1"); vm_compute; congruence|split; [vm_compute; reflexivity|vm_compute; congruence]]).
  assert (W : first_with (for_it (cmd "MONITOR_O2_B1S1")) [engine_message (70 :: b)] (engine_message (70 :: b))).
  { exists [], []. split; [reflexivity|]. split; [|constructor]. exists 1. split; reflexivity. }
  assert (B : blocks9 b [b]) by (rewrite <- (app_nil_r b) at 1; apply blocks9_more; [reflexivity|apply blocks9_rest; cbn; lia]).
  assert (L : last_with (usable 5) [b] b) by (exists [], []; split; [reflexivity|split; [|constructor]]; split; [reflexivity|vm_compute; auto 100]).
  destruct (C28_monitor_results _ _ _ _ _ _ M W eq_refl B) as (mon & Ev & _).
  pose proof (C29_boolean_id _ _ _ _ _ _ _ _ _ _ _ _ _ _ _ M W eq_refl B Ev L) as P.
  pose proof (H _ _ _ _ _ _ _ _ _ _ _ _ _ _ _ _ M W eq_refl B Ev L ltac:(repeat constructor; unfold is_byte; lia)) as Q.
  cbv zeta in P, Q. assert (T : test_passed (monitor_get_tid mon 5) = true) by (apply P; split; intros _ [? ?]; discriminate).
  apply Q in T. vm_compute in T. destruct T as [_ T]. apply T. reflexivity.
Qed.
Example C29_example : usable 5 [1; 5; 16; 0; 72; 0; 0; 0; 100] /\ Forall is_byte [0; 72; 0; 0; 0; 100] /\ raw_value (128 <=? 16) [0; 72] = 72.
Proof. split; [split; [reflexivity|vm_compute; auto 100]|]. split; [repeat constructor; unfold is_byte; lia|reflexivity]. Qed.

Print Assumptions C23_linear.
Print Assumptions C23_monitor_values.
Print Assumptions C23_signed_ids.
Print Assumptions C24_sensors.
Print Assumptions C24_evap_pressure_low_byte.
Print Assumptions C29_verdict_partial.
Print Assumptions C29_boolean_id.
