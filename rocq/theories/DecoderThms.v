(* Decoders: totality, trouble codes, status bits, enumerations, monitors, strings (C19-C22, C25-C28, C30, C31). *)
From Coq Require Import ZArith List Bool Lia String Permutation.
From Coq Require Import ZifyBool ZifyNat.
From Verif Require Import Py Num Utils Protocol Codes UasTable Decoders Command CommandTable Commands SpecWire SpecBits SpecCmd
  PyFacts WireFacts ProtocolFacts UtilsThms EcuMapThms CommandThms.
Import ListNotations.
Open Scope Z_scope.
Ltac Zify.zify_post_hook ::= Z.div_mod_to_equations.
Arguments Z.div : simpl never. Arguments Z.modulo : simpl never. Arguments Z.mul : simpl never. Arguments Z.add : simpl never. Arguments Z.sub : simpl never. Arguments Z.land : simpl never.

(* ------------------------------------------------------------------ frames of delivered messages *)
Lemma call_frames p lines ms : class_ok (p_class p) -> call p lines = Ok ms -> Forall (fun m => m_frames m <> []) ms.
Proof.
  intros Hc H. unfold call in H. rewrite call_eq in H by exact Hc.
  destruct (rmap _ _) as [r|] eqn:E; cbn in H; [|discriminate]. injection H as <-. apply Forall_app. split.
  2: { apply Forall_forall. intros x Hx. unfold text_messages in Hx. apply in_map_iff in Hx. destruct Hx as (l & <- & _). discriminate. }
  apply Forall_forall. intros msg Hm.
  destruct (proj1 (rmap_concat_filter _ _ _ _ r E msg) Hm) as (k & d & Hk & Hp & ->). cbn [m_frames].
  destruct (from_id_head k _ Hk) as (f & t & -> & _). discriminate.
Qed.

(* ------------------------------------------------------------------ trouble codes *)
Lemma shiftr_6 a : is_byte a -> Z.shiftr a 6 = a / 64.
Proof. intros _. rewrite Z.shiftr_div_pow2 by lia. reflexivity. Qed.
Lemma dtc_head a : is_byte a ->
  rbind (get [str "P"; str "C"; str "B"; str "U"] (Z.to_nat (Z.shiftr a 6)))
        (fun letter => Ok (letter ++ str_nat (Z.to_nat (Z.land (Z.shiftr a 4) 3)))) = Ok [dtc_letter a; 48 + a / 16 mod 4].
Proof.
  intros H.
  pose (P := fun a => match rbind (get [str "P"; str "C"; str "B"; str "U"] (Z.to_nat (Z.shiftr a 6)))
        (fun letter => Ok (letter ++ str_nat (Z.to_nat (Z.land (Z.shiftr a 4) 3)))) with Ok t => text_eqb t [dtc_letter a; 48 + a / 16 mod 4] | _ => false end).
  pose proof (byte_sweep P ltac:(vm_compute; reflexivity) a H) as E. unfold P in E.
  destruct (rbind _ _); [|discriminate]. apply text_eqb_eq in E. congruence.
Qed.
Definition desc_of (code : text) : text := match dict_get text_eqb DTC code with Some d => d | None => [] end.
Lemma parse_dtc_eq tup a b : is_byte a -> is_byte b -> (tup = true -> (a, b) <> (0, 0)) ->
  parse_dtc tup [a; b] = Ok (Some (dtc_text a b, desc_of (dtc_text a b))).
Proof.
  intros Ha Hb N. unfold parse_dtc. change (zlen [a; b]) with 2. cbn [Z.eqb Pos.eqb negb orb].
  replace (tup && text_eqb [a; b] [0; 0]) with false.
  2: { destruct tup; [|reflexivity]. cbn [andb]. symmetry. apply text_eqb_neq. intros E. injection E as -> ->. apply N; auto. }
  cbn [orb negb]. change (get [a; b] 0) with (Ok a). cbn [rbind].
  pose proof (dtc_head a Ha) as E. destruct (get [str "P"; str "C"; str "B"; str "U"] (Z.to_nat (Z.shiftr a 6))) as [letter|]; cbn [rbind] in E; [|discriminate].
  injection E as E. cbn [rbind]. rewrite app_assoc, E. rewrite bytes_to_hex_eq by (apply Forall_cons; [assumption|apply Forall_cons; [assumption|apply Forall_nil]]). unfold hex_of. cbn [flat_map app].
  change (slice 1 4 _) with [lower_digit (a mod 16); lower_digit (b / 16); lower_digit (b mod 16)]. reflexivity.
Qed.
Lemma parse_dtc_zero : parse_dtc true [0; 0] = Ok None. Proof. reflexivity. Qed.
Lemma dict_get_described (t : list (text * text)) code :
  described t code (match dict_get text_eqb t code with Some d => d | None => [] end).
Proof.
  destruct (dict_get text_eqb t code) as [d|] eqn:E.
  - assert (G : exists b a, t = b ++ (code, d) :: a /\ ~ In code (map fst b)).
    { revert E. induction t as [|[k v] t IH]; cbn; [discriminate|]. destruct (text_eqb k code) eqn:Ek.
      - intros H. injection H as ->. apply text_eqb_eq in Ek. subst. exists [], t. cbn. tauto.
      - intros H. destruct (IH H) as (b & a & -> & N). exists ((k, v) :: b), a. split; [reflexivity|]. cbn. intros [X|X]; [|tauto].
        subst. rewrite text_eqb_refl in Ek. discriminate. }
    destruct G as (b & a & G & N). econstructor 1; eassumption.
  - constructor 2. induction t as [|[k v] t IH]; cbn in *; [tauto|]. destruct (text_eqb k code) eqn:Ek; [discriminate|].
    intros [X|X]; [subst; rewrite text_eqb_refl in Ek; discriminate|]. apply IH; auto.
Qed.
Lemma described_fun t code d1 d2 : described t code d1 -> described t code d2 -> d1 = d2.
Proof.
  assert (G : forall code d, described t code d -> d = match dict_get text_eqb t code with Some d => d | None => [] end).
  { clear. intros code d H. destruct H as [b code d a -> N|code N].
    - induction b as [|[k v] b IH]; cbn; [rewrite text_eqb_refl; reflexivity|]. cbn in N. destruct (text_eqb k code) eqn:E; [apply text_eqb_eq in E; subst; tauto|].
      apply IH. tauto.
    - induction t as [|[k v] t IH]; cbn; [reflexivity|]. cbn in N. destruct (text_eqb k code) eqn:E; [apply text_eqb_eq in E; subst; tauto|]. apply IH; tauto. }
  intros H1 H2. rewrite (G _ _ H1), (G _ _ H2). reflexivity.
Qed.
Lemma byte_pairs_ex d : exists ps, byte_pairs d ps.
Proof.
  assert (G : forall n d, (length d <= n)%nat -> exists ps, byte_pairs d ps).
  { induction n as [|n IH]; intros [|a [|b d']] H; try (eexists; constructor; fail); cbn in H; [lia..|].
    destruct (IH d' ltac:(lia)) as [ps Hp]. eexists. constructor. exact Hp. }
  exact (G _ d (Nat.le_refl _)).
Qed.
Lemma dtc_pairs_eq d ps : Forall is_byte d -> byte_pairs d ps ->
  dtc_pairs d = Ok (map (fun p => (dtc_text (fst p) (snd p), desc_of (dtc_text (fst p) (snd p))))
                      (filter (fun p => negb ((fst p =? 0) && (snd p =? 0))) ps)).
Proof.
  intros F P. induction P as [|b|a b d ps P IH]; try reflexivity. inversion F as [|? ? Ha F1]; subst. inversion F1 as [|? ? Hb F2]; subst.
  cbn [dtc_pairs]. rewrite (IH F2). cbn [filter fst snd]. destruct ((a =? 0) && (b =? 0)) eqn:E.
  - assert (a = 0 /\ b = 0) as [-> ->] by lia. reflexivity.
  - rewrite parse_dtc_eq; [reflexivity|assumption|assumption|]. intros _ X. injection X as -> ->. discriminate.
Qed.
Lemma lower_digit_inj x y : is_nibble x -> is_nibble y -> lower_digit x = lower_digit y -> x = y.
Proof. unfold is_nibble, lower_digit. intros Hx Hy. destruct (Z.ltb_spec x 10), (Z.ltb_spec y 10); lia. Qed.
Lemma dtc_letter_inj a b : is_byte a -> is_byte b -> dtc_letter a = dtc_letter b -> a / 64 = b / 64.
Proof.
  unfold is_byte, dtc_letter. intros Ha Hb. assert (A : a / 64 = 0 \/ a / 64 = 1 \/ a / 64 = 2 \/ a / 64 = 3) by lia.
  assert (B : b / 64 = 0 \/ b / 64 = 1 \/ b / 64 = 2 \/ b / 64 = 3) by lia.
  destruct A as [->|[->|[->| ->]]], B as [->|[->|[->| ->]]]; vm_compute; congruence.
Qed.
Lemma dtc_text_inj a b a' b' : is_byte a -> is_byte b -> is_byte a' -> is_byte b' -> dtc_text a b = dtc_text a' b' -> a = a' /\ b = b'.
Proof.
  intros Ha Hb Ha' Hb' E. unfold dtc_text in E. injection E as E1 E2 E3 E4 E5.
  apply dtc_letter_inj in E1; auto. unfold is_byte in *.
  apply lower_digit_inj in E3; [|unfold is_nibble; lia..]. apply lower_digit_inj in E4; [|unfold is_nibble; lia..]. apply lower_digit_inj in E5; [|unfold is_nibble; lia..]. lia.
Qed.

(* ------------------------------------------------------------------ the answer a decoder sees *)
Definition answers (c : command) (ms : list message) (d : bytes) : Prop :=
  exists m rest h1 h2, prepared c ms (m :: rest) /\ m_data m = h1 :: h2 :: d.
Lemma answers_call c ms d v : 0 <= c_ecu c -> answers c ms d ->
  (forall m rest h1 h2, m_data m = h1 :: h2 :: d -> run_decoder (c_decode c) (m :: rest) = v) ->
  match v with Ok x => exists r, cmd_call c ms = Ok r /\ r_value r = x | Raise e => cmd_call c ms = Raise e end.
Proof.
  intros Hc (m & rest & h1 & h2 & P & E) H. rewrite (cmd_call_prepared c ms _ Hc P), (H m rest h1 h2 E).
  destruct v; [eexists; split; reflexivity|reflexivity].
Qed.
Lemma body_cons m rest h1 h2 d : m_data m = h1 :: h2 :: d -> body (m :: rest) = Ok d.
Proof. intros E. unfold body. cbn. rewrite E. reflexivity. Qed.

(* ------------------------------------------------------------------ C19: no decoder raises *)
Lemma index_true_ex l : count_true l <> 0 -> exists i, index_true l = Ok i /\ (i < length l)%nat /\ nth i l false = true.
Proof.
  unfold count_true, zlen. induction l as [|[|] l IH]; cbn; [lia|exists 0%nat; split; [reflexivity|split; [lia|reflexivity]]|].
  intros H. destruct (IH H) as (i & -> & Hi & Hn). exists (S i). cbn. split; [reflexivity|]. split; [lia|exact Hn].
Qed.
Lemma fuel_half_ok l : exists t, fuel_status_half l = Ok t.
Proof.
  unfold fuel_status_half. destruct (Z.eqb_spec (count_true l) 1) as [E|E]; [|eauto].
  destruct (index_true_ex l ltac:(lia)) as (i & -> & Hi & _). cbn [rbind]. destruct (Z.ltb_spec (7 - Z.of_nat i) (zlen FUEL_STATUS)) as [H|H]; [|eauto].
  destruct (get_lt FUEL_STATUS (7 - i)) as (x & -> & _); [change (zlen FUEL_STATUS) with 5 in H; change (length FUEL_STATUS) with 5%nat; lia|eauto].
Qed.
Lemma uas_ok u d : (exists s, match u with UAS signed _ _ _ => signed = false \/ d <> [] | UAS_any => True end /\ s = tt) -> exists t, uas_call u d = Ok t.
Proof.
  intros (_ & H & _). destruct u as [signed scale unit off|]; cbn; [|eauto]. destruct signed; cbn; [|eauto].
  destruct H as [|H]; [discriminate|]. destruct d as [|x d]; [congruence|]. unfold zlen. cbn [length].
  destruct (Z.ltb_spec (Z.of_nat (S (length d)) * 8) 1); [lia|]. cbn. eauto.
Qed.
Lemma block_ok d : length d = 9%nat -> exists t, parse_monitor_test d = Ok t.
Proof.
  intros L. do 9 (destruct d as [|? d]; [discriminate|]). destruct d; [|discriminate]. unfold parse_monitor_test. cbn [get nth_error rbind slice from skipn firstn Nat.sub].
  destruct (match dict_get Z.eqb TEST_IDS _ with Some nd => nd | None => _ end) as [nm ds]. destruct (dict_get Z.eqb UAS_IDS _) as [u|]; [|eauto].
  assert (H : forall x y, exists t, uas_call u [x; y] = Ok t).
  { intros x y. apply uas_ok. exists tt. split; [destruct u; [right; discriminate|exact I]|reflexivity]. }
  destruct (H z2 z3) as [t1 ->], (H z4 z5) as [t2 ->], (H z6 z7) as [t3 ->]. cbn. eauto.
Qed.
Lemma blocks_ok n : forall d mon, (9 * n <= length d)%nat -> exists m, monitor_blocks n d mon = Ok m.
Proof.
  induction n as [|n IH]; intros d mon H; cbn [monitor_blocks]; [eauto|].
  destruct (block_ok (upto 9 d)) as [t ->]; [unfold upto; rewrite firstn_length; lia|]. cbn [rbind]. apply IH. unfold from. rewrite skipn_length. lia.
Qed.
(* how many bytes after the two header bytes a decoder reads unconditionally *)
Definition needs (d : decoder) : option Z :=
  match d with
  | D_percent | D_percent_centered | D_sensor_voltage | D_fuel_pressure | D_pressure | D_timing_advance | D_max_maf
  | D_aux_input_status | D_obd_compliance | D_fuel_type => Some 3
  | D_evap_pressure => Some 4
  | D_uas id => match dict_get Z.eqb UAS_IDS id with Some (UAS false _ _ _) | Some UAS_any => Some 0 | Some (UAS true _ _ _) => Some 3 | None => None end
  | D_air_status | D_custom _ => None
  | _ => Some 0
  end.
Definition safe (c : command) : bool := match needs (c_decode c) with Some n => (n <=? c_bytes c) | None => false end.
Lemma get_0 {A} (l : list A) : l <> [] -> exists x, get l 0 = Ok x /\ In x l.
Proof. destruct l as [|x l]; [congruence|]. intros _. exists x. split; [reflexivity|left; reflexivity]. Qed.
Lemma from2 (d : bytes) n : 2 < n -> zlen d = n -> from 2 d <> [].
Proof. unfold from, zlen. intros H1 H2 E. apply (f_equal (@length Z)) in E. rewrite skipn_length in E. cbn in E. lia. Qed.
Lemma decoder_ok c m rest : safe c = true -> Forall is_byte (m_data m) -> Forall (fun m => Forall is_byte (m_data m)) rest -> m_frames m <> [] -> (0 < c_bytes c -> zlen (m_data m) = c_bytes c) ->
  exists v, run_decoder (c_decode c) (m :: rest) = Ok v.
Proof.
  intros S F Fr Nf L. unfold safe in S. destruct (needs (c_decode c)) as [n|] eqn:N; [|discriminate]. apply Z.leb_le in S.
  assert (B : body (m :: rest) = Ok (from 2 (m_data m))) by reflexivity.
  assert (Fb : Forall is_byte (from 2 (m_data m))) by (unfold from; rewrite <- (firstn_skipn 2 (m_data m)) in F; apply Forall_app in F; tauto).
  assert (G3 : 3 <= c_bytes c -> exists x, get (from 2 (m_data m)) 0 = Ok x /\ is_byte x).
  { intros H. destruct (get_0 (from 2 (m_data m)) (from2 _ (c_bytes c) ltac:(lia) (L ltac:(lia)))) as (x & E & I). exists x. split; [exact E|]. rewrite Forall_forall in Fb. auto. }
  destruct (c_decode c) eqn:D; cbn [needs] in N; try discriminate N; cbn [run_decoder]; try (injection N as <-);
    try (unfold dec_drop, dec_raw_string; eauto; fail);
    try match goal with |- context [rbind (body (m :: rest))] => idtac end.
  all: try (unfold dec_noop, dec_pid, dec_count, dec_temp, dec_current_centered, dec_sensor_voltage_big, dec_abs_evap_pressure, dec_evap_pressure_alt,
       dec_inject_timing, dec_fuel_rate, dec_o2_sensors, dec_o2_sensors_alt, dec_absolute_load; rewrite ?B; cbn [rbind]; eauto; fail).
  all: try (destruct (G3 S) as (x & Hx & Bx); unfold dec_percent, dec_percent_centered, dec_sensor_voltage, dec_fuel_pressure, dec_pressure, dec_timing_advance, dec_max_maf,
       dec_aux_input_status; rewrite B; cbn [rbind]; rewrite Hx; cbn [rbind]; eauto; fail).
  - (* noop *) unfold dec_noop. cbn. eauto.
  - (* uas *) unfold dec_uas. rewrite B. cbn [rbind]. destruct (dict_get Z.eqb UAS_IDS id) as [u|]; [|discriminate].
    destruct (uas_ok u (from 2 (m_data m))) as [t ->]; [|cbn; eauto]. exists tt. split; [|reflexivity].
    destruct u as [[|] ? ? ?|]; [right|left; reflexivity|exact I]. injection N as <-. apply (from2 _ (c_bytes c)); [lia|apply L; lia].
  - (* evap *) unfold dec_evap_pressure. rewrite B. cbn [rbind]. specialize (L ltac:(lia)). unfold zlen in L.
    destruct (get_lt (from 2 (m_data m)) 0) as (x & -> & _); [unfold from; rewrite skipn_length; lia|]. cbn [rbind].
    destruct (get_lt (from 2 (m_data m)) 1) as (y & -> & _); [unfold from; rewrite skipn_length; lia|]. cbn [rbind]. eauto.
  - (* elm voltage *) unfold dec_elm_voltage. cbn. destruct (m_frames m) as [|f fs]; [congruence|]. cbn. destruct (py_float _); eauto.
  - (* status *) unfold dec_status. rewrite B. cbn [rbind]. set (bits := ba_of _). destruct (ba_get bits 12); cbn; eauto.
  - (* fuel status *) unfold dec_fuel_status. rewrite B. cbn [rbind]. set (bits := ba_of _). destruct (fuel_half_ok (ba_slice bits 0 8)) as [t1 ->], (fuel_half_ok (ba_slice bits 8 16)) as [t2 ->].
    cbn [rbind]. destruct (_ && _); eauto.
  - (* compliance *) destruct (G3 S) as (x & Hx & Bx). unfold dec_obd_compliance. rewrite B. cbn [rbind]. rewrite Hx. cbn [rbind].
    destruct (Z.ltb_spec x (zlen OBD_COMPLIANCE)) as [H|H]; [|eauto]. unfold is_byte in Bx.
    destruct (get_lt OBD_COMPLIANCE (Z.to_nat x)) as (y & -> & _); [unfold zlen in H; lia|cbn; eauto].
  - (* fuel type *) destruct (G3 S) as (x & Hx & Bx). unfold dec_fuel_type. rewrite B. cbn [rbind]. rewrite Hx. cbn [rbind].
    destruct (Z.ltb_spec x (zlen FUEL_TYPES)) as [H|H]; [|eauto]. unfold is_byte in Bx.
    destruct (get_lt FUEL_TYPES (Z.to_nat x)) as (y & -> & _); [unfold zlen in H; lia|cbn; eauto].
  - (* single_dtc *) unfold dec_single_dtc. rewrite B. cbn [rbind].
    assert (E : exists r, parse_dtc false (from 2 (m_data m)) = Ok r).
    { destruct (from 2 (m_data m)) as [|a [|b [|x l]]]; try (eexists; reflexivity).
      - inversion Fb as [|? ? Ha Fb1]; subst. inversion Fb1 as [|? ? Hb _]; subst. rewrite parse_dtc_eq; [eauto|assumption|assumption|discriminate].
      - unfold parse_dtc. replace (zlen (a :: b :: x :: l) =? 2) with false by (unfold zlen; cbn [length]; lia). cbn. eauto. }
    destruct E as [[[c1 d1]|] ->]; cbn; eauto.
  - (* dtc *) unfold dec_dtc.
    assert (Fd : Forall is_byte (List.concat (map (fun m => from 2 (m_data m)) (m :: rest)))).
    { assert (Fa : Forall (fun m => Forall is_byte (m_data m)) (m :: rest)) by (constructor; assumption). clear -Fa.
      induction Fa as [|x l Hx Fa IH]; cbn; [constructor|]. apply Forall_app. split; [|exact IH].
      rewrite <- (firstn_skipn 2 (m_data x)) in Hx. apply Forall_app in Hx. apply Hx. }
    destruct (byte_pairs_ex (List.concat (map (fun m => from 2 (m_data m)) (m :: rest)))) as [ps Hp].
    rewrite (dtc_pairs_eq _ _ Fd Hp). cbn [rbind]. eauto.
  - (* monitor *) unfold dec_monitor. cbn [get nth_error rbind].
    match goal with |- context [monitor_blocks ?n ?d ?mon] => destruct (blocks_ok n d mon) as [mo ->] end; [lia|cbn; eauto].
  - (* encoded string *) unfold dec_encoded_string, decode_encoded_string. rewrite B. cbn [rbind]. destruct (_ <? _); cbn; eauto.
  - (* cvn *) unfold dec_cvn, decode_encoded_string. rewrite B. cbn [rbind]. destruct (_ <? _); cbn; eauto.
Qed.
Lemma resized_bytes n d d' : resized n d d' -> Forall is_byte d -> Forall is_byte d'.
Proof.
  intros [H1 H2] F. destruct (Z.ltb_spec 0 n) as [H|H]; [|rewrite H2; auto]. destruct (H1 H) as [_ [[cut ->]|[pad [-> Fp]]]].
  - apply Forall_app in F. tauto.
  - apply Forall_app. split; [exact F|]. eapply Forall_impl; [|exact Fp]. intros x <-. unfold is_byte. lia.
Qed.
Lemma prepared_ok c ms ms' : Forall (fun m => Forall is_byte (m_data m) /\ m_frames m <> []) ms -> prepared c ms ms' ->
  Forall (fun m => Forall is_byte (m_data m) /\ m_frames m <> [] /\ (0 < c_bytes c -> zlen (m_data m) = c_bytes c)) ms'.
Proof.
  intros F (sel & S & F2). assert (Fs : Forall (fun m => Forall is_byte (m_data m) /\ m_frames m <> []) sel).
  { clear -S F. induction S; [constructor|inversion F; subst; constructor; auto|inversion F; subst; auto]. }
  clear S F. induction F2 as [|m m' l l' (H1 & H2 & H3) F2 IH]; [constructor|]. inversion Fs as [|? ? [B N] Fs']; subst. constructor; [|auto].
  split; [eapply resized_bytes; eassumption|]. split; [congruence|]. intros Hn. destruct H3 as [H3 _]. destruct (H3 Hn) as [E _]. exact E.
Qed.
Lemma safe_call c ms : 0 <= c_ecu c -> safe c = true -> Forall (fun m => Forall is_byte (m_data m) /\ m_frames m <> []) ms -> exists r, cmd_call c ms = Ok r.
Proof.
  intros Hc S F. pose proof (prepared_ex c ms Hc) as P. set (ms' := map _ _) in P. rewrite (cmd_call_prepared c ms ms' Hc P).
  pose proof (prepared_ok c ms ms' F P) as F'. destruct ms' as [|m rest]; [eauto|]. inversion F' as [|? ? (B & N & L) Fr]; subst.
  destruct (decoder_ok c m rest S B) as [v ->]; [eapply Forall_impl; [|exact Fr]; cbn; tauto|exact N|exact L|eauto].
Qed.
Lemma all_nonneg c : In c all_commands -> 0 <= c_ecu c.
Proof.
  intros I. assert (F : forallb (fun c => 0 <=? c_ecu c) all_commands = true) by (vm_compute; reflexivity).
  rewrite forallb_forall in F. specialize (F c I). lia.
Qed.
Lemma all_safe c : In c all_commands -> c_command c <> str "0112" -> c_command c <> str "0212" -> safe c = true.
Proof.
  intros I N1 N2.
  assert (F : forallb (fun c => safe c || text_eqb (c_command c) (str "0112") || text_eqb (c_command c) (str "0212")) all_commands = true) by (vm_compute; reflexivity).
  rewrite forallb_forall in F. specialize (F c I). apply text_eqb_neq in N1, N2. rewrite N1, N2, !orb_false_r in F. exact F.
Qed.
