(* The documented response types: the theorems. *)
From Coq Require Import ZArith List Bool Lia.
From Verif Require Import Py Num Utils Protocol Codes UasTable Decoders Command CommandTable Commands World Elm Obd SpecWire SpecCmd SpecObd DocTables SpecDocs
  PyFacts UtilsThms EcuMapThms CommandThms DecoderThms DecoderThms3 ObdFacts.
Import ListNotations.
Open Scope Z_scope.
Ltac Zify.zify_post_hook ::= Z.div_mod_to_equations.

Definition unit_of (d : decoder) : option text :=
  match d with
  | D_uas id => match dict_get Z.eqb UAS_IDS id with Some (UAS _ _ u _) => Some u | _ => None end
  | D_count => Some (str "count")
  | D_percent | D_percent_centered | D_absolute_load => Some (str "percent")
  | D_temp => Some (str "celsius")
  | D_current_centered => Some (str "milliampere")
  | D_sensor_voltage | D_sensor_voltage_big | D_elm_voltage => Some (str "volt")
  | D_fuel_pressure | D_pressure | D_abs_evap_pressure => Some (str "kilopascal")
  | D_evap_pressure | D_evap_pressure_alt => Some (str "pascal")
  | D_timing_advance | D_inject_timing => Some (str "degree")
  | D_max_maf => Some (str "gps")
  | D_fuel_rate => Some (str "liters_per_hour")
  | _ => None
  end.
Lemma unit_right d u ms v : unit_of d = Some u -> run_decoder d ms = Ok v -> v = VNone \/ exists n, v = VQty n u.
Proof.
  intros U H. destruct d; try discriminate U; cbn [run_decoder unit_of] in *.
  1:{ unfold dec_uas in H. destruct (body ms) as [x|]; [|discriminate H]. cbn [rbind] in H. destruct (dict_get Z.eqb UAS_IDS id) as [[sg sc un off|]|]; try discriminate U. injection U as <-.
      unfold uas_call in H. right. destruct sg; [destruct (zlen x * 8 <? 1); [discriminate H|]|]; cbn in H; injection H as <-; eexists; reflexivity. }
  all: injection U as <-; unfold dec_count, dec_percent, dec_percent_centered, dec_temp, dec_current_centered, dec_sensor_voltage, dec_sensor_voltage_big, dec_fuel_pressure, dec_pressure, dec_evap_pressure,
    dec_abs_evap_pressure, dec_evap_pressure_alt, dec_timing_advance, dec_inject_timing, dec_max_maf, dec_fuel_rate, dec_absolute_load, dec_elm_voltage in H.
  all: repeat match type of H with context [rbind ?m _] => destruct m; cbn [rbind] in H; [|discriminate H] end.
  all: try (destruct (py_float _)); injection H as <-; unfold qty; eauto.
Qed.

(* hexadecimal digits *)
Lemma hexdigit_ok d : 0 <= d <= 15 -> hex_digit (hexdigit d).
Proof. intros H. unfold hexdigit, hex_digit. destruct (d <? 10) eqn:E; lia. Qed.
Lemma hex_digits_ok f : forall b acc, 0 <= b -> Forall hex_digit acc -> Forall hex_digit (hex_digits f b acc).
Proof.
  induction f as [|f IH]; intros b acc B A; cbn [hex_digits]; [exact A|]. destruct (b <=? 15) eqn:E; [constructor; [apply hexdigit_ok; lia|exact A]|]. apply IH; [lia|]. constructor; [apply hexdigit_ok; lia|exact A].
Qed.
Lemma hex_ok bs : Forall is_byte bs -> Forall hex_digit (bytes_to_hex bs).
Proof.
  unfold bytes_to_hex. assert (G : forall acc, Forall hex_digit acc -> Forall is_byte bs -> Forall hex_digit (fold_left (fun h b => h ++ (let bh := hex b in repeat 48 (2 - length bh) ++ bh)) bs acc)).
  { induction bs as [|b bs IH]; intros acc A B; cbn [fold_left]; [exact A|]. inversion B as [|? ? B1 B2]; subst. apply IH; [|exact B2]. cbv zeta. apply Forall_app. split; [exact A|]. apply Forall_app. split.
    - apply Forall_forall. intros x X. apply repeat_spec in X. subst x. unfold hex_digit. lia.
    - unfold hex. apply hex_digits_ok; [unfold is_byte in B1; lia|constructor]. }
  intros B. apply G; [constructor|exact B].
Qed.

(* the monitor's standard tests *)
Definition std_ok (m : monitor_value) : Prop := forall tid name desc, In (tid, (name, desc)) TEST_IDS -> exists t, dict_get Z.eqb (mon_tests m) tid = Some t /\ dict_get text_eqb (mon_names m) name = Some t /\
  (t = mkTest None None None None None None \/ exists x lo hi, t = mkTest (Some tid) (Some name) (Some desc) (Some x) (Some lo) (Some hi)).
Lemma std_new : std_ok new_monitor.
Proof. intros tid name desc H. exists null_test. cbn in H. repeat (destruct H as [H|H]; [injection H as <- <- <-; split; [vm_compute; reflexivity|split; [vm_compute; reflexivity|left; reflexivity]]|]). destruct H. Qed.
Definition Zeqb_names : bool := forallb (fun a => forallb (fun b => Bool.eqb (fst a =? fst b) (text_eqb (fst (snd a)) (fst (snd b)))) TEST_IDS && negb (text_eqb (fst (snd a)) (str "Unknown"))) TEST_IDS.
Lemma names_match a b : In a TEST_IDS -> In b TEST_IDS -> (fst a =? fst b) = text_eqb (fst (snd a)) (fst (snd b)).
Proof.
  assert (F : Zeqb_names = true) by (vm_compute; reflexivity). unfold Zeqb_names in F. rewrite forallb_forall in F. intros A B. specialize (F a A). apply andb_true_iff in F as [F _]. rewrite forallb_forall in F. specialize (F b B). apply eqb_prop in F. exact F.
Qed.
Lemma not_unknown a : In a TEST_IDS -> text_eqb (fst (snd a)) (str "Unknown") = false.
Proof.
  assert (F : Zeqb_names = true) by (vm_compute; reflexivity). unfold Zeqb_names in F. rewrite forallb_forall in F. intros A. specialize (F a A). apply andb_true_iff in F as [_ F]. destruct (text_eqb _ _); [discriminate F|reflexivity].
Qed.
Lemma get_in {V} (d : list (Z * V)) k v : dict_get Z.eqb d k = Some v -> In (k, v) d.
Proof. induction d as [|[k' v'] d IH]; cbn; [discriminate|]. destruct (k' =? k) eqn:E; [intros [= ->]; apply Z.eqb_eq in E; subst; auto|auto]. Qed.
Lemma unique a b : In a TEST_IDS -> In b TEST_IDS -> fst a = fst b -> a = b.
Proof.
  assert (N : NoDup (map fst TEST_IDS)) by (repeat constructor; cbn; lia). revert N. generalize TEST_IDS as l. induction l as [|x l IH]; intros N A B E; [destruct A|]. cbn in N. inversion N as [|? ? N1 N2]; subst.
  destruct A as [->|A], B as [->|B]; auto; [exfalso; apply N1; rewrite E; apply in_map, B|exfalso; apply N1; rewrite <- E; apply in_map, A].
Qed.
Lemma std_parse d t m : parse_monitor_test d = Ok (Some t) -> std_ok m -> std_ok (add_test m t).
Proof.
  unfold parse_monitor_test. intros H S. destruct (get d 1) as [tid0|]; [|discriminate H]. cbn [rbind] in H. destruct (dict_get Z.eqb TEST_IDS tid0) as [[name0 desc0]|] eqn:T; cbn [fst snd] in H.
  - destruct (get d 2) as [id|]; [|discriminate H]. cbn [rbind] in H. destruct (dict_get Z.eqb UAS_IDS id) as [u|]; [|discriminate H].
    destruct (uas_call u (slice 3 5 d)) as [x|]; [|discriminate H]. cbn [rbind] in H. destruct (uas_call u (slice 5 7 d)) as [lo|]; [|discriminate H]. cbn [rbind] in H. destruct (uas_call u (from 7 d)) as [hi|]; [|discriminate H]. cbn [rbind] in H. injection H as <-.
    apply get_in in T. intros tid name desc I. unfold add_test. cbn [t_tid t_name mon_tests mon_names]. rewrite z_dict_get_set, text_dict_get_set. pose proof (names_match _ _ T I) as M. cbn [fst snd] in M. rewrite <- M.
    destruct (tid0 =? tid) eqn:E; [|apply S, I]. apply Z.eqb_eq in E. pose proof (unique _ _ T I E) as U. injection U as -> -> ->. eexists. split; [reflexivity|]. split; [reflexivity|]. right. eauto.
  - destruct (get d 2) as [id|]; [|discriminate H]. cbn [rbind] in H. destruct (dict_get Z.eqb UAS_IDS id) as [u|]; [|discriminate H].
    destruct (uas_call u (slice 3 5 d)) as [x|]; [|discriminate H]. cbn [rbind] in H. destruct (uas_call u (slice 5 7 d)) as [lo|]; [|discriminate H]. cbn [rbind] in H. destruct (uas_call u (from 7 d)) as [hi|]; [|discriminate H]. cbn [rbind] in H. injection H as <-.
    intros tid name desc I. unfold add_test. cbn [t_tid t_name mon_tests mon_names]. rewrite z_dict_get_set, text_dict_get_set. pose proof (not_unknown _ I) as U. cbn [fst snd] in U.
    assert (U' : text_eqb (str "Unknown") name = false) by (apply text_eqb_neq; apply text_eqb_neq in U; congruence). change (str "Unknown") with [85; 110; 107; 110; 111; 119; 110] in U'. rewrite U'.
    destruct (tid0 =? tid) eqn:E; [|apply S, I]. exfalso. apply Z.eqb_eq in E. subst tid0. apply dict_get_none_iff in T. apply T. apply (in_map fst) in I. exact I.
Qed.
Lemma std_blocks n : forall d m m', std_ok m -> monitor_blocks n d m = Ok m' -> std_ok m'.
Proof.
  induction n as [|n IH]; intros d m m' S H; cbn [monitor_blocks] in H; [injection H as <-; exact S|]. destruct (parse_monitor_test (upto 9 d)) as [[t|]|] eqn:P; cbn [rbind] in H; [| |discriminate H].
  - eapply IH; [|exact H]. eapply std_parse; eassumption.
  - eapply IH; eassumption.
Qed.

(* the tests of a status *)
Lemma otext_eqb_eq a b : otext_eqb a b = true <-> a = b.
Proof. destruct a, b; cbn; split; intros H; try discriminate H; try reflexivity; [apply text_eqb_eq in H; congruence|injection H as ->; apply text_eqb_eq; reflexivity]. Qed.
Lemma otext_set {V} (d : list (option text * V)) k v k' : (exists t, dict_get otext_eqb d k' = Some t) -> exists t, dict_get otext_eqb (dict_set otext_eqb d k v) k' = Some t.
Proof.
  induction d as [|[a x] d IH]; cbn; intros (t & H); [discriminate H|]. destruct (otext_eqb a k) eqn:E; cbn.
  - destruct (otext_eqb a k'); [eauto|]. eauto.
  - destruct (otext_eqb a k'); [eauto|]. apply IH. eauto.
Qed.
Lemma load_keeps names : forall bits a c d k, (exists t, dict_get otext_eqb d k = Some t) -> exists t, dict_get otext_eqb (load_tests bits a c names d) k = Some t.
Proof. induction names as [|n names IH]; intros bits a c d k H; cbn [load_tests]; [exact H|]. apply IH, otext_set, H. Qed.

Definition fits (c : command) (t : doc_type) : bool :=
  match t, c_decode c with
  | _, D_drop => true
  | DocUnit d, _ => match unit_of (c_decode c) with Some u => text_eqb u d || (text_eqb u (str "gps") && text_eqb d (str "grams_per_second")) | None => false end
  | DocString, (D_raw_string | D_obd_compliance | D_fuel_type) => true
  | DocHexString, D_cvn => true
  | DocBool, D_aux_input_status => true
  | DocBitArray, D_pid => true
  | DocFuelStatus, D_fuel_status => true
  | DocAirStatus, D_air_status => true
  | DocStatus, D_status => true
  | DocDtc, D_single_dtc => true
  | DocDtcs, D_dtc => true
  | DocO2, D_o2_sensors => c_bytes c =? 3
  | DocO2Alt, D_o2_sensors_alt => c_bytes c =? 3
  | DocMonitor, D_monitor => true
  | DocTodo, _ => true
  | _, _ => false
  end.
Lemma ok_inj {A} (a b : A) : Ok a = Ok b -> a = b. Proof. intros H. injection H as H. exact H. Qed.
Lemma fuel_half bits s : fuel_status_half bits = Ok s -> In s doc_fuel_status.
Proof.
  unfold fuel_status_half. destruct (count_true bits =? 1); [|intros [= <-]; left; reflexivity]. destruct (index_true bits) as [i|]; [|discriminate]. cbn [rbind]. destruct (7 - Z.of_nat i <? zlen FUEL_STATUS); [|intros [= <-]; left; reflexivity].
  intros H. right. change (In s FUEL_STATUS). unfold get in H. destruct (nth_error FUEL_STATUS (7 - i)) eqn:E; [|discriminate H]. injection H as <-. exact (nth_error_In _ _ E).
Qed.
Lemma from_bytes n d : Forall is_byte d -> Forall is_byte (from n d).
Proof. intros B. unfold from. rewrite <- (firstn_skipn n d) in B. apply Forall_app in B. tauto. Qed.
Lemma strip_bytes p d : Forall is_byte d -> Forall is_byte (strip_by p d).
Proof. intros B. destruct (strip_ex p d) as (a & b & E & _). rewrite E in B. apply Forall_app in B as [_ B]. apply Forall_app in B. tauto. Qed.
Lemma fits_right c t ms v : fits c t = true -> Forall (fun m => Forall is_byte (m_data m) /\ (0 < c_bytes c -> zlen (m_data m) = c_bytes c)) ms -> run_decoder (c_decode c) ms = Ok v -> v = VNone \/ of_type t v.
Proof.
  intros F B H. assert (Dr : c_decode c = D_drop -> v = VNone \/ of_type t v) by (intros E; rewrite E in H; cbn in H; injection H as <-; auto).
  assert (Bd : forall d, body ms = Ok d -> Forall is_byte d /\ (c_bytes c = 3 -> exists b, d = [b])).
  { intros d E. unfold body in E. destruct ms as [|m ms']; [discriminate E|]. assert (E' : d = from 2 (m_data m)) by (change (Ok (from 2 (m_data m)) = Ok d) in E; congruence). subst d. clear E. inversion B as [|? ? (B1 & B2) _]; subst. split; [apply from_bytes, B1|]. intros E3. rewrite E3 in B2. specialize (B2 ltac:(lia)).
    destruct (m_data m) as [|x [|y [|z [|]]]]; cbn in B2; try (unfold zlen in B2; cbn in B2; lia). exists z. reflexivity. }
  destruct t; try (right; exact Logic.I); unfold fits in F; destruct (c_decode c) eqn:D; try discriminate F; try (apply Dr; reflexivity); clear Dr.
  all: try (match type of F with context [unit_of ?d] => destruct (unit_of d) as [un|] eqn:U; [|discriminate F];
      destruct (unit_right d un ms v U H) as [->|(n & ->)]; [auto|]; right; exists n, un; split; [reflexivity|]; unfold same_unit; apply orb_true_iff in F as [F|F]; [left; apply text_eqb_eq, F|apply andb_true_iff in F as [F1 F2]; apply text_eqb_eq in F1, F2; subst; right; left; reflexivity] end).
  all: cbn [run_decoder] in H.
  - (* raw_string *) right. injection H as <-. eexists. reflexivity.
  - unfold dec_obd_compliance in H. destruct (body ms) as [d|]; [|discriminate H]. cbn [rbind] in H. destruct (get d 0); [|discriminate H]. cbn [rbind] in H. destruct (_ <? _); [|injection H as <-; auto]. destruct (get OBD_COMPLIANCE _); [|discriminate H]. injection H as <-. right. eexists. reflexivity.
  - unfold dec_fuel_type in H. destruct (body ms) as [d|]; [|discriminate H]. cbn [rbind] in H. destruct (get d 0); [|discriminate H]. cbn [rbind] in H. destruct (_ <? _); [|injection H as <-; auto]. destruct (get FUEL_TYPES _); [|discriminate H]. injection H as <-. right. eexists. reflexivity.
  - unfold dec_cvn, decode_encoded_string in H. destruct (body ms) as [d|]; [|discriminate H]. cbn [rbind] in H. destruct (Bd d eq_refl) as [Bb _]. destruct (zlen d <? 4); cbn [rbind] in H; injection H as <-; [auto|]. right. eexists. split; [reflexivity|]. apply hex_ok, strip_bytes, strip_bytes, Bb.
  - unfold dec_aux_input_status in H. destruct (body ms) as [d|]; [|discriminate H]. cbn [rbind] in H. destruct (get d 0); [|discriminate H]. injection H as <-. right. eexists. reflexivity.
  - unfold dec_pid in H. destruct (body ms) as [d|]; [|discriminate H]. injection H as <-. right. eexists. reflexivity.
  - unfold dec_fuel_status in H. destruct (body ms) as [d|]; [|discriminate H]. cbn [rbind] in H. destruct (fuel_status_half (ba_slice (ba_of d) 0 8)) as [s1|] eqn:H1; [|discriminate H]. cbn [rbind] in H. destruct (fuel_status_half (ba_slice (ba_of d) 8 16)) as [s2|] eqn:H2; [|discriminate H]. cbn [rbind] in H.
    destruct (negb (nonempty s1) && negb (nonempty s2)); injection H as <-; [auto|]. right. exists s1, s2. split; [reflexivity|]. split; eapply fuel_half; eassumption.
  - unfold dec_air_status in H. destruct (body ms) as [d|]; [|discriminate H]. cbn [rbind] in H. destruct (_ =? 1); [|injection H as <-; auto]. destruct (index_true _) as [i|]; [|discriminate H]. cbn [rbind] in H. unfold get in H. destruct (nth_error AIR_STATUS (7 - i)) as [s|] eqn:E; [|discriminate H]. injection H as <-. right. exists s. split; [reflexivity|]. exact (nth_error_In _ _ E).
  - unfold dec_status in H. destruct (body ms) as [d|]; [|discriminate H]. cbn [rbind] in H. destruct (get IGNITION_TYPE _) as [ig|] eqn:Ig; [|discriminate H]. cbn [rbind] in H. apply ok_inj in H. subst v. right. eexists. split; [reflexivity|]. cbn [st_ignition_type st_tests]. split.
    + destruct (ba_get (ba_of d) 12); cbn in Ig; injection Ig as <-; cbn; auto.
    + intros name I0. assert (In0 : exists t, dict_get otext_eqb initial_tests (Some name) = Some t) by (cbn in I0; repeat (destruct I0 as [<-|I0]; [eexists; vm_compute; reflexivity|]); destruct I0).
      destruct (ba_get (ba_of d) 12); apply load_keeps, load_keeps, In0.
  - unfold dec_single_dtc in H. destruct (body ms) as [d|]; [|discriminate H]. cbn [rbind] in H. destruct (parse_dtc false d) as [[[a b]|]|]; [| |discriminate H]; injection H as <-; [right; eexists; eexists; reflexivity|auto].
  - unfold dec_dtc in H. destruct (dtc_pairs _) as [l|]; [|discriminate H]. injection H as <-. right. eexists. reflexivity.
  - unfold dec_o2_sensors in H. destruct (body ms) as [d|]; [|discriminate H]. cbn [rbind] in H. apply ok_inj in H. subst v. right. eexists. split; [reflexivity|]. destruct (Bd d eq_refl) as [Bb L]. destruct (L ltac:(lia)) as (b & ->). unfold ba_slice, ba_from, slice, from. cbn [map]. rewrite ?firstn_length, ?skipn_length, ?ba_length by exact Bb. reflexivity.
  - unfold dec_o2_sensors_alt in H. destruct (body ms) as [d|]; [|discriminate H]. cbn [rbind] in H. apply ok_inj in H. subst v. right. eexists. split; [reflexivity|]. destruct (Bd d eq_refl) as [Bb L]. destruct (L ltac:(lia)) as (b & ->). unfold ba_slice, ba_from, slice, from. cbn [map]. rewrite ?firstn_length, ?skipn_length, ?ba_length by exact Bb. reflexivity.
  - unfold dec_monitor in H. destruct (get ms 0) as [m|]; [|discriminate H]. cbn [rbind] in H. destruct (monitor_blocks _ _ new_monitor) as [mon|] eqn:M; [|discriminate H]. injection H as <-. right. exists mon. split; [reflexivity|]. exact (std_blocks _ _ _ _ std_new M).
Qed.
Lemma call_type c t ms r : 0 <= c_ecu c -> fits c t = true -> Forall (fun m => Forall is_byte (m_data m) /\ m_frames m <> []) ms -> cmd_call c ms = Ok r -> r_value r = VNone \/ of_type t (r_value r).
Proof.
  intros Hc F B H. pose proof (prepared_ex c ms Hc) as P. set (ms' := map _ _) in P. rewrite (cmd_call_prepared c ms ms' Hc P) in H.
  pose proof (prepared_ok c ms ms' B P) as F'. destruct ms' as [|m rest]; [injection H as <-; auto|]. destruct (run_decoder (c_decode c) (m :: rest)) as [v|] eqn:R; [|discriminate H]. injection H as <-. cbn [r_value].
  apply (fits_right c t (m :: rest) v F); [|exact R]. eapply Forall_impl; [|exact F']. cbv beta. tauto.
Qed.
Lemma query_value o c force t q o' : oinv o -> query_run o c force t (Ok q) o' -> q = empty_response \/ exists p lines ms, good_class (p_class p) /\ call p lines = Ok ms /\ cmd_call c ms = Ok q.
Proof.
  intros OI Q. remember (Ok q) as r. destruct Q as [N|N M|e' p' t x o1 I S P M H|e' p' t o1 I S P M H N|e' p' t1 o1 e1 t2 I S P M H I1 S1 C|e' p' t1 o1 e1 t2 l x I S P M H I1 S1 B C|e' p' t1 o1 e1 t2 l ms I S P M H I1 S1 B C].
  - injection Heqr as <-. auto.
  - injection Heqr as <-. auto.
  - discriminate Heqr.
  - destruct (dict_mem _ _ _); [injection Heqr as <-; auto|discriminate Heqr].
  - injection Heqr as <-. auto.
  - discriminate Heqr.
  - destruct ms as [|m ms]; [injection Heqr as <-; auto|]. right. exists p', l, (m :: ms). split; [|split; [exact C|congruence]]. unfold oinv in OI. rewrite I in OI. destruct OI as (_ & G). destruct (G S) as (p2 & E2 & G2). congruence.
Qed.
