(* What a value depends on. *)
From Coq Require Import ZArith List Bool Lia Sorted String.
From Verif Require Import Py Num Utils Protocol Codes UasTable Decoders Command CommandTable Commands World Elm Obd SpecWire SpecProto SpecCmd SpecElm SpecObd SpecE2E
  PyFacts WireFacts CommandThms ObdFacts ObdThms ObdThms2 ObdThms8 EcuMapThms DecoderThms DecoderThms3 Properties_Protocol Properties_Decoders E2EThms E2EThms2 E2EThms4 E2EThms5.
Import ListNotations.
Open Scope string_scope. Open Scope list_scope. Open Scope Z_scope.

Definition first_only (d : decoder) : bool := match d with D_raw_string | D_elm_voltage | D_dtc | D_custom _ => false | _ => true end.
Lemma run_decoder_first d m1 r1 m2 r2 : first_only d = true -> m_data m1 = m_data m2 -> run_decoder d (m1 :: r1) = run_decoder d (m2 :: r2).
Proof.
  intros F E. destruct d; try discriminate F; unfold run_decoder;
  [> unfold dec_drop | unfold dec_noop | unfold dec_pid | unfold dec_uas | unfold dec_count | unfold dec_percent | unfold dec_percent_centered | unfold dec_temp | unfold dec_current_centered
   | unfold dec_sensor_voltage | unfold dec_sensor_voltage_big | unfold dec_fuel_pressure | unfold dec_pressure | unfold dec_evap_pressure | unfold dec_abs_evap_pressure | unfold dec_evap_pressure_alt
   | unfold dec_timing_advance | unfold dec_inject_timing | unfold dec_max_maf | unfold dec_fuel_rate | unfold dec_o2_sensors | unfold dec_aux_input_status | unfold dec_o2_sensors_alt | unfold dec_absolute_load
   | unfold dec_status | unfold dec_fuel_status | unfold dec_air_status | unfold dec_obd_compliance | unfold dec_fuel_type | unfold dec_single_dtc | unfold dec_monitor | unfold dec_encoded_string, decode_encoded_string | unfold dec_cvn, decode_encoded_string ];
  unfold Decoders.body; cbn [get nth_error rbind]; rewrite ?E; reflexivity.
Qed.
Lemma value_first c p l1 l2 q1 q2 payload : reading c p l1 q1 -> reading c p l2 q2 ->
  speaks p (c_ecu c) l1 payload -> speaks p (c_ecu c) l2 payload -> (forall r, payload <> 67 :: r) -> first_only (c_decode c) = true -> 0 <= c_ecu c -> r_value q1 = r_value q2.
Proof.
  intros R1 R2 S1 S2 N F Hc. destruct (reading_payload _ _ _ _ _ R1 S1 N) as (ms1 & m1 & C1 & W1 & D1 & V1). destruct (reading_payload _ _ _ _ _ R2 S2 N) as (ms2 & m2 & C2 & W2 & D2 & V2).
  assert (Rs : exists d, resized (c_bytes c) payload d) by (exists (m_data (constrain (c_bytes c) m1)); rewrite <- D1; apply constrain_resized).
  destruct Rs as (d & Rs).
  destruct (first_prepared c ms1 m1 d Hc W1 ltac:(rewrite D1; exact Rs)) as (x1 & t1 & P1 & E1). destruct (first_prepared c ms2 m2 d Hc W2 ltac:(rewrite D2; exact Rs)) as (x2 & t2 & P2 & E2).
  rewrite (cmd_call_prepared c ms1 _ Hc P1) in V1. rewrite (cmd_call_prepared c ms2 _ Hc P2) in V2.
  rewrite (run_decoder_first (c_decode c) x1 t1 x2 t2 F ltac:(congruence)) in V1.
  destruct (run_decoder (c_decode c) (x2 :: t2)); [|discriminate]. injection V1 as <-. injection V2 as <-. reflexivity.
Qed.
(* no answer, no value *)
Lemma unknown_marks lines ms : call unknown_protocol lines = Ok ms -> forall m, In m ms -> m_ecu m = ECU_UNKNOWN.
Proof.
  unfold call, protocol_call. cbv zeta. destruct (rmap (parse_frame _) _) as [fs|]; cbn [rbind]; [|discriminate].
  destruct (rmap (assemble _ _) _) as [ms'|] eqn:E; cbn [rbind]; [|discriminate]. intros H. injection H as <-. intros m I. apply in_app_or in I as [I|I].
  - revert ms' E m I. generalize (sort_by (fun kv : option Z * list frame => okey (fst kv)) (fold_left group_frame (flat_map (fun o => match o with Some f => [f] | None => [] end) fs) [])).
    induction l as [|kv l IH]; intros ms' E m I; cbn [rmap] in E.
    + injection E as <-. destruct I.
    + unfold assemble at 1 in E. destruct (parse_message _ _) as [[d|]|]; cbn [rbind] in E; try discriminate;
        (destruct (rmap _ l) as [r|] eqn:E2; cbn [rbind] in E; [|discriminate]; injection E as <-; cbn [List.concat] in I; apply in_app_or in I as [I|I]; [|exact (IH _ eq_refl m I)]).
      * destruct I as [<-|[]]. reflexivity.
      * destruct I.
  - apply in_map_iff in I as (l & <- & _). reflexivity.
Qed.
Lemma no_value c p lines q : reading c p lines q -> 0 <= c_ecu c -> ~ common_bit (c_ecu c) ECU_UNKNOWN ->
  (forall u, heeds (c_ecu c) p u -> silent (pc_family (p_class p)) u lines) -> is_null q = true /\ r_value q = VNone.
Proof.
  intros R Hc N Q. destruct (reading_call _ _ _ _ R) as (Cl & ms & C & [[-> ->]|[Ne V]]); [split; reflexivity|].
  assert (P : filter (fun m => 0 <? Z.land (c_ecu c) (m_ecu m)) ms = []).
  { assert (G : forall m, In m ms -> ~ common_bit (c_ecu c) (m_ecu m)).
    { destruct Cl as [Cl|Cl].
      - destruct (C14_one_message_per_ecu p lines ms Cl C) as (obd & ts & texts & E & Et & S & Fe & Ft). intros m I B. rewrite E in I. apply in_app_or in I as [I|I].
        + rewrite Forall_forall in Fe. rewrite (Fe m I) in B. assert (It : In (m_tx_id m) (map Some ts)) by (rewrite <- Et; apply in_map; exact I).
          apply in_map_iff in It as (u & Eu & _). rewrite <- Eu in B. apply heeds_iff in B.
          pose proof (silent_message p _ u lines ms Cl eq_refl (Q u B) C) as Z0. assert (J : In m (filter (fun m => oz_eqb (m_tx_id m) (Some u)) ms)).
          { apply filter_In. split; [rewrite E; apply in_or_app; auto|]. rewrite <- Eu. cbn. apply Z.eqb_refl. }
          rewrite Z0 in J. exact J.
        + rewrite Forall_forall in Ft. destruct (Ft m I) as (l & _ & _ & ->). exact (N B).
      - intros m I B. (* the unknown protocol: only texts, marked unknown *)
        destruct (reading_came _ _ _ _ R) as [->|(id & c0 & lines0 & L & Np)].
        + apply (unknown_marks lines ms C) in I. rewrite I in B. exact (N B).
        + apply new_protocol_class in Np. rewrite Cl in Np. subst c0. apply ElmThms.lookup_known in L. exact (proj2 (proj2 L) eq_refl). }
    clear -G Hc. induction ms as [|m ms IH]; [reflexivity|]. cbn [filter]. destruct (0 <? Z.land (c_ecu c) (m_ecu m)) eqn:L.
    - apply (land_common _ _ Hc) in L. destruct (G m (or_introl eq_refl) L).
    - apply IH. intros x I. apply G. right. exact I. }
  unfold cmd_call in V. rewrite P in V. cbn in V. injection V as <-. split; reflexivity.
Qed.
(* most decoders look at the bytes behind the two-byte echo only *)
Definition body_only (d : decoder) : bool := match d with D_raw_string | D_elm_voltage | D_dtc | D_custom _ | D_noop | D_monitor | D_encoded_string _ | D_cvn => false | _ => true end.
Lemma run_decoder_body d m1 r1 m2 r2 : body_only d = true -> skipn 2 (m_data m1) = skipn 2 (m_data m2) -> run_decoder d (m1 :: r1) = run_decoder d (m2 :: r2).
Proof.
  intros F E. destruct d; try discriminate F; unfold run_decoder;
  [> unfold dec_drop | unfold dec_pid | unfold dec_uas | unfold dec_count | unfold dec_percent | unfold dec_percent_centered | unfold dec_temp | unfold dec_current_centered
   | unfold dec_sensor_voltage | unfold dec_sensor_voltage_big | unfold dec_fuel_pressure | unfold dec_pressure | unfold dec_evap_pressure | unfold dec_abs_evap_pressure | unfold dec_evap_pressure_alt
   | unfold dec_timing_advance | unfold dec_inject_timing | unfold dec_max_maf | unfold dec_fuel_rate | unfold dec_o2_sensors | unfold dec_aux_input_status | unfold dec_o2_sensors_alt | unfold dec_absolute_load
   | unfold dec_status | unfold dec_fuel_status | unfold dec_air_status | unfold dec_obd_compliance | unfold dec_fuel_type | unfold dec_single_dtc ];
  unfold Decoders.body, from; cbn [get nth_error rbind]; rewrite ?E; reflexivity.
Qed.
Lemma resized_body n h1 h2 h1' h2' d x : 2 <= n \/ n = 0 -> resized n (h1 :: h2 :: d) x -> exists y, resized n (h1' :: h2' :: d) y /\ skipn 2 x = skipn 2 y.
Proof.
  intros Hn [R1 R2]. destruct Hn as [Hn|Hn].
  - destruct (R1 ltac:(lia)) as (L & [(cut & E)|(pad & -> & Fp)]).
    + destruct x as [|a [|b x]]; [cbn in L; lia|cbn in L; lia|]. cbn [app] in E. exists (h1' :: h2' :: x). split; [|reflexivity].
      split; [intros _; split; [exact L|left; exists cut]|intros X; lia]. cbn [app]. f_equal. f_equal. congruence.
    + exists (h1' :: h2' :: d ++ pad). split; [|reflexivity]. split; [intros _|intros X; lia]. split; [exact L|]. right. exists pad. auto.
  - rewrite (R2 ltac:(lia)). exists (h1' :: h2' :: d). split; [|reflexivity]. split; [intros X; lia|reflexivity].
Qed.
Lemma echo_ignored c p l1 l2 q1 q2 h1 h2 h1' h2' d : reading c p l1 q1 -> reading c p l2 q2 -> h1 <> 67 -> h1' <> 67 ->
  speaks p (c_ecu c) l1 (h1 :: h2 :: d) -> speaks p (c_ecu c) l2 (h1' :: h2' :: d) -> body_only (c_decode c) = true -> 0 <= c_ecu c -> 2 <= c_bytes c \/ c_bytes c = 0 -> r_value q1 = r_value q2.
Proof.
  intros R1 R2 N1 N2 S1 S2 F Hc Hb. destruct (reading_payload _ _ _ _ _ R1 S1 ltac:(congruence)) as (ms1 & m1 & C1 & W1 & D1 & V1). destruct (reading_payload _ _ _ _ _ R2 S2 ltac:(congruence)) as (ms2 & m2 & C2 & W2 & D2 & V2).
  pose proof (constrain_resized (c_bytes c) m1) as Rs. rewrite D1 in Rs. destruct Rs as (_ & _ & Rs). destruct (resized_body _ h1 h2 h1' h2' d _ Hb Rs) as (y & Ry & Ey).
  destruct (first_prepared c ms1 m1 _ Hc W1 ltac:(rewrite D1; exact Rs)) as (x1 & t1 & P1 & E1). destruct (first_prepared c ms2 m2 y Hc W2 ltac:(rewrite D2; exact Ry)) as (x2 & t2 & P2 & E2).
  rewrite (cmd_call_prepared c ms1 _ Hc P1) in V1. rewrite (cmd_call_prepared c ms2 _ Hc P2) in V2.
  rewrite (run_decoder_body (c_decode c) x1 t1 x2 t2 F ltac:(congruence)) in V1.
  destruct (run_decoder (c_decode c) (x2 :: t2)); [|discriminate]. injection V1 as <-. injection V2 as <-. reflexivity.
Qed.
(* commands that differ in name and request only give the same value *)
Lemma evaluates_same c c' ms v : c_bytes c = c_bytes c' -> c_ecu c = c_ecu c' -> c_decode c = c_decode c' -> evaluates c ms v -> evaluates c' ms v.
Proof.
  intros B E D (r & C & V). unfold evaluates, cmd_call in *. rewrite B, E, D in C. destruct (nonempty _).
  - destruct (run_decoder _ _) as [v'|]; cbn [rbind] in *; [|discriminate]. injection C as <-. eexists. split; [reflexivity|]. exact V.
  - injection C as <-. eexists. split; [reflexivity|]. exact V.
Qed.
