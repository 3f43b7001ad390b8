(* Properties C19-C22, C25-C28, C30, C31, C65: from messages to values.
   C23, C24 and C29 (floating-point values) are in Properties_Numbers.v. *)
From Coq Require Import ZArith List Bool Lia String.
From Coq Require Import ZifyBool ZifyNat.
From Verif Require Import Py Num Utils Protocol Codes UasTable Decoders Command CommandTable Commands SpecWire SpecBits SpecProto SpecCmd
  PyFacts WireFacts ProtocolFacts UtilsThms EcuMapThms CommandThms LegacyThms DecoderThms DecoderThms2 DecoderThms3 Examples Properties_Protocol.
Import ListNotations.
Open Scope string_scope. Open Scope list_scope. Open Scope Z_scope.

(* c is one of the built-in commands with these names *)
Definition named (names : list String.string) (c : command) : Prop := In c all_commands /\ In (c_name c) (map str names).
(* the message comes from an ECU the command accepts *)
Definition for_it (c : command) (m : message) : Prop := common_bit (c_ecu c) (m_ecu m).
(* the first message for c, brought to c's length, is a two-byte header followed by d *)
Definition answered (c : command) (ms : list message) (d : bytes) : Prop :=
  exists m h1 h2, first_with (for_it c) ms m /\ resized (c_bytes c) (m_data m) (h1 :: h2 :: d).
(* evaluating c on the messages gives a response with this value *)
Definition evaluates (c : command) (ms : list message) (v : value) : Prop := exists r, cmd_call c ms = Ok r /\ r_value r = v.

Lemma named_check names (P : command -> bool) c : named names c ->
  forallb (fun c => negb (existsb (text_eqb (c_name c)) (map str names)) || P c) all_commands = true -> P c = true.
Proof.
  intros [I N] F. rewrite forallb_forall in F. specialize (F c I). cbv beta in F.
  replace (existsb (text_eqb (c_name c)) (map str names)) with true in F; [exact F|].
  symmetry. apply existsb_exists. exists (c_name c). split; [exact N|apply text_eqb_refl].
Qed.
Lemma eval_first c ms d v : In c all_commands -> answered c ms d ->
  (forall m rest h1 h2, m_data m = h1 :: h2 :: d -> run_decoder (c_decode c) (m :: rest) = v) ->
  match v with Ok x => evaluates c ms x | Raise e => cmd_call c ms = Raise e end.
Proof.
  intros I (m & h1 & h2 & F & R) H. apply (answers_call c ms d v (all_nonneg c I)); [|exact H]. exact (first_answers c ms m h1 h2 d (all_nonneg c I) F R).
Qed.
Ltac tag H D := let K := fresh in pose proof (named_check _ (fun c => match c_decode c with D => true | _ => false end) _ H ltac:(vm_compute; reflexivity)) as K;
  cbv beta in K; let E := fresh "D" in destruct (c_decode _) eqn:E in K; try discriminate K; clear K.

(* for the examples: an engine message at the head of the list *)
Lemma head_answered c m rest h1 h2 d : In c all_commands -> c_ecu c = ECU_ENGINE \/ c_ecu c = ECU_ALL -> m_ecu m = ECU_ENGINE ->
  m_data (constrain (c_bytes c) m) = h1 :: h2 :: d -> answered c (m :: rest) d.
Proof.
  intros _ Hc Hm E. exists m, h1, h2. split.
  - exists [], rest. split; [reflexivity|]. split; [|constructor]. unfold for_it. rewrite Hm. exists 1. destruct Hc as [-> | ->]; split; reflexivity.
  - rewrite <- E. apply constrain_resized.
Qed.
Definition engine_message (d : bytes) : message := mkMessage [new_frame []] ECU_ENGINE d.
Definition cmd (name : String.string) : command := match get_name (str name) with Ok c => c | Raise _ => mkCommand [] [] [] 0 D_drop 0 false [] end.
Arguments cmd name%string_scope.
Lemma cmd_named name : get_name (str name) <> Raise KeyError -> named [name] (cmd name).
Proof.
  intros H. unfold cmd. assert (K : forall e, get_name (str name) = Raise e -> e = KeyError) by (intros e; unfold get_name; destruct (dict_get _ _ _); congruence).
  destruct (get_name (str name)) as [c|e] eqn:E; [|rewrite (K e eq_refl) in H; congruence]. apply get_name_spec in E. destruct E as [I E]. split; [exact I|left; auto].
Qed.
Ltac in_tables := split; [eapply (proj1 (proj1 (get_name_spec _ _) _)) | vm_compute; auto].

(* ------------------------------------------------------------------ C19 *)
(* everything but the secondary air status *)
Theorem C19_builtin_partial : forall c p lines ms, In c all_commands -> In (p_class p) protocol_classes \/ p_class p = UnknownProtocol ->
  call p lines = Ok ms -> c_name c <> str "AIR_STATUS" -> c_name c <> str "DTC_AIR_STATUS" -> exists r, cmd_call c ms = Ok r.
Proof.
  intros c p lines ms I Hp H N1 N2. apply classes_ok' in Hp. apply safe_call; [apply all_nonneg, I| |].
  - assert (F : forallb (fun c => safe c || text_eqb (c_name c) (str "AIR_STATUS") || text_eqb (c_name c) (str "DTC_AIR_STATUS")) all_commands = true) by (vm_compute; reflexivity).
    rewrite forallb_forall in F. specialize (F c I). apply text_eqb_neq in N1, N2. rewrite N1, N2, !orb_false_r in F. exact F.
  - pose proof (call_bytes _ _ _ _ Hp H) as B. pose proof (call_frames p lines ms Hp H) as N. rewrite Forall_forall in *. auto.
Qed.
(* the secondary air status raises exactly for the undefined bits 4-7 alone *)
Theorem C19_air_status_exact : forall c p lines ms, named ["AIR_STATUS"; "DTC_AIR_STATUS"] c -> In (p_class p) protocol_classes \/ p_class p = UnknownProtocol ->
  call p lines = Ok ms ->
  (exists r, cmd_call c ms = Ok r) \/ (cmd_call c ms = Raise IndexError /\ exists b, answered c ms [b] /\ In b [16; 32; 64; 128]).
Proof.
  intros c p lines ms Hn Hp H. apply classes_ok' in Hp. pose proof (call_bytes _ _ _ _ Hp H) as B. pose proof (call_frames p lines ms Hp H) as N.
  pose proof (named_check _ (fun c => match c_decode c with D_air_status => c_bytes c =? 3 | _ => false end) c Hn ltac:(vm_compute; reflexivity)) as K.
  cbv beta in K. destruct (c_decode c) eqn:D; try discriminate K. apply Z.eqb_eq in K.
  destruct Hn as [I _]. pose proof (all_nonneg c I) as Hc. pose proof (prepared_ex c ms Hc) as P.
  destruct (filter (fun m => 0 <? Z.land (c_ecu c) (m_ecu m)) ms) as [|m sel] eqn:Es.
  { left. rewrite (cmd_call_prepared c ms _ Hc P). cbn. eauto. }
  assert (W : first_with (for_it c) ms m).
  { clear -Es Hc. unfold for_it. revert m sel Es. induction ms as [|x ms IH]; intros m sel Es; [discriminate|]. cbn in Es. destruct (0 <? Z.land (c_ecu c) (m_ecu x)) eqn:L.
    - injection Es as <- _. exists [], ms. split; [reflexivity|]. split; [apply land_common; assumption|constructor].
    - destruct (IH m sel Es) as (l1 & l2 & -> & Hm & Hb). exists (x :: l1), l2. split; [reflexivity|]. split; [exact Hm|]. constructor; [|exact Hb].
      intros X. apply (land_common _ _ Hc) in X. congruence. }
  assert (Bm : Forall is_byte (m_data (constrain (c_bytes c) m))).
  { destruct W as (l1 & l2 & E & _). rewrite E in B. apply Forall_app in B. destruct B as [_ B]. inversion B; subst.
    eapply resized_bytes; [apply constrain_resized|assumption]. }
  assert (L3 : zlen (m_data (constrain (c_bytes c) m)) = 3).
  { destruct (constrain_resized (c_bytes c) m) as (_ & _ & R & _). rewrite K in R. destruct (R ltac:(lia)) as [E _]. rewrite K. exact E. }
  destruct (m_data (constrain (c_bytes c) m)) as [|h1 [|h2 [|b [|? ?]]]] eqn:Ed; try (unfold zlen in L3; cbn in L3; lia).
  assert (A : answered c ms [b]) by (exists m, h1, h2; split; [exact W|rewrite <- Ed; apply constrain_resized]).
  assert (Bb : is_byte b) by (inversion Bm as [|? ? _ Bm1]; subst; inversion Bm1 as [|? ? _ Bm2]; subst; inversion Bm2; subst; assumption).
  pose proof (eval_first c ms [b] (air_result b) I A) as Ev.
  assert (Q : match air_result b with Ok x => evaluates c ms x | Raise e => cmd_call c ms = Raise e end).
  { apply Ev. intros m' rest k1 k2 E'. rewrite D. apply (air_eq m' rest k1 k2 b Bb E'). }
  pose proof (byte_sweep (fun b => match air_result b with Ok _ => true | Raise IndexError => existsb (Z.eqb b) [16; 32; 64; 128] | _ => false end) ltac:(vm_compute; reflexivity) b Bb) as Sw.
  cbv beta in Sw. destruct (air_result b) as [x|[]]; try discriminate Sw.
  - left. destruct Q as (r & Q & _). eauto.
  - right. split; [exact Q|]. exists b. split; [exact A|]. apply existsb_exists in Sw. destruct Sw as (y & Iy & Ey). apply Z.eqb_eq in Ey. subst. exact Iy.
Qed.
Theorem C19_refuted : exists c p lines ms, In c all_commands /\ In (p_class p) protocol_classes /\ call p lines = Ok ms /\ cmd_call c ms = Raise IndexError.
Proof.
  exists (cmd "AIR_STATUS"), (mkProtocol ISO_15765_4_11bit_500k [(Some 0, ECU_ENGINE)]), [str "7E8 03 41 12 10"].
  eexists. split; [apply (cmd_named "AIR_STATUS"); vm_compute; congruence|]. split; [cbn; auto 20|]. split; vm_compute; reflexivity.
Qed.
Example C19_example : exists ms r, call can11 vin_lines = Ok ms /\ cmd_call (cmd "VIN") ms = Ok r.
Proof.
  destruct (C19_builtin_partial (cmd "VIN") can11 vin_lines (match call can11 vin_lines with Ok ms => ms | _ => [] end)) as [r H];
    [apply (cmd_named "VIN"); vm_compute; congruence|left; cbn; auto 20|vm_compute; reflexivity|vm_compute; congruence|vm_compute; congruence|].
  exists (match call can11 vin_lines with Ok ms => ms | _ => [] end), r. split; [vm_compute; reflexivity|exact H].
Qed.

(* ------------------------------------------------------------------ C20 *)
Theorem C20_trouble_codes : forall c ms sel ps codes, named ["GET_DTC"; "GET_CURRENT_DTC"] c ->
  selects (for_it c) ms sel -> sel <> [] -> Forall (fun m => Forall is_byte (m_data m)) ms ->
  byte_pairs (List.concat (map (fun m => skipn 2 (m_data m)) sel)) ps -> selects real_code ps codes ->
  exists l, evaluates c ms (VDtcs l) /\
    Forall2 (fun p e => fst e = dtc_text (fst p) (snd p) /\ described DTC (fst e) (snd e)) codes l.
Proof.
  intros c ms sel ps codes Hn S Ne B P C.
  pose proof (named_check _ (fun c => match c_decode c with D_dtc => c_bytes c =? 0 | _ => false end) c Hn ltac:(vm_compute; reflexivity)) as K.
  cbv beta in K. destruct (c_decode c) eqn:D; try discriminate K. apply Z.eqb_eq in K. destruct Hn as [I _]. pose proof (all_nonneg c I) as Hc.
  assert (Pr : prepared c ms sel).
  { exists sel. split; [exact S|]. rewrite K. clear. induction sel; constructor; [|assumption]. split; [reflexivity|]. split; [reflexivity|]. split; [lia|reflexivity]. }
  exists (map (fun p => (dtc_text (fst p) (snd p), desc_of (dtc_text (fst p) (snd p)))) codes). split.
  - pose proof (cmd_call_prepared c ms sel Hc Pr) as E. destruct sel as [|m rest]; [congruence|]. rewrite D in E. cbn [run_decoder] in E. unfold dec_dtc in E.
    assert (Fb : Forall is_byte (List.concat (map (fun m => from 2 (m_data m)) (m :: rest)))).
    { assert (Fs : Forall (fun m => Forall is_byte (m_data m)) (m :: rest)).
      { clear -S B. induction S; [constructor|inversion B; subst; constructor; auto|inversion B; subst; auto]. }
      clear -Fs. induction Fs as [|x l Hx Fs IH]; cbn; [constructor|]. apply Forall_app. split; [|exact IH].
      rewrite <- (firstn_skipn 2 (m_data x)) in Hx. apply Forall_app in Hx. apply Hx. }
    rewrite (dtc_pairs_eq _ ps Fb P) in E. cbn [rbind] in E.
    assert (Ec : codes = filter (fun p => negb ((fst p =? 0) && (snd p =? 0))) ps).
    { eapply selects_eq; [exact C|]. apply (CommandThms.selects_filter real_code (fun p => negb ((fst p =? 0) && (snd p =? 0))) ps). intros [a b]. cbn [fst snd]. unfold real_code.
      split; [intros H X; injection X as -> ->; discriminate|]. intros H. destruct (Z.eqb_spec a 0), (Z.eqb_spec b 0); cbn; try reflexivity. subst. congruence. }
    rewrite <- Ec in E. eexists. split; [exact E|reflexivity].
  - clear. induction codes as [|[a b] codes IH]; constructor; [|exact IH]. cbn [fst snd]. split; [reflexivity|]. apply dict_get_described.
Qed.
Theorem C20_code_text_injective : forall a b a' b', is_byte a -> is_byte b -> is_byte a' -> is_byte b' ->
  dtc_text a b = dtc_text a' b' -> a = a' /\ b = b'.
Proof. exact dtc_text_inj. Qed.
(* the description is determined by the code *)
Theorem C20_description_unique : forall code d1 d2, described DTC code d1 -> described DTC code d2 -> d1 = d2.
Proof. exact (described_fun DTC). Qed.
Example C20_example : exists l, evaluates (cmd "GET_DTC") [engine_message [67; 2; 1; 4; 0; 0]; engine_message [67; 1; 128; 3; 7]] (VDtcs l)
  /\ map fst l = [str "P0104"; str "B0003"].
Proof.
  assert (N : named ["GET_DTC"; "GET_CURRENT_DTC"] (cmd "GET_DTC")).
  { destruct (cmd_named "GET_DTC") as [I [E|[]]]; [vm_compute; congruence|]. split; [exact I|]. left. exact E. }
  destruct (C20_trouble_codes (cmd "GET_DTC") [engine_message [67; 2; 1; 4; 0; 0]; engine_message [67; 1; 128; 3; 7]]
     [engine_message [67; 2; 1; 4; 0; 0]; engine_message [67; 1; 128; 3; 7]] [(1, 4); (0, 0); (128, 3)] [(1, 4); (128, 3)] N) as (l & H & F).
  - apply selects_keep; [exists 1; split; reflexivity|]. apply selects_keep; [exists 1; split; reflexivity|apply selects_nil].
  - discriminate.
  - apply Forall_cons; [cbn; bytes_ok|]. apply Forall_cons; [cbn; bytes_ok|apply Forall_nil].
  - cbn. repeat constructor.
  - apply selects_keep; [unfold real_code; congruence|]. apply selects_skip; [unfold real_code; congruence|]. apply selects_keep; [unfold real_code; congruence|apply selects_nil].
  - exists l. split; [exact H|]. inversion F as [|? ? ? ? [E1 _] F1]; subst. inversion F1 as [|? ? ? ? [E2 _] F2]; subst. inversion F2; subst. cbn [map]. rewrite E1, E2. reflexivity.
Qed.

(* ------------------------------------------------------------------ C21, C22 *)
Lemma freeze_eval c ms a b : named ["FREEZE_DTC"; "DTC_FREEZE_DTC"] c -> answered c ms [a; b] -> is_byte a -> is_byte b ->
  evaluates c ms (VDtc (dtc_text a b) (desc_of (dtc_text a b))).
Proof.
  intros Hn A Ha Hb.
  pose proof (named_check _ (fun c => match c_decode c with D_single_dtc => true | _ => false end) c Hn ltac:(vm_compute; reflexivity)) as K.
  cbv beta in K. destruct (c_decode c) eqn:D; try discriminate K. destruct Hn as [I _].
  apply (eval_first c ms [a; b] (Ok (VDtc (dtc_text a b) (desc_of (dtc_text a b)))) I A). intros m rest h1 h2 E. rewrite D. cbn [run_decoder]. unfold dec_single_dtc.
  rewrite (body_cons m rest h1 h2 _ E). cbn [rbind]. rewrite (parse_dtc_eq false a b Ha Hb ltac:(discriminate)). reflexivity.
Qed.
(* a listed code without A-F in its digits: its two bytes decode to the code and description listed *)
Theorem C21_listed_codes_partial : forall code desc, In (code, desc) DTC -> ~ Exists upper_hex (tl code) ->
  exists a b, is_byte a /\ is_byte b /\ (a, b) <> (0, 0) /\ dtc_text a b = code /\
    forall c ms, named ["FREEZE_DTC"; "DTC_FREEZE_DTC"] c -> answered c ms [a; b] -> evaluates c ms (VDtc code desc).
Proof.
  intros code desc I N. destruct (listed_code code desc I N) as (a & b & Ha & Hb & Nz & T & Ds). exists a, b. do 4 (split; [assumption|]).
  intros c ms Hn A. pose proof (freeze_eval c ms a b Hn A Ha Hb) as E. rewrite T in E.
  replace desc with (desc_of code); [exact E|]. apply (described_fun DTC code); [apply dict_get_described|exact Ds].
Qed.
(* every byte pair: the description is the one listed for the code text as returned, "" if there is none *)
Theorem C21_description : forall c ms a b, named ["FREEZE_DTC"; "DTC_FREEZE_DTC"] c -> is_byte a -> is_byte b -> answered c ms [a; b] ->
  exists desc, evaluates c ms (VDtc (dtc_text a b) desc) /\ described DTC (dtc_text a b) desc.
Proof. intros c ms a b Hn Ha Hb A. exists (desc_of (dtc_text a b)). split; [apply freeze_eval; assumption|apply dict_get_described]. Qed.
(* the listed codes with A-F are never returned, and their bytes get no description *)
Theorem C21_refuted :
  (exists code desc, In (code, desc) DTC /\ Exists upper_hex (tl code))
  /\ (forall code, In code (map fst DTC) -> Exists upper_hex (tl code) -> forall a b, is_byte a -> is_byte b -> dtc_text a b <> code)
  /\ evaluates (cmd "FREEZE_DTC") [engine_message [65; 2; 10; 0]] (VDtc (str "P0a00") [])
  /\ In (str "P0A00", str "Motor Electronics Coolant Temperature Sensor Circuit") DTC.
Proof.
  split; [|split; [|split]].
  - exists (str "P0A00"), (str "Motor Electronics Coolant Temperature Sensor Circuit"). split; [|cbn; apply Exists_cons_tl, Exists_cons_hd; unfold upper_hex; lia].
    assert (F : existsb (fun e => text_eqb (fst e) (str "P0A00") && text_eqb (snd e) (str "Motor Electronics Coolant Temperature Sensor Circuit")) DTC = true) by (vm_compute; reflexivity).
    apply existsb_exists in F. destruct F as ([k v] & I & E). apply andb_prop in E. destruct E as [E1 E2]. apply text_eqb_eq in E1, E2. cbn [fst snd] in E1, E2. rewrite <- E1, <- E2. exact I.
  - intros code _ U a b Ha Hb E. subst code. exact (lower_no_upper a b Ha Hb U).
  - eexists. split; vm_compute; reflexivity.
  - assert (F : existsb (fun e => text_eqb (fst e) (str "P0A00") && text_eqb (snd e) (str "Motor Electronics Coolant Temperature Sensor Circuit")) DTC = true) by (vm_compute; reflexivity).
    apply existsb_exists in F. destruct F as ([k v] & I & E). apply andb_prop in E. destruct E as [E1 E2]. apply text_eqb_eq in E1, E2. cbn [fst snd] in E1, E2. rewrite <- E1, <- E2. exact I.
Qed.
Example C21_example : evaluates (cmd "FREEZE_DTC") [engine_message [65; 2; 1; 4]] (VDtc (str "P0104") (str "Mass or Volume Air Flow Circuit Intermittent")).
Proof.
  destruct (C21_description (cmd "FREEZE_DTC") [engine_message [65; 2; 1; 4]] 1 4) as (desc & E & Ds).
  - destruct (cmd_named "FREEZE_DTC") as [I [E|[]]]; [vm_compute; congruence|]. split; [exact I|]. left. exact E.
  - unfold is_byte; lia.
  - unfold is_byte; lia.
  - apply (head_answered _ _ _ 65 2); [apply (cmd_named "FREEZE_DTC"); vm_compute; congruence|left; reflexivity|reflexivity|reflexivity].
  - change (dtc_text 1 4) with (str "P0104") in *. pose proof (described_fun DTC _ _ _ Ds (dict_get_described DTC (str "P0104"))) as X. rewrite X in E. exact E.
Qed.
(* any pair other than 00 00 decodes as it would inside a list of codes *)
Theorem C22_freeze_code_partial : forall c ms a b, named ["FREEZE_DTC"; "DTC_FREEZE_DTC"] c -> is_byte a -> is_byte b -> answered c ms [a; b] ->
  forall g ms', named ["GET_DTC"; "GET_CURRENT_DTC"] g -> (a, b) <> (0, 0) ->
  (exists m h1 h2, ms' = [m] /\ for_it g m /\ m_data m = [h1; h2; a; b] /\ is_byte h1 /\ is_byte h2) ->
  exists code desc, evaluates c ms (VDtc code desc) /\ evaluates g ms' (VDtcs [(code, desc)]).
Proof.
  intros c ms a b Hn Ha Hb A g ms' Hg Nz (m & h1 & h2 & -> & Hm & Em & Hh1 & Hh2).
  exists (dtc_text a b), (desc_of (dtc_text a b)). split; [apply freeze_eval; assumption|].
  destruct (C20_trouble_codes g [m] [m] [(a, b)] [(a, b)] Hg) as (l & E & F).
  - apply selects_keep; [exact Hm|apply selects_nil].
  - discriminate.
  - apply Forall_cons; [|apply Forall_nil]. rewrite Em. repeat (apply Forall_cons; [assumption|]). apply Forall_nil.
  - cbn. rewrite Em. cbn. apply byte_pairs_cons. apply byte_pairs_nil.
  - apply selects_keep; [exact Nz|apply selects_nil].
  - inversion F as [|? [x y] ? ? [E1 D1] F1]; subst. inversion F1; subst. cbn [fst snd] in *. subst x.
    rewrite (described_fun DTC _ _ _ D1 (dict_get_described DTC _)) in E. exact E.
Qed.
(* no freeze frame stored (00 00): a code P0000 is reported, where a list of codes is empty *)
Theorem C22_refuted : forall c ms, named ["FREEZE_DTC"; "DTC_FREEZE_DTC"] c -> answered c ms [0; 0] -> evaluates c ms (VDtc (str "P0000") []).
Proof.
  intros c ms Hn A. pose proof (freeze_eval c ms 0 0 Hn A ltac:(unfold is_byte; lia) ltac:(unfold is_byte; lia)) as E.
  change (dtc_text 0 0) with (str "P0000") in E. replace (desc_of (str "P0000")) with (@nil Z) in E; [exact E|]. vm_compute. reflexivity.
Qed.
Example C22_example : evaluates (cmd "FREEZE_DTC") [engine_message [65; 2; 0; 0]] (VDtc (str "P0000") []).
Proof.
  apply C22_refuted.
  - destruct (cmd_named "FREEZE_DTC") as [I [E|[]]]; [vm_compute; congruence|]. split; [exact I|]. left. exact E.
  - apply (head_answered _ _ _ 65 2); [apply (cmd_named "FREEZE_DTC"); vm_compute; congruence|left; reflexivity|reflexivity|reflexivity].
Qed.

(* ------------------------------------------------------------------ C25 *)
Definition status_names := ["STATUS"; "STATUS_DRIVE_CYCLE"; "DTC_STATUS"; "DTC_STATUS_DRIVE_CYCLE"]%string.
(* a: MIL and count, b: continuous tests, c, d: supported and incomplete non-continuous tests. None is a reserved bit. *)
Theorem C25_status : forall cmd ms a b c d, named status_names cmd -> is_byte a -> is_byte b -> is_byte c -> is_byte d ->
  answered cmd ms [a; b; c; d] ->
  exists s, evaluates cmd ms (VStatus s)
    /\ st_MIL s = Z.testbit a 7 /\ st_DTC_count s = a mod 128
    /\ st_ignition_type s = (if Z.testbit b 3 then str "compression" else str "spark")
    /\ (forall i name, nth_error BASE_TESTS i = Some (Some name) ->
         dict_get otext_eqb (st_tests s) (Some name) = Some (mkStatusTest (Some name) (Z.testbit b (Z.of_nat i)) (negb (Z.testbit b (Z.of_nat i + 4)))))
    /\ (forall i name, nth_error (if Z.testbit b 3 then COMPRESSION_TESTS else SPARK_TESTS) i = Some (Some name) ->
         dict_get otext_eqb (st_tests s) (Some name) = Some (mkStatusTest (Some name) (Z.testbit c (Z.of_nat i)) (negb (Z.testbit d (Z.of_nat i)))))
    /\ (forall name, In (Some name) (if Z.testbit b 3 then SPARK_TESTS else COMPRESSION_TESTS) ->
         ~ In (Some name) (if Z.testbit b 3 then COMPRESSION_TESTS else SPARK_TESTS) ->
         dict_get otext_eqb (st_tests s) (Some name) = Some (mkStatusTest (Some []) false false)).
Proof.
  intros cm ms a b c d Hn Ha Hb Hc Hd A.
  pose proof (named_check _ (fun c => match c_decode c with D_status => true | _ => false end) cm Hn ltac:(vm_compute; reflexivity)) as K.
  cbv beta in K. destruct (c_decode cm) eqn:D; try discriminate K. destruct Hn as [I _].
  destruct (status_eq (engine_message [0; 0; a; b; c; d]) [] 0 0 a b c d Ha Hb Hc Hd eq_refl) as (s & Es & Rest).
  exists s. split; [|exact Rest]. apply (eval_first cm ms _ (Ok (VStatus s)) I A).
  intros m rest h1 h2 E. rewrite D. cbn [run_decoder]. rewrite <- Es. unfold dec_status. rewrite (body_cons _ _ h1 h2 _ E), (body_cons (engine_message [0; 0; a; b; c; d]) [] 0 0 [a; b; c; d] eq_refl). reflexivity.
Qed.
(* the monitor names by bit, as the standard lists them *)
Theorem C25_names : BASE_TESTS = map (option_map str) [Some "MISFIRE_MONITORING"; Some "FUEL_SYSTEM_MONITORING"; Some "COMPONENT_MONITORING"]%string
  /\ SPARK_TESTS = map (option_map str) [Some "CATALYST_MONITORING"; Some "HEATED_CATALYST_MONITORING"; Some "EVAPORATIVE_SYSTEM_MONITORING";
       Some "SECONDARY_AIR_SYSTEM_MONITORING"; None; Some "OXYGEN_SENSOR_MONITORING"; Some "OXYGEN_SENSOR_HEATER_MONITORING"; Some "EGR_VVT_SYSTEM_MONITORING"]%string
  /\ COMPRESSION_TESTS = map (option_map str) [Some "NMHC_CATALYST_MONITORING"; Some "NOX_SCR_AFTERTREATMENT_MONITORING"; None; Some "BOOST_PRESSURE_MONITORING";
       None; Some "EXHAUST_GAS_SENSOR_MONITORING"; Some "PM_FILTER_MONITORING"; Some "EGR_VVT_SYSTEM_MONITORING"]%string.
Proof. split; [reflexivity|]. split; reflexivity. Qed.
Example C25_example : exists s, evaluates (cmd "STATUS") [engine_message [65; 1; 131; 7; 255; 0]] (VStatus s) /\ st_MIL s = true /\ st_DTC_count s = 3.
Proof.
  destruct (C25_status (cmd "STATUS") [engine_message [65; 1; 131; 7; 255; 0]] 131 7 255 0) as (s & H & H1 & H2 & _); try (unfold is_byte; lia).
  - destruct (cmd_named "STATUS") as [I [E|[]]]; [vm_compute; congruence|]. split; [exact I|]. left. exact E.
  - apply (head_answered _ _ _ 65 1); [apply (cmd_named "STATUS"); vm_compute; congruence|left; reflexivity|reflexivity|reflexivity].
  - exists s. auto.
Qed.

(* ------------------------------------------------------------------ C26 *)
Theorem C26_o2_sensors : forall c ms b, named ["O2_SENSORS"; "DTC_O2_SENSORS"] c -> is_byte b -> answered c ms [b] ->
  evaluates c ms (VTuple [[]; map (Z.testbit b) [7; 6; 5; 4]; map (Z.testbit b) [3; 2; 1; 0]]).
Proof.
  intros c ms b Hn Hb A.
  pose proof (named_check _ (fun c => match c_decode c with D_o2_sensors => true | _ => false end) c Hn ltac:(vm_compute; reflexivity)) as K.
  cbv beta in K. destruct (c_decode c) eqn:D; try discriminate K. destruct Hn as [I _].
  apply (eval_first c ms _ (Ok _) I A). intros m rest h1 h2 E. rewrite D. exact (o2_eq m rest h1 h2 b Hb E).
Qed.
Theorem C26_o2_sensors_alt : forall c ms b, named ["O2_SENSORS_ALT"; "DTC_O2_SENSORS_ALT"] c -> is_byte b -> answered c ms [b] ->
  evaluates c ms (VTuple [[]; map (Z.testbit b) [7; 6]; map (Z.testbit b) [5; 4]; map (Z.testbit b) [3; 2]; map (Z.testbit b) [1; 0]]).
Proof.
  intros c ms b Hn Hb A.
  pose proof (named_check _ (fun c => match c_decode c with D_o2_sensors_alt => true | _ => false end) c Hn ltac:(vm_compute; reflexivity)) as K.
  cbv beta in K. destruct (c_decode c) eqn:D; try discriminate K. destruct Hn as [I _].
  apply (eval_first c ms _ (Ok _) I A). intros m rest h1 h2 E. rewrite D. exact (o2_alt_eq m rest h1 h2 b Hb E).
Qed.
Theorem C26_aux_input : forall c ms b, named ["AUX_INPUT_STATUS"; "DTC_AUX_INPUT_STATUS"] c -> is_byte b -> answered c ms [b] ->
  evaluates c ms (VBool (Z.testbit b 7)).
Proof.
  intros c ms b Hn Hb A.
  pose proof (named_check _ (fun c => match c_decode c with D_aux_input_status => true | _ => false end) c Hn ltac:(vm_compute; reflexivity)) as K.
  cbv beta in K. destruct (c_decode c) eqn:D; try discriminate K. destruct Hn as [I _].
  apply (eval_first c ms _ (Ok _) I A). intros m rest h1 h2 E. rewrite D. exact (aux_eq m rest h1 h2 b [] Hb E).
Qed.
Example C26_example : evaluates (cmd "O2_SENSORS") [engine_message [65; 19; 131]] (VTuple [[]; [true; false; false; false]; [false; false; true; true]]).
Proof.
  apply (C26_o2_sensors (cmd "O2_SENSORS") [engine_message [65; 19; 131]] 131).
  - destruct (cmd_named "O2_SENSORS") as [I [E|[]]]; [vm_compute; congruence|]. split; [exact I|]. left. exact E.
  - unfold is_byte; lia.
  - apply (head_answered _ _ _ 65 19); [apply (cmd_named "O2_SENSORS"); vm_compute; congruence|left; reflexivity|reflexivity|reflexivity].
Qed.

(* ------------------------------------------------------------------ C27 *)
(* the text for a bit-coded byte: exactly one bit set, and the table has an entry for it; "" otherwise *)
Definition bit_text (table : list text) (b : Z) (t : text) : Prop :=
  (exists k, b = 2 ^ Z.of_nat k /\ nth_error table k = Some t) \/
  ((forall k x, nth_error table k = Some x -> b <> 2 ^ Z.of_nat k) /\ t = []).
Lemma half_bit_text b : is_byte b -> bit_text FUEL_STATUS b (half_result b).
Proof.
  intros Hb. unfold half_result. destruct (find (fun k => b =? 2 ^ Z.of_nat k) (seq 0 8)) as [k|] eqn:F.
  - apply find_some in F. destruct F as [_ F]. apply Z.eqb_eq in F. destruct (nth_error FUEL_STATUS k) as [t|] eqn:N; [left; eauto|]. right. split; [|reflexivity].
    intros k' x Hx E. rewrite F in E. apply Z.pow_inj_r in E; [|lia..]. apply Nat2Z.inj in E. congruence.
  - right. split; [|reflexivity]. intros k x Hx E. assert (L : (k < 5)%nat) by (apply (nth_error_Some FUEL_STATUS); congruence).
    pose proof (find_none _ _ F k) as X. rewrite E, Z.eqb_refl in X. specialize (X ltac:(apply in_seq; lia)). discriminate.
Qed.
Theorem C27_fuel_status : forall c ms a b, named ["FUEL_STATUS"; "DTC_FUEL_STATUS"] c -> is_byte a -> is_byte b -> answered c ms [a; b] ->
  exists ta tb, bit_text FUEL_STATUS a ta /\ bit_text FUEL_STATUS b tb /\
    evaluates c ms (match ta, tb with [], [] => VNone | _, _ => VPair ta tb end).
Proof.
  intros c ms a b Hn Ha Hb A.
  pose proof (named_check _ (fun c => match c_decode c with D_fuel_status => true | _ => false end) c Hn ltac:(vm_compute; reflexivity)) as K.
  cbv beta in K. destruct (c_decode c) eqn:D; try discriminate K. destruct Hn as [I _].
  exists (half_result a), (half_result b). split; [apply half_bit_text; exact Ha|]. split; [apply half_bit_text; exact Hb|].
  apply (eval_first c ms _ (Ok _) I A). intros m rest h1 h2 E. rewrite D. cbn [run_decoder]. rewrite (fuel_eq m rest h1 h2 a b Ha Hb E).
  destruct (half_result a), (half_result b); reflexivity.
Qed.
Theorem C27_obd_compliance : forall c ms b, named ["OBD_COMPLIANCE"; "DTC_OBD_COMPLIANCE"] c -> is_byte b -> answered c ms [b] ->
  evaluates c ms (match nth_error OBD_COMPLIANCE (Z.to_nat b) with Some t => VText t | None => VNone end).
Proof.
  intros c ms b Hn Hb A.
  pose proof (named_check _ (fun c => match c_decode c with D_obd_compliance => true | _ => false end) c Hn ltac:(vm_compute; reflexivity)) as K.
  cbv beta in K. destruct (c_decode c) eqn:D; try discriminate K. destruct Hn as [I _].
  apply (eval_first c ms _ (Ok _) I A). intros m rest h1 h2 E. rewrite D. exact (compliance_eq m rest h1 h2 b Hb E).
Qed.
Theorem C27_fuel_type : forall c ms b, named ["FUEL_TYPE"; "DTC_FUEL_TYPE"] c -> is_byte b -> answered c ms [b] ->
  evaluates c ms (match nth_error FUEL_TYPES (Z.to_nat b) with Some t => VText t | None => VNone end).
Proof.
  intros c ms b Hn Hb A.
  pose proof (named_check _ (fun c => match c_decode c with D_fuel_type => true | _ => false end) c Hn ltac:(vm_compute; reflexivity)) as K.
  cbv beta in K. destruct (c_decode c) eqn:D; try discriminate K. destruct Hn as [I _].
  apply (eval_first c ms _ (Ok _) I A). intros m rest h1 h2 E. rewrite D. exact (fuel_type_eq m rest h1 h2 b [] Hb E).
Qed.
(* the secondary air status: four listed bits; the other four, alone, raise; anything else is None *)
Theorem C27_air_status_partial : forall c ms b, named ["AIR_STATUS"; "DTC_AIR_STATUS"] c -> is_byte b -> answered c ms [b] ->
  (forall k t, b = 2 ^ Z.of_nat k -> nth_error AIR_STATUS k = Some t -> evaluates c ms (VText t))
  /\ ((forall k, b <> 2 ^ Z.of_nat k) -> evaluates c ms VNone)
  /\ (In b [16; 32; 64; 128] -> cmd_call c ms = Raise IndexError).
Proof.
  intros c ms b Hn Hb A.
  pose proof (named_check _ (fun c => match c_decode c with D_air_status => true | _ => false end) c Hn ltac:(vm_compute; reflexivity)) as K.
  cbv beta in K. destruct (c_decode c) eqn:D; try discriminate K. destruct Hn as [I _].
  assert (Q : match air_result b with Ok x => evaluates c ms x | Raise e => cmd_call c ms = Raise e end).
  { apply (eval_first c ms [b] (air_result b) I A). intros m rest h1 h2 E. rewrite D. exact (air_eq m rest h1 h2 b Hb E). }
  unfold air_result in Q. split; [|split].
  - intros k t E N. assert (L : (k < 4)%nat) by (apply (nth_error_Some AIR_STATUS); congruence).
    destruct (find (fun k => b =? 2 ^ Z.of_nat k) (seq 0 8)) as [k'|] eqn:F.
    + apply find_some in F. destruct F as [_ F]. apply Z.eqb_eq in F. rewrite E in F. apply Z.pow_inj_r in F; [|lia..]. apply Nat2Z.inj in F. subst k'. rewrite N in Q. exact Q.
    + pose proof (find_none _ _ F k ltac:(apply in_seq; lia)) as X. rewrite E, Z.eqb_refl in X. discriminate.
  - intros N. destruct (find (fun k => b =? 2 ^ Z.of_nat k) (seq 0 8)) as [k'|] eqn:F; [|exact Q].
    apply find_some in F. destruct F as [_ F]. apply Z.eqb_eq in F. destruct (N k' F).
  - intros [<-|[<-|[<-|[<-|[]]]]]; exact Q.
Qed.
Theorem C27_refuted : exists c ms, named ["AIR_STATUS"] c /\ answered c ms [64] /\ cmd_call c ms = Raise IndexError.
Proof.
  exists (cmd "AIR_STATUS"), [engine_message [65; 18; 64]]. split; [apply (cmd_named "AIR_STATUS"); vm_compute; congruence|]. split; [|vm_compute; reflexivity].
  apply (head_answered _ _ _ 65 18); [apply (cmd_named "AIR_STATUS"); vm_compute; congruence|left; reflexivity|reflexivity|reflexivity].
Qed.
Example C27_example : exists ta, evaluates (cmd "FUEL_STATUS") [engine_message [65; 3; 2; 128]] (VPair ta []) /\ nth_error FUEL_STATUS 1 = Some ta.
Proof. eexists. split; [eexists; split; vm_compute; reflexivity|reflexivity]. Qed.

(* ------------------------------------------------------------------ C28 *)
Definition is_monitor (c : command) : Prop := In c all_commands /\ c_mode c = Some 6 /\ c_decode c <> D_pid.
Theorem C28_monitor_results : forall c ms m h d bs, is_monitor c -> first_with (for_it c) ms m -> m_data m = h :: d -> blocks9 d bs ->
  exists mon, evaluates c ms (VMonitor mon)
    /\ (forall tid b t, last_with (usable tid) bs b -> block_test b t -> monitor_get_tid mon tid = t)
    /\ (forall tid, Forall (fun b => ~ usable tid b) bs -> monitor_get_tid mon tid = null_test)
    /\ (forall tid name desc, In (tid, (name, desc)) TEST_IDS -> monitor_get_name mon name = monitor_get_tid mon tid)
    /\ (forall t, In t (monitor_tests mon) <-> exists tid b, last_with (usable tid) bs b /\ block_test b t)
    /\ NoDup (map t_tid (monitor_tests mon)).
Proof.
  intros c ms m h d bs (I & Hm & Nd) W E B. pose proof (all_nonneg c I) as Hc.
  assert (K : forallb (fun c => negb (oz_eqb (c_mode c) (Some 6)) || match c_decode c with D_pid => true | D_monitor => c_bytes c =? 0 | _ => false end) all_commands = true) by (vm_compute; reflexivity).
  rewrite forallb_forall in K. specialize (K c I). rewrite Hm, oz_eqb_refl in K. cbn [negb orb] in K. destruct (c_decode c) eqn:D; try discriminate K; [congruence|].
  apply Z.eqb_eq in K.
  destruct (blocks9_concat d bs B) as (_ & _ & _ & F).
  destruct (first_prepared c ms m (m_data m) Hc W) as (m' & rest & P & Em); [rewrite K; split; [lia|reflexivity]|].
  exists (fold_left mon_step bs new_monitor). split; [|split; [|split; [|split; [|split]]]].
  - pose proof (cmd_call_prepared c ms _ Hc P) as X. rewrite D in X. cbn [run_decoder] in X. rewrite (dec_monitor_eq m' rest h d bs ltac:(congruence) B) in X.
    eexists. split; [exact X|reflexivity].
  - intros tid b t Lw Bt. rewrite (get_tid_eq bs tid F). pose proof Lw as Lw'. apply (last_usable_spec tid bs b F) in Lw. rewrite Lw. cbn [get_test].
    assert (Lb : length b = 9%nat) by (destruct Lw' as (l1 & l2 & -> & _); rewrite Forall_forall in F; apply F, in_or_app; right; left; reflexivity).
    apply (block_test_iff b t Lb) in Bt. rewrite Bt. reflexivity.
  - intros tid N. rewrite (get_tid_eq bs tid F). destruct (last_usable tid bs None) as [b|] eqn:El; [|reflexivity].
    apply (last_usable_spec tid bs b F) in El. destruct El as (l1 & l2 & -> & U & _). rewrite Forall_forall in N. destruct (N b); [apply in_or_app; right; left; reflexivity|exact U].
  - intros tid name desc It. apply (name_lookup bs tid name desc F It).
  - intros t. apply tests_In. exact F.
  - apply tests_ids_NoDup. exact F.
Qed.
(* every 9-byte block with a known units id stands for exactly one test *)
Theorem C28_block_test : forall tid b, List.length b = 9%nat -> usable tid b ->
  exists! t, block_test b t.
Proof.
  intros tid b L U. pose proof (proj1 (usable_iff tid b L) U) as H. destruct (test_of b) as [t|] eqn:E; [|rewrite andb_false_r in H; discriminate].
  exists t. split; [apply block_test_iff; assumption|]. intros t' H'. apply (block_test_iff b t' L) in H'. congruence.
Qed.
(* every byte string has exactly one division into blocks *)
Theorem C28_blocks : forall d, exists! bs, blocks9 d bs.
Proof.
  assert (G : forall n d, (List.length d <= n)%nat -> exists bs, blocks9 d bs).
  { induction n as [|n IH]; intros d L; [exists []; constructor; lia|]. destruct (Nat.ltb_spec (List.length d) 9) as [X|X]; [exists []; constructor; exact X|].
    destruct (IH (skipn 9 d)) as [bs H]; [rewrite skipn_length; lia|]. exists (firstn 9 d :: bs). rewrite <- (firstn_skipn 9 d) at 1. constructor; [rewrite firstn_length; lia|exact H]. }
  intros d. destruct (G _ d (Nat.le_refl _)) as [bs H]. exists bs. split; [exact H|]. clear G.
  induction H as [d L|b d bs Lb H IH]; intros bs' H'; inversion H' as [d' L'|b' d' bs1 Lb' H1 E]; subst; try reflexivity.
  - rewrite app_length in L. lia.
  - rewrite app_length in L'. lia.
  - assert (b' = b /\ d' = d) as [-> ->].
    { pose proof (f_equal (firstn 9) E) as E1. pose proof (f_equal (skipn 9) E) as E2. rewrite <- Lb' in E1 at 1. rewrite <- Lb in E1 at 1. 
      rewrite !firstn_app, !firstn_all, !Nat.sub_diag, !firstn_O, !app_nil_r in E1. subst. split; [reflexivity|]. apply app_inv_head in E. exact E. }
    f_equal. apply IH. exact H1.
Qed.
Example C28_example : exists mon, evaluates (cmd "MONITOR_O2_B1S1") [engine_message ([70] ++ [1; 1; 10; 11; 176; 11; 176; 11; 176] ++ [1; 5; 16; 0; 72; 0; 0; 0; 100] ++ [1; 2])] (VMonitor mon)
  /\ List.length (monitor_tests mon) = 2%nat /\ t_name (monitor_get_tid mon 5) = Some (str "RTL_SWITCH_TIME").
Proof.
  eexists. split; [eexists; split; vm_compute; reflexivity|]. split; vm_compute; reflexivity.
Qed.
Example C28_hypotheses : is_monitor (cmd "MONITOR_O2_B1S1") /\
  blocks9 ([1; 1; 10; 11; 176; 11; 176; 11; 176] ++ [1; 5; 16; 0; 72; 0; 0; 0; 100] ++ [1; 2]) [[1; 1; 10; 11; 176; 11; 176; 11; 176]; [1; 5; 16; 0; 72; 0; 0; 0; 100]]
  /\ last_with (usable 5) [[1; 1; 10; 11; 176; 11; 176; 11; 176]; [1; 5; 16; 0; 72; 0; 0; 0; 100]] [1; 5; 16; 0; 72; 0; 0; 0; 100].
Proof.
  split; [split; [apply (cmd_named "MONITOR_O2_B1S1"); vm_compute; congruence|split; [vm_compute; reflexivity|vm_compute; congruence]]|]. split.
  - apply blocks9_more; [reflexivity|]. apply blocks9_more; [reflexivity|]. apply blocks9_rest. cbn. lia.
  - exists [[1; 1; 10; 11; 176; 11; 176; 11; 176]], []. split; [reflexivity|]. split; [|constructor]. split; [reflexivity|]. cbn. auto 30.
Qed.

(* ------------------------------------------------------------------ C30 *)
(* w: white space, p: control bytes 0-2; the text neither begins nor ends with white space, a control byte or one of \ x 0 1 2 *)
Theorem C30_text_partial : forall c ms (d w1 p1 s p2 w2 : bytes), named ["VIN"; "CALIBRATION_ID"] c -> answered c ms d ->
  d = w1 ++ p1 ++ s ++ p2 ++ w2 -> Forall white w1 -> Forall pad_byte p1 -> Forall pad_byte p2 -> Forall white w2 ->
  (exists x t, s = x :: t /\ ~ white x /\ ~ In x [0; 1; 2; 92; 120; 48; 49; 50]) ->
  (exists t x, s = t ++ [x] /\ ~ white x /\ ~ In x [0; 1; 2; 92; 120; 48; 49; 50]) -> evaluates c ms (VBytes s).
Proof.
  intros c ms d w1 p1 s p2 w2 Hn A -> H1 H2 H3 H4 H5 H6.
  pose proof (named_check _ (fun c => match c_decode c with D_encoded_string n => (n + 2 <=? c_bytes c) && (2 <? c_bytes c) | _ => false end) c Hn ltac:(vm_compute; reflexivity)) as K.
  cbv beta in K. destruct (c_decode c) eqn:D; try discriminate K. destruct Hn as [I _].
  assert (L : length_ <= zlen (w1 ++ p1 ++ s ++ p2 ++ w2)).
  { destruct A as (m & h1 & h2 & _ & R & _). destruct (R ltac:(lia)) as [R1 _]. unfold zlen. cbn [List.length] in R1. lia. }
  apply (eval_first c ms _ (Ok _) I A). intros m rest h1 h2 E. rewrite D. cbn [run_decoder]. unfold dec_encoded_string, decode_encoded_string.
  rewrite (body_cons m rest h1 h2 _ E). cbn [rbind]. replace (zlen (w1 ++ p1 ++ s ++ p2 ++ w2) <? length_) with false by lia. cbn [rbind].
  rewrite (padded_text w1 p1 s p2 w2 H1 H2 H3 H4 H5 H6). reflexivity.
Qed.
(* what is removed in general: white space at the ends, then the characters 0-2 (as bytes and as digits), \ and x at the ends *)
Theorem C30_removed : forall c ms d, named ["VIN"; "CALIBRATION_ID"] c -> answered c ms d ->
  exists w1 p1 s p2 w2, d = w1 ++ p1 ++ s ++ p2 ++ w2 /\ evaluates c ms (VBytes s) /\ Forall white w1 /\ Forall white w2
    /\ Forall (fun x => In x [0; 1; 2; 92; 120; 48; 49; 50]) (p1 ++ p2).
Proof.
  intros c ms d Hn A.
  pose proof (named_check _ (fun c => match c_decode c with D_encoded_string n => (n + 2 <=? c_bytes c) && (2 <? c_bytes c) | _ => false end) c Hn ltac:(vm_compute; reflexivity)) as K.
  cbv beta in K. destruct (c_decode c) eqn:D; try discriminate K. destruct Hn as [I _].
  assert (L : length_ <= zlen d).
  { destruct A as (m & h1 & h2 & _ & R & _). destruct (R ltac:(lia)) as [R1 _]. unfold zlen. cbn [List.length] in R1. lia. }
  destruct (strip_ex bspace d) as (w1 & w2 & E1 & F1 & F2 & _). destruct (strip_ex string_padding (strip_by bspace d)) as (p1 & p2 & E2 & F3 & F4 & _).
  exists w1, p1, (strip_by string_padding (strip_by bspace d)), p2, w2. split; [|split; [|split; [|split]]].
  - rewrite E1 at 1. rewrite E2 at 1. rewrite <- !app_assoc. reflexivity.
  - apply (eval_first c ms _ (Ok _) I A). intros m rest h1 h2 E. rewrite D. cbn [run_decoder]. unfold dec_encoded_string, decode_encoded_string.
    rewrite (body_cons m rest h1 h2 _ E). cbn [rbind]. replace (zlen d <? length_) with false by lia. reflexivity.
  - eapply Forall_impl; [|exact F1]. intros a Ha. apply white_iff. exact Ha.
  - eapply Forall_impl; [|exact F2]. intros a Ha. apply white_iff. exact Ha.
  - apply Forall_app. split; (eapply Forall_impl; [|eassumption]); intros a Ha; apply strip_set_iff; exact Ha.
Qed.
(* a VIN beginning with 1 and ending with 2 loses both; a 16-character calibration id after the count byte loses its last character *)
Theorem C30_vin_refuted :
  evaluates (cmd "VIN") [engine_message ([73; 2; 1] ++ str "1HGCM82633A004352")] (VBytes (str "HGCM82633A00435")).
Proof. eexists. split; vm_compute; reflexivity. Qed.
Theorem C30_calibration_refuted :
  evaluates (cmd "CALIBRATION_ID") [engine_message ([73; 4; 1] ++ str "JMB*36761500ABCD")] (VBytes (str "JMB*36761500ABC")).
Proof. eexists. split; vm_compute; reflexivity. Qed.
Example C30_example : evaluates (cmd "VIN") [engine_message ([73; 2; 1] ++ str "WP0ZZZ99ZTS392124")] (VBytes (str "WP0ZZZ99ZTS392124")).
Proof.
  apply (C30_text_partial (cmd "VIN") _ ([] ++ [1] ++ str "WP0ZZZ99ZTS392124" ++ [0; 0] ++ []) [] [1] (str "WP0ZZZ99ZTS392124") [0; 0] []).
  - destruct (cmd_named "VIN") as [I [E|[]]]; [vm_compute; congruence|]. split; [exact I|]. left. exact E.
  - apply (head_answered _ _ _ 73 2); [apply (cmd_named "VIN"); vm_compute; congruence|left; reflexivity|reflexivity|reflexivity].
  - reflexivity.
  - apply Forall_nil.
  - apply Forall_cons; [unfold pad_byte; lia|apply Forall_nil].
  - apply Forall_cons; [unfold pad_byte; lia|]. apply Forall_cons; [unfold pad_byte; lia|apply Forall_nil].
  - apply Forall_nil.
  - exists 87, (str "P0ZZZ99ZTS392124"). split; [reflexivity|]. split; [unfold white; lia|cbn; lia].
  - exists (str "WP0ZZZ99ZTS39212"), 52. split; [reflexivity|]. split; [unfold white; lia|cbn; lia].
Qed.

(* ------------------------------------------------------------------ C31 *)
(* the adapter answered with text lines only *)
Theorem C31_engine_commands_partial : forall c p lines, In c all_commands -> c_ecu c = ECU_ENGINE -> Forall (fun l => ~ hex_line l) lines ->
  exists ms r, call p lines = Ok ms /\ cmd_call c ms = Ok r /\ is_null r = true.
Proof.
  intros c p lines I E F. exists (map (fun l => mkMessage [new_frame l] ECU_UNKNOWN []) lines), (mkResponse (Some c) [] VNone).
  split; [apply text_only; exact F|]. split; [|reflexivity]. unfold cmd_call. rewrite E.
  replace (filter _ _) with (@nil message); [reflexivity|]. symmetry. clear. induction lines as [|l ls IH]; cbn; [reflexivity|exact IH].
Qed.
(* exactly which built-in commands answer null to text (lines <> []): those for the engine, and CLEAR_DTC *)
Theorem C31_exact : forall c p lines, In c all_commands -> c_ecu c <> ECU_UNKNOWN -> lines <> [] -> Forall (fun l => ~ hex_line l) lines ->
  exists ms r, call p lines = Ok ms /\ cmd_call c ms = Ok r /\ (is_null r = true <-> c_ecu c = ECU_ENGINE \/ c_name c = str "CLEAR_DTC").
Proof.
  intros c p lines I Nu Ne F. destruct (ecu_kinds c I) as [E|[E|E]]; [|congruence|].
  - destruct (C31_engine_commands_partial c p lines I E F) as (ms & r & H1 & H2 & H3). exists ms, r. tauto.
  - destruct lines as [|l lines]; [congruence|]. destruct (text_all c l lines I E) as (v & Hv & Hn).
    exists (map (fun l => mkMessage [new_frame l] ECU_UNKNOWN []) (l :: lines)).
    exists (mkResponse (Some c) (map (constrain (c_bytes c)) (map (fun l => mkMessage [new_frame l] ECU_UNKNOWN []) (l :: lines))) v).
    split; [apply text_only; exact F|]. split.
    + unfold cmd_call. rewrite E. replace (filter _ _) with (map (fun l => mkMessage [new_frame l] ECU_UNKNOWN []) (l :: lines)).
      * cbn [map nonempty]. cbn [map] in Hv. rewrite Hv. reflexivity.
      * symmetry. apply forallb_filter_all. intros x Hx. apply in_map_iff in Hx. destruct Hx as (y & <- & _). reflexivity.
    + unfold is_null. cbn [r_messages map nonempty negb orb r_value]. rewrite E. destruct v; cbn [is_none]; split; intros H; try discriminate H; try tauto;
        try (right; apply Hn; reflexivity); destruct H as [H|H]; try discriminate H; apply Hn in H; discriminate H.
Qed.
Theorem C31_refuted : exists c p lines ms r, In c all_commands /\ c_ecu c <> ECU_UNKNOWN /\ lines = [str "NO DATA"]
  /\ call p lines = Ok ms /\ cmd_call c ms = Ok r /\ is_null r = false /\ r_value r = VDtcs [].
Proof.
  exists (cmd "GET_DTC"), can11, [str "NO DATA"]. do 2 eexists. split; [apply (cmd_named "GET_DTC"); vm_compute; congruence|].
  split; [vm_compute; congruence|]. split; [reflexivity|]. split; [vm_compute; reflexivity|]. split; [vm_compute; reflexivity|]. split; vm_compute; reflexivity.
Qed.
Example C31_example : exists r, cmd_call (cmd "RPM") [mkMessage [new_frame (str "NO DATA")] ECU_UNKNOWN []] = Ok r /\ is_null r = true.
Proof.
  destruct (C31_engine_commands_partial (cmd "RPM") can11 [str "NO DATA"]) as (ms & r & H1 & H2 & H3).
  - apply (cmd_named "RPM"); vm_compute; congruence.
  - reflexivity.
  - apply Forall_cons; [|apply Forall_nil]. intros X. apply hex_line_isHex in X. vm_compute in X. discriminate.
  - exists r. vm_compute in H1. injection H1 as <-. auto.
Qed.

(* ------------------------------------------------------------------ C65 *)
(* a legacy answer to 07 in one line (47, then the code bytes): what GET_CURRENT_DTC reports starts one byte late *)
Theorem C65_closed_form_partial : forall p t line d, pc_family (p_class p) = FLegacy -> legacy_from t line (71 :: d) ->
  exists m, call p [line] = Ok [m] /\ m_data m = 71 :: d /\
  forall c ps codes, named ["GET_CURRENT_DTC"] c -> for_it c m -> byte_pairs (skipn 1 d) ps -> selects real_code ps codes ->
  exists l, evaluates c [m] (VDtcs l) /\ Forall2 (fun p e => fst e = dtc_text (fst p) (snd p) /\ described DTC (fst e) (snd e)) codes l.
Proof.
  intros p t line d Ec Hl. destruct (legacy_single p t line 71 d Ec Hl ltac:(lia)) as (m & H & Ed & _). exists m. split; [exact H|]. split; [exact Ed|].
  intros c ps codes [I Hn] Hf Hp Hs. apply (C20_trouble_codes c [m] [m] ps codes).
  - split; [exact I|]. destruct Hn as [<-|[]]. cbn. auto.
  - apply selects_keep; [exact Hf|apply selects_nil].
  - discriminate.
  - apply Forall_cons; [|apply Forall_nil]. rewrite Ed. destruct Hl as (b1 & b2 & ck & F & _). apply Forall_app in F. destruct F as [_ F]. apply Forall_app in F. apply F.
  - cbn [map List.concat]. rewrite app_nil_r, Ed. exact Hp.
  - exact Hs.
Qed.
(* the same single code P0104, asked with 03 and with 07 *)
Theorem C65_refuted : exists m3 m7,
  call legacy1 [str "48 6B 10 43 01 04 00 00 00 00 00"] = Ok [m3] /\ evaluates (cmd "GET_DTC") [m3] (VDtcs [(str "P0104", str "Mass or Volume Air Flow Circuit Intermittent")])
  /\ call legacy1 [str "48 6B 10 47 01 04 00 00 00 00 00"] = Ok [m7]
  /\ evaluates (cmd "GET_CURRENT_DTC") [m7] (VDtcs [(str "P0400", str "Exhaust Gas Recirculation Flow")]).
Proof.
  do 2 eexists. split; [vm_compute; reflexivity|]. split; [eexists; split; vm_compute; reflexivity|]. split; [vm_compute; reflexivity|]. eexists; split; vm_compute; reflexivity.
Qed.

Print Assumptions C19_builtin_partial.
Print Assumptions C19_air_status_exact.
Print Assumptions C20_trouble_codes.
Print Assumptions C21_listed_codes_partial.
Print Assumptions C22_freeze_code_partial.
Print Assumptions C25_status.
Print Assumptions C26_o2_sensors.
Print Assumptions C27_fuel_status.
Print Assumptions C28_monitor_results.
Print Assumptions C30_text_partial.
Print Assumptions C31_exact.
Print Assumptions C65_closed_form_partial.
