(* Properties C49, C81 (continued) and C110: what is made of the car's listings of what it supports, and the listing of mode 09 in particular. *)
From Coq Require Import ZArith List Bool Lia String.
From Verif Require Import Py Num Utils Protocol Decoders Command CommandTable Commands World Elm Obd SpecWire SpecBits SpecProto SpecCmd SpecElm SpecObd SpecE2E SpecConnect
  PyFacts WireFacts ProtocolFacts WireFacts CommandThms DecoderThms DecoderThms3 ElmFacts ElmThms ObdThms2 ObdThms6 E2EThms4 Properties_Protocol Properties_Commands Properties_Decoders Properties_Elm Properties_Obd Properties_EndToEnd
  ConnectThms ConnectThms2 Examples Properties_Connect.
Import ListNotations.
Open Scope string_scope. Open Scope list_scope. Open Scope Z_scope.

(* a listing command: the ten of C49_listings *)
Definition is_listing (g : command) : Prop := In g all_commands /\ In (c_name g) listing_names.
Lemma same_name (L : list command) x y : NoDup (map c_name L) -> In x L -> In y L -> c_name x = c_name y -> x = y.
Proof.
  induction L as [|z L IH]; cbn [map In]; [tauto|]. intros D Ix Iy E. inversion D as [|? ? Nz D']; subst. destruct Ix as [<-|Ix], Iy as [<-|Iy]; auto.
  - exfalso. apply Nz. rewrite E. apply in_map, Iy.
  - exfalso. apply Nz. rewrite <- E. apply in_map, Ix.
Qed.
Lemma by_names (L G : list command) (names : list text) g : NoDup (map c_name L) -> incl G L -> incl names (map c_name G) -> In g L -> In (c_name g) names -> In g G.
Proof.
  intros D S N I H. apply N in H. apply in_map_iff in H as (x & E & X). rewrite <- (same_name L x g D (S x X) I E). exact X.
Qed.
Lemma getters_in : incl pid_getters all_commands.
Proof. intros x X. pose proof (proj2 C49_listings) as A. rewrite Forall_forall in A. exact (A x X). Qed.
Lemma getter_names : incl listing_names (map c_name pid_getters).
Proof. rewrite (proj1 C49_listings). apply incl_refl. Qed.
Lemma listing_getter g : is_listing g -> In g pid_getters.
Proof. intros [I N]. exact (by_names all_commands pid_getters listing_names g (proj1 C63_unique) getters_in getter_names I N). Qed.

(* the answer to a listing, whole: two bytes, then the bits, the most significant first; cut or filled up with zeros to the length the command has *)
Theorem C81_listing : forall g p lines q h1 data h2 d, is_listing g -> reading g p lines q -> speaks p (c_ecu g) lines (h1 :: data) -> h1 <> 67 ->
  resized (c_bytes g) (h1 :: data) (h1 :: h2 :: d) ->
  exists a, r_value q = VBits a /\ ba_iter a = bits_of d /\ ba_len a = 8 * Z.of_nat (List.length d)
    /\ forall i, ba_get a i = if (0 <=? i) && (i <? 8 * Z.of_nat (List.length d)) then bit_of d (Z.to_nat i) else false.
Proof.
  intros g p lines q h1 data h2 d G R S H Rz. destruct (C67_payload g p lines q _ R S ltac:(congruence)) as (ms & m & _ & W & E & V).
  assert (Fb : Forall is_byte (m_data m)) by (rewrite E; destruct S as (u & ls & _ & D & _); exact (delivers_bytes _ _ _ _ D)).
  destruct (bits_answer g ms m h1 h2 d (listing_getter g G) W ltac:(rewrite E; exact Rz) Fb) as (r & C & _ & Vr).
  assert (Fd : Forall is_byte d). { rewrite E in Fb. apply (resized_bytes _ _ _ Rz) in Fb. inversion Fb as [|? ? _ F1]; subst. inversion F1; assumption. }
  exists (ba_of d). rewrite <- (bits_ba d Fd) in Vr. split; [congruence|]. split; [exact (bits_ba d Fd)|]. split; [apply Properties_Utils.C32_length, Fd|].
  intros i. apply Properties_Utils.C32_elements, Fd.
Qed.

(* ------------------------------------------------------------------ C110 *)
Lemma map_seq_at {A} (f : nat -> A) n i : nth_error (map f (seq 0 n)) i = if (i <? n)%nat then Some (f i) else None.
Proof.
  destruct (i <? n)%nat eqn:L.
  - apply Nat.ltb_lt in L. rewrite (nth_error_nth' _ (f 0%nat)) by (rewrite map_length, seq_length; exact L). rewrite map_nth, seq_nth by exact L. reflexivity.
  - apply Nat.ltb_ge in L. apply nth_error_None. rewrite map_length, seq_length. exact L.
Qed.
(* asking one list of listings and then another *)
Lemma lists_app p gs1 sup l1 sup1 : car_lists p gs1 sup l1 sup1 -> forall gs2 l2 sup2, car_lists p gs2 sup1 l2 sup2 -> car_lists p (gs1 ++ gs2) sup (l1 ++ l2) sup2.
Proof.
  induction 1; intros gs2 l2 sup2 L2; cbn [app]; [exact L2|apply cl_skip; auto| |].
  - rewrite <- app_assoc. eapply cl_text; eauto.
  - rewrite <- app_assoc. eapply cl_bits; eauto.
Qed.
(* the other listings do not touch mode 09 *)
Lemma lists_other p gs sup l sup' : car_lists p gs sup l sup' -> Forall (fun g => c_mode g <> Some 9) gs -> forall x, c_mode x = Some 9 -> (In x sup' <-> In x sup).
Proof.
  induction 1 as [sup|g gs sup rs sup' _ _ IH|g gs sup a l rs sup' _ _ _ _ IH|g gs sup a lines h1 h2 data d sup1 rs sup' _ _ _ _ _ _ E _ IH]; intros F x M; [tauto|inversion F; auto|inversion F; auto|].
  inversion F as [|? ? Ng F']; subst. rewrite (IH F' x M), E. unfold announces; cbv zeta. split; [intros [I|(mode & pid & i & Em & _ & _ & _ & _ & K)]; [exact I|destruct K as [K|[_ K]]; congruence]|auto].
Qed.
Lemma not_mode9 : Forall (fun g => c_mode g <> Some 9) (removelast pid_getters).
Proof.
  apply Forall_forall. intros y Yi. assert (F : forallb (fun y => negb (oz_eqb (c_mode y) (Some 9))) (removelast pid_getters) = true) by (vm_compute; reflexivity).
  rewrite forallb_forall in F. specialize (F y Yi). intros E. rewrite E in F. discriminate F.
Qed.
Lemma getters_split : removelast pid_getters ++ [cmd "PIDS_9A"] = pid_getters.
Proof. vm_compute. reflexivity. Qed.
(* the mode 09 commands there are: PIDS_9A and the six documented ones *)
Lemma mode9_pids : forallb (fun x => negb (oz_eqb (c_mode x) (Some 9)) || match c_pid x with Some n => (0 <=? n) && (n <=? 6) && ((n =? 0) || negb (existsb (text_eqb (c_name x)) base_names)) | None => false end) all_commands = true.
Proof. vm_compute. reflexivity. Qed.
Lemma mode9_pid x : In x all_commands -> c_mode x = Some 9 -> exists n, c_pid x = Some n /\ 0 <= n <= 6 /\ (n <> 0 -> ~ is_base x).
Proof.
  intros I M. pose proof mode9_pids as F. rewrite forallb_forall in F. specialize (F x I). rewrite M in F. cbn [oz_eqb negb orb] in F.
  destruct (c_pid x) as [n|]; [|discriminate F]. exists n. apply andb_prop in F as [F B]. apply andb_prop in F as [F1 F2]. apply Z.leb_le in F1, F2. split; [reflexivity|]. split; [lia|].
  intros N [_ Bn]. apply Z.eqb_neq in N. rewrite N in B. cbn [orb] in B. apply negb_true_iff in B. rewrite <- not_true_iff_false in B. apply B. apply existsb_exists. exists (c_name x). split; [exact Bn|apply text_eqb_iff; reflexivity].
Qed.

(* A willing adapter and car (C77). The car answers the listings of the modes 01 and 06 as it likes, and the one of mode 09, which comes last, with 49 00 and the bytes bs.
   Then of the mode 09 commands (01 to 06) exactly those are supported whose bit, counted from the first byte of bs, is set. *)
Definition listed_at (d : bytes) (n : Z) : Prop := bit_of d (Z.to_nat (n - 1)) = true.
Theorem C110_found_partial : forall cf port scan name w br b id c r p ls rs base l1 sup1 a lines bs rest,
  (port = Some name \/ port = None /\ scan = [name]) ->
  calm w -> w_reads w = br ++ rs ++ (l1 ++ a) ++ rest ->
  finding_baud name (cf_baudrate cf) br b ->
  willing (cf_check_voltage cf) (cf_protocol cf) id r ls -> replies ls rs -> lookup id = Some c -> new_protocol c r = Ok p ->
  (forall x, In x base <-> is_base x) -> car_lists p (removelast pid_getters) base l1 sup1 ->
  reply a lines -> (exists ms, call p lines = Ok ms) -> speaks p ECU_ALL lines (73 :: 0 :: bs) -> (4 <= List.length bs <= 5)%nat ->
  exists o w', new_obd cf port scan w = (Ok tt, (o, w')) /\ obd_status o = CAR_CONNECTED /\ w_reads w' = rest /\
    forall x n, In x all_commands -> c_mode x = Some 9 -> c_pid x = Some n -> n <> 0 -> (In x (o_supported o) <-> listed_at bs n).
Proof.
  intros cf port scan name w br b id c r p ls rs base l1 sup1 a lines bs rest Hp C Rw FB Wl Rp Lk Np Hb Cl Y Ok1 Sp Ln.
  set (g := cmd "PIDS_9A").
  assert (Rz : exists pad, resized (c_bytes g) (73 :: 0 :: bs) (73 :: 0 :: (bs ++ pad)) /\ Forall (eq 0) pad /\ (List.length (bs ++ pad) = 5)%nat).
  { change (c_bytes g) with 7. destruct (Nat.eq_dec (List.length bs) 5) as [L|L].
    - exists []. rewrite app_nil_r. split; [split; [intros _; split; [cbn [List.length]; lia|left; exists []; rewrite app_nil_r; reflexivity]|lia]|]. split; [constructor|exact L].
    - exists [0]. assert (L5 : List.length (bs ++ [0]) = 5%nat) by (rewrite app_length; cbn; lia). split; [|split; [constructor; [reflexivity|constructor]|exact L5]].
      split; [intros _; split; [cbn [List.length]; lia|right; exists [0]; split; [reflexivity|constructor; [reflexivity|constructor]]]|lia]. }
  destruct Rz as (pad & Rz & Fp & L5).
  (* PIDS_9A is base and not taken out, so it may be asked for *)
  assert (S1 : In g sup1).
  { apply (lists_other p (removelast pid_getters) base l1 sup1 Cl not_mode9); [reflexivity|]. apply Hb. split; [apply (cmd_named "PIDS_9A"); vm_compute; congruence|vm_compute; tauto]. }
  assert (ML : may_list p sup1 g) by (split; [exists g; auto|intros E; exfalso; vm_compute in E; discriminate E]).
  assert (exists sup2, forall x, In x sup2 <-> In x sup1 \/ announces g (bits_of (bs ++ pad)) x) as (sup2 & E2).
  { exists (sup1 ++ enable_bits 9 0 (bits_of (bs ++ pad)) [])%list.
    destruct (enable_announces g 9 0 (bits_of (bs ++ pad)) []) as [_ E0]; [reflexivity|reflexivity|constructor|].
    intros x. rewrite in_app_iff. apply or_iff_compat_l. rewrite E0. cbn [In]. tauto. }
  assert (Cl2 : car_lists p [g] sup1 a sup2).
  { rewrite <- (app_nil_r a). apply (cl_bits p g [] sup1 a lines 73 0 (0 :: bs) (bs ++ pad) sup2 [] sup2); auto; [discriminate|constructor]. }
  pose proof (lists_app p _ _ _ _ Cl _ _ _ Cl2) as Cl3. unfold g in Cl3. rewrite getters_split in Cl3.
  destruct (C77_connects cf port scan name w br b id c r p ls rs base (l1 ++ a) sup2 rest Hp C Rw FB Wl Rp Lk Np Hb Cl3) as (o & w' & N & St & _ & _ & _ & _ & Su & Rr & _).
  exists o, w'. split; [exact N|]. split; [exact St|]. split; [exact Rr|]. intros x n Ix M Pn Nn. rewrite Su, E2.
  destruct (mode9_pid x Ix M) as (n' & Pn' & Rn & Nb). assert (n' = n) by congruence. subst n'.
  rewrite (lists_other p (removelast pid_getters) base l1 sup1 Cl not_mode9 x M).
  rewrite Hb. unfold listed_at. assert (Bit : bit_of (bs ++ pad) (Z.to_nat (n - 1)) = bit_of bs (Z.to_nat (n - 1))).
  { unfold bit_of. rewrite app_nth1; [reflexivity|]. apply Nat.div_lt_upper_bound; lia. }
  rewrite <- Bit. unfold announces; cbv zeta. split.
  - intros [B|(mode & pid & i & Em & Ep & Nt & _ & Eq & _)]; [exfalso; exact (Nb Nn B)|].
    change (c_pid g) with (Some 0) in Ep. injection Ep as <-. rewrite Pn in Eq. replace (Z.to_nat (n - 1)) with i by lia.
    unfold bits_of in Nt. rewrite map_seq_at in Nt. destruct (i <? _)%nat; [congruence|discriminate Nt].
  - intros B. right. exists 9, 0, (Z.to_nat (n - 1)). split; [reflexivity|]. split; [reflexivity|]. split.
    + unfold bits_of. rewrite map_seq_at. assert (Li : (Z.to_nat (n - 1) <? nbits (bs ++ pad) = true)%nat) by (apply Nat.ltb_lt; unfold nbits; rewrite L5; lia). rewrite Li. f_equal. exact B.
    + split; [exact Ix|]. rewrite Pn. split; [lia|left; exact M].
Qed.

(* CAN, where the standard has four bytes of bits: the commands the car lists, and no others *)
Theorem C110_can_partial : forall cf port scan name w br b id c r p ls rs base l1 sup1 a lines b1 b2 b3 b4 rest,
  (port = Some name \/ port = None /\ scan = [name]) ->
  calm w -> w_reads w = br ++ rs ++ (l1 ++ a) ++ rest ->
  finding_baud name (cf_baudrate cf) br b ->
  willing (cf_check_voltage cf) (cf_protocol cf) id r ls -> replies ls rs -> lookup id = Some c -> new_protocol c r = Ok p ->
  (forall x, In x base <-> is_base x) -> car_lists p (removelast pid_getters) base l1 sup1 ->
  reply a lines -> (exists ms, call p lines = Ok ms) -> speaks p ECU_ALL lines [73; 0; b1; b2; b3; b4] ->
  exists o w', new_obd cf port scan w = (Ok tt, (o, w')) /\ obd_status o = CAR_CONNECTED /\
    forall x n, In x all_commands -> c_mode x = Some 9 -> c_pid x = Some n -> n <> 0 -> (In x (o_supported o) <-> listed_at [b1; b2; b3; b4] n).
Proof.
  intros cf port scan name w br b id c r p ls rs base l1 sup1 a lines b1 b2 b3 b4 rest H1 H2 H3 H4 H5 H6 H7 H8 H9 H10 H11 H12 H13.
  edestruct C110_found_partial as (o & w' & A1 & A2 & _ & A3); [exact H1|exact H2|exact H3|exact H4|exact H5|exact H6|exact H7|exact H8|exact H9|exact H10|exact H11|exact H12|exact H13|cbn; lia|eauto].
Qed.
(* On the older protocols the standard has the number of messages, 01, before the four bytes of bits. The code takes it for the first eight bits: whatever
   the car lists, none of the commands is supported. *)
Theorem C110_older_refuted : forall cf port scan name w br b id c r p ls rs base l1 sup1 a lines b1 b2 b3 b4 rest,
  (port = Some name \/ port = None /\ scan = [name]) ->
  calm w -> w_reads w = br ++ rs ++ (l1 ++ a) ++ rest ->
  finding_baud name (cf_baudrate cf) br b ->
  willing (cf_check_voltage cf) (cf_protocol cf) id r ls -> replies ls rs -> lookup id = Some c -> new_protocol c r = Ok p ->
  (forall x, In x base <-> is_base x) -> car_lists p (removelast pid_getters) base l1 sup1 ->
  reply a lines -> (exists ms, call p lines = Ok ms) -> speaks p ECU_ALL lines [73; 0; 1; b1; b2; b3; b4] ->
  exists o w', new_obd cf port scan w = (Ok tt, (o, w')) /\ obd_status o = CAR_CONNECTED /\
    forall x n, In x all_commands -> c_mode x = Some 9 -> c_pid x = Some n -> n <> 0 -> ~ In x (o_supported o).
Proof.
  intros cf port scan name w br b id c r p ls rs base l1 sup1 a lines b1 b2 b3 b4 rest H1 H2 H3 H4 H5 H6 H7 H8 H9 H10 H11 H12 H13.
  edestruct C110_found_partial as (o & w' & A1 & A2 & _ & A3); [exact H1|exact H2|exact H3|exact H4|exact H5|exact H6|exact H7|exact H8|exact H9|exact H10|exact H11|exact H12|exact H13|cbn; lia|].
  exists o, w'. split; [exact A1|]. split; [exact A2|]. intros x n Ix M Pn Nn. rewrite (A3 x n Ix M Pn Nn).
  destruct (mode9_pid x Ix M) as (n' & Pn' & Rn & _). assert (n' = n) by congruence. subst n'.
  assert (C6 : n = 1 \/ n = 2 \/ n = 3 \/ n = 4 \/ n = 5 \/ n = 6) by lia.
  unfold listed_at. destruct C6 as [->|[->|[->|[->|[->| ->]]]]]; vm_compute; discriminate.
Qed.

(* a CAN car that lists the VIN and the calibration id (bits 2 and 4), and no monitors *)
Definition vin_reads : list (option bytes) := [says (str "7E8 06 41 00 00 08 00 00"); says (str "NO DATA")].
Definition vin_listing : text := str "7E8 06 49 00 50 00 00 00".
Lemma vin_lists : exists sup, car_lists can11 (removelast pid_getters) base_set vin_reads sup.
Proof.
  set (sup1 := enable_bits 1 0 (bits_of [0; 8; 0; 0]) base_set). exists sup1.
  change (removelast pid_getters) with [cmd "PIDS_A"; cmd "PIDS_B"; cmd "PIDS_C"; cmd "MIDS_A"; cmd "MIDS_B"; cmd "MIDS_C"; cmd "MIDS_D"; cmd "MIDS_E"; cmd "MIDS_F"].
  unfold vin_reads.
  apply (cl_bits can11 _ _ _ [_] [str "7E8 06 41 00 00 08 00 00"] 65 0 [0; 0; 8; 0; 0] [0; 8; 0; 0] sup1); [rewrite may_list_iff; vm_compute; reflexivity|rsays|eexists; vm_compute; reflexivity| | | | |].
  { apply speaks_one; [show|bytes_ok|discriminate|cbn; lia|left; reflexivity]. }
  { discriminate. }
  { apply resized_same. reflexivity. }
  { apply (enable_announces (cmd "PIDS_A") 1 0); [reflexivity|reflexivity|exact (proj1 base_table)]. }
  do 2 skip.
  apply (cl_text can11 _ _ _ [_] (str "NO DATA") []); [rewrite may_list_iff; vm_compute; reflexivity|rsays|rewrite hex_line_isHex; vm_compute; discriminate|].
  do 5 skip. apply cl_end.
Qed.
Example C110_example : exists o w', new_obd auto_setup None [str "/dev/ttyUSB0"] (fresh (unit_at_9600 ++ unit_reads ++ vin_reads ++ [says vin_listing])) = (Ok tt, (o, w'))
  /\ In (cmd "VIN") (o_supported o) /\ In (cmd "CALIBRATION_ID") (o_supported o) /\ ~ In (cmd "CVN") (o_supported o).
Proof.
  destruct unit_willing as (Wl & Rp). destruct vin_lists as (sup & Cl).
  destruct (C110_can_partial auto_setup None [str "/dev/ttyUSB0"] (str "/dev/ttyUSB0") (fresh (unit_at_9600 ++ unit_reads ++ vin_reads ++ [says vin_listing])) unit_at_9600 9600 (str "6") ISO_15765_4_11bit_500k
    [str "7E8 06 41 00 00 08 00 01"] can11 unit_says unit_reads base_set vin_reads sup [says vin_listing] [vin_listing] 80 0 0 0 []) as (o & w' & N & _ & F); auto.
  - repeat split.
  - exact unit_found.
  - exact (proj2 base_table).
  - rsays.
  - eexists. vm_compute. reflexivity.
  - apply speaks_one; [show|bytes_ok|discriminate|cbn; lia|right; reflexivity].
  - exists o, w'. split; [exact N|]. split; [|split].
    + apply (F (cmd "VIN") 2); [apply (cmd_named "VIN"); vm_compute; congruence|reflexivity|reflexivity|lia|reflexivity].
    + apply (F (cmd "CALIBRATION_ID") 4); [apply (cmd_named "CALIBRATION_ID"); vm_compute; congruence|reflexivity|reflexivity|lia|reflexivity].
    + intros X. apply (F (cmd "CVN") 6) in X; [vm_compute in X; discriminate X|apply (cmd_named "CVN"); vm_compute; congruence|reflexivity|reflexivity|lia].
Qed.

(* a car with an older protocol (ISO 9141-2) that lists the same: 49 00 01 50 00 00 00 *)
Definition old9141 : protocol := match new_protocol ISO_9141_2 [str "48 6B 10 41 00 00 08 00 00 0C"] with Ok p => p | Raise _ => legacy1 end.
Definition old_says : list (list text) := [[str "ELM327 v1.5"]; [str "OK"]; [str "OK"]; [str "OK"]; [str "OK"]; [str "48 6B 10 41 00 00 08 00 00 0C"]].
Definition old_up : list (option bytes) := [says (str "ELM327 v1.5"); says (str "OK"); says (str "OK"); says (str "OK"); says (str "OK"); says (str "48 6B 10 41 00 00 08 00 00 0C")].
Definition old_setup : config := mkConfig (Some 10400) (Some (str "3")) true 100 false false.
Definition old_reads : list (option bytes) := [says (str "48 6B 10 41 00 00 08 00 00 0C")].
Definition old_listing : text := str "48 6B 10 49 00 01 50 00 00 00 5D".
Lemma legacy_not_other u t l d : legacy_from t l d -> u <> t -> ~ is_from FLegacy u l.
Proof.
  intros (b1 & b2 & ck & F & L & _) N (d' & b1' & b2' & ck' & F' & L' & _). unfold legacy_line in L, L'.
  pose proof (shows_fun _ _ _ L L') as E. apply (f_equal (fun x => firstn 2 (skipn 4 x))) in E. cbn in E. 
  inversion E as [[E1 E2]]. clear -E1 E2 N F F'. 
  cbn in F, F'. inversion F as [|? ? _ Fa]; subst. inversion Fa as [|? ? _ Fb]; subst. inversion Fb as [|? ? Ft _]; subst.
  inversion F' as [|? ? _ Fa']; subst. inversion Fa' as [|? ? _ Fb']; subst. inversion Fb' as [|? ? Ft' _]; subst. unfold is_byte in *.
  apply N. rewrite (Z.div_mod u 16), (Z.div_mod t 16) by lia. congruence.
Qed.
Lemma old_speaks l d mask : legacy_from 16 l d -> mask = ECU_ENGINE \/ mask = ECU_ALL -> speaks old9141 mask [l] d.
Proof.
  intros L Hm. assert (Ef : pc_family (p_class old9141) = FLegacy) by (vm_compute; reflexivity).
  exists 16, [l]. rewrite Ef. split; [|split; [|split]].
  - constructor 2; [exists d; exact L|constructor].
  - apply delivers_legacy_single, L.
  - apply C67_engine; [vm_compute; reflexivity|exact Hm].
  - intros u' Lu _ l' [<-|[]]. apply (legacy_not_other u' 16 l d L). lia.
Qed.
Lemma old_willing : willing false (Some (str "3")) (str "3") [str "48 6B 10 41 00 00 08 00 00 0C"] old_says /\ replies old_says old_up.
Proof.
  split.
  - split; [vm_compute; tauto|]. split; [intros H; apply has_message_iff in H; vm_compute in H; discriminate H|].
    exists [str "ELM327 v1.5"], [str "OK"], [], [str "OK"], []. split; [reflexivity|]. split; [exists (str "OK"); split; [left; reflexivity|exists [], []; reflexivity]|].
    split; [reflexivity|]. split; reflexivity.
  - unfold old_says, old_up. repeat (apply (replies_cons _ _ [_]); [rsays|]). constructor.
Qed.
Lemma old_lists : exists sup, car_lists old9141 (removelast pid_getters) base_set old_reads sup.
Proof.
  set (sup1 := enable_bits 1 0 (bits_of [0; 8; 0; 0]) base_set). exists sup1.
  change (removelast pid_getters) with [cmd "PIDS_A"; cmd "PIDS_B"; cmd "PIDS_C"; cmd "MIDS_A"; cmd "MIDS_B"; cmd "MIDS_C"; cmd "MIDS_D"; cmd "MIDS_E"; cmd "MIDS_F"].
  unfold old_reads.
  apply (cl_bits old9141 _ _ _ [_] [str "48 6B 10 41 00 00 08 00 00 0C"] 65 0 [0; 0; 8; 0; 0] [0; 8; 0; 0] sup1); [rewrite may_list_iff; vm_compute; reflexivity|rsays|eexists; vm_compute; reflexivity| | | | |].
  { apply old_speaks; [apply (legacy_from_intro _ _ 72 107 _ 12); [bytes_ok|show|cbn; lia]|left; reflexivity]. }
  { discriminate. }
  { apply resized_same. reflexivity. }
  { apply (enable_announces (cmd "PIDS_A") 1 0); [reflexivity|reflexivity|exact (proj1 base_table)]. }
  do 8 skip. apply cl_end.
Qed.
Example C110_refuted_example : exists o w', new_obd old_setup (Some (str "p")) [] (fresh (old_up ++ old_reads ++ [says old_listing])) = (Ok tt, (o, w'))
  /\ obd_status o = CAR_CONNECTED /\ speaks old9141 ECU_ALL [old_listing] [73; 0; 1; 80; 0; 0; 0] /\ listed_at [80; 0; 0; 0] 2 /\ c_pid (cmd "VIN") = Some 2 /\ ~ In (cmd "VIN") (o_supported o).
Proof.
  destruct old_willing as (Wl & Rp). destruct old_lists as (sup & Cl).
  assert (Sp : speaks old9141 ECU_ALL [old_listing] [73; 0; 1; 80; 0; 0; 0]).
  { apply old_speaks; [apply (legacy_from_intro _ _ 72 107 _ 93); [bytes_ok|show|cbn; lia]|right; reflexivity]. }
  destruct (C110_older_refuted old_setup (Some (str "p")) [] (str "p") (fresh (old_up ++ old_reads ++ [says old_listing])) [] 10400 (str "3") ISO_9141_2
    [str "48 6B 10 41 00 00 08 00 00 0C"] old9141 old_says old_up base_set old_reads sup [says old_listing] [old_listing] 80 0 0 0 []) as (o & w' & N & St & F); auto.
  - repeat split.
  - apply fb_given.
  - exact (proj2 base_table).
  - rsays.
  - eexists. vm_compute. reflexivity.
  - exists o, w'. split; [exact N|]. split; [exact St|]. split; [exact Sp|]. split; [reflexivity|]. split; [reflexivity|].
    apply (F (cmd "VIN") 2); [apply (cmd_named "VIN"); vm_compute; congruence|reflexivity|reflexivity|lia].
Qed.
Print Assumptions C81_listing.
Print Assumptions C110_found_partial.
Print Assumptions C110_can_partial.
Print Assumptions C110_older_refuted.
