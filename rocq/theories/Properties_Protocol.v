(* Properties C01-C14: from printed lines to messages. Each theorem is followed by an example that meets its hypotheses. *)
From Coq Require Import ZArith List Bool Lia String Permutation Sorted.
From Coq Require Import ZifyBool ZifyNat.
From Verif Require Import Py Utils Protocol SpecWire SpecBits SpecProto SpecCan PyFacts WireFacts ProtocolFacts CanFacts ProtocolThms CanThms CanExact CanOrder
  LegacyThms UtilsThms EcuMapThms Examples.
Import ListNotations.
Open Scope Z_scope.

(* the protocol classes an adapter can be set to *)
Definition protocol_classes : list pclass :=
  [SAE_J1850_PWM; SAE_J1850_VPW; ISO_9141_2; ISO_14230_4_5baud; ISO_14230_4_fast; ISO_15765_4_11bit_500k;
   ISO_15765_4_29bit_500k; ISO_15765_4_11bit_250k; ISO_15765_4_29bit_250k; SAE_J1939].
Lemma classes_ok c : In c protocol_classes -> class_ok c /\ pc_family c <> FUnknown.
Proof. cbn. intros H. repeat destruct H as [<-|H]; try destruct H; cbn; split; auto; discriminate. Qed.
Lemma classes_ok' c : In c protocol_classes \/ c = UnknownProtocol -> class_ok c.
Proof. intros [H| ->]; [apply classes_ok; exact H|exact I]. Qed.

(* example material: a protocol object, and a 20-byte answer (VIN) in three frames *)
Definition can11 : protocol := mkProtocol ISO_15765_4_11bit_500k (initial_map ISO_15765_4_11bit_500k).
Definition vin_payload : bytes := [73; 2; 1; 87; 80; 48; 90; 90; 90; 57; 57; 90; 84; 83; 51; 57; 48; 48; 48; 48].
Definition vin_frames : list bytes :=
  [[16; 20; 73; 2; 1; 87; 80; 48]; [33; 90; 90; 90; 57; 57; 90; 84]; [34; 83; 51; 57; 48; 48; 48; 48]].
Definition vin_lines : list text :=
  [str "7E8 10 14 49 02 01 57 50 30"; str "7E8 21 5A 5A 5A 39 39 5A 54"; str "7e8 22 53 33 39 30 30 30 30"].
Definition engine11 := Id11 7 14 8.
Example vin_segmented : segmented vin_payload vin_frames.
Proof.
  apply (segmented_intro [73; 2; 1; 87; 80; 48] [90; 90; 90; 57; 57; 90; 84; 83; 51; 57; 48; 48; 48; 48]); [reflexivity|].
  apply (consecutive_more 1 [90; 90; 90; 57; 57; 90; 84] [83; 51; 57; 48; 48; 48; 48]); [reflexivity|discriminate|].
  apply (consecutive_last 2 [83; 51; 57; 48; 48; 48; 48] []); [discriminate|cbn; lia].
Qed.
Example vin_printed : Forall2 (can_line engine11) vin_lines vin_frames.
Proof. repeat (apply Forall2_cons; [show|]). apply Forall2_nil. Qed.

(* ------------------------------------------------------------------ C01 *)
Theorem C01_can_multi_frame_round_trip : forall p h payload frames lines,
  pc_family (p_class p) = FCan (id_width h) -> id_ok h ->
  segmented payload frames -> Z.of_nat (length payload) <= 4095 -> Forall (Forall is_byte) frames ->
  Forall2 (can_line h) lines frames ->
  exists m, call p lines = Ok [m] /\ m_data m = dtc_cut payload /\ m_tx_id m = Some (sender h)
    /\ map f_data (m_frames m) = frames /\ map f_raw (m_frames m) = map (remove_char 32) lines.
Proof. exact round_trip. Qed.
Example C01_example : exists m, call can11 vin_lines = Ok [m] /\ m_data m = vin_payload /\ m_tx_id m = Some 0.
Proof.
  destruct (C01_can_multi_frame_round_trip can11 engine11 vin_payload vin_frames vin_lines) as (m & H1 & H2 & H3 & _);
    [reflexivity|cbn; unfold is_nibble; lia|exact vin_segmented|vm_compute; congruence|bytes_ok|exact vin_printed|eauto].
Qed.

(* ------------------------------------------------------------------ C02 *)
Theorem C02_can_single_frame_round_trip : forall p h payload padding line,
  pc_family (p_class p) = FCan (id_width h) -> id_ok h ->
  Forall is_byte payload -> Forall is_byte padding ->
  payload <> [] -> (length payload + length padding <= 7)%nat -> payload <> [67] ->
  can_line h line (single_frame payload padding) ->
  exists m, call p [line] = Ok [m] /\ m_data m = dtc_cut payload /\ m_tx_id m = Some (sender h)
    /\ map f_data (m_frames m) = [single_frame payload padding].
Proof. exact single_frame_round_trip. Qed.
Example C02_example : exists m, call can11 [str "7E8 03 41 0D 32 AA AA AA AA"] = Ok [m] /\ m_data m = [65; 13; 50].
Proof.
  destruct (C02_can_single_frame_round_trip can11 engine11 [65; 13; 50] [170; 170; 170; 170] (str "7E8 03 41 0D 32 AA AA AA AA"))
    as (m & H1 & H2 & _); try (reflexivity || discriminate || (cbn; unfold is_nibble; lia) || bytes_ok || show). eauto.
Qed.

(* ------------------------------------------------------------------ C03 *)
Theorem C03_can_soundness : forall p w lines ms m, (w = 11 \/ w = 29) -> pc_family (p_class p) = FCan w ->
  call p lines = Ok ms -> In m ms ->
  (exists l, In l lines /\ ~ hex_line l /\ m = mkMessage [new_frame l] ECU_UNKNOWN [])
  \/ (exists t ls payload, m_tx_id m = Some t
       /\ selects (is_from (FCan w) t) lines ls
       /\ Forall2 (fun f l => frame_from w t l (f_data f)) (m_frames m) ls
       /\ reassembled (map f_data (m_frames m)) payload /\ payload <> [] /\ m_data m = dtc_cut payload).
Proof. exact message_sound. Qed.
Example C03_example : exists ms m, call can11 (vin_lines ++ [str "NO DATA"]) = Ok ms /\ In m ms /\ m_data m = vin_payload.
Proof. eexists. eexists. split; [vm_compute; reflexivity|]. split; [left; reflexivity|reflexivity]. Qed.

(* and conversely, for any lines: exactly when the frames of an ECU can be understood (numbers taken as SpecCan says: 1, 2, 3, ...), one message is returned
   for it, made of all its frames; otherwise none *)
Theorem C03_can_exact : forall p w lines t ls datas ms, (w = 11 \/ w = 29) -> pc_family (p_class p) = FCan w ->
  selects (is_from (FCan w) t) lines ls -> Forall2 (frame_from w t) ls datas -> call p lines = Ok ms ->
  (forall payload, understood datas payload ->
     exists m, filter (fun m => oz_eqb (m_tx_id m) (Some t)) ms = [m] /\ map f_data (m_frames m) = datas /\ m_data m = dtc_cut payload)
  /\ ((forall payload, ~ understood datas payload) -> filter (fun m => oz_eqb (m_tx_id m) (Some t)) ms = []).
Proof. exact can_exact. Qed.
Theorem C03_understood_once : forall datas a b, understood datas a -> understood datas b -> a = b.
Proof. exact understood_fun. Qed.
Example C03_example_exact : understood vin_frames vin_payload /\ forall payload, ~ understood [nth 0 vin_frames []; nth 2 vin_frames []] payload.
Proof.
  split.
  - change vin_payload with (firstn (Z.to_nat (256 * (16 mod 16) + 20)) ([73; 2; 1; 87; 80; 48] ++ List.concat (map (@tl Z) (tl vin_frames)))).
    apply understood_multi; [cbn; lia|reflexivity|discriminate|reflexivity|]. cbn. apply Permutation_refl.
  - intros payload U. remember [nth 0 vin_frames []; nth 2 vin_frames []] as X eqn:EX. destruct U as [|X pci lo d ord _ _ _ L P]; [discriminate EX|]. subst X. cbn in L. destruct ord as [|x [|]]; try discriminate L.
    apply Permutation_length_1_inv in P. discriminate P.
Qed.

(* ------------------------------------------------------------------ C04 *)
(* full statement: whenever frames are missing (set of received indices other than a full set), no message with data
   other than the payload is returned. That is false of the code (see the two refutations); proved: a missing first
   frame always drops the message; a missing consecutive frame before a received one does if the frames arrive in a
   tolerable order, in particular in order with at most 8 missing (with 9 it may not be), or in order with one run missing whose length is
   no multiple of 16; and for every combination of losses, repetitions and disorder exactly what is returned (C04_exact_partial). *)
Theorem C04_exact_partial : forall p h payload frames order lines,
  pc_family (p_class p) = FCan (id_width h) -> id_ok h ->
  segmented payload frames -> Z.of_nat (length payload) <= 4095 -> Forall (Forall is_byte) frames ->
  printed h frames order lines ->
  (forall js, arranged_as order js -> exists m, call p lines = Ok [m] /\ m_data m = dtc_cut (put_together frames (length payload) js)
     /\ m_tx_id m = Some (sender h) /\ map f_raw (m_frames m) = map no_spaces lines)
  /\ ((forall js, ~ arranged_as order js) -> call p lines = Ok []).
Proof. exact order_exact. Qed.
Theorem C04_first_frame_lost : forall p h payload frames order lines,
  pc_family (p_class p) = FCan (id_width h) -> id_ok h ->
  segmented payload frames -> Z.of_nat (length payload) <= 4095 -> Forall (Forall is_byte) frames ->
  printed h frames order lines -> ~ In 0%nat order -> call p lines = Ok [].
Proof. exact first_frame_lost. Qed.
Theorem C04_consecutive_lost_partial : forall p h payload frames order lines i j,
  pc_family (p_class p) = FCan (id_width h) -> id_ok h ->
  segmented payload frames -> Z.of_nat (length payload) <= 4095 -> Forall (Forall is_byte) frames ->
  printed h frames order lines -> tolerable (consecutive_indices order) ->
  ~ In i order -> In j order -> (i < j)%nat -> call p lines = Ok [].
Proof. exact consecutive_lost. Qed.
Theorem C04_few_lost_partial : forall p h payload frames order lines,
  pc_family (p_class p) = FCan (id_width h) -> id_ok h ->
  segmented payload frames -> Z.of_nat (length payload) <= 4095 -> Forall (Forall is_byte) frames ->
  printed h frames order lines -> StronglySorted lt order ->
  (1 <= S (last order 0%nat) - length order <= 8)%nat -> call p lines = Ok [].
Proof. exact eight_lost. Qed.
Theorem C04_run_lost_partial : forall p h payload frames lines a b m,
  pc_family (p_class p) = FCan (id_width h) -> id_ok h ->
  segmented payload frames -> Z.of_nat (length payload) <= 4095 -> Forall (Forall is_byte) frames ->
  printed h frames (seq 0 (S a) ++ seq b m) lines ->
  (a + 1 < b)%nat -> (1 <= m)%nat -> Z.of_nat (b - a - 1) mod 16 <> 0 -> call p lines = Ok [].
Proof. exact burst_lost. Qed.
(* what happens when only the tail is lost: the message is returned with fewer bytes than announced *)
Theorem C04_tail_lost : forall p h payload frames order lines k,
  pc_family (p_class p) = FCan (id_width h) -> id_ok h ->
  segmented payload frames -> Z.of_nat (length payload) <= 4095 -> Forall (Forall is_byte) frames ->
  (1 <= k < length frames)%nat -> Permutation order (seq 0 (S k)) -> tolerable (consecutive_indices order) ->
  printed h frames order lines ->
  exists m, call p lines = Ok [m] /\ m_data m = dtc_cut (firstn (6 + 7 * k) payload) /\ m_tx_id m = Some (sender h)
    /\ map f_data (m_frames m) = datas_of frames order /\ map f_raw (m_frames m) = map no_spaces lines.
Proof. exact prefix_received. Qed.
(* a frame received twice drops the message *)
Theorem C04_frame_repeated : forall p h payload frames order lines,
  pc_family (p_class p) = FCan (id_width h) -> id_ok h ->
  segmented payload frames -> Z.of_nat (length payload) <= 4095 -> Forall (Forall is_byte) frames ->
  printed h frames order lines -> tolerable (consecutive_indices order) -> ~ NoDup order -> call p lines = Ok [].
Proof. exact frame_twice. Qed.
Example vin_some_printed : printed engine11 vin_frames [0; 2]%nat [nth 0 vin_lines []; nth 2 vin_lines []].
Proof. unfold printed. constructor; [|constructor; [|constructor]]; eexists; (split; [reflexivity|show]). Qed.
Example C04_example : call can11 [nth 0 vin_lines []; nth 2 vin_lines []] = Ok [].
Proof.
  apply (C04_consecutive_lost_partial can11 engine11 vin_payload vin_frames [0; 2]%nat _ 1 2);
    [reflexivity|cbn; unfold is_nibble; lia|exact vin_segmented|vm_compute; congruence|bytes_ok|exact vin_some_printed| | | |lia].
  - cbn. split; [lia|constructor].
  - cbn. intuition congruence.
  - cbn. auto.
Qed.
Example C04_example_few : call can11 [nth 0 vin_lines []; nth 2 vin_lines []] = Ok [].
Proof.
  apply (C04_few_lost_partial can11 engine11 vin_payload vin_frames [0; 2]%nat);
    [reflexivity|cbn; unfold is_nibble; lia|exact vin_segmented|vm_compute; congruence|bytes_ok|exact vin_some_printed| |cbn; lia].
  repeat constructor.
Qed.
(* a long payload: one first frame and n consecutive frames *)
Definition long_payload (n : nat) : bytes := repeat 1 6 ++ List.concat (map (fun i => repeat (Z.of_nat i) 7) (seq 1 n)).
Definition long_first (n : nat) : bytes := 16 + Z.of_nat (6 + 7 * n) / 256 :: Z.of_nat (6 + 7 * n) mod 256 :: repeat 1 6.
Definition long_frame (i : nat) : bytes := 32 + Z.of_nat i mod 16 :: repeat (Z.of_nat i) 7.
Definition long_line (d : bytes) : text := str "7E8" ++ bytes_to_hex d.
Definition short_example (frames : list bytes) : bool :=
  match call can11 (map long_line frames) with Ok [m] => Nat.eqb (length (m_data m)) 146 | _ => false end.
(* sixteen frames in a row lost (of 40): a message with wrong data is returned *)
Theorem C04_16_lost_refuted :
  let frames := long_first 40 :: map long_frame (seq 1 4) ++ map long_frame (seq 21 20) in
  (exists m, call can11 (map long_line frames) = Ok [m] /\ m_data m <> long_payload 40
     /\ nth 34 (m_data m) 0 = 21).
Proof. cbv zeta. eexists. split; [vm_compute; reflexivity|]. split; [vm_compute; discriminate|reflexivity]. Qed.
(* nine frames lost (1 and 9-16 of 17): frame 17 is taken for frame 1 *)
Theorem C04_9_lost_refuted :
  let frames := long_first 17 :: map long_frame (seq 2 7) ++ map long_frame [17%nat] in
  (exists m, call can11 (map long_line frames) = Ok [m] /\ nth 6 (m_data m) 0 = 17).
Proof. cbv zeta. eexists. split; [vm_compute; reflexivity|reflexivity]. Qed.
(* a lost tail: the message is cut short without notice *)
Theorem C04_tail_refuted : exists m, call can11 (firstn 2 vin_lines) = Ok [m] /\ length (m_data m) = 13%nat.
Proof. eexists. split; [vm_compute; reflexivity|reflexivity]. Qed.

(* ------------------------------------------------------------------ C05 *)
(* full statement: any arrival order in which no frame is displaced by more than 7. False of the code at the
   wrap-around of the sequence number (refutation below); proved for the orders called tolerable; and in the others nothing is
   returned, so that wrong data never is. *)
Theorem C05_exact_partial : forall p h payload frames order lines,
  pc_family (p_class p) = FCan (id_width h) -> id_ok h ->
  segmented payload frames -> Z.of_nat (length payload) <= 4095 -> Forall (Forall is_byte) frames ->
  Permutation order (seq 0 (length frames)) -> displaced_by 7 order -> printed h frames order lines ->
  (tolerable (consecutive_indices order) -> exists m, call p lines = Ok [m] /\ m_data m = dtc_cut payload /\ m_tx_id m = Some (sender h))
  /\ (~ tolerable (consecutive_indices order) -> call p lines = Ok []).
Proof.
  intros p h payload frames order lines Ec Hh Hs Hl Fb P D Hp. split.
  - intros T. destruct (reordered_round_trip p h payload frames order lines Ec Hh Hs Hl Fb P T Hp) as (m & A & B & C & _). eauto.
  - apply (displaced_exact p h payload frames order lines Ec Hh Hs Hl Fb P D Hp).
Qed.
Theorem C05_reordered_partial : forall p h payload frames order lines,
  pc_family (p_class p) = FCan (id_width h) -> id_ok h ->
  segmented payload frames -> Z.of_nat (length payload) <= 4095 -> Forall (Forall is_byte) frames ->
  Permutation order (seq 0 (length frames)) -> tolerable (consecutive_indices order) ->
  printed h frames order lines ->
  exists m, call p lines = Ok [m] /\ m_data m = dtc_cut payload /\ m_tx_id m = Some (sender h)
    /\ map f_data (m_frames m) = datas_of frames order /\ map f_raw (m_frames m) = map no_spaces lines.
Proof. exact reordered_round_trip. Qed.
Example C05_example : exists m, call can11 [nth 2 vin_lines []; nth 0 vin_lines []; nth 1 vin_lines []] = Ok [m] /\ m_data m = vin_payload.
Proof.
  destruct (C05_reordered_partial can11 engine11 vin_payload vin_frames [2; 0; 1]%nat
              [nth 2 vin_lines []; nth 0 vin_lines []; nth 1 vin_lines []]) as (m & H1 & H2 & _);
    [reflexivity|cbn; unfold is_nibble; lia|exact vin_segmented|vm_compute; congruence|bytes_ok| | | |eauto].
  - apply perm_nat_ok. reflexivity.
  - cbn. split; [lia|]. constructor; [unfold follows; lia|constructor].
  - unfold printed. repeat (apply Forall2_cons; [eexists; split; [reflexivity|show]|]). apply Forall2_nil.
Qed.
(* frames 15 and 16 swapped: the message is dropped *)
Example C05_example_exact : displaced_by 7 (seq 0 15 ++ [16; 15; 17])%nat /\ Permutation (seq 0 15 ++ [16; 15; 17])%nat (seq 0 18) /\ ~ tolerable (consecutive_indices (seq 0 15 ++ [16; 15; 17])%nat).
Proof.
  split; [|split].
  - intros k i H. do 18 (destruct k as [|k]; [injection H as <-; vm_compute; congruence|]). destruct k; discriminate H.
  - apply perm_nat_ok. reflexivity.
  - intros T. apply tolerable_exact in T; [vm_compute in T; discriminate T|]. repeat constructor; lia.
Qed.
Theorem C05_refuted :
  call can11 (map long_line (long_first 17 :: map long_frame (seq 1 14 ++ [16; 15; 17]%nat))) = Ok [].
Proof. vm_compute. reflexivity. Qed.

(* ------------------------------------------------------------------ C06 *)
Theorem C06_no_interference : forall p l1 l2, In (p_class p) protocol_classes ->
  (forall t ls, selects (is_from (pc_family (p_class p)) t) l1 ls <-> selects (is_from (pc_family (p_class p)) t) l2 ls) ->
  (forall ls, selects (fun l => ~ hex_line l) l1 ls <-> selects (fun l => ~ hex_line l) l2 ls) ->
  call p l1 = call p l2.
Proof. intros p l1 l2 H. apply classes_ok in H. apply call_agree; tauto. Qed.
Theorem C06_own_lines_only : forall p l1 l2 ls ms1 ms2 t, In (p_class p) protocol_classes ->
  selects (is_from (pc_family (p_class p)) t) l1 ls -> selects (is_from (pc_family (p_class p)) t) l2 ls ->
  call p l1 = Ok ms1 -> call p l2 = Ok ms2 ->
  filter (fun m => oz_eqb (m_tx_id m) (Some t)) ms1 = filter (fun m => oz_eqb (m_tx_id m) (Some t)) ms2.
Proof. intros p l1 l2 ls ms1 ms2 t H. apply classes_ok in H. apply no_interference; tauto. Qed.
Lemma not_from_other w t h l d : id_width h = w -> id_ok h -> Forall is_byte d -> can_line h l d -> sender h <> t -> ~ is_from (FCan w) t l.
Proof.
  intros Hw Hh Fd Hl Ht (d' & h' & Hw' & Hh' & Ht' & Fd' & Hl' & _).
  pose proof (shows_fun _ _ _ Hl Hl') as E. apply id_digits_inj in E; auto; [|congruence]. destruct E as [E _]. congruence.
Qed.
Example C06_example : 
  let other := str "7E9 03 41 0D 10" in
  selects (is_from (FCan 11) 0) [other; nth 0 vin_lines []] [nth 0 vin_lines []]
  /\ selects (is_from (FCan 11) 0) [nth 0 vin_lines []; other] [nth 0 vin_lines []].
Proof.
  cbv zeta.
  assert (A : is_from (FCan 11) 0 (nth 0 vin_lines [])).
  { exists [16; 20; 73; 2; 1; 87; 80; 48], engine11. split; [reflexivity|]. split; [cbn; unfold is_nibble; lia|]. split; [reflexivity|].
    split; [bytes_ok|]. split; [show|]. split; [cbn; lia|]. right; left. cbn. lia. }
  assert (B : ~ is_from (FCan 11) 0 (str "7E9 03 41 0D 10")).
  { apply (not_from_other 11 0 (Id11 7 14 9) _ [3; 65; 13; 16]); [reflexivity|cbn; unfold is_nibble; lia|bytes_ok|show|discriminate]. }
  split; [constructor 3; [exact B|]; constructor 2; [exact A|constructor]|constructor 2; [exact A|]; constructor 3; [exact B|constructor]].
Qed.

(* ------------------------------------------------------------------ C07 *)
Theorem C07_text_passed_through : forall p lines hexes texts, In (p_class p) protocol_classes \/ p_class p = UnknownProtocol ->
  selects hex_line lines hexes -> selects (fun l => ~ hex_line l) lines texts ->
  call p lines = match call p hexes with
                 | Ok obd => Ok (obd ++ map (fun l => mkMessage [new_frame l] ECU_UNKNOWN []) texts)
                 | Raise e => Raise e
                 end.
Proof. intros p lines hexes texts H. apply text_pass_through, classes_ok', H. Qed.
Example C07_example : ~ hex_line (str "NO DATA") /\ hex_line (str "7E8 03 41 0D 32")
  /\ m_raw (mkMessage [new_frame (str "NO DATA")] ECU_UNKNOWN []) = str "NO DATA".
Proof.
  split; [|split; [eexists; show|reflexivity]]. rewrite hex_line_isHex. vm_compute. discriminate.
Qed.

(* ------------------------------------------------------------------ C08 *)
Theorem C08_malformed_ignored : forall p l1 l l2, In (p_class p) protocol_classes ->
  malformed (pc_family (p_class p)) l -> call p (l1 ++ l :: l2) = call p (l1 ++ l2).
Proof. intros p l1 l l2 H. apply malformed_ignored, classes_ok, H. Qed.
(* malformed covers every hex line that is no acceptable frame *)
Theorem C08_malformed_or_frame : forall p l, In (p_class p) protocol_classes -> hex_line l ->
  malformed (pc_family (p_class p)) l \/ exists t d, sent_by (pc_family (p_class p)) t l d.
Proof.
  intros p l H. apply malformed_or_sent. apply classes_ok in H. destruct H as [H1 H2]. unfold class_ok in H1.
  destruct (pc_family (p_class p)); [congruence|exact I|exact H1].
Qed.
Example C08_example : malformed (FCan 11) (str "7E8 03 41 0D 3") /\ malformed (FCan 11) (str "7E8 33 41") /\ malformed FLegacy (str "48 6B 10 41 00").
Proof.
  split; [|split].
  - eapply malformed_can_odd; [show|reflexivity].
  - apply (malformed_can_type 11 _ (Id11 7 14 8) 51 [65]); [reflexivity|cbn; unfold is_nibble; lia|bytes_ok|show|vm_compute; congruence].
  - eapply malformed_legacy_length; [show|cbn; lia].
Qed.

(* ------------------------------------------------------------------ C09 *)
(* full statement: call never raises. False: the refutations give lines on which it raises IndexError. *)
Theorem C09_can_exceptions : forall p w lines e, (w = 11 \/ w = 29) -> pc_family (p_class p) = FCan w ->
  call p lines = Raise e <-> e = IndexError /\
  exists t ls datas, selects (is_from (FCan w) t) lines ls /\ Forall2 (frame_from w t) ls datas /\ understood datas [67].
Proof. exact can_raise_exact. Qed.
Theorem C09_can_never_raises_partial : forall p w lines, (w = 11 \/ w = 29) -> pc_family (p_class p) = FCan w ->
  (forall l t d, In l lines -> frame_from w t l d -> (3 <= length d)%nat /\
     (forall n r, d = n :: r -> n / 16 = 0 -> 2 <= n) /\ (forall a b r, d = a :: b :: r -> a / 16 = 1 -> 2 <= 256 * (a mod 16) + b)) ->
  exists ms, call p lines = Ok ms.
Proof. exact can_never_raises. Qed.
Theorem C09_legacy_exceptions : forall p lines e, pc_family (p_class p) = FLegacy ->
  call p lines = Raise e <-> e = IndexError /\
  exists t ls datas mode, selects (is_from FLegacy t) lines ls /\ Forall2 (legacy_from t) ls datas
    /\ (2 <= length datas)%nat /\ mode <> 67 /\ Forall (fun d => exists r, d = mode :: r) datas
    /\ Exists (fun d => length d = 2%nat) datas.
Proof. exact legacy_call_raise. Qed.
Theorem C09_unknown_never_raises : forall p lines, pc_family (p_class p) = FUnknown -> exists ms, call p lines = Ok ms.
Proof. exact unknown_never_raises. Qed.
Theorem C09_can_refuted : exists p lines, p_class p = ISO_15765_4_11bit_500k /\ call p lines = Raise IndexError.
Proof. exists can11, [str "7E8 01 43"]. split; vm_compute; reflexivity. Qed.
Theorem C09_legacy_refuted : exists p lines, p_class p = ISO_9141_2 /\ call p lines = Raise IndexError.
Proof. exists (mkProtocol ISO_9141_2 []), [str "48 6B 10 41 00 AA"; str "48 6B 10 41 00 AA"]. split; vm_compute; reflexivity. Qed.
Example C09_example : exists ms, call can11 [str "7E8 03 41 0D 32"] = Ok ms.
Proof.
  apply (C09_can_never_raises_partial can11 11); [auto|reflexivity|]. intros l t d [<-|[]] (h & Hw & Hh & _ & Fd & Hl & _).
  assert (Hl2 : can_line (Id11 7 14 8) (str "7E8 03 41 0D 32") [3; 65; 13; 50]) by show.
  pose proof (shows_fun _ _ _ Hl2 Hl) as E. apply id_digits_inj in E; [|symmetry; exact Hw|cbn; unfold is_nibble; lia|exact Hh].
  destruct E as [_ <-]. cbn [length]. split; [lia|]. split; intros; [injection H as <- _; lia|injection H as <- <- _; lia].
Qed.

(* ------------------------------------------------------------------ C10 *)
Theorem C10_legacy_round_trip : forall p t mode pid parts lines datas, pc_family (p_class p) = FLegacy -> mode <> 67 ->
  (2 <= length parts)%nat ->
  Permutation datas (map (fun x => legacy_part mode pid (Z.of_nat (fst x)) (snd x)) (combine (seq 1 (length parts)) parts)) ->
  Forall2 (legacy_from t) lines datas ->
  exists m, call p lines = Ok [m] /\ m_data m = mode :: pid :: List.concat parts /\ m_tx_id m = Some t
    /\ map f_data (m_frames m) = datas /\ map f_raw (m_frames m) = map (remove_char 32) lines.
Proof.
  intros p t mode pid parts lines datas Ec Hm Hn P F.
  apply (legacy_multi_round_trip p t mode pid parts lines datas Ec Hm Hn); [|exact F].
  replace (numbered mode pid parts) with (map (fun x => legacy_part mode pid (Z.of_nat (fst x)) (snd x)) (combine (seq 1 (length parts)) parts)); [exact P|].
  unfold numbered, zseq. rewrite <- seq_shift. generalize (length parts). intros n. generalize 0%nat.
  clear. revert n; induction parts as [|a parts IH]; intros [|n] s; try reflexivity. cbn [seq map combine fst snd]. f_equal; [|apply IH].
  f_equal. unfold legacy_part. repeat (f_equal; try lia).
Qed.
Theorem C10_legacy_single_line : forall p t line mode d, pc_family (p_class p) = FLegacy -> legacy_from t line (mode :: d) -> mode <> 67 ->
  exists m, call p [line] = Ok [m] /\ m_data m = mode :: d /\ m_tx_id m = Some t.
Proof. exact legacy_single. Qed.
Theorem C10_legacy_gap_or_repetition : forall p t mode lines datas, pc_family (p_class p) = FLegacy -> mode <> 67 ->
  (2 <= length datas)%nat -> Forall2 (legacy_from t) lines datas ->
  Forall (fun d => exists pid i part, d = legacy_part mode pid i part) datas ->
  ~ Permutation (map (fun d => nth 2 d 0) datas) (map Z.of_nat (seq 1 (length datas))) -> call p lines = Ok [].
Proof.
  intros p t mode lines datas Ec Hm Hn F Fd N. apply (legacy_not_numbered p t mode lines datas Ec Hm Hn F Fd).
  intros P. apply N. unfold obyte in P. rewrite P. unfold zseq. rewrite <- seq_shift, map_map. erewrite map_ext; [reflexivity|].
  intros a. cbv beta. lia.
Qed.
Theorem C10_legacy_different_modes : forall p t lines datas, pc_family (p_class p) = FLegacy -> Forall2 (legacy_from t) lines datas ->
  lines <> [] -> (forall mode, ~ Forall (fun d => exists r, d = mode :: r) datas) -> call p lines = Ok [].
Proof. exact legacy_different_modes. Qed.
Definition legacy1 : protocol := mkProtocol ISO_9141_2 (initial_map ISO_9141_2).
Lemma legacy_from_intro t l b1 b2 d ck : Forall is_byte ([b1; b2; t] ++ d ++ [ck]) -> legacy_line b1 b2 t l d ck -> (2 <= length d <= 7)%nat -> legacy_from t l d.
Proof. intros; exists b1, b2, ck; auto. Qed.
Example C10_example : exists m, call legacy1 [str "48 6B 10 49 02 02 41 42 43 44 11"; str "48 6B 10 49 02 01 00 00 00 31 0A"] = Ok [m]
  /\ m_data m = [73; 2; 0; 0; 0; 49; 65; 66; 67; 68].
Proof.
  destruct (C10_legacy_round_trip legacy1 16 73 2 [[0; 0; 0; 49]; [65; 66; 67; 68]]
    [str "48 6B 10 49 02 02 41 42 43 44 11"; str "48 6B 10 49 02 01 00 00 00 31 0A"] [[73; 2; 2; 65; 66; 67; 68]; [73; 2; 1; 0; 0; 0; 49]])
    as (m & H1 & H2 & _); [reflexivity|lia|cbn; lia|apply perm_swap| |eauto].
  constructor; [apply (legacy_from_intro _ _ 72 107 _ 17); [bytes_ok|show|cbn; lia]|].
  constructor; [apply (legacy_from_intro _ _ 72 107 _ 10); [bytes_ok|show|cbn; lia]|constructor].
Qed.

(* ------------------------------------------------------------------ C11 *)
Theorem C11_legacy_trouble_codes : forall p t lines datas, pc_family (p_class p) = FLegacy -> lines <> [] ->
  Forall2 (fun l d => legacy_from t l (67 :: d)) lines datas ->
  exists m, call p lines = Ok [m] /\ m_data m = [67; 0] ++ List.concat datas /\ m_tx_id m = Some t
    /\ map f_raw (m_frames m) = map (remove_char 32) lines.
Proof. exact legacy_trouble_codes. Qed.
Example C11_example : exists m, call legacy1 [str "48 6B 10 43 03 00 03 02 03 03 11"; str "48 6B 10 43 03 04 00 00 00 00 0A"] = Ok [m]
  /\ m_data m = [67; 0; 3; 0; 3; 2; 3; 3; 3; 4; 0; 0; 0; 0].
Proof.
  destruct (C11_legacy_trouble_codes legacy1 16 [str "48 6B 10 43 03 00 03 02 03 03 11"; str "48 6B 10 43 03 04 00 00 00 00 0A"]
     [[3; 0; 3; 2; 3; 3]; [3; 4; 0; 0; 0; 0]]) as (m & H1 & H2 & _); [reflexivity|discriminate| |eauto].
  constructor; [apply (legacy_from_intro _ _ 72 107 _ 17); [bytes_ok|show|cbn; lia]|].
  constructor; [apply (legacy_from_intro _ _ 72 107 _ 10); [bytes_ok|show|cbn; lia]|constructor].
Qed.

(* ------------------------------------------------------------------ C12 *)
Theorem C12_can_trouble_codes_cut : forall p w lines ms m t, (w = 11 \/ w = 29) -> pc_family (p_class p) = FCan w ->
  call p lines = Ok ms -> In m ms -> m_tx_id m = Some t ->
  exists payload, reassembled (map f_data (m_frames m)) payload
    /\ (forall count rest, payload = 67 :: count :: rest -> m_data m = firstn (Z.to_nat (2 + 2 * count)) payload)
    /\ ((forall rest, payload <> 67 :: rest) -> m_data m = payload).
Proof.
  intros p w lines ms m t Hw Ec H Hm Ht.
  destruct (message_sound p w lines ms m Hw Ec H Hm) as [(l & _ & _ & ->)|(t' & ls & payload & _ & _ & _ & R & _ & Ed)]; [discriminate|].
  exists payload. split; [exact R|]. rewrite Ed. split; [intros count rest ->; reflexivity|].
  intros N. unfold dtc_cut. destruct payload as [|a l]; [reflexivity|]. destruct (Z.eq_dec a 67) as [->|Na]; [exfalso; eapply N; reflexivity|].
  destruct a as [|q|q]; auto. repeat (destruct q as [q|q|]; auto; try congruence).
Qed.
Example C12_example : exists m, call can11 [str "7E8 06 43 01 03 01 00 00"] = Ok [m] /\ m_data m = [67; 1; 3; 1] /\ m_tx_id m = Some 0.
Proof. eexists. split; [vm_compute; reflexivity|split; reflexivity]. Qed.

(* ------------------------------------------------------------------ C13 *)
(* responders ms: the ids and data of the messages with data *)
Theorem C13_engine : forall c lines ms rs, In c protocol_classes ->
  call (mkProtocol c (initial_map c)) lines = Ok ms ->
  map (fun m => (m_tx_id m, m_data m)) (filter (fun m => nonempty (m_data m)) ms) = map (fun r => (Some (fst r), snd r)) rs ->
  forall e, engine_of (engine_id (pc_family c)) rs e ->
  exists p, new_protocol c lines = Ok p /\ p_class p = c /\
    forall t, In t (map fst rs) ->
      dict_get oz_eqb (p_map p) (Some t)
      = Some (if t =? e then ECU_ENGINE else if oz_eqb (Some t) (transmission_id (pc_family c)) then ECU_TRANSMISSION else ECU_UNKNOWN).
Proof.
  intros c lines ms rs Hc H Hrs e He. destruct (classes_ok c Hc) as [H1 H2].
  exact (proj1 (proj2 (new_protocol_engine c lines ms rs H2 H1 H Hrs)) e He).
Qed.
(* full statement: construction always succeeds. False when at least two ECUs answer, none has the engine id and no
   answer has a bit set (TypeError in the log line); in every other case an engine is chosen. *)
Theorem C13_construction_partial : forall c lines ms rs, In c protocol_classes ->
  call (mkProtocol c (initial_map c)) lines = Ok ms ->
  map (fun m => (m_tx_id m, m_data m)) (filter (fun m => nonempty (m_data m)) ms) = map (fun r => (Some (fst r), snd r)) rs ->
  (rs = [] -> new_protocol c lines = Ok (mkProtocol c (initial_map c))) /\
  (rs <> [] -> (exists e, engine_of (engine_id (pc_family c)) rs e)
     \/ (2 <= length rs)%nat /\ ~ In (engine_id (pc_family c)) (map fst rs) /\ (forall r, In r rs -> ones (snd r) = 0)
        /\ new_protocol c lines = Raise TypeError).
Proof.
  intros c lines ms rs Hc H Hrs. destruct (classes_ok c Hc) as [H1 H2].
  destruct (new_protocol_engine c lines ms rs H2 H1 H Hrs) as (N1 & _ & N3). split; [exact N1|]. intros Hne.
  destruct (engine_cases (engine_id (pc_family c)) rs Hne) as [E|(E1 & E2 & E3)]; [left; exact E|right; auto].
Qed.
(* such a list of responders always exists, in ascending order *)
Theorem C13_responders : forall c lines ms, In c protocol_classes -> call (mkProtocol c (initial_map c)) lines = Ok ms ->
  exists rs, map (fun m => (m_tx_id m, m_data m)) (filter (fun m => nonempty (m_data m)) ms) = map (fun r : Z * bytes => (Some (fst r), snd r)) rs
    /\ StronglySorted Z.lt (map fst rs).
Proof.
  intros c lines ms Hc H. destruct (classes_ok c Hc) as [H1 H2].
  destruct (call_ordered (mkProtocol c (initial_map c)) lines ms H1 H2 H) as (obd & ts & texts & -> & Et & S & _ & Ft).
  rewrite filter_app. assert (E0 : filter (fun m => nonempty (m_data m)) texts = []).
  { clear -Ft. induction Ft as [|m l (x & _ & _ & ->) _ IH]; cbn; [reflexivity|exact IH]. }
  rewrite E0, app_nil_r. clear -Et S. revert ts Et S. induction obd as [|m obd IH]; intros [|t ts] Et S; try discriminate.
  - exists []. split; [reflexivity|constructor].
  - injection Et as Em Et. inversion S as [|? ? S' F]; subst. destruct (IH ts Et S') as (rs & E & Srs). cbn [filter].
    assert (Sub : forall x, In x (map fst rs) -> In x ts).
    { intros x Hx. apply in_map_iff in Hx. destruct Hx as (r & <- & Hr).
      assert (Hi : In (Some (fst r), snd r) (map (fun m => (m_tx_id m, m_data m)) (filter (fun m => nonempty (m_data m)) obd))) by (rewrite E; apply (in_map (fun r => (Some (fst r), snd r))); exact Hr).
      apply in_map_iff in Hi. destruct Hi as (m' & Em' & Hm'). apply filter_In in Hm'. injection Em' as Em1 _.
      assert (Hi2 : In (Some (fst r)) (map Some ts)) by (rewrite <- Et, <- Em1; apply in_map; tauto).
      apply in_map_iff in Hi2. destruct Hi2 as (y & Ey & Hy). congruence. }
    destruct (nonempty (m_data m)).
    + exists ((t, m_data m) :: rs). cbn [map fst snd]. rewrite Em, E. split; [reflexivity|]. constructor; [exact Srs|].
      apply Forall_forall. intros x Hx. rewrite Forall_forall in F. apply F, Sub, Hx.
    + exists rs. auto.
Qed.
Example C13_example : exists p, new_protocol ISO_15765_4_11bit_500k [str "7EB 06 41 00 00 00 00 01"; str "7EA 06 41 00 BE 3E A8 13"] = Ok p
  /\ dict_get oz_eqb (p_map p) (Some 2) = Some ECU_ENGINE /\ dict_get oz_eqb (p_map p) (Some 3) = Some ECU_UNKNOWN.
Proof.
  set (lines := [str "7EB 06 41 00 00 00 00 01"; str "7EA 06 41 00 BE 3E A8 13"]).
  destruct (C13_engine ISO_15765_4_11bit_500k lines
     [mkMessage [mkFrame (str "7EA064100BE3EA813") [6; 65; 0; 190; 62; 168; 19] (Some 7) (Some 224) (Some 241) (Some 2) (Some 0) 0 (Some 6)] 1 [65; 0; 190; 62; 168; 19];
      mkMessage [mkFrame (str "7EB06410000000001") [6; 65; 0; 0; 0; 0; 1] (Some 7) (Some 224) (Some 241) (Some 3) (Some 0) 0 (Some 6)] 1 [65; 0; 0; 0; 0; 1]]
     [(2, [65; 0; 190; 62; 168; 19]); (3, [65; 0; 0; 0; 0; 1])]) with (e := 2) as (p & H1 & H2 & H3).
  - cbn. auto 10.
  - vm_compute. reflexivity.
  - reflexivity.
  - apply (engine_most_bits _ [] 2 [65; 0; 190; 62; 168; 19] [(3, [65; 0; 0; 0; 0; 1])]).
    + cbn. lia.
    + cbn. intuition lia.
    + vm_compute. reflexivity.
    + intros r [].
    + intros r [<-|[]]. vm_compute. discriminate.
  - exists p. split; [exact H1|]. split; apply H3; cbn; auto.
Qed.
Theorem C13_refuted : exists lines, new_protocol ISO_15765_4_11bit_500k lines = Raise TypeError.
Proof. exists [str "7EA 01 00"; str "7EB 01 00"]. vm_compute. reflexivity. Qed.

(* ------------------------------------------------------------------ C14 *)
Theorem C14_one_message_per_ecu : forall p lines ms, In (p_class p) protocol_classes -> call p lines = Ok ms ->
  exists obd ts texts, ms = obd ++ texts
    /\ map m_tx_id obd = map Some ts /\ StronglySorted Z.lt ts
    /\ Forall (fun m => m_ecu m = match dict_get oz_eqb (p_map p) (m_tx_id m) with Some e => e | None => ECU_UNKNOWN end) obd
    /\ Forall (fun m => exists l, In l lines /\ ~ hex_line l /\ m = mkMessage [new_frame l] ECU_UNKNOWN []) texts.
Proof. intros p lines ms H. apply classes_ok in H. apply call_ordered; tauto. Qed.
Example C14_example : exists ms, call can11 [str "7EA 03 41 0D 32"; str "STOPPED"; str "7E8 03 41 0D 33"] = Ok ms /\ map m_tx_id ms = [Some 0; Some 2; None].
Proof. eexists. split; [vm_compute; reflexivity|reflexivity]. Qed.

Print Assumptions C01_can_multi_frame_round_trip.
Print Assumptions C04_run_lost_partial.
Print Assumptions C05_reordered_partial.
Print Assumptions C06_no_interference.
Print Assumptions C08_malformed_or_frame.
Print Assumptions C09_legacy_exceptions.
Print Assumptions C10_legacy_round_trip.
Print Assumptions C13_engine.
Print Assumptions C14_one_message_per_ecu.
