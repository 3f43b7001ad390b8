(* Property C81: whole readings of commands whose value is not a number: from the lines on the wire to the value. *)
From Coq Require Import ZArith List Bool Lia String.
From Verif Require Import Py Num Utils Protocol Codes UasTable Decoders Command CommandTable Commands World Elm Obd SpecWire SpecBits SpecProto SpecCmd SpecElm SpecObd
  SpecE2E PyFacts CommandThms DecoderThms DecoderThms2 DecoderThms3 E2EThms4 Examples
  Properties_Protocol Properties_Decoders Properties_Elm Properties_Commands Properties_Obd Properties_EndToEnd.
Import ListNotations.
Open Scope string_scope. Open Scope list_scope. Open Scope Z_scope.
Ltac Zify.zify_post_hook ::= Z.div_mod_to_equations.

Lemma length_of names n c : named names c -> forallb (fun c => negb (existsb (text_eqb (c_name c)) (map str names)) || (c_bytes c =? n)) all_commands = true -> c_bytes c = n.
Proof. intros N F. apply Z.eqb_eq. exact (named_check names (fun c => c_bytes c =? n) c N F). Qed.
(* one of the names of a longer list *)
Lemma named_more names names' c : named names c -> forallb (fun x => existsb (String.eqb x) names') names = true -> named names' c.
Proof.
  intros [I N] F. split; [exact I|]. apply in_map_iff in N as (x & <- & N). apply in_map. rewrite forallb_forall in F. specialize (F x N). apply existsb_exists in F as (y & Y & E). apply String.eqb_eq in E. subst y. exact Y.
Qed.
Lemma speaks_bytes p mask lines payload : speaks p mask lines payload -> Forall is_byte payload.
Proof. intros (u & ls & _ & D & _). exact (delivers_bytes _ _ _ _ D). Qed.
Lemma byte_at (d : bytes) x : Forall is_byte d -> In x d -> is_byte x.
Proof. rewrite Forall_forall. auto. Qed.
(* what the decoder makes of the data is the value of the response *)
Lemma reads c p lines q h1 h2 d : reading c p lines q -> speaks p (c_ecu c) lines (h1 :: h2 :: d) -> h1 <> 67 -> c_bytes c = Z.of_nat (List.length d) + 2 ->
  exists ms, answered c ms d /\ forall v, evaluates c ms v -> r_value q = v.
Proof.
  intros R S H L. destruct (reading_answered c p lines q h1 h2 d R S H ltac:(lia)) as (ms & _ & A & V). exists ms. split; [exact A|]. intros v (r & V' & <-). congruence.
Qed.

(* ------------------------------------------------------------------ C81 *)
(* the status: the engine ECU answers 41 01 a b c d (or 41 41 ...) *)
Theorem C81_status : forall cmd p lines q pid a b c d, named ["STATUS"; "STATUS_DRIVE_CYCLE"] cmd -> reading cmd p lines q -> speaks p (c_ecu cmd) lines [65; pid; a; b; c; d] ->
  exists s, r_value q = VStatus s
    /\ st_MIL s = Z.testbit a 7 /\ st_DTC_count s = a mod 128
    /\ st_ignition_type s = (if Z.testbit b 3 then str "compression" else str "spark")
    /\ (forall i name, nth_error BASE_TESTS i = Some (Some name) ->
         dict_get otext_eqb (st_tests s) (Some name) = Some (mkStatusTest (Some name) (Z.testbit b (Z.of_nat i)) (negb (Z.testbit b (Z.of_nat i + 4)))))
    /\ (forall i name, nth_error (if Z.testbit b 3 then COMPRESSION_TESTS else SPARK_TESTS) i = Some (Some name) ->
         dict_get otext_eqb (st_tests s) (Some name) = Some (mkStatusTest (Some name) (Z.testbit c (Z.of_nat i)) (negb (Z.testbit d (Z.of_nat i))))).
Proof.
  intros cmd p lines q pid a b c d N R S. pose proof (speaks_bytes _ _ _ _ S) as F. destruct (reads cmd p lines q 65 pid [a; b; c; d] R S ltac:(lia)) as (ms & A & V).
  { rewrite (length_of _ 6 _ N) by (vm_compute; reflexivity). reflexivity. }
  destruct (C25_status cmd ms a b c d) as (s & E & H1 & H2 & H3 & H4 & H5 & _); try (apply (byte_at _ _ F); cbn; auto 10); [apply (named_more _ _ _ N); reflexivity|exact A|].
  exists s. split; [apply V, E|]. auto.
Qed.
(* which oxygen sensors are there *)
Theorem C81_o2_sensors : forall c p lines q pid b, named ["O2_SENSORS"] c -> reading c p lines q -> speaks p (c_ecu c) lines [65; pid; b] ->
  r_value q = VTuple [[]; map (Z.testbit b) [7; 6; 5; 4]; map (Z.testbit b) [3; 2; 1; 0]].
Proof.
  intros c p lines q pid b N R S. pose proof (speaks_bytes _ _ _ _ S) as F. destruct (reads c p lines q 65 pid [b] R S ltac:(lia)) as (ms & A & V).
  { rewrite (length_of _ 3 _ N) by (vm_compute; reflexivity). reflexivity. }
  apply V, C26_o2_sensors; [apply (named_more _ _ _ N); reflexivity|apply (byte_at _ _ F); cbn; auto 10|exact A].
Qed.
Theorem C81_o2_sensors_alt : forall c p lines q pid b, named ["O2_SENSORS_ALT"] c -> reading c p lines q -> speaks p (c_ecu c) lines [65; pid; b] ->
  r_value q = VTuple [[]; map (Z.testbit b) [7; 6]; map (Z.testbit b) [5; 4]; map (Z.testbit b) [3; 2]; map (Z.testbit b) [1; 0]].
Proof.
  intros c p lines q pid b N R S. pose proof (speaks_bytes _ _ _ _ S) as F. destruct (reads c p lines q 65 pid [b] R S ltac:(lia)) as (ms & A & V).
  { rewrite (length_of _ 3 _ N) by (vm_compute; reflexivity). reflexivity. }
  apply V, C26_o2_sensors_alt; [apply (named_more _ _ _ N); reflexivity|apply (byte_at _ _ F); cbn; auto 10|exact A].
Qed.
Theorem C81_aux_input : forall c p lines q pid b, named ["AUX_INPUT_STATUS"] c -> reading c p lines q -> speaks p (c_ecu c) lines [65; pid; b] -> r_value q = VBool (Z.testbit b 7).
Proof.
  intros c p lines q pid b N R S. pose proof (speaks_bytes _ _ _ _ S) as F. destruct (reads c p lines q 65 pid [b] R S ltac:(lia)) as (ms & A & V).
  { rewrite (length_of _ 3 _ N) by (vm_compute; reflexivity). reflexivity. }
  apply V, C26_aux_input; [apply (named_more _ _ _ N); reflexivity|apply (byte_at _ _ F); cbn; auto 10|exact A].
Qed.
(* the enumerations *)
Theorem C81_fuel_status : forall c p lines q pid a b, named ["FUEL_STATUS"] c -> reading c p lines q -> speaks p (c_ecu c) lines [65; pid; a; b] ->
  exists ta tb, bit_text FUEL_STATUS a ta /\ bit_text FUEL_STATUS b tb /\ r_value q = match ta, tb with [], [] => VNone | _, _ => VPair ta tb end.
Proof.
  intros c p lines q pid a b N R S. pose proof (speaks_bytes _ _ _ _ S) as F. destruct (reads c p lines q 65 pid [a; b] R S ltac:(lia)) as (ms & A & V).
  { rewrite (length_of _ 4 _ N) by (vm_compute; reflexivity). reflexivity. }
  destruct (C27_fuel_status c ms a b) as (ta & tb & H1 & H2 & E); [apply (named_more _ _ _ N); reflexivity|apply (byte_at _ _ F); cbn; auto 10|apply (byte_at _ _ F); cbn; auto 10|exact A|].
  exists ta, tb. split; [exact H1|]. split; [exact H2|]. apply V, E.
Qed.
Theorem C81_obd_compliance : forall c p lines q pid b, named ["OBD_COMPLIANCE"] c -> reading c p lines q -> speaks p (c_ecu c) lines [65; pid; b] ->
  r_value q = match nth_error OBD_COMPLIANCE (Z.to_nat b) with Some t => VText t | None => VNone end.
Proof.
  intros c p lines q pid b N R S. pose proof (speaks_bytes _ _ _ _ S) as F. destruct (reads c p lines q 65 pid [b] R S ltac:(lia)) as (ms & A & V).
  { rewrite (length_of _ 3 _ N) by (vm_compute; reflexivity). reflexivity. }
  apply V, C27_obd_compliance; [apply (named_more _ _ _ N); reflexivity|apply (byte_at _ _ F); cbn; auto 10|exact A].
Qed.
Theorem C81_fuel_type : forall c p lines q pid b, named ["FUEL_TYPE"] c -> reading c p lines q -> speaks p (c_ecu c) lines [65; pid; b] ->
  r_value q = match nth_error FUEL_TYPES (Z.to_nat b) with Some t => VText t | None => VNone end.
Proof.
  intros c p lines q pid b N R S. pose proof (speaks_bytes _ _ _ _ S) as F. destruct (reads c p lines q 65 pid [b] R S ltac:(lia)) as (ms & A & V).
  { rewrite (length_of _ 3 _ N) by (vm_compute; reflexivity). reflexivity. }
  apply V, C27_fuel_type; [apply (named_more _ _ _ N); reflexivity|apply (byte_at _ _ F); cbn; auto 10|exact A].
Qed.
(* the code that caused the freeze frame *)
Theorem C81_freeze_dtc : forall c p lines q pid a b, named ["FREEZE_DTC"] c -> reading c p lines q -> speaks p (c_ecu c) lines [65; pid; a; b] ->
  exists desc, r_value q = VDtc (dtc_text a b) desc /\ described DTC (dtc_text a b) desc.
Proof.
  intros c p lines q pid a b N R S. pose proof (speaks_bytes _ _ _ _ S) as F. destruct (reads c p lines q 65 pid [a; b] R S ltac:(lia)) as (ms & A & V).
  { rewrite (length_of _ 4 _ N) by (vm_compute; reflexivity). reflexivity. }
  destruct (C21_description c ms a b) as (desc & E & D); [apply (named_more _ _ _ N); reflexivity|apply (byte_at _ _ F); cbn; auto 10|apply (byte_at _ _ F); cbn; auto 10|exact A|].
  exists desc. split; [apply V, E|exact D].
Qed.
(* the results of the on-board monitors (mode 06): the blocks of nine bytes behind 46 *)
Theorem C81_monitor : forall c p lines q d bs, is_monitor c -> reading c p lines q -> speaks p (c_ecu c) lines (70 :: d) -> blocks9 d bs ->
  exists mon, r_value q = VMonitor mon
    /\ (forall tid b t, last_with (usable tid) bs b -> block_test b t -> monitor_get_tid mon tid = t)
    /\ (forall tid, Forall (fun b => ~ usable tid b) bs -> monitor_get_tid mon tid = null_test)
    /\ (forall tid name desc, In (tid, (name, desc)) TEST_IDS -> monitor_get_name mon name = monitor_get_tid mon tid)
    /\ (forall t, In t (monitor_tests mon) <-> exists tid b, last_with (usable tid) bs b /\ block_test b t).
Proof.
  intros c p lines q d bs M R S B. destruct (C67_payload c p lines q _ R S ltac:(congruence)) as (ms & m & _ & W & E & V).
  destruct (C28_monitor_results c ms m 70 d bs M W E B) as (mon & (r & V' & Er) & H1 & H2 & H3 & H4 & _). exists mon. split; [congruence|]. auto.
Qed.
(* the vehicle identification number. Full statement: the 17 characters the ECU sent. False if the first or the last is one of 0, 1, 2
   (C30_vin_refuted). Proved: for the others, however the protocol fills the answer up (CAN: one item, the 17 characters; the older
   protocols: 3 zeros first) *)
Theorem C30_vin_reading_partial : forall c p lines q front vin, named ["VIN"] c -> reading c p lines q -> speaks p (c_ecu c) lines (73 :: 2 :: front ++ vin) ->
  front = [1] \/ front = [0; 0; 0] -> List.length vin = 17%nat ->
  (exists x t, vin = x :: t /\ ~ SpecCmd.white x /\ ~ In x [0; 1; 2; 92; 120; 48; 49; 50]) ->
  (exists t x, vin = t ++ [x] /\ ~ SpecCmd.white x /\ ~ In x [0; 1; 2; 92; 120; 48; 49; 50]) -> r_value q = VBytes vin.
Proof.
  intros c p lines q front vin N R S Hf L H1 H2. pose proof (length_of _ 22 _ N ltac:(vm_compute; reflexivity)) as Lc.
  destruct (C67_payload c p lines q _ R S ltac:(congruence)) as (ms & m & _ & W & E & V).
  set (pad := match front with [1] => [0; 0] | _ => [] end).
  assert (A : answered c ms (front ++ vin ++ pad)).
  { exists m, 73, 2. split; [exact W|]. rewrite Lc, E. split; [intros _|lia]. destruct Hf as [-> | ->]; cbn [app List.length pad]; rewrite ?app_length, L; (split; [reflexivity|]).
    - right. exists [0; 0]. split; [reflexivity|repeat constructor].
    - left. exists []. rewrite !app_nil_r. reflexivity. }
  assert (Fp : Forall pad_byte front /\ Forall pad_byte pad) by (destruct Hf as [-> | ->]; split; repeat constructor; unfold pad_byte; lia). destruct Fp as [F1 F2].
  destruct (C30_text_partial c ms (front ++ vin ++ pad) [] front vin pad []) as (r & V' & Er); try assumption.
  - apply (named_more _ _ _ N). reflexivity.
  - rewrite app_nil_r. reflexivity.
  - constructor.
  - constructor.
  - congruence.
Qed.
(* a status answer, and a VIN in three frames *)
Example C81_status_example : exists p lines q, named ["STATUS"; "STATUS_DRIVE_CYCLE"] (cmd "STATUS") /\ reading (cmd "STATUS") p lines q /\ speaks p (c_ecu (cmd "STATUS")) lines [65; 1; 131; 7; 255; 0].
Proof.
  get_demo (cmd "STATUS") can11 (str "7E8 06 41 01 83 07 FF 00") [str "7E8 06 41 01 83 07 FF 00"].
  exists can11, [str "7E8 06 41 01 83 07 FF 00"], q. split; [|split; [exact Rd|]].
  - destruct (cmd_named "STATUS") as [I [E|[]]]; [vm_compute; congruence|]. split; [exact I|left; exact E].
  - apply (can11_speaks _ _ _ 6); [left; vm_compute; reflexivity|show|bytes_ok|discriminate|cbn; lia|lia|reflexivity|lia].
Qed.
Definition vin_answer : list text := [str "7E8 10 14 49 02 01 57 50 30"; str "7E8 21 5A 5A 5A 39 39 5A 54"; str "7E8 22 53 33 39 32 31 32 34"].
Example C30_vin_reading_example : exists p q, reading (cmd "VIN") p vin_answer q /\ speaks p (c_ecu (cmd "VIN")) vin_answer (73 :: 2 :: [1] ++ str "WP0ZZZ99ZTS392124") /\ r_value q = VBytes (str "WP0ZZZ99ZTS392124").
Proof.
  get_demo (cmd "VIN") can11 (nth 0 vin_answer [] ++ [13] ++ nth 1 vin_answer [] ++ [13] ++ nth 2 vin_answer []) vin_answer.
  exists can11, q. split; [exact Rd|]. split; [|exact V].
  set (frames := [[16; 20; 73; 2; 1; 87; 80; 48]; [33; 90; 90; 90; 57; 57; 90; 84]; [34; 83; 51; 57; 50; 49; 50; 52]]).
  assert (P : Forall2 (can_line engine11) vin_answer frames) by (repeat (apply Forall2_cons; [show|]); apply Forall2_nil).
  assert (Fr : forall l d, In (l, d) (combine vin_answer frames) -> is_from (FCan 11) 0 l).
  { assert (K : Forall2 (fun l d => can_line engine11 l d -> is_from (FCan 11) 0 l) vin_answer frames).
    { repeat (apply Forall2_cons; [intros X; eapply (can_from 7 14 8); [unfold is_nibble; lia|unfold is_nibble; lia|unfold is_nibble; lia| |exact X|]; [bytes_ok|split; cbn; lia]|]). apply Forall2_nil. }
    intros l d H. cbn in H. destruct H as [H|[H|[H|[]]]]; apply pair_equal_spec in H as [<- <-]; inversion K as [|? ? ? ? K1 K']; subst; inversion K' as [|? ? ? ? K2 K'']; subst; inversion K'' as [|? ? ? ? K3 _]; subst;
      inversion P as [|? ? ? ? P1 P']; subst; inversion P' as [|? ? ? ? P2 P'']; subst; inversion P'' as [|? ? ? ? P3 _]; subst; auto. }
  exists 0, vin_answer. change (pc_family (p_class can11)) with (FCan 11). split; [|split; [|split]].
  - constructor 2; [eapply Fr; left; reflexivity|]. constructor 2; [eapply Fr; right; left; reflexivity|]. constructor 2; [eapply Fr; right; right; left; reflexivity|]. constructor.
  - apply (delivers_can_multi engine11 vin_answer _ frames); [cbn; unfold is_nibble; lia| |vm_compute; discriminate|repeat constructor; unfold is_byte; lia|exact P].
    apply (segmented_intro [73; 2; 1; 87; 80; 48] [90; 90; 90; 57; 57; 90; 84; 83; 51; 57; 50; 49; 50; 52]); [reflexivity|].
    apply (consecutive_more 1 [90; 90; 90; 57; 57; 90; 84] [83; 51; 57; 50; 49; 50; 52]); [reflexivity|discriminate|].
    apply (consecutive_last 2 [83; 51; 57; 50; 49; 50; 52] []); [discriminate|cbn; lia].
  - apply C67_engine; [reflexivity|left; vm_compute; reflexivity].
  - intros u' Lu _ l' H. cbn in H. destruct H as [<-|[<-|[<-|[]]]];
      [apply (not_from_other 11 u' (Id11 7 14 8) _ (nth 0 frames []))|apply (not_from_other 11 u' (Id11 7 14 8) _ (nth 1 frames []))|apply (not_from_other 11 u' (Id11 7 14 8) _ (nth 2 frames []))];
      first [reflexivity|show|bytes_ok|cbn; unfold is_nibble; lia|cbn; lia].
Qed.
