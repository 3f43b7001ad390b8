(* Property C113: the car's listings of its live data and of its freeze frames (modes 01 and 02). *)
From Coq Require Import ZArith List Bool Lia String.
From Verif Require Import Py Num Utils Protocol Decoders Command CommandTable Commands World Elm Obd SpecWire SpecBits SpecProto SpecCmd SpecElm SpecObd SpecE2E SpecConnect
  PyFacts WireFacts ProtocolFacts WireFacts CommandThms DecoderThms DecoderThms3 ElmFacts ElmThms ObdThms2 ObdThms6 E2EThms4 Properties_Protocol Properties_Commands Properties_Decoders Properties_Elm Properties_Obd Properties_EndToEnd
  ConnectThms ConnectThms2 Examples Properties_Connect Properties_Listing Properties_Listing6.
Import ListNotations.
Open Scope string_scope. Open Scope list_scope. Open Scope Z_scope.

(* a command of mode 01, or of mode 02 (the same data in the freeze frame), with a number from q + 1 to q + 32, as the listing number q announces them *)
Definition data_no (q : Z) (x : command) (n : Z) : Prop := In x all_commands /\ (c_mode x = Some 1 \/ c_mode x = Some 2) /\ c_pid x = Some n /\ q < n <= q + 32.
(* listings that have nothing to say about them *)
Definition apart (q : Z) (g : command) : Prop := c_mode g <> Some 1 /\ c_mode g <> Some 2 \/ exists q', c_pid g = Some q' /\ (q + 32 <= q' \/ q' + 32 <= q /\ c_bytes g = 6).
Lemma lists_apart q p gs sup l sup' : car_lists p gs sup l sup' -> Forall (apart q) gs -> forall x n, data_no q x n -> (In x sup' <-> In x sup).
Proof.
  induction 1 as [sup|g gs sup rs sup' _ _ IH|g gs sup a l rs sup' _ _ _ _ IH|g gs sup a lines h1 h2 data d sup1 rs sup' _ _ _ _ _ Rz E _ IH]; intros F x n M; [tauto|inversion F; eauto|inversion F; eauto|].
  inversion F as [|? ? Ng F']; subst. rewrite (IH F' x n M), E. unfold announces; cbv zeta. destruct M as (_ & Mx & Px & Rn). split; [|auto].
  intros [I|(mode & pid & i & Em & Ep & Nt & _ & Eq & K)]; [exact I|]. exfalso. rewrite Px in Eq. destruct Ng as [[N1 N2]|(q' & Eg & Lq)].
  - destruct K as [K|[K _]]; [|congruence]. destruct Mx as [Mx|Mx]; congruence.
  - assert (q' = pid) by congruence. subst q'. destruct Lq as [Lq|[Lq B6]]; [lia|].
    rewrite B6 in Rz. destruct Rz as [Rz _]. destruct (Rz ltac:(lia)) as [L _]. cbn [List.length] in L.
    assert (Li : (i < List.length (bits_of d))%nat) by (apply nth_error_Some; congruence). unfold bits_of in Li. rewrite map_length, seq_length in Li. unfold nbits in Li. lia.
Qed.
Definition apart_b (q : Z) (g : command) : bool := negb (oz_eqb (c_mode g) (Some 1)) && negb (oz_eqb (c_mode g) (Some 2))
  || match c_pid g with Some q' => (q + 32 <=? q') || (q' + 32 <=? q) && (c_bytes g =? 6) | None => false end.
Lemma apart_iff q L : forallb (apart_b q) L = true -> Forall (apart q) L.
Proof.
  intros F. apply Forall_forall. intros y Yi. rewrite forallb_forall in F. specialize (F y Yi). unfold apart_b in F. apply orb_prop in F as [F|F].
  - left. apply andb_prop in F as [F1 F2]. split; intros E; rewrite E in *; discriminate.
  - right. destruct (c_pid y) as [q'|]; [|discriminate F]. exists q'. split; [reflexivity|]. apply orb_prop in F as [F|F]; [left; lia|]. right. apply andb_prop in F as [F1 F2]. lia.
Qed.
Definition listing1_b (k : nat) : bool :=
  match nth_error pid_getters k with
  | Some g => negb (oz_eqb (c_mode g) (Some 1))
      || (c_bytes g =? 6) && (c_ecu g =? ECU_ENGINE) && match c_pid g with Some q => (0 <=? q) && forallb (apart_b q) (firstn k pid_getters) && forallb (apart_b q) (skipn (S k) pid_getters) | None => false end
  | None => true
  end.
Lemma listing1_all : forallb listing1_b (seq 0 12) = true.
Proof. vm_compute. reflexivity. Qed.
Lemma listing1 k g q : nth_error pid_getters k = Some g -> c_mode g = Some 1 -> c_pid g = Some q ->
  c_bytes g = 6 /\ c_ecu g = ECU_ENGINE /\ 0 <= q /\ Forall (apart q) (firstn k pid_getters) /\ Forall (apart q) (skipn (S k) pid_getters).
Proof.
  intros Ng M Pq. assert (Lk : (k < 12)%nat). { pose proof getters_few. assert (k < List.length pid_getters)%nat by (apply nth_error_Some; congruence). lia. }
  pose proof listing1_all as F. rewrite forallb_forall in F. specialize (F k ltac:(apply in_seq; lia)). unfold listing1_b in F. rewrite Ng, M, Pq in F.
  change (negb (oz_eqb (Some 1) (Some 1))) with false in F. cbn [orb] in F. apply andb_prop in F as [F F3]. apply andb_prop in F as [F1 F2]. apply Z.eqb_eq in F1, F2.
  apply andb_prop in F3 as [F3 F5]. apply andb_prop in F3 as [F4 F3]. apply Z.leb_le in F4.
  split; [exact F1|]. split; [exact F2|]. split; [exact F4|]. split; [exact (apart_iff _ _ F3)|exact (apart_iff _ _ F5)].
Qed.
Lemma data_base_b : forallb (fun x => negb (oz_eqb (c_mode x) (Some 1) || oz_eqb (c_mode x) (Some 2)) || match c_pid x with Some n => (n <=? 0) || negb (existsb (text_eqb (c_name x)) base_names) | None => true end) all_commands = true.
Proof. vm_compute. reflexivity. Qed.
Lemma data_not_base q x n : 0 <= q -> data_no q x n -> ~ is_base x.
Proof.
  intros Nq (I & M & Pn & R) [_ Bn]. pose proof data_base_b as F. rewrite forallb_forall in F. specialize (F x I). rewrite Pn in F.
  assert (E : oz_eqb (c_mode x) (Some 1) || oz_eqb (c_mode x) (Some 2) = true) by (destruct M as [-> | ->]; reflexivity). rewrite E in F. cbn [negb orb] in F.
  replace (n <=? 0) with false in F by lia. cbn [orb] in F. apply negb_true_iff in F. rewrite <- not_true_iff_false in F. apply F. apply existsb_exists. exists (c_name x). split; [exact Bn|apply text_eqb_iff; reflexivity].
Qed.

Lemma announces_data g q bs x : c_mode g = Some 1 -> c_pid g = Some q -> 0 <= q ->
  (exists n, In x all_commands /\ (c_mode x = Some 1 \/ c_mode x = Some 2) /\ c_pid x = Some n /\ q < n /\ listed_at bs (n - q)) <-> announces g (bits_of bs) x.
Proof.
  intros Mg Pg Nq. unfold announces, listed_at; cbv zeta. split.
    - intros (n & Ix & M & Pn & Ln & B). exists 1, q, (Z.to_nat (n - q - 1)). split; [exact Mg|]. split; [exact Pg|]. split.
      + unfold bits_of. rewrite map_seq_at. assert (Li : (Z.to_nat (n - q - 1) <? nbits bs = true)%nat).
        { apply Nat.ltb_lt. unfold nbits. destruct (Nat.lt_ge_cases (Z.to_nat (n - q - 1)) (8 * List.length bs)) as [L|L]; [exact L|]. exfalso. unfold bit_of in B.
          rewrite nth_overflow in B; [|apply Nat.div_le_lower_bound; lia]. rewrite Z.testbit_0_l in B. discriminate B. }
        rewrite Li. f_equal. exact B.
      + split; [exact Ix|]. rewrite Pn. split; [lia|]. destruct M as [M|M]; auto.
    - intros (mode & pid & i & Em & Ep & Nt & Ix & Eq & K). assert (mode = 1) by congruence. assert (pid = q) by congruence. subst mode pid.
      destruct (c_pid x) as [n|] eqn:Px; [|lia]. exists n. split; [exact Ix|]. split; [destruct K as [K|[_ K]]; auto|]. split; [reflexivity|]. split; [lia|].
      replace (Z.to_nat (n - q - 1)) with i by lia. unfold bits_of in Nt. rewrite map_seq_at in Nt. destruct (i <? _)%nat; [congruence|discriminate Nt].
Qed.

(* A willing adapter and car (C77), on any protocol. g, the k-th listing, is one of mode 01 (0100, 0120, 0140) and asked for (supported when its turn
   comes). The engine answers with 41, a byte, and four bytes of bits; what is answered to the listings before and after it is free.
   Then of the data this listing stands for exactly those are supported whose bit is set, live (mode 01) and in the freeze frame (mode 02). *)
Theorem C113_listing : forall cf port scan name w br b id c r p ls rs base k g q l1 sup1 a lines h b1 b2 b3 b4 sup2 l2 sup3 rest,
  (port = Some name \/ port = None /\ scan = [name]) ->
  calm w -> w_reads w = br ++ rs ++ (l1 ++ a ++ l2) ++ rest ->
  finding_baud name (cf_baudrate cf) br b ->
  willing (cf_check_voltage cf) (cf_protocol cf) id r ls -> replies ls rs -> lookup id = Some c -> new_protocol c r = Ok p ->
  (forall x, In x base <-> is_base x) -> car_lists p (firstn k pid_getters) base l1 sup1 ->
  nth_error pid_getters k = Some g -> c_mode g = Some 1 -> c_pid g = Some q -> In g sup1 ->
  reply a lines -> (exists ms, call p lines = Ok ms) -> speaks p ECU_ENGINE lines [65; h; b1; b2; b3; b4] ->
  (forall x, In x sup2 <-> In x sup1 \/ exists n, In x all_commands /\ (c_mode x = Some 1 \/ c_mode x = Some 2) /\ c_pid x = Some n /\ q < n /\ listed_at [b1; b2; b3; b4] (n - q)) ->
  car_lists p (skipn (S k) pid_getters) sup2 l2 sup3 ->
  exists o w', new_obd cf port scan w = (Ok tt, (o, w')) /\ obd_status o = CAR_CONNECTED /\ w_reads w' = rest /\
    forall x n, data_no q x n -> (In x (o_supported o) <-> listed_at [b1; b2; b3; b4] (n - q)).
Proof.
  intros cf port scan name w br b id c r p ls rs base k g q l1 sup1 a lines h b1 b2 b3 b4 sup2 l2 sup3 rest Hp C Rw FB Wl Rp Lk Np Hb Cl Ng Mg Pg S1 Y Ok1 Sp E2 Cl2.
  set (bs := [b1; b2; b3; b4]) in *.
  destruct (listing1 k g q Ng Mg Pg) as (B6 & Ea & Nq & Ef & El).
  assert (Rz : resized (c_bytes g) (65 :: h :: bs) (65 :: h :: bs)) by (rewrite B6; apply resized_same; reflexivity).
  assert (ML : may_list p sup1 g) by (split; [exists g; auto|intros E; congruence]).
  assert (An : forall x, In x sup2 <-> In x sup1 \/ announces g (bits_of bs) x) by (intros x; rewrite E2; apply or_iff_compat_l, announces_data; assumption).
  assert (Cl3 : car_lists p (g :: skipn (S k) pid_getters) sup1 (a ++ l2) sup3) by (apply (cl_bits p g _ sup1 a lines 65 h (h :: bs) bs sup2 l2 sup3); auto; [rewrite Ea; exact Sp|discriminate]).
  pose proof (lists_app p _ _ _ _ Cl _ _ _ Cl3) as Cl4.
  assert (Spl : firstn k pid_getters ++ g :: skipn (S k) pid_getters = pid_getters).
  { clear -Ng. revert k Ng. induction pid_getters as [|y L IH]; intros [|k] Ng; [discriminate Ng|discriminate Ng|cbn in Ng; injection Ng as ->; reflexivity|]. change (y :: (firstn k L ++ g :: skipn (S k) L) = y :: L). f_equal. apply IH, Ng. }
  rewrite Spl in Cl4.
  destruct (C77_connects cf port scan name w br b id c r p ls rs base (l1 ++ a ++ l2) sup3 rest Hp C Rw FB Wl Rp Lk Np Hb Cl4) as (o & w' & N & St & _ & _ & _ & _ & Su & Rr & _).
  exists o, w'. split; [exact N|]. split; [exact St|]. split; [exact Rr|]. intros x n M.
  rewrite Su, (lists_apart q p _ sup2 l2 sup3 Cl2 El x n M), E2, (lists_apart q p _ base l1 sup1 Cl Ef x n M), Hb.
  pose proof (data_not_base q x n Nq M) as Nb. destruct M as (Ix & Mx & Px & Rn). split.
  - intros [B|(n' & _ & _ & Pn' & _ & B)]; [exfalso; exact (Nb B)|]. assert (n' = n) by congruence. subst. exact B.
  - intros B. right. exists n. repeat split; auto; lia.
Qed.
(* a listing of mode 01 that is not asked for, or answered by text (NO DATA): none of its data is supported *)
Theorem C113_silent : forall cf port scan name w br b id c r p ls rs base k g q l1 sup1 l2 sup3 rest,
  (port = Some name \/ port = None /\ scan = [name]) ->
  calm w -> w_reads w = br ++ rs ++ (l1 ++ l2) ++ rest ->
  finding_baud name (cf_baudrate cf) br b ->
  willing (cf_check_voltage cf) (cf_protocol cf) id r ls -> replies ls rs -> lookup id = Some c -> new_protocol c r = Ok p ->
  (forall x, In x base <-> is_base x) -> car_lists p (firstn k pid_getters) base l1 sup1 ->
  nth_error pid_getters k = Some g -> c_mode g = Some 1 -> c_pid g = Some q ->
  (~ may_list p sup1 g /\ car_lists p (skipn (S k) pid_getters) sup1 l2 sup3
   \/ may_list p sup1 g /\ exists a t l3, l2 = a ++ l3 /\ reply a [t] /\ ~ hex_line t /\ car_lists p (skipn (S k) pid_getters) sup1 l3 sup3) ->
  exists o w', new_obd cf port scan w = (Ok tt, (o, w')) /\ obd_status o = CAR_CONNECTED /\
    forall x n, data_no q x n -> ~ In x (o_supported o).
Proof.
  intros cf port scan name w br b id c r p ls rs base k g q l1 sup1 l2 sup3 rest Hp C Rw FB Wl Rp Lk Np Hb Cl Ng Mg Pg Q.
  destruct (listing1 k g q Ng Mg Pg) as (B6 & Ea & Nq & Ef & El).
  assert (Cl3 : car_lists p (g :: skipn (S k) pid_getters) sup1 l2 sup3).
  { destruct Q as [[Nm Cl2]|(Nm & a & t & l3 & -> & Ra & Th & Cl2)]; [apply cl_skip; assumption|eapply cl_text; eauto]. }
  assert (Cl2 : exists l3, car_lists p (skipn (S k) pid_getters) sup1 l3 sup3) by (destruct Q as [[_ Cl2]|(_ & a & t & l3 & _ & _ & _ & Cl2)]; eauto). destruct Cl2 as (l3 & Cl2).
  pose proof (lists_app p _ _ _ _ Cl _ _ _ Cl3) as Cl4.
  assert (Spl : firstn k pid_getters ++ g :: skipn (S k) pid_getters = pid_getters).
  { clear -Ng. revert k Ng. induction pid_getters as [|y L IH]; intros [|k] Ng; [discriminate Ng|discriminate Ng|cbn in Ng; injection Ng as ->; reflexivity|]. change (y :: (firstn k L ++ g :: skipn (S k) L) = y :: L). f_equal. apply IH, Ng. }
  rewrite Spl in Cl4.
  destruct (C77_connects cf port scan name w br b id c r p ls rs base (l1 ++ l2) sup3 rest Hp C Rw FB Wl Rp Lk Np Hb Cl4) as (o & w' & N & St & _ & _ & _ & _ & Su & _).
  exists o, w'. split; [exact N|]. split; [exact St|]. intros x n M X. apply Su in X.
  rewrite (lists_apart q p _ sup1 l3 sup3 Cl2 El x n M), (lists_apart q p _ base l1 sup1 Cl Ef x n M), Hb in X. exact (data_not_base q x n Nq M X).
Qed.

(* a CAN car that lists the speed (0D) and nothing else *)
Definition speed_listing : text := str "7E8 06 41 00 00 08 00 00".
Definition speed_after : list (option bytes) := [says (str "NO DATA"); says (str "NO DATA")].
Example C113_example : exists o w', new_obd auto_setup None [str "/dev/ttyUSB0"] (fresh (unit_at_9600 ++ unit_reads ++ [says speed_listing] ++ speed_after)) = (Ok tt, (o, w'))
  /\ In (cmd "SPEED") (o_supported o) /\ In (cmd "DTC_SPEED") (o_supported o) /\ ~ In (cmd "RPM") (o_supported o).
Proof.
  destruct unit_willing as (Wl & Rp). set (sup2 := enable_bits 1 0 (bits_of [0; 8; 0; 0]) base_set).
  assert (G0 : nth_error pid_getters 0 = Some (cmd "PIDS_A")) by (vm_compute; reflexivity).
  assert (Cl2 : exists sup3, car_lists can11 (skipn 1 pid_getters) sup2 speed_after sup3).
  { exists sup2. change (skipn 1 pid_getters) with [cmd "PIDS_B"; cmd "PIDS_C"; cmd "MIDS_A"; cmd "MIDS_B"; cmd "MIDS_C"; cmd "MIDS_D"; cmd "MIDS_E"; cmd "MIDS_F"; cmd "PIDS_9A"]. unfold speed_after.
    do 2 skip. apply (cl_text can11 _ _ _ [_] (str "NO DATA") [_]); [rewrite may_list_iff; vm_compute; reflexivity|rsays|rewrite hex_line_isHex; vm_compute; discriminate|].
    do 5 skip. apply (cl_text can11 _ _ _ [_] (str "NO DATA") []); [rewrite may_list_iff; vm_compute; reflexivity|rsays|rewrite hex_line_isHex; vm_compute; discriminate|]. apply cl_end. }
  destruct Cl2 as (sup3 & Cl2).
  destruct (C113_listing auto_setup None [str "/dev/ttyUSB0"] (str "/dev/ttyUSB0") (fresh (unit_at_9600 ++ unit_reads ++ [says speed_listing] ++ speed_after)) unit_at_9600 9600 (str "6") ISO_15765_4_11bit_500k
    [str "7E8 06 41 00 00 08 00 01"] can11 unit_says unit_reads base_set 0 (cmd "PIDS_A") 0 [] base_set [says speed_listing] [speed_listing] 0 0 8 0 0 sup2 speed_after sup3 []) as (o & w' & N & _ & _ & F); auto.
  - repeat split.
  - exact unit_found.
  - exact (proj2 base_table).
  - constructor.
  - apply (proj2 base_table). split; [apply (cmd_named "PIDS_A"); vm_compute; congruence|vm_compute; tauto].
  - rsays.
  - eexists. vm_compute. reflexivity.
  - apply speaks_one; [show|bytes_ok|discriminate|cbn; lia|left; reflexivity].
  - intros x. rewrite (announces_data (cmd "PIDS_A") 0 [0; 8; 0; 0] x); [|reflexivity|reflexivity|lia]. apply (enable_announces (cmd "PIDS_A") 1 0); [reflexivity|reflexivity|exact (proj1 base_table)].
  - exists o, w'. split; [exact N|]. split; [|split].
    + apply (F (cmd "SPEED") 13); [|reflexivity]. split; [apply (cmd_named "SPEED"); vm_compute; congruence|]. split; [left; reflexivity|]. split; [reflexivity|lia].
    + apply (F (cmd "DTC_SPEED") 13); [|reflexivity]. split; [apply (cmd_named "DTC_SPEED"); vm_compute; congruence|]. split; [right; reflexivity|]. split; [reflexivity|lia].
    + intros X. apply (F (cmd "RPM") 12) in X; [vm_compute in X; discriminate X|]. split; [apply (cmd_named "RPM"); vm_compute; congruence|]. split; [left; reflexivity|]. split; [reflexivity|lia].
Qed.
(* the same car is not asked 0120, and nothing of it is supported *)
Example C113_silent_example : exists o w', new_obd auto_setup None [str "/dev/ttyUSB0"] (fresh (unit_at_9600 ++ unit_reads ++ [says speed_listing] ++ speed_after)) = (Ok tt, (o, w'))
  /\ c_pid (cmd "DISTANCE_W_MIL") = Some 33 /\ ~ In (cmd "DISTANCE_W_MIL") (o_supported o).
Proof.
  destruct unit_willing as (Wl & Rp). set (sup2 := enable_bits 1 0 (bits_of [0; 8; 0; 0]) base_set).
  assert (G1 : nth_error pid_getters 1 = Some (cmd "PIDS_B")) by (vm_compute; reflexivity).
  assert (Cl1 : car_lists can11 (firstn 1 pid_getters) base_set [says speed_listing] sup2).
  { change (firstn 1 pid_getters) with [cmd "PIDS_A"].
    apply (cl_bits can11 _ _ _ [_] [speed_listing] 65 0 [0; 0; 8; 0; 0] [0; 8; 0; 0] sup2); [rewrite may_list_iff; vm_compute; reflexivity|rsays|eexists; vm_compute; reflexivity| | | | |].
    { apply speaks_one; [show|bytes_ok|discriminate|cbn; lia|left; reflexivity]. }
    { discriminate. }
    { apply resized_same. reflexivity. }
    { apply (enable_announces (cmd "PIDS_A") 1 0); [reflexivity|reflexivity|exact (proj1 base_table)]. }
    apply cl_end. }
  assert (Cl2 : car_lists can11 (skipn 2 pid_getters) sup2 speed_after sup2).
  { change (skipn 2 pid_getters) with [cmd "PIDS_C"; cmd "MIDS_A"; cmd "MIDS_B"; cmd "MIDS_C"; cmd "MIDS_D"; cmd "MIDS_E"; cmd "MIDS_F"; cmd "PIDS_9A"]. unfold speed_after.
    skip. apply (cl_text can11 _ _ _ [_] (str "NO DATA") [_]); [rewrite may_list_iff; vm_compute; reflexivity|rsays|rewrite hex_line_isHex; vm_compute; discriminate|].
    do 5 skip. apply (cl_text can11 _ _ _ [_] (str "NO DATA") []); [rewrite may_list_iff; vm_compute; reflexivity|rsays|rewrite hex_line_isHex; vm_compute; discriminate|]. apply cl_end. }
  destruct (C113_silent auto_setup None [str "/dev/ttyUSB0"] (str "/dev/ttyUSB0") (fresh (unit_at_9600 ++ unit_reads ++ [says speed_listing] ++ speed_after)) unit_at_9600 9600 (str "6") ISO_15765_4_11bit_500k
    [str "7E8 06 41 00 00 08 00 01"] can11 unit_says unit_reads base_set 1 (cmd "PIDS_B") 32 [says speed_listing] sup2 speed_after sup2 []) as (o & w' & N & _ & F); auto.
  - repeat split.
  - exact unit_found.
  - exact (proj2 base_table).
  - left. split; [rewrite may_list_iff; vm_compute; discriminate|exact Cl2].
  - exists o, w'. split; [exact N|]. split; [reflexivity|]. apply (F (cmd "DISTANCE_W_MIL") 33).
    split; [apply (cmd_named "DISTANCE_W_MIL"); vm_compute; congruence|]. split; [left; reflexivity|]. split; [reflexivity|lia].
Qed.
Print Assumptions C113_listing.
Print Assumptions C113_silent.
