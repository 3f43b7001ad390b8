(* Property C112: the car's listing of its on-board monitors (mode 06). *)
From Coq Require Import ZArith List Bool Lia String.
From Verif Require Import Py Num Utils Protocol Decoders Command CommandTable Commands World Elm Obd SpecWire SpecBits SpecProto SpecCmd SpecElm SpecObd SpecE2E SpecConnect
  PyFacts WireFacts ProtocolFacts WireFacts CommandThms DecoderThms DecoderThms3 ElmFacts ElmThms ObdThms2 ObdThms6 E2EThms4 Properties_Protocol Properties_Commands Properties_Decoders Properties_Elm Properties_Obd Properties_EndToEnd
  ConnectThms ConnectThms2 Examples Properties_Connect Properties_Listing.
Import ListNotations.
Open Scope string_scope. Open Scope list_scope. Open Scope Z_scope.

(* a command of mode 06 with a number from q + 1 to q + 32, as the listing number q announces them *)
Definition monitor_no (q : Z) (x : command) (n : Z) : Prop := In x all_commands /\ c_mode x = Some 6 /\ c_pid x = Some n /\ q < n <= q + 32.
(* listings that have nothing to say about them *)
Definition elsewhere (q : Z) (g : command) : Prop := c_mode g <> Some 6 \/ exists q', c_pid g = Some q' /\ q + 32 <= q'.
Lemma lists_elsewhere q p gs sup l sup' : car_lists p gs sup l sup' -> Forall (elsewhere q) gs -> forall x n, monitor_no q x n -> (In x sup' <-> In x sup).
Proof.
  induction 1 as [sup|g gs sup rs sup' _ _ IH|g gs sup a l rs sup' _ _ _ _ IH|g gs sup a lines h1 h2 data d sup1 rs sup' _ _ _ _ _ _ E _ IH]; intros F x n M; [tauto|inversion F; eauto|inversion F; eauto|].
  inversion F as [|? ? Ng F']; subst. rewrite (IH F' x n M), E. unfold announces; cbv zeta. destruct M as (_ & Mx & Px & Rn). split; [|auto].
  intros [I|(mode & pid & i & Em & Ep & _ & _ & Eq & K)]; [exact I|]. exfalso. rewrite Px in Eq. destruct Ng as [Ng|(q' & Eg & Lq)].
  - destruct K as [K|[_ K]]; congruence.
  - assert (q' = pid) by congruence. lia.
Qed.
Definition elsewhere_b (q : Z) (g : command) : bool := negb (oz_eqb (c_mode g) (Some 6)) || match c_pid g with Some q' => q + 32 <=? q' | None => false end.
Lemma elsewhere_iff q L : forallb (elsewhere_b q) L = true -> Forall (elsewhere q) L.
Proof.
  intros F. apply Forall_forall. intros y Yi. rewrite forallb_forall in F. specialize (F y Yi). unfold elsewhere_b in F. apply orb_prop in F as [F|F].
  - left. intros E. rewrite E in F. discriminate F.
  - right. destruct (c_pid y) as [q'|]; [|discriminate F]. exists q'. apply Z.leb_le in F. auto.
Qed.
(* the listings of mode 06 are asked in ascending order, are asked by commands of the table, and have no length *)
Definition listing6_b (k : nat) : bool :=
  match nth_error pid_getters k with
  | Some g => negb (oz_eqb (c_mode g) (Some 6))
      || (c_bytes g =? 0) && (c_ecu g =? ECU_ALL) && match c_pid g with Some q => (0 <=? q) && forallb (elsewhere_b q) (skipn (S k) pid_getters) | None => false end
  | None => true
  end.
Lemma listing6_all : forallb listing6_b (seq 0 12) = true.
Proof. vm_compute. reflexivity. Qed.
Lemma getters_few : (List.length pid_getters <= 12)%nat.
Proof. vm_compute. lia. Qed.
Lemma listing6 k g q : nth_error pid_getters k = Some g -> c_mode g = Some 6 -> c_pid g = Some q -> c_bytes g = 0 /\ c_ecu g = ECU_ALL /\ 0 <= q /\ Forall (elsewhere q) (skipn (S k) pid_getters).
Proof.
  intros Ng M Pq. assert (Lk : (k < 12)%nat). { pose proof getters_few. assert (k < List.length pid_getters)%nat by (apply nth_error_Some; congruence). lia. }
  pose proof listing6_all as F. rewrite forallb_forall in F. specialize (F k ltac:(apply in_seq; lia)). unfold listing6_b in F. rewrite Ng, M, Pq in F. cbn [oz_eqb negb orb] in F.
  change (negb (6 =? 6)) with false in F. cbn [orb] in F. apply andb_prop in F as [F F3]. apply andb_prop in F as [F1 F2]. apply Z.eqb_eq in F1, F2. apply andb_prop in F3 as [F4 F3]. apply Z.leb_le in F4. split; [exact F1|]. split; [exact F2|]. split; [exact F4|]. exact (elsewhere_iff _ _ F3).
Qed.

(* A willing adapter and a car that uses one of the CAN protocols (C77). g, the k-th listing, is one of mode 06 (0600, 0620, ...) and asked for (that is,
   supported when its turn comes). The car answers with 46, a byte, and the bytes bs; what is answered to the listings before and after it is free.
   Then of the monitors this listing stands for exactly those are supported whose bit, counted from the first byte of bs, is set, and those that were before. *)
Theorem C112_listing : forall cf port scan name w br b id c r p ls rs base k g q l1 sup1 a lines h bs sup2 l2 sup3 rest,
  (port = Some name \/ port = None /\ scan = [name]) ->
  calm w -> w_reads w = br ++ rs ++ (l1 ++ a ++ l2) ++ rest ->
  finding_baud name (cf_baudrate cf) br b ->
  willing (cf_check_voltage cf) (cf_protocol cf) id r ls -> replies ls rs -> lookup id = Some c -> new_protocol c r = Ok p ->
  In (pc_id (p_class p)) [str "6"; str "7"; str "8"; str "9"] ->
  (forall x, In x base <-> is_base x) -> car_lists p (firstn k pid_getters) base l1 sup1 ->
  nth_error pid_getters k = Some g -> c_mode g = Some 6 -> c_pid g = Some q -> In g sup1 ->
  reply a lines -> (exists ms, call p lines = Ok ms) -> speaks p ECU_ALL lines (70 :: h :: bs) ->
  (forall x, In x sup2 <-> In x sup1 \/ exists n, In x all_commands /\ c_mode x = Some 6 /\ c_pid x = Some n /\ q < n /\ listed_at bs (n - q)) ->
  car_lists p (skipn (S k) pid_getters) sup2 l2 sup3 ->
  exists o w', new_obd cf port scan w = (Ok tt, (o, w')) /\ obd_status o = CAR_CONNECTED /\ w_reads w' = rest /\
    forall x n, monitor_no q x n -> (In x (o_supported o) <-> In x sup1 \/ listed_at bs (n - q)).
Proof.
  intros cf port scan name w br b id c r p ls rs base k g q l1 sup1 a lines h bs sup2 l2 sup3 rest Hp C Rw FB Wl Rp Lk Np Can Hb Cl Ng Mg Pg S1 Y Ok1 Sp E2 Cl2.
  destruct (listing6 k g q Ng Mg Pg) as (B0 & Ea & Nq & El).
  assert (Rz : resized (c_bytes g) (70 :: h :: bs) (70 :: h :: bs)) by (rewrite B0; split; [lia|reflexivity]).
  assert (ML : may_list p sup1 g) by (split; [exists g; auto|intros _; exact Can]).
  assert (An : forall x, In x sup2 <-> In x sup1 \/ announces g (bits_of bs) x).
  { intros x. rewrite E2. apply or_iff_compat_l. unfold announces, listed_at; cbv zeta. split.
    - intros (n & Ix & M & Pn & Ln & B). exists 6, q, (Z.to_nat (n - q - 1)). split; [exact Mg|]. split; [exact Pg|]. split.
      + unfold bits_of. rewrite map_seq_at. assert (Li : (Z.to_nat (n - q - 1) <? nbits bs = true)%nat).
        { apply Nat.ltb_lt. unfold nbits. destruct (Nat.lt_ge_cases (Z.to_nat (n - q - 1)) (8 * List.length bs)) as [L|L]; [exact L|]. exfalso. unfold bit_of in B.
          rewrite nth_overflow in B; [|apply Nat.div_le_lower_bound; lia]. rewrite Z.testbit_0_l in B. discriminate B. }
        rewrite Li. f_equal. exact B.
      + split; [exact Ix|]. rewrite Pn. split; [lia|left; exact M].
    - intros (mode & pid & i & Em & Ep & Nt & Ix & Eq & K). assert (mode = 6) by congruence. assert (pid = q) by congruence. subst mode pid.
      destruct (c_pid x) as [n|] eqn:Px; [|lia]. exists n. split; [exact Ix|]. split; [destruct K as [K|[K _]]; [exact K|discriminate K]|]. split; [reflexivity|]. split; [lia|].
      replace (Z.to_nat (n - q - 1)) with i by lia. unfold bits_of in Nt. rewrite map_seq_at in Nt. destruct (i <? _)%nat; [congruence|discriminate Nt]. }
  assert (Cl3 : car_lists p (g :: skipn (S k) pid_getters) sup1 (a ++ l2) sup3) by (apply (cl_bits p g _ sup1 a lines 70 h (h :: bs) bs sup2 l2 sup3); auto; [rewrite Ea; exact Sp|discriminate]).
  pose proof (lists_app p _ _ _ _ Cl _ _ _ Cl3) as Cl4.
  assert (Spl : firstn k pid_getters ++ g :: skipn (S k) pid_getters = pid_getters).
  { clear -Ng. revert k Ng. induction pid_getters as [|y L IH]; intros [|k] Ng; [discriminate Ng|discriminate Ng|cbn in Ng; injection Ng as ->; reflexivity|]. change (y :: (firstn k L ++ g :: skipn (S k) L) = y :: L). f_equal. apply IH, Ng. }
  rewrite Spl in Cl4.
  destruct (C77_connects cf port scan name w br b id c r p ls rs base (l1 ++ a ++ l2) sup3 rest Hp C Rw FB Wl Rp Lk Np Hb Cl4) as (o & w' & N & St & _ & _ & _ & _ & Su & Rr & _).
  exists o, w'. split; [exact N|]. split; [exact St|]. split; [exact Rr|]. intros x n M.
  rewrite Su, (lists_elsewhere q p _ sup2 l2 sup3 Cl2 El x n M), E2. apply or_iff_compat_l.
  destruct M as (Ix & Mx & Px & Rn). split.
  - intros (n' & _ & _ & Pn' & _ & B). assert (n' = n) by congruence. subst. exact B.
  - intros B. exists n. repeat split; auto; lia.
Qed.

(* the first listing, 0600: nothing of mode 06 is announced before it, so its bits alone count *)
Lemma mode6_base : forallb (fun x => negb (oz_eqb (c_mode x) (Some 6)) || match c_pid x with Some n => (n =? 0) || negb (existsb (text_eqb (c_name x)) base_names) | None => true end) all_commands = true.
Proof. vm_compute. reflexivity. Qed.
Lemma monitor_not_base x n : monitor_no 0 x n -> ~ is_base x.
Proof.
  intros (I & M & Pn & R) [_ Bn]. pose proof mode6_base as F. rewrite forallb_forall in F. specialize (F x I). rewrite M, Pn in F. cbn [oz_eqb negb orb] in F.
  replace (n =? 0) with false in F by lia. cbn [orb] in F. change (negb (6 =? 6)) with false in F. cbn [orb] in F. apply negb_true_iff in F. rewrite <- not_true_iff_false in F. apply F. apply existsb_exists. exists (c_name x). split; [exact Bn|apply text_eqb_iff; reflexivity].
Qed.
Lemma lists_no6 p gs sup l sup' : car_lists p gs sup l sup' -> Forall (fun g => c_mode g <> Some 6 \/ ~ In (pc_id (p_class p)) [str "6"; str "7"; str "8"; str "9"]) gs ->
  forall x, c_mode x = Some 6 -> (In x sup' <-> In x sup).
Proof.
  induction 1 as [sup|g gs sup rs sup' _ _ IH|g gs sup a l rs sup' _ _ _ _ IH|g gs sup a lines h1 h2 data d sup1 rs sup' ML _ _ _ _ _ E _ IH]; intros F x M; [tauto|inversion F; eauto|inversion F; eauto|].
  inversion F as [|? ? Ng F']; subst. rewrite (IH F' x M), E. unfold announces; cbv zeta. split; [|auto].
  intros [I|(mode & pid & i & Em & Ep & _ & _ & Eq & K)]; [exact I|]. exfalso. destruct K as [K|[_ K]]; [|congruence]. assert (mode = 6) by congruence. subst mode.
  destruct Ng as [Ng|Ng]; [congruence|]. apply Ng, (proj2 ML), Em.
Qed.
Lemma first_three : Forall (fun g => c_mode g <> Some 6) (firstn 3 pid_getters).
Proof.
  apply Forall_forall. intros y Yi. assert (F : forallb (fun y => negb (oz_eqb (c_mode y) (Some 6))) (firstn 3 pid_getters) = true) by (vm_compute; reflexivity).
  rewrite forallb_forall in F. specialize (F y Yi). intros E. rewrite E in F. discriminate F.
Qed.
Lemma third_getter : nth_error pid_getters 3 = Some (cmd "MIDS_A").
Proof. vm_compute. reflexivity. Qed.
Theorem C112_first : forall cf port scan name w br b id c r p ls rs base l1 sup1 a lines bs sup2 l2 sup3 rest,
  (port = Some name \/ port = None /\ scan = [name]) ->
  calm w -> w_reads w = br ++ rs ++ (l1 ++ a ++ l2) ++ rest ->
  finding_baud name (cf_baudrate cf) br b ->
  willing (cf_check_voltage cf) (cf_protocol cf) id r ls -> replies ls rs -> lookup id = Some c -> new_protocol c r = Ok p ->
  In (pc_id (p_class p)) [str "6"; str "7"; str "8"; str "9"] ->
  (forall x, In x base <-> is_base x) -> car_lists p (firstn 3 pid_getters) base l1 sup1 ->
  reply a lines -> (exists ms, call p lines = Ok ms) -> speaks p ECU_ALL lines (70 :: 0 :: bs) ->
  (forall x, In x sup2 <-> In x sup1 \/ exists n, In x all_commands /\ c_mode x = Some 6 /\ c_pid x = Some n /\ 0 < n /\ listed_at bs n) ->
  car_lists p (skipn 4 pid_getters) sup2 l2 sup3 ->
  exists o w', new_obd cf port scan w = (Ok tt, (o, w')) /\ obd_status o = CAR_CONNECTED /\
    forall x n, In x all_commands -> c_mode x = Some 6 -> c_pid x = Some n -> 1 <= n <= 32 -> (In x (o_supported o) <-> listed_at bs n).
Proof.
  intros cf port scan name w br b id c r p ls rs base l1 sup1 a lines bs sup2 l2 sup3 rest Hp C Rw FB Wl Rp Lk Np Can Hb Cl Y Ok1 Sp E2 Cl2.
  assert (N6 : forall x, c_mode x = Some 6 -> (In x sup1 <-> In x base)).
  { apply (lists_no6 p (firstn 3 pid_getters) base l1 sup1 Cl). eapply Forall_impl; [|exact first_three]. intros y H. left. exact H. }
  assert (S1 : In (cmd "MIDS_A") sup1).
  { apply N6; [reflexivity|]. apply Hb. split; [apply (cmd_named "MIDS_A"); vm_compute; congruence|vm_compute; tauto]. }
  assert (E2' : forall x, In x sup2 <-> In x sup1 \/ exists n, In x all_commands /\ c_mode x = Some 6 /\ c_pid x = Some n /\ 0 < n /\ listed_at bs (n - 0)).
  { intros x. rewrite E2. apply or_iff_compat_l. split; intros (n & H); exists n; replace (n - 0) with n in * by lia; exact H. }
  destruct (C112_listing cf port scan name w br b id c r p ls rs base 3 (cmd "MIDS_A") 0 l1 sup1 a lines 0 bs sup2 l2 sup3 rest Hp C Rw FB Wl Rp Lk Np Can Hb Cl third_getter eq_refl eq_refl S1 Y Ok1 Sp E2' Cl2) as (o & w' & A1 & A2 & _ & A3).
  exists o, w'. split; [exact A1|]. split; [exact A2|]. intros x n Ix Mx Px Rn. assert (M : monitor_no 0 x n) by (repeat split; auto; lia). rewrite (A3 x n M). replace (n - 0) with n by lia.
  rewrite (N6 x Mx), Hb. pose proof (monitor_not_base x n M). tauto.
Qed.
(* on any other protocol the listings of mode 06 are not asked for, and no monitor is supported *)
Theorem C112_not_can : forall cf port scan name w br b id c r p ls rs base l sup rest,
  (port = Some name \/ port = None /\ scan = [name]) ->
  calm w -> w_reads w = br ++ rs ++ l ++ rest ->
  finding_baud name (cf_baudrate cf) br b ->
  willing (cf_check_voltage cf) (cf_protocol cf) id r ls -> replies ls rs -> lookup id = Some c -> new_protocol c r = Ok p ->
  ~ In (pc_id (p_class p)) [str "6"; str "7"; str "8"; str "9"] ->
  (forall x, In x base <-> is_base x) -> car_lists p pid_getters base l sup ->
  exists o w', new_obd cf port scan w = (Ok tt, (o, w')) /\ obd_status o = CAR_CONNECTED /\
    forall x, In x all_commands -> c_mode x = Some 6 -> In x (o_supported o) -> is_base x.
Proof.
  intros cf port scan name w br b id c r p ls rs base l sup rest Hp C Rw FB Wl Rp Lk Np Can Hb Cl.
  destruct (C77_connects cf port scan name w br b id c r p ls rs base l sup rest Hp C Rw FB Wl Rp Lk Np Hb Cl) as (o & w' & N & St & _ & _ & _ & _ & Su & _).
  exists o, w'. split; [exact N|]. split; [exact St|]. intros x Ix Mx I. apply Hb, (lists_no6 p pid_getters base l sup Cl); [|exact Mx|apply Su, I].
  apply Forall_forall. intros y _. right. exact Can.
Qed.

(* a CAN car that lists two monitors, 01 and 02, and nothing else *)
Definition mon_before : list (option bytes) := [says (str "7E8 06 41 00 00 08 00 00")].
Definition mon_listing : text := str "7E8 06 46 00 C0 00 00 00".
Definition mon_after : list (option bytes) := [says (str "NO DATA")].
Lemma mon_lists : exists sup1, car_lists can11 (firstn 3 pid_getters) base_set mon_before sup1 /\
  exists sup2, (forall x, In x sup2 <-> In x sup1 \/ exists n, In x all_commands /\ c_mode x = Some 6 /\ c_pid x = Some n /\ 0 < n /\ listed_at [192; 0; 0; 0] n) /\
  exists sup3, car_lists can11 (skipn 4 pid_getters) sup2 mon_after sup3.
Proof.
  set (sup1 := enable_bits 1 0 (bits_of [0; 8; 0; 0]) base_set). exists sup1. split.
  { change (firstn 3 pid_getters) with [cmd "PIDS_A"; cmd "PIDS_B"; cmd "PIDS_C"]. unfold mon_before.
    apply (cl_bits can11 _ _ _ [_] [str "7E8 06 41 00 00 08 00 00"] 65 0 [0; 0; 8; 0; 0] [0; 8; 0; 0] sup1); [rewrite may_list_iff; vm_compute; reflexivity|rsays|eexists; vm_compute; reflexivity| | | | |].
    { apply speaks_one; [show|bytes_ok|discriminate|cbn; lia|left; reflexivity]. }
    { discriminate. }
    { apply resized_same. reflexivity. }
    { apply (enable_announces (cmd "PIDS_A") 1 0); [reflexivity|reflexivity|exact (proj1 base_table)]. }
    do 2 skip. apply cl_end. }
  exists (sup1 ++ [cmd "MONITOR_O2_B1S1"; cmd "MONITOR_O2_B1S2"])%list. split.
  - intros x. rewrite in_app_iff. apply or_iff_compat_l. split.
    + intros [<-|[<-|[]]].
      * exists 1. split; [apply (cmd_named "MONITOR_O2_B1S1"); vm_compute; congruence|]. split; [reflexivity|]. split; [reflexivity|]. split; [lia|reflexivity].
      * exists 2. split; [apply (cmd_named "MONITOR_O2_B1S2"); vm_compute; congruence|]. split; [reflexivity|]. split; [reflexivity|]. split; [lia|reflexivity].
    + intros (n & Ix & M & Pn & Ln & B).
      assert (Le : n <= 2).
      { destruct (Z_le_gt_dec n 2) as [L|G]; [exact L|]. exfalso. unfold listed_at, bit_of in B.
        set (j := Z.to_nat (n - 1)) in B. assert (J : (2 <= j)%nat) by (unfold j; lia).
        destruct (Nat.lt_ge_cases j 8) as [Lj|Gj].
        - assert (j = 2 \/ j = 3 \/ j = 4 \/ j = 5 \/ j = 6 \/ j = 7)%nat as C by lia. destruct C as [C|[C|[C|[C|[C|C]]]]]; rewrite C in B; vm_compute in B; discriminate B.
        - assert (K : nth (j / 8) [192; 0; 0; 0] 0 = 0).
          { assert (1 <= j / 8)%nat by (apply Nat.div_le_lower_bound; lia). destruct (j / 8)%nat as [|[|[|[|q]]]]; [lia|reflexivity|reflexivity|reflexivity|cbn; destruct q; reflexivity]. }
          rewrite K, Z.testbit_0_l in B. discriminate B. }
      assert (T : forallb (fun x => negb (oz_eqb (c_mode x) (Some 6)) || match c_pid x with Some n => (n <=? 0) || (3 <=? n) || text_eqb (c_name x) (str "MONITOR_O2_B1S1") || text_eqb (c_name x) (str "MONITOR_O2_B1S2") | None => true end) all_commands = true) by (vm_compute; reflexivity).
      rewrite forallb_forall in T. specialize (T x Ix). rewrite M, Pn in T. change (negb (oz_eqb (Some 6) (Some 6))) with false in T. cbn [orb] in T.
      replace (n <=? 0) with false in T by lia. replace (3 <=? n) with false in T by lia. cbn [orb] in T. apply orb_prop in T as [T|T]; apply text_eqb_iff in T.
      * left. apply (same_name all_commands); [exact (proj1 C63_unique)|apply (cmd_named "MONITOR_O2_B1S1"); vm_compute; congruence|exact Ix|exact (eq_sym T)].
      * right. left. apply (same_name all_commands); [exact (proj1 C63_unique)|apply (cmd_named "MONITOR_O2_B1S2"); vm_compute; congruence|exact Ix|exact (eq_sym T)].
  - eexists. change (skipn 4 pid_getters) with [cmd "MIDS_B"; cmd "MIDS_C"; cmd "MIDS_D"; cmd "MIDS_E"; cmd "MIDS_F"; cmd "PIDS_9A"]. unfold mon_after.
    do 5 skip. apply (cl_text can11 _ _ _ [_] (str "NO DATA") []); [rewrite may_list_iff; vm_compute; reflexivity|rsays|rewrite hex_line_isHex; vm_compute; discriminate|]. apply cl_end.
Qed.
Example C112_example : exists o w', new_obd auto_setup None [str "/dev/ttyUSB0"] (fresh (unit_at_9600 ++ unit_reads ++ mon_before ++ [says mon_listing] ++ mon_after)) = (Ok tt, (o, w'))
  /\ In (cmd "MONITOR_O2_B1S2") (o_supported o) /\ ~ In (cmd "MONITOR_O2_B1S3") (o_supported o).
Proof.
  destruct unit_willing as (Wl & Rp). destruct mon_lists as (sup1 & Cl1 & sup2 & E2 & sup3 & Cl2).
  destruct (C112_first auto_setup None [str "/dev/ttyUSB0"] (str "/dev/ttyUSB0") (fresh (unit_at_9600 ++ unit_reads ++ mon_before ++ [says mon_listing] ++ mon_after)) unit_at_9600 9600 (str "6") ISO_15765_4_11bit_500k
    [str "7E8 06 41 00 00 08 00 01"] can11 unit_says unit_reads base_set mon_before sup1 [says mon_listing] [mon_listing] [192; 0; 0; 0] sup2 mon_after sup3 []) as (o & w' & N & _ & F); auto.
  - repeat split.
  - exact unit_found.
  - left. reflexivity.
  - exact (proj2 base_table).
  - rsays.
  - eexists. vm_compute. reflexivity.
  - apply speaks_one; [show|bytes_ok|discriminate|cbn; lia|right; reflexivity].
  - exists o, w'. split; [exact N|]. split.
    + apply (F (cmd "MONITOR_O2_B1S2") 2); [apply (cmd_named "MONITOR_O2_B1S2"); vm_compute; congruence|reflexivity|reflexivity|lia|reflexivity].
    + intros X. apply (F (cmd "MONITOR_O2_B1S3") 3) in X; [vm_compute in X; discriminate X|apply (cmd_named "MONITOR_O2_B1S3"); vm_compute; congruence|reflexivity|reflexivity|lia].
Qed.
(* and a car with ISO 9141-2 *)
Example C112_not_can_example : exists o w', new_obd old_setup (Some (str "p")) [] (fresh (old_up ++ old_reads ++ [says (str "NO DATA")])) = (Ok tt, (o, w'))
  /\ obd_status o = CAR_CONNECTED /\ forall x, In x all_commands -> c_mode x = Some 6 -> In x (o_supported o) -> is_base x.
Proof.
  destruct old_willing as (Wl & Rp). destruct old_lists as (sup & Cl).
  assert (exists sup', car_lists old9141 pid_getters base_set (old_reads ++ [says (str "NO DATA")]) sup') as (sup' & Cl').
  { exists sup. rewrite <- getters_split. apply (lists_app _ _ _ _ _ Cl). apply (cl_text old9141 _ _ _ [_] (str "NO DATA") []); [|rsays|rewrite hex_line_isHex; vm_compute; discriminate|constructor].
    split; [exists (cmd "PIDS_9A")|intros E; vm_compute in E; discriminate E]. split; [|split; reflexivity].
    apply (lists_other old9141 (removelast pid_getters) base_set old_reads sup Cl not_mode9); [reflexivity|]. apply (proj2 base_table). split; [apply (cmd_named "PIDS_9A"); vm_compute; congruence|vm_compute; tauto]. }
  apply (C112_not_can old_setup (Some (str "p")) [] (str "p") (fresh (old_up ++ old_reads ++ [says (str "NO DATA")])) [] 10400 (str "3") ISO_9141_2
    [str "48 6B 10 41 00 00 08 00 00 0C"] old9141 old_says old_up base_set (old_reads ++ [says (str "NO DATA")]) sup' []); auto.
  - repeat split.
  - apply fb_given.
  - intros H. vm_compute in H. intuition discriminate.
  - exact (proj2 base_table).
Qed.
Print Assumptions C112_listing.
Print Assumptions C112_first.
Print Assumptions C112_not_can.
