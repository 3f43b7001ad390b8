(* Property C99: what printed results say. *)
From Coq Require Import ZArith List Bool Lia String Sorted.
From Verif Require Import Py Num Utils Protocol Codes UasTable Decoders Command CommandTable Commands SpecWire SpecBits SpecProto SpecCmd SpecMonitor SpecPrint
  PyFacts WireFacts ProtocolFacts CommandThms DecoderThms DecoderThms2 DecoderThms3 Examples Properties_Protocol Properties_Decoders Print PrintThms.
Import ListNotations.
Open Scope string_scope. Open Scope list_scope. Open Scope Z_scope.

(* The report of a mode 06 answer: len() is the number of tests with a result; without any, the text says so; otherwise it has one
   line for each of them, which tells that test's result; first the tests of the standard by id, then the others as they first occur. *)
Theorem C99_report : forall showq c ms m h d bs, (forall n u, ~ In 10 (showq n u)) ->
  is_monitor c -> first_with (for_it c) ms m -> m_data m = h :: d -> blocks9 d bs ->
  exists mon ts tids, evaluates c ms (VMonitor mon)
    /\ (forall t, In t ts <-> exists tid b, last_with (usable tid) bs b /\ block_test b t)
    /\ map t_tid ts = map Some tids /\ StronglySorted (precedes bs) tids
    /\ len_monitor mon = Z.of_nat (List.length ts)
    /\ (ts = [] -> str_monitor showq mon = str "No tests to report")
    /\ (ts <> [] -> exists lines, lines_of (str_monitor showq mon) lines /\ Forall2 (tells showq) ts lines).
Proof.
  intros showq c ms m h d bs Q Hm W E B. destruct (C28_monitor_results c ms m h d bs Hm W E B) as (mon & Ev & _ & _ & _ & It & _).
  destruct (blocks9_concat d bs B) as (_ & _ & _ & F).
  assert (Em : mon = fold_left mon_step bs new_monitor).
  { destruct Hm as (I & Hm & Nd). pose proof (all_nonneg c I) as Hc.
    assert (K : forallb (fun c => negb (oz_eqb (c_mode c) (Some 6)) || match c_decode c with D_pid => true | D_monitor => c_bytes c =? 0 | _ => false end) all_commands = true) by (vm_compute; reflexivity).
    rewrite forallb_forall in K. specialize (K c I). rewrite Hm, oz_eqb_refl in K. cbn [negb orb] in K. destruct (c_decode c) eqn:D; try discriminate K; [congruence|].
    apply Z.eqb_eq in K. destruct (first_prepared c ms m (m_data m) Hc W) as (m' & rest & P & Em'); [rewrite K; split; [lia|reflexivity]|].
    pose proof (cmd_call_prepared c ms _ Hc P) as X. rewrite D in X. cbn [run_decoder] in X. rewrite (dec_monitor_eq m' rest h d bs ltac:(congruence) B) in X.
    destruct Ev as (r & Er & Vr). rewrite X in Er. injection Er as <-. cbn [r_value] in Vr. injection Vr as <-. reflexivity. }
  destruct (tests_order bs F) as (tids & Et & So). rewrite <- Em in Et.
  exists mon, (monitor_tests mon), tids. split; [exact Ev|]. split; [exact It|]. split; [exact Et|]. split; [exact So|]. split; [reflexivity|]. split.
  - intros N. unfold str_monitor. rewrite N. reflexivity.
  - intros N. exists (map (str_mtest showq) (monitor_tests mon)).
    assert (Bt : forall t, In t (monitor_tests mon) -> exists b, block_test b t) by (intros t I; apply It in I; destruct I as (tid & b & _ & X); eauto).
    split.
    + unfold str_monitor. destruct (Z.ltb_spec 0 (Z.of_nat (List.length (monitor_tests mon)))) as [X|X].
      * apply join_lines; [intros Y; apply N; destruct (monitor_tests mon); [reflexivity|discriminate Y]|].
        apply Forall_forall. intros l Il. apply in_map_iff in Il. destruct Il as (t & <- & I). destruct (Bt t I) as [b Hb]. exact (str_plain showq b t Q Hb).
      * destruct (monitor_tests mon); [congruence|cbn in X; lia].
    + clear - Bt. induction (monitor_tests mon) as [|t ts IH]; cbn [map]; constructor.
      * destruct (Bt t (or_introl eq_refl)) as [b Hb]. exact (str_tells showq b t Hb).
      * apply IH. intros t' I. apply Bt. right. exact I.
Qed.

(* the lines of two results of tests of the standard differ if the tests or the verdicts do *)
Theorem C99_tells_partial : forall showq b1 t1 tid1 b2 t2 tid2 line,
  block_test b1 t1 -> block_test b2 t2 -> t_tid t1 = Some tid1 -> t_tid t2 = Some tid2 -> standard tid1 -> standard tid2 ->
  tells showq t1 line -> tells showq t2 line -> tid1 = tid2 /\ test_passed t1 = test_passed t2.
Proof.
  intros showq b1 t1 tid1 b2 t2 tid2 line B1 B2 E1 E2 S1 S2 L1 L2.
  assert (G : forall b t tid, block_test b t -> t_tid t = Some tid -> standard tid -> exists name desc, t_desc t = Some desc /\ In (tid, (name, desc)) TEST_IDS /\ ~ In 58 desc).
  { clear. intros b t tid (mid & tid' & id & v1 & v2 & l1 & l2 & h1 & h2 & u & name & desc & v & lo & hi & _ & _ & Nt & _ & _ & _ & ->) E S.
    cbn [t_tid t_desc] in *. injection E as ->. exists name, desc. split; [reflexivity|]. split; [|exact (proj2 (desc_plain _ _ _ Nt))].
    destruct Nt as [I|(N & _)]; [exact I|]. destruct N. apply standard_iff. exact S. }
  destruct (G b1 t1 tid1 B1 E1 S1) as (n1 & d1 & D1 & I1 & P1), (G b2 t2 tid2 B2 E2 S2) as (n2 & d2 & D2 & I2 & P2).
  destruct (tells_unique showq t1 t2 line L1 L2) as [Ed Ep]; [intros d E; congruence..|].
  split; [|exact Ep]. assert (d1 = d2) as -> by congruence. exact (descs_distinct tid1 n1 tid2 n2 d2 I1 I2).
Qed.

(* but all other tests are printed alike: two answers about different tests, and the same report *)
Theorem C99_unknown_refuted : exists c ms1 ms2 mon1 mon2, is_monitor c /\ evaluates c ms1 (VMonitor mon1) /\ evaluates c ms2 (VMonitor mon2)
  /\ map t_tid (monitor_tests mon1) = [Some 128] /\ map t_tid (monitor_tests mon2) = [Some 129]
  /\ forall showq, str_monitor showq mon1 = str_monitor showq mon2.
Proof.
  exists (cmd "MONITOR_O2_B1S1"), [engine_message [70; 1; 128; 10; 11; 176; 11; 176; 11; 176]], [engine_message [70; 1; 129; 10; 11; 176; 11; 176; 11; 176]].
  eexists _, _. split; [split; [apply (cmd_named "MONITOR_O2_B1S1"); vm_compute; congruence|split; [vm_compute; reflexivity|vm_compute; congruence]]|].
  split; [eexists; split; vm_compute; reflexivity|]. split; [eexists; split; vm_compute; reflexivity|].
  split; [vm_compute; reflexivity|]. split; [vm_compute; reflexivity|]. intros showq. vm_compute. reflexivity.
Qed.

(* every status test the answer contains is printed with its name and the two bits *)
Theorem C99_status : forall cm ms a b c d, named status_names cm -> is_byte a -> is_byte b -> is_byte c -> is_byte d ->
  answered cm ms [a; b; c; d] ->
  exists s, evaluates cm ms (VStatus s)
    /\ (forall i name, nth_error BASE_TESTS i = Some (Some name) -> exists t, dict_get otext_eqb (st_tests s) (Some name) = Some t
         /\ str_status_test t = status_line name (Z.testbit b (Z.of_nat i)) (negb (Z.testbit b (Z.of_nat i + 4))))
    /\ (forall i name, nth_error (if Z.testbit b 3 then COMPRESSION_TESTS else SPARK_TESTS) i = Some (Some name) ->
         exists t, dict_get otext_eqb (st_tests s) (Some name) = Some t
         /\ str_status_test t = status_line name (Z.testbit c (Z.of_nat i)) (negb (Z.testbit d (Z.of_nat i)))).
Proof.
  intros cm ms a b c d Hn Ha Hb Hc Hd A. destruct (C25_status cm ms a b c d Hn Ha Hb Hc Hd A) as (s & Ev & _ & _ & _ & T1 & T2 & _).
  assert (G : forall name x y, str_status_test (mkStatusTest (Some name) x y) = status_line name x y) by (intros name [] []; reflexivity).
  exists s. split; [exact Ev|]. split; intros i name E; eexists; (split; [|apply G]); [exact (T1 i name E)|exact (T2 i name E)].
Qed.

(* response.unit: the unit of a quantity, None without a value, and never None otherwise *)
Theorem C99_unit : forall showu other r,
  (forall n u, r_value r = VQty n u -> response_unit showu other r = Some (showu u)) /\
  (response_unit showu other r = None <-> r_value r = VNone).
Proof.
  intros showu other r. unfold response_unit. split; [intros n u ->; reflexivity|].
  destruct (r_value r); split; intros H; try discriminate H; reflexivity.
Qed.

(* a report with two lines, in the order of the standard whatever the order of the answer *)
Example C99_example : exists mon, evaluates (cmd "MONITOR_O2_B1S1") [engine_message ([70] ++ [1; 5; 16; 0; 72; 0; 0; 0; 100] ++ [1; 1; 10; 11; 176; 11; 176; 11; 175] ++ [1; 2])] (VMonitor mon)
  /\ str_monitor (fun _ _ => str "q") mon = str "Rich to lean sensor threshold voltage : q [FAILED]" ++ [10] ++ str "Rich to lean sensor switch time : q [PASSED]"
  /\ len_monitor mon = 2.
Proof. eexists. split; [eexists; split; vm_compute; reflexivity|]. split; vm_compute; reflexivity. Qed.
Example C99_hypotheses : exists m h d bs, is_monitor (cmd "MONITOR_O2_B1S1") /\
  first_with (for_it (cmd "MONITOR_O2_B1S1")) [engine_message ([70] ++ [1; 5; 16; 0; 72; 0; 0; 0; 100] ++ [1; 2])] m /\ m_data m = h :: d /\ blocks9 d bs /\ bs <> [].
Proof.
  exists (engine_message ([70] ++ [1; 5; 16; 0; 72; 0; 0; 0; 100] ++ [1; 2])), 70, [1; 5; 16; 0; 72; 0; 0; 0; 100; 1; 2], [[1; 5; 16; 0; 72; 0; 0; 0; 100]]. split; [split; [apply (cmd_named "MONITOR_O2_B1S1"); vm_compute; congruence|split; [vm_compute; reflexivity|vm_compute; congruence]]|].
  split.
  - exists [], []. split; [reflexivity|]. split; [|constructor]. exists 1. vm_compute. split; reflexivity.
  - split; [reflexivity|]. split; [|discriminate]. apply (blocks9_more [1; 5; 16; 0; 72; 0; 0; 0; 100] [1; 2]); [reflexivity|]. apply blocks9_rest. cbn. lia.
Qed.

Print Assumptions C99_report.
Print Assumptions C99_tells_partial.
Print Assumptions C99_unknown_refuted.
Print Assumptions C99_status.
Print Assumptions C99_unit.
