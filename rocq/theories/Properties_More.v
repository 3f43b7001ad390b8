(* Property C28, continued: what a monitor says of a test the answer has no usable block for. *)
From Coq Require Import ZArith List Bool Lia String.
From Verif Require Import Py Num Utils Protocol Codes UasTable Decoders Command CommandTable Commands SpecWire SpecBits SpecProto SpecCmd
  PyFacts WireFacts ProtocolFacts UtilsThms EcuMapThms CommandThms DecoderThms DecoderThms2 DecoderThms3 Properties_Protocol Properties_Decoders.
Import ListNotations.
Open Scope string_scope. Open Scope list_scope. Open Scope Z_scope.

(* looked up by id or by name: no id, name, description, value and limits; it is null and has not passed *)
Theorem C28_absent : forall c ms m h d bs mon tid, is_monitor c -> first_with (for_it c) ms m -> m_data m = h :: d -> blocks9 d bs -> evaluates c ms (VMonitor mon) ->
  Forall (fun b => ~ usable tid b) bs ->
  forall t, t = monitor_get_tid mon tid \/ (exists name desc, In (tid, (name, desc)) TEST_IDS /\ t = monitor_get_name mon name) ->
  t_tid t = None /\ t_name t = None /\ t_desc t = None /\ t_value t = None /\ t_min t = None /\ t_max t = None /\ test_is_null t = true /\ test_passed t = false.
Proof.
  intros c ms m h d bs mon tid Hm W E B Ev N t T.
  destruct (C28_monitor_results c ms m h d bs Hm W E B) as (mon' & Ev' & _ & G & Nm & _).
  assert (mon' = mon) as -> by (destruct Ev as (r & C & V), Ev' as (r' & C' & V'); congruence).
  assert (t = null_test) as -> by (destruct T as [->|(name & desc & I & ->)]; [apply G, N|rewrite (Nm tid name desc I); apply G, N]).
  repeat split.
Qed.
(* the tests listed are the ones that are not null *)
Theorem C28_listed : forall c ms m h d bs mon t, is_monitor c -> first_with (for_it c) ms m -> m_data m = h :: d -> blocks9 d bs -> evaluates c ms (VMonitor mon) ->
  In t (monitor_tests mon) -> exists tid, t_tid t = Some tid /\ monitor_get_tid mon tid = t /\ test_is_null t = false.
Proof.
  intros c ms m h d bs mon t Hm W E B Ev I.
  destruct (C28_monitor_results c ms m h d bs Hm W E B) as (mon' & Ev' & G & _ & _ & L & _).
  assert (mon' = mon) as -> by (destruct Ev as (r & C & V), Ev' as (r' & C' & V'); congruence).
  pose proof I as I'. apply filter_In in I' as [_ Nn]. apply L in I as (tid & b & Lw & Bt). exists tid. split; [|split; [exact (G tid b t Lw Bt)|destruct (test_is_null t); [discriminate Nn|reflexivity]]].
  destruct Lw as (l1 & l2 & _ & U & _). destruct Bt as (mid & tid' & id & v1 & v2 & q1 & q2 & h1 & h2 & u & nm & ds & v & lo & hi & -> & _ & _ & _ & _ & _ & ->). cbn [t_tid].
  destruct U as [U _]. cbn in U. congruence.
Qed.
(* the concrete answer of C28_example has no block for the test 2 *)
Example C28_absent_example : Forall (fun b => ~ usable 2 b) [[1; 1; 10; 11; 176; 11; 176; 11; 176]; [1; 5; 16; 0; 72; 0; 0; 0; 100]].
Proof. repeat constructor; intros [U _]; cbn in U; discriminate U. Qed.
Print Assumptions C28_absent.
Print Assumptions C28_listed.

(* ------------------------------------------------------------------ C15: the decoders a user gives her own commands when the bytes are wanted as they come, or not at all *)
(* decoders.noop: the first message for the command, at the command's length, byte for byte, header included *)
Theorem C15_noop : forall c ms m d, 0 <= c_ecu c -> c_decode c = D_noop -> first_with (for_it c) ms m -> resized (c_bytes c) (m_data m) d ->
  evaluates c ms (VBytes d).
Proof.
  intros c ms m d Hc D W R. destruct (first_prepared c ms m d Hc W R) as (m' & rest & P & E).
  unfold evaluates. rewrite (cmd_call_prepared c ms _ Hc P), D. cbn [run_decoder]. unfold dec_noop. cbn. rewrite E. eauto.
Qed.
(* decoders.drop: no value, and nothing in the answer can make it fail *)
Theorem C15_drop : forall c ms, 0 <= c_ecu c -> c_decode c = D_drop -> evaluates c ms VNone.
Proof.
  intros c ms Hc D. unfold evaluates. rewrite (cmd_call_prepared c ms _ Hc (prepared_ex c ms Hc)), D. set (x := map _ _). destruct x; cbn; eauto.
Qed.
(* the odometer answer of the documentation, from the engine, behind an answer of the transmission *)
Example C15_noop_example : exists c m0 m d, c_decode c = D_noop /\ first_with (for_it c) [m0; m] m /\ resized (c_bytes c) (m_data m) d /\ d = [98; 16; 224; 1; 2; 0].
Proof.
  exists (mkCommand (str "ODOMETER") (str "Odometer") (str "2210E0") 6 D_noop ECU_ENGINE false (str "7E0")),
    (mkMessage [] ECU_TRANSMISSION [98; 16; 224; 9; 9; 9]), (mkMessage [] ECU_ENGINE [98; 16; 224; 1; 2]), [98; 16; 224; 1; 2; 0].
  split; [reflexivity|]. split.
  - exists [mkMessage [] ECU_TRANSMISSION [98; 16; 224; 9; 9; 9]], []. split; [reflexivity|]. split; [exists 1; split; reflexivity|].
    constructor; [|constructor]. intros (k & A & B). cbn [c_ecu m_ecu] in A, B. assert (L : Z.testbit (Z.land ECU_ENGINE ECU_TRANSMISSION) k = true) by (rewrite Z.land_spec, A, B; reflexivity).
    change (Z.land ECU_ENGINE ECU_TRANSMISSION) with 0 in L. rewrite Z.bits_0 in L. discriminate L.
  - split; [|reflexivity]. split; [intros _; split; [reflexivity|right; exists [0]; split; [reflexivity|repeat constructor]]|cbn; lia].
Qed.
Print Assumptions C15_noop.
Print Assumptions C15_drop.

(* ------------------------------------------------------------------ C23: a user's own command with a units id that is not in the table *)
(* no value is made up: KeyError, whatever the answer (and a null response only if there is none) *)
Theorem C23_unknown_id : forall c ms m id, 0 <= c_ecu c -> c_decode c = D_uas id -> ~ In id (map fst UAS_IDS) -> first_with (for_it c) ms m ->
  cmd_call c ms = Raise KeyError.
Proof.
  intros c ms m id Hc D N W. destruct (first_prepared c ms m (m_data (constrain (c_bytes c) m)) Hc W (proj2 (proj2 (constrain_resized _ _)))) as (m' & rest & P & E).
  rewrite (cmd_call_prepared c ms _ Hc P), D. cbn [run_decoder]. unfold dec_uas. destruct (dict_get Z.eqb UAS_IDS id) as [u|] eqn:G.
  - exfalso. apply N. apply dict_get_In in G as (k & I & K). apply Z.eqb_eq in K. subst k. apply (in_map fst) in I. exact I.
  - reflexivity.
Qed.
(* there are such ids, and answers to such commands *)
Example C23_unknown_id_example : ~ In 5000 (map fst UAS_IDS) /\ first_with (for_it (mkCommand (str "X") [] (str "22F4") 0 (D_uas 5000) ECU_ENGINE false (str "7E0")))
  [mkMessage [] ECU_ENGINE [98; 244; 1]] (mkMessage [] ECU_ENGINE [98; 244; 1]).
Proof.
  split.
  - intros I. assert (F : forallb (fun k => negb (k =? 5000)) (map fst UAS_IDS) = true) by (vm_compute; reflexivity). rewrite forallb_forall in F. specialize (F _ I). discriminate F.
  - exists [], []. split; [reflexivity|]. split; [exists 1; split; reflexivity|constructor].
Qed.
Print Assumptions C23_unknown_id.
