(* C77: connecting to a willing adapter and car succeeds. *)
From Coq Require Import ZArith List Bool Lia.
From Verif Require Import Py Num Utils Protocol Decoders Command CommandTable Commands World Elm Obd SpecWire SpecBits SpecProto SpecCmd SpecElm SpecObd SpecE2E SpecConnect
  PyFacts WireFacts ElmFacts ElmThms ChopThms ObdFacts ObdThms ObdThms2 ObdThms6 ObdThms7 ProtocolFacts Properties_Protocol Properties_Decoders Properties_Elm Properties_Obd E2EThms4 Examples Properties_EndToEnd ConnectThms ConnectThms2.
Import ListNotations.
Open Scope Z_scope.

(* The adapter: opens, never fails, says its prompt at one of the baud rates, accepts the set-up; the car: answers 0100 with r, which the protocol of the adapter
   can read; and answers each listing it is asked for. Then the object is connected, to that port, at that baud rate, in that protocol; what the car listed
   is supported; and not one byte was read too many. *)
Theorem C77_connects : forall cf port scan name w br b id c r p ls rs base lists sup rest,
  (port = Some name \/ port = None /\ scan = [name]) ->
  calm w -> w_reads w = br ++ rs ++ lists ++ rest ->
  finding_baud name (cf_baudrate cf) br b ->
  willing (cf_check_voltage cf) (cf_protocol cf) id r ls -> replies ls rs -> lookup id = Some c -> new_protocol c r = Ok p ->
  (forall x, In x base <-> is_base x) -> car_lists p pid_getters base lists sup ->
  exists o w', new_obd cf port scan w = (Ok tt, (o, w')) /\ obd_status o = CAR_CONNECTED /\ obd_protocol_id o = Ok (pc_id c) /\ uses o p /\ asleep o = false
    /\ (exists e pt, o_interface o = Some e /\ e_port e = Some pt /\ pt_name pt = name /\ pt_baud pt = b)
    /\ (forall x, In x (o_supported o) <-> In x sup) /\ w_reads w' = rest /\ calm w'.
Proof.
  intros cf port scan name w br b id c r p ls rs base lists sup rest Hp C Rw FB Wl Rp Lk Np Hb Cl.
  pose proof (new_protocol_class _ _ _ Np) as Ec.
  assert (Hc : In (p_class p) protocol_classes).
  { rewrite Ec. clear -Lk. unfold lookup in Lk. apply dict_get_In in Lk. destruct Lk as (k & L & _).
    revert L. unfold supported_protocols, protocol_classes. cbn [In]. intros L. repeat (destruct L as [L|L]; [apply (f_equal snd) in L; cbn [snd] in L; subst c; auto 20|]). destruct L. }
  destruct (connects name (cf_baudrate cf) (cf_protocol cf) (cf_timeout cf) (cf_check_voltage cf) (cf_start_low_power cf) id r ls c p b br rs (lists ++ rest) w C FB Wl Rp Rw Lk Np) as (w1 & N & R1 & C1).
  set (e := mkElm CAR_CONNECTED _ _ _ _) in N.
  assert (K : connect cf port scan (initial_obd cf, w) = (Ok tt, (connected_obd cf (Some e) base_set, w1))).
  { change (initial_obd cf) with (connected_obd cf None base_set). assert (Kp : connect_port cf name (connected_obd cf None base_set, w) = (Ok tt, (connected_obd cf (Some e) base_set, w1))).
    { unfold connect_port. change (o_timeout (connected_obd cf None base_set)) with (cf_timeout cf). rewrite N. reflexivity. }
    assert (Kc : close_if_failed (connected_obd cf (Some e) base_set, w1) = (Ok tt, (connected_obd cf (Some e) base_set, w1))) by reflexivity.
    destruct Hp as [->|[-> ->]]; unfold connect.
    - rewrite (bind_ok (connect_port cf name) _ _ _ _ Kp). exact Kc.
    - assert (Ks : connect_scan cf [name] (connected_obd cf None base_set, w) = (Ok tt, (connected_obd cf (Some e) base_set, w1))).
      { cbn [connect_scan]. rewrite (bind_ok (connect_port cf name) _ _ _ _ Kp). unfold bind, obd_of, gets. destruct (text_leb _ _); reflexivity. }
      rewrite (bind_ok (connect_scan cf [name]) _ _ _ _ Ks). exact Kc. }
  destruct (same_lists p pid_getters base lists sup Cl (connected_obd cf (Some e) base_set) (mkPort name b 10000) w1 rest (fun x X => X)) as (o' & w' & L & Rd & T & S & R2 & C2).
  - split; [exists (cf_timeout cf); reflexivity|reflexivity].
  - exact Hc.
  - exact (proj1 base_table).
  - intros x. rewrite Hb. exact (proj2 base_table x).
  - exact C1.
  - exact R1.
  - exists o', w'. split.
    { unfold new_obd. rewrite (bind_ok (connect cf port scan) _ _ _ _ K). unfold load_commands. unfold bind at 1. unfold obd_of at 1, gets at 1. cbn [fst].
      change (obd_status (connected_obd cf (Some e) base_set)) with CAR_CONNECTED. cbn [status_eqb negb]. exact L. }
    pose proof (ready_status _ _ _ Rd) as St. destruct Rd as [(tm & Ei) _]. split; [exact St|]. unfold obd_protocol_id, uses, asleep. rewrite Ei. cbn [elm_protocol_id e_protocol]. rewrite Ec.
    split; [reflexivity|]. split; [eauto|]. split; [reflexivity|]. split; [do 2 eexists; split; [reflexivity|]; split; [reflexivity|]; split; reflexivity|]. auto.
Qed.
(* and then queries are answered *)
Theorem C77_then_queries : forall cf port scan name w br b id c r p ls rs base lists sup x a lines rest,
  (port = Some name \/ port = None /\ scan = [name]) ->
  calm w -> w_reads w = br ++ rs ++ lists ++ a ++ rest ->
  finding_baud name (cf_baudrate cf) br b ->
  willing (cf_check_voltage cf) (cf_protocol cf) id r ls -> replies ls rs -> lookup id = Some c -> new_protocol c r = Ok p ->
  (forall x, In x base <-> is_base x) -> car_lists p pid_getters base lists sup ->
  In x all_commands -> may_list p sup x -> reply a lines ->
  exists o w1, new_obd cf port scan w = (Ok tt, (o, w1)) /\
    (forall ms, call p lines = Ok ms -> exists q o' w2, query x false (o, w1) = (q, (o', w2)) /\ w_reads w2 = rest /\ calm w2 /\ obd_status o' = CAR_CONNECTED
       /\ q = match ms with [] => Ok empty_response | _ => cmd_call x ms end /\ (forall v, q = Ok v -> reading x p lines v))
    /\ (forall e, call p lines = Raise e -> exists s', query x false (o, w1) = (Raise e, s')).
Proof.
  intros cf port scan name w br b id c r p ls rs base lists sup x a lines rest Hp C Rw FB Wl Rp Lk Np Hb Cl Ix Ml Y.
  destruct (C77_connects cf port scan name w br b id c r p ls rs base lists sup (a ++ rest) Hp C Rw FB Wl Rp Lk Np Hb Cl) as (o & w1 & N & St & Pid & U & Asl & (e & pt & Ei & Ept & _) & Su & R1 & C1).
  assert (Se : exists t0, session cf port scan w t0 [] (o, w1)).
  { pose proof N as N0. eapply (new_obd_inv (fun _ _ => True)) in N0; [|auto..]. destruct N0 as (_ & _ & _ & (t0 & T0)). exists t0. exists (o, w1). split; [exact N|]. split; [exact T0|constructor]. }
  destruct Se as (t0 & Se). destruct (session_engine _ _ _ _ _ _ _ _ Se (Forall_nil _)) as (OI & Eh). pose proof (builtin_header x Ix) as Hh.
  assert (Ms : may_send o x false).
  { right. destruct Ml as [(x' & I' & D) M6]. split; [exists x'; split; [apply Su, I'|exact D]|]. intros M. exists (pc_id c). split; [exact Pid|].
    rewrite <- (new_protocol_class _ _ _ Np). exact (M6 M). }
  pose proof Y as (chunks & s & Ea & Fc & Ecc & Ns & La & Ne).
  assert (R1' : w_reads w1 = map Some chunks ++ rest) by (rewrite R1, Ea; reflexivity).
  destruct (C67_answered _ _ _ _ _ _ _ _ x false p chunks s rest lines Se ltac:(congruence) U Asl Ms (eq_trans Hh (eq_sym Eh)) (proj1 (proj2 C1)) R1' Fc Ecc Ns La Ne) as (q & o' & w2 & t & Q & T & Lt & An).
  exists o, w1. split; [exact N|]. split.
  - intros ms Cms.
    assert (Rd : ready o pt p).
    { split; [|exact Eh]. destruct U as (e' & Ei' & Ep). rewrite Ei in Ei'. injection Ei' as <-. unfold obd_status in St. unfold asleep in Asl. rewrite Ei in St, Asl. exists (e_timeout e). rewrite Ei. destruct e; cbn in *. subst. reflexivity. }
    assert (Tc : test_cmd o x = Ok true).
    { assert (OI' := OI). unfold oinv in OI'. rewrite Ei in OI'. destruct (test_cmd_spec o x e Ei OI') as (b0 & B & K).
      - unfold obd_status in St. rewrite Ei in St. congruence.
      - rewrite B. f_equal. apply K, Ms. }
    destruct (ready_query o pt p x w1 a rest lines ms Rd Tc Hh C1 R1 Y Cms) as (o2 & w3 & Q2 & Rd2 & _ & R3 & C3).
    do 3 eexists. split; [exact Q2|]. split; [exact R3|]. split; [exact C3|]. split; [exact (ready_status _ _ _ Rd2)|]. split; [reflexivity|].
    intros v Ev. rewrite Ev in Q2. rewrite Q in Q2. apply pair_equal_spec in Q2 as [Q2 Q3]. apply pair_equal_spec in Q3 as [Q3 Q4]. subst q o2 w3.
    exists cf, port, scan, w, t0, [], o, w1, false, o', w2, t. auto 10.
  - intros x0 Cx. destruct An as [(v & _ & Rv)|[(x1 & C2 & ->)|(ms & x1 & C2 & _)]].
    + destruct (reading_call _ _ _ _ Rv) as (_ & ms & C2 & _). congruence.
    + rewrite Cx in C2. injection C2 as <-. eauto.
    + congruence.
Qed.

(* ---- an adapter at 9600 baud and a car on an 11 bit CAN bus, with an engine that knows the speed; the speed is then asked for ---- *)
Lemma reply_says s lines : forallb (fun x => negb (x =? PROMPT)) s = true -> clean (s ++ [13] ++ [PROMPT]) = lines -> lines <> [] -> reply [says s] lines.
Proof.
  intros F E N. exists [s ++ [13; 62]], (s ++ [13]). split; [reflexivity|]. split; [constructor; [|constructor]; intros X; apply app_eq_nil in X as [_ X]; discriminate|].
  split; [cbn [concat]; rewrite app_nil_r, <- app_assoc; reflexivity|]. split.
  - intros I. apply in_app_iff in I as [I|[I|[]]]; [|discriminate I]. rewrite forallb_forall in F. specialize (F _ I). discriminate F.
  - split; [|exact N]. rewrite <- E, <- app_assoc. apply clean_lines.
Qed.
Definition may_list_b (p : protocol) (sup : list command) (g : command) : bool :=
  in_set g sup && (negb (oz_eqb (c_mode g) (Some 6)) || existsb (text_eqb (pc_id (p_class p))) [str "6"; str "7"; str "8"; str "9"]).
Lemma may_list_iff p sup g : may_list p sup g <-> may_list_b p sup g = true.
Proof.
  unfold may_list, may_list_b. rewrite andb_true_iff, orb_true_iff, in_set_iff, existsb_exists. apply and_iff_compat_l.
  destruct (oz_eqb (c_mode g) (Some 6)) eqn:M.
  - assert (M6 : c_mode g = Some 6) by (unfold oz_eqb in M; destruct (c_mode g) as [m|]; [apply Z.eqb_eq in M; congruence|discriminate]).
    split; [intros H; right; exists (pc_id (p_class p)); split; [exact (H M6)|apply text_eqb_iff; reflexivity]|].
    intros [D|(x & X & E)] _; [discriminate D|]. apply text_eqb_iff in E. subst x. exact X.
  - split; [intros _; left; reflexivity|]. intros _ H. rewrite H in M. discriminate M.
Qed.
Lemma speaks_one l d mask : can_line (Id11 7 14 8) l (single_frame d []) -> Forall is_byte d -> d <> [] -> (length d <= 7)%nat -> mask = ECU_ENGINE \/ mask = ECU_ALL -> speaks can11 mask [l] d.
Proof.
  intros L F Nd Ld Hm. assert (Fs : Forall is_byte (single_frame d [])) by (unfold single_frame; rewrite app_nil_r; constructor; [unfold is_byte; lia|exact F]).
  exists 0, [l]. change (pc_family (p_class can11)) with (FCan 11). split; [|split; [|split]].
  - constructor 2; [|constructor]. apply (can_from 7 14 8 _ (single_frame d [])); try (unfold is_nibble; lia); [exact Fs|exact L|]. unfold single_frame. rewrite app_nil_r. destruct d as [|x d]; [contradiction|].
    split; [cbn [length] in *; lia|]. left. cbn [length] in *. rewrite Z.div_small, Z.mod_small by lia. lia.
  - apply (delivers_can_single (Id11 7 14 8) _ d []); [cbn; unfold is_nibble; lia|exact F|constructor|exact Nd|cbn [length]; lia|exact L].
  - apply C67_engine; [reflexivity|exact Hm].
  - intros u' Lu _ l' [<-|[]]. apply (not_from_other 11 u' (Id11 7 14 8) l (single_frame d [])); [reflexivity|cbn; unfold is_nibble; lia|exact Fs|exact L|]. cbn. lia.
Qed.
Definition unit_at_9600 : list (option bytes) := [Some []; Some [127; 62]].
Definition unit_says : list (list text) := [[str "ELM327 v1.5"]; [str "ATE0"; str "OK"]; [str "OK"]; [str "OK"]; [str "12.3V"]; [str "OK"]; [str "7E8 06 41 00 00 08 00 01"]; [str "A6"]].
Definition unit_reads : list (option bytes) :=
  [says (str "ELM327 v1.5"); says (str "ATE0" ++ [13] ++ str "OK"); says (str "OK"); says (str "OK"); says (str "12.3V"); says (str "OK"); says (str "7E8 06 41 00 00 08 00 01"); says (str "A6")].
Definition car_reads : list (option bytes) :=
  [says (str "7E8 06 41 00 00 08 00 01"); says (str "7E8 06 41 20 00 00 00 00"); says (str "NO DATA"); says (str "NO DATA")].
Definition auto_setup : config := mkConfig None None true 100 true false.
Ltac rsays := apply reply_says; [vm_compute; reflexivity|vm_compute; reflexivity|discriminate].
Ltac skip := apply cl_skip; [rewrite may_list_iff; vm_compute; discriminate|].
Lemma unit_willing : willing true None (str "6") [str "7E8 06 41 00 00 08 00 01"] unit_says /\ replies unit_says unit_reads.
Proof.
  split.
  - split; [vm_compute; tauto|]. split; [intros H; apply has_message_iff in H; vm_compute in H; discriminate H|].
    exists [str "ELM327 v1.5"], [str "ATE0"; str "OK"], [[str "12.3V"]], [str "OK"], [[str "A6"]]. split; [reflexivity|]. split; [exists (str "OK"); split; [right; left; reflexivity|exists [], []; reflexivity]|].
    split; [eexists _, _; split; [reflexivity|]; split; [vm_compute; reflexivity|vm_compute; discriminate]|].
    exists (str "A6"). split; [|reflexivity]. split; [vm_compute; tauto|right; reflexivity].
  - unfold unit_says, unit_reads. repeat (apply (replies_cons _ _ [_]); [rsays|]). constructor.
Qed.
Lemma unit_lists : exists sup, car_lists can11 pid_getters base_set car_reads sup /\ In (cmd "SPEED") sup.
Proof.
  set (sup1 := enable_bits 1 0 (bits_of [0; 8; 0; 1]) base_set). set (sup2 := enable_bits 1 32 (bits_of [0; 0; 0; 0]) sup1).
  exists sup2. split; [|vm_compute; tauto].
  change pid_getters with [cmd "PIDS_A"; cmd "PIDS_B"; cmd "PIDS_C"; cmd "MIDS_A"; cmd "MIDS_B"; cmd "MIDS_C"; cmd "MIDS_D"; cmd "MIDS_E"; cmd "MIDS_F"; cmd "PIDS_9A"].
  unfold car_reads.
  apply (cl_bits can11 _ _ _ [_] [str "7E8 06 41 00 00 08 00 01"] 65 0 [0; 0; 8; 0; 1] [0; 8; 0; 1] sup1); [rewrite may_list_iff; vm_compute; reflexivity|rsays|eexists; vm_compute; reflexivity| | | | |].
  { apply speaks_one; [show|bytes_ok|discriminate|cbn; lia|left; reflexivity]. }
  { discriminate. }
  { apply resized_same. reflexivity. }
  { apply (enable_announces (cmd "PIDS_A") 1 0); [reflexivity|reflexivity|exact (proj1 base_table)]. }
  apply (cl_bits can11 _ _ _ [_] [str "7E8 06 41 20 00 00 00 00"] 65 32 [32; 0; 0; 0; 0] [0; 0; 0; 0] sup2); [rewrite may_list_iff; vm_compute; reflexivity|rsays|eexists; vm_compute; reflexivity| | | | |].
  { apply speaks_one; [show|bytes_ok|discriminate|cbn; lia|left; reflexivity]. }
  { discriminate. }
  { apply resized_same. reflexivity. }
  { apply (enable_announces (cmd "PIDS_B") 1 32); [reflexivity|reflexivity|]. apply (enable_announces (cmd "PIDS_A") 1 0); [reflexivity|reflexivity|exact (proj1 base_table)]. }
  skip.
  apply (cl_text can11 _ _ _ [_] (str "NO DATA")); [rewrite may_list_iff; vm_compute; reflexivity|rsays|rewrite hex_line_isHex; vm_compute; discriminate|].
  do 5 skip.
  apply (cl_text can11 _ _ _ [_] (str "NO DATA") []); [rewrite may_list_iff; vm_compute; reflexivity|rsays|rewrite hex_line_isHex; vm_compute; discriminate|].
  apply cl_end.
Qed.
Lemma unit_found : finding_baud (str "/dev/ttyUSB0") (cf_baudrate auto_setup) unit_at_9600 9600.
Proof.
  apply (fb_search _ [Some []] [127] 9600); [|constructor; [|constructor]|reflexivity].
  - intros (rest & E). vm_compute in E. discriminate E.
  - exists []. split; [reflexivity|]. intros x X. symmetry in X. apply app_eq_nil in X as [_ X]. discriminate.
Qed.
Example C77_example : exists o w', new_obd auto_setup None [str "/dev/ttyUSB0"] (fresh (unit_at_9600 ++ unit_reads ++ car_reads)) = (Ok tt, (o, w'))
  /\ obd_status o = CAR_CONNECTED /\ In (cmd "SPEED") (o_supported o) /\ w_reads w' = [].
Proof.
  destruct unit_willing as (Wl & Rp). destruct unit_lists as (sup & Cl & Is).
  destruct (C77_connects auto_setup None [str "/dev/ttyUSB0"] (str "/dev/ttyUSB0") (fresh (unit_at_9600 ++ unit_reads ++ car_reads)) unit_at_9600 9600 (str "6") ISO_15765_4_11bit_500k
    [str "7E8 06 41 00 00 08 00 01"] can11 unit_says unit_reads base_set car_reads sup []) as (o & w' & N & St & _ & _ & _ & _ & Su & R & _); auto.
  - repeat split.
  - exact unit_found.
  - exact (proj2 base_table).
  - exists o, w'. split; [exact N|]. split; [exact St|]. split; [apply Su, Is|exact R].
Qed.
Example C77_example_query : exists o w1 q o' w2, new_obd auto_setup (Some (str "/dev/ttyUSB0")) [] (fresh (unit_at_9600 ++ unit_reads ++ car_reads ++ [says (str "7E8 03 41 0D 32")])) = (Ok tt, (o, w1))
  /\ query (cmd "SPEED") false (o, w1) = (Ok q, (o', w2)) /\ reading (cmd "SPEED") can11 [str "7E8 03 41 0D 32"] q /\ is_null q = false.
Proof.
  destruct unit_willing as (Wl & Rp). destruct unit_lists as (sup & Cl & Is).
  destruct (C77_then_queries auto_setup (Some (str "/dev/ttyUSB0")) [] (str "/dev/ttyUSB0") (fresh (unit_at_9600 ++ unit_reads ++ car_reads ++ [says (str "7E8 03 41 0D 32")])) unit_at_9600 9600 (str "6")
    ISO_15765_4_11bit_500k [str "7E8 06 41 00 00 08 00 01"] can11 unit_says unit_reads base_set car_reads sup (cmd "SPEED") [says (str "7E8 03 41 0D 32")] [str "7E8 03 41 0D 32"] []) as (o & w1 & N & Q & _); auto.
  - repeat split.
  - exact unit_found.
  - exact (proj2 base_table).
  - apply (cmd_named "SPEED"). vm_compute. congruence.
  - split; [exists (cmd "SPEED"); auto|]. intros H. vm_compute in H. discriminate H.
  - rsays.
  - assert (Cm : exists m, call can11 [str "7E8 03 41 0D 32"] = Ok [m] /\ exists v, cmd_call (cmd "SPEED") [m] = Ok v /\ is_null v = false).
    { eexists. split; [vm_compute; reflexivity|]. eexists. split; [vm_compute; reflexivity|]. vm_compute. reflexivity. }
    destruct Cm as (m & Cm & v & Ev & Nv). destruct (Q [m] Cm) as (q & o' & w2 & Eq & _ & _ & _ & Er & Rv). rewrite Ev in Er. subst q. exists o, w1, v, o', w2. auto.
Qed.
