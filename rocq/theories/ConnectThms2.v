(* Connecting to a willing adapter and car: the supported commands. *)
From Coq Require Import ZArith List Bool Lia.
From Verif Require Import Py Num Utils Protocol Decoders Command CommandTable Commands World Elm Obd SpecWire SpecBits SpecProto SpecCmd SpecElm SpecObd SpecE2E SpecConnect
  PyFacts ElmFacts ElmThms ObdFacts ObdThms ObdThms2 ObdThms4 ObdThms6 ObdThms7 ProtocolFacts CommandThms DecoderThms DecoderThms3 Properties_Protocol Properties_Utils Properties_Elm Properties_Voltage E2EThms E2EThms2 E2EThms3 E2EThms4 ConnectThms.
Import ListNotations.
Open Scope Z_scope.

(* an object connected to a car over an awake adapter, with no header but the usual one *)
Record ready (o : obd) (pt : port) (p : protocol) : Prop := {
  rd_elm : exists t, o_interface o = Some (mkElm CAR_CONNECTED (Some pt) (Some p) false t);
  rd_header : o_last_header o = ECU_HEADER_ENGINE }.
Lemma ready_status o pt p : ready o pt p -> obd_status o = CAR_CONNECTED.
Proof. intros [(t & E) _]. unfold obd_status. rewrite E. reflexivity. Qed.
Lemma ready_query o pt p c w a rest lines ms : ready o pt p -> test_cmd o c = Ok true -> c_header c = ECU_HEADER_ENGINE -> calm w ->
  w_reads w = a ++ rest -> reply a lines -> call p lines = Ok ms ->
  exists o' w', query c false (o, w) = (match ms with [] => Ok empty_response | _ => cmd_call c ms end, (o', w'))
    /\ ready o' pt p /\ o_supported o' = o_supported o /\ w_reads w' = rest /\ calm w'.
Proof.
  intros Rd T Hh C Rw Y Cl. pose proof (ready_status _ _ _ Rd) as St. destruct Rd as [(tm & Ei) Hl]. set (e := mkElm _ _ _ _ _) in Ei.
  destruct (reply_send (build_command_string o c) false e pt w a rest lines eq_refl C Rw Y) as (w' & S & Rw' & C').
  unfold query. unfold bind at 1. unfold obd_of at 1, gets at 1. cbn [fst]. rewrite St. cbn [status_eqb]. unfold bind at 1. cbn [fst]. rewrite T. cbn [negb].
  assert (SH : set_header (c_header c) (o, w) = (Ok tt, (o, w))).
  { unfold set_header, bind, obd_of, gets. cbn [fst]. rewrite Hh, Hl. rewrite (proj2 (text_eqb_iff _ _) eq_refl). reflexivity. }
  unfold bind at 1. rewrite SH. unfold bind at 1. unfold obd_of at 1, gets at 1. cbn [fst].
  assert (SP : on_interface (send_and_parse (build_command_string o c)) (o, w) = (Ok (Some ms), (with_elm e o, w'))).
  { unfold on_interface. rewrite Ei. unfold send_and_parse. unfold bind at 1, elm_of at 1, gets at 1. cbn [fst]. cbn [e e_status status_eqb].
    unfold bind at 1, elm_of at 1, gets at 1. cbn [fst]. change (e_low_power e) with false. cbv iota. unfold bind at 1. unfold ret at 1. match goal with |- context [bind (elm_send ?x ?d) ?k ?s] => rewrite (bind_ok (elm_send x d) k s _ _ S) end.
    unfold bind at 1, elm_of at 1, gets at 1. cbn [fst]. cbn [e_protocol e]. rewrite Cl. reflexivity. }
  unfold bind at 1. rewrite SP. clear SP SH S. set (str0 := build_command_string o c).
  assert (SC : forall o2 w2, (if nonempty str0 then set_last_command str0 else ret tt) (o2, w2) = (Ok tt, (with_command str0 o2, w2))).
  { intros o2 w2. unfold with_command. destruct (nonempty str0); [reflexivity|]. destruct o2; reflexivity. }
  unfold bind at 1. rewrite SC. unfold bind at 1. unfold obd_of at 1, gets at 1. cbn [fst]. unfold bind at 1.
  destruct (dict_mem _ _ _); destruct ms; do 2 eexists; (split; [reflexivity|]); (split; [split; [exists tm; reflexivity|exact Hl]|]); auto.
Qed.
Lemma may_list_test o pt p c sup : ready o pt p -> In (p_class p) protocol_classes -> (forall x, In x (o_supported o) <-> In x sup) ->
  (may_list p sup c -> test_cmd o c = Ok true) /\ (~ may_list p sup c -> test_cmd o c = Ok false).
Proof.
  intros [(tm & Ei) _] Hc Es.
  assert (B : exists b, test_cmd o c = Ok b /\ (b = true <-> may_list p sup c)).
  { unfold test_cmd, supports, may_list. destruct (in_set c (o_supported o)) eqn:S; cbn [negb].
    2:{ exists false. split; [reflexivity|]. split; [discriminate|]. intros [(c' & I & D1 & D2) _]. apply Es in I.
        assert (in_set c (o_supported o) = true) by (apply in_set_iff; eauto). congruence. }
    apply in_set_iff in S as (c' & I & D). apply Es in I. destruct (oz_eqb (c_mode c) (Some 6)) eqn:M.
    - assert (M6 : c_mode c = Some 6). { unfold oz_eqb in M. destruct (c_mode c) as [m|]; [|discriminate]. apply Z.eqb_eq in M. congruence. }
      rewrite Ei. unfold elm_protocol_id. cbn [e_protocol rbind]. eexists. split; [reflexivity|]. rewrite existsb_exists. split.
      + intros (x & X & E). apply text_eqb_iff in E. subst x. split; [eauto|]. intros _. exact X.
      + intros [_ H]. exists (pc_id (p_class p)). split; [exact (H M6)|]. apply text_eqb_iff. reflexivity.
    - exists true. split; [reflexivity|]. split; [|reflexivity]. intros _. split; [eauto|]. intros M6. rewrite M6 in M. discriminate. }
  destruct B as (b & T & B). split; intros H; rewrite T; f_equal; [apply B, H|]. destruct b; [exfalso; apply H, B; reflexivity|reflexivity].
Qed.

(* ---- the answer to a listing ---- *)
Lemma getter_facts : forallb (fun g => is_pid_decoder (c_decode g) && text_eqb (c_header g) ECU_HEADER_ENGINE && (0 <=? c_ecu g)
  && match c_mode g, c_pid g with Some _, Some _ => true | _, _ => false end) pid_getters = true.
Proof. vm_compute. reflexivity. Qed.
Lemma getter_fact g : In g pid_getters -> c_decode g = D_pid /\ c_header g = ECU_HEADER_ENGINE /\ 0 <= c_ecu g /\ exists m q, c_mode g = Some m /\ c_pid g = Some q.
Proof.
  intros I. pose proof getter_facts as F. rewrite forallb_forall in F. specialize (F g I). apply andb_prop in F as [F F4]. apply andb_prop in F as [F F3]. apply andb_prop in F as [F1 F2].
  split; [destruct (c_decode g); try discriminate F1; reflexivity|]. split; [apply text_eqb_iff, F2|]. split; [apply Z.leb_le, F3|]. destruct (c_mode g), (c_pid g); try discriminate F4. eauto.
Qed.
Lemma zero_bits d : Forall (eq 0) d -> Forall (eq false) (bits_of d).
Proof.
  intros F. unfold bits_of. apply Forall_forall. intros b I. apply in_map_iff in I as (i & <- & _). unfold bit_of.
  assert (E : nth (i / 8) d 0 = 0). { destruct (nth_in_or_default (i / 8) d 0) as [H|H]; [|exact H]. rewrite Forall_forall in F. symmetry. apply F, H. }
  rewrite E, Z.testbit_0_l. reflexivity.
Qed.
Lemma zero_announce g bits c : Forall (eq false) bits -> ~ announces g bits c.
Proof. intros F (m & q & i & _ & _ & N & _). apply nth_error_In in N. rewrite Forall_forall in F. discriminate (F _ N). Qed.
Lemma bits_ba d : Forall is_byte d -> ba_of d = bits_of d.
Proof. intros F. pose proof (C32_iteration d F) as H. unfold ba_iter in H. rewrite H. unfold bits_of, nbits. reflexivity. Qed.
Lemma text_answer g f : In g pid_getters -> exists r, cmd_call g [mkMessage f ECU_UNKNOWN []] = Ok r /\
  (is_null r = true \/ is_null r = false /\ exists bits, r_value r = VBits bits /\ Forall (eq false) bits).
Proof.
  intros I. destruct (getter_fact g I) as (D & _ & Hc & _).
  pose proof (prepared_ex g [mkMessage f ECU_UNKNOWN []] Hc) as P. rewrite (cmd_call_prepared g _ _ Hc P). cbn [filter]. destruct (0 <? _).
  2:{ cbn [map]. eexists. split; [reflexivity|]. left. reflexivity. }
  cbn [map]. rewrite D. cbn [run_decoder]. unfold dec_pid, body, get. cbn [nth_error Z.to_nat Nat.add rbind].
  set (m := constrain _ _). eexists. split; [reflexivity|]. right. split; [reflexivity|]. cbn [r_value]. eexists. split; [reflexivity|].
  destruct (constrain_resized (c_bytes g) (mkMessage f ECU_UNKNOWN [])) as (_ & _ & H1 & H2). fold m in H1, H2. cbn [m_data] in H1, H2.
  assert (F : Forall (eq 0) (m_data m)).
  { destruct (Z.le_gt_cases (c_bytes g) 0) as [L|L]; [rewrite (H2 L); constructor|]. destruct (H1 ltac:(lia)) as [_ [(cut & E)|(pad & E & Fp)]]; [|rewrite E; exact Fp].
    symmetry in E. apply app_eq_nil in E as [-> _]. constructor. }
  assert (F2 : Forall (eq 0) (from 2 (m_data m))). { unfold from. rewrite <- (firstn_skipn 2 (m_data m)) in F. apply Forall_app in F. apply F. }
  rewrite bits_ba; [apply zero_bits, F2|]. eapply Forall_impl; [|exact F2]. intros x <-. unfold is_byte. lia.
Qed.
Lemma bits_answer g ms m h1 h2 d : In g pid_getters -> first_with (fun m => common_bit (c_ecu g) (m_ecu m)) ms m -> resized (c_bytes g) (m_data m) (h1 :: h2 :: d) -> Forall is_byte (m_data m) ->
  exists r, cmd_call g ms = Ok r /\ is_null r = false /\ r_value r = VBits (bits_of d).
Proof.
  intros I W Rz Fb. destruct (getter_fact g I) as (D & _ & Hc & _). destruct (first_prepared g ms m _ Hc W Rz) as (m' & rest & P & E).
  rewrite (cmd_call_prepared g _ _ Hc P), D. change (run_decoder D_pid (m' :: rest)) with (Ok (VBits (ba_of (from 2 (m_data m'))))). rewrite E. unfold from. cbn [skipn].
  apply (resized_bytes _ _ _ Rz) in Fb. inversion Fb as [|? ? _ Fb1]; subst. inversion Fb1 as [|? ? _ Fd]; subst. rewrite (bits_ba d Fd).
  eexists. split; [reflexivity|]. split; reflexivity.
Qed.

(* ---- the listings ---- *)
Lemma same_lists p gs sup rs sup' : car_lists p gs sup rs sup' -> forall o pt w rest, incl gs pid_getters -> ready o pt p -> In (p_class p) protocol_classes -> table (o_supported o) ->
  (forall c, In c (o_supported o) <-> In c sup) -> calm w -> w_reads w = rs ++ rest ->
  exists o' w', load_all gs (o, w) = (Ok tt, (o', w')) /\ ready o' pt p /\ table (o_supported o') /\ (forall c, In c (o_supported o') <-> In c sup') /\ w_reads w' = rest /\ calm w'.
Proof.
  induction 1 as [sup|g gs sup rs sup' ML H IH|g gs sup a l rs sup' ML Y Nx H IH|g gs sup a lines h1 h2 data d sup1 rs sup' ML Y (ms & Cl) Sp N67 Rz Es1 H IH]; intros o pt w rest Ig Rd Hc Tb Es C Rw.
  - exists o, w. cbn [load_all]. split; [reflexivity|]. auto.
  - assert (I : In g pid_getters) by (apply Ig; left; reflexivity). assert (Ig' : incl gs pid_getters) by (intros x X; apply Ig; right; exact X).
    destruct (may_list_test o pt p g sup Rd Hc Es) as [_ T]. specialize (T ML). destruct (IH o pt w rest Ig' Rd Hc Tb Es C Rw) as (o' & w' & L & K). exists o', w'. split; [|exact K].
    cbn [load_all]. rewrite <- L. apply (bind_ok (load_one g) (fun _ => load_all gs) _ tt). unfold load_one. unfold bind at 1. cbn [fst]. rewrite T. reflexivity.
  - assert (I : In g pid_getters) by (apply Ig; left; reflexivity). assert (Ig' : incl gs pid_getters) by (intros x X; apply Ig; right; exact X).
    destruct (getter_fact g I) as (_ & Hh & _ & mode & pid & Em & Ep).
    destruct (may_list_test o pt p g sup Rd Hc Es) as [T _]. specialize (T ML). rewrite <- app_assoc in Rw.
    destruct (ready_query o pt p g w a _ [l] _ Rd T Hh C Rw Y (call_text p l (or_introl Hc) Nx)) as (o1 & w1 & Q & Rd1 & Es1 & Rw1 & C1).
    destruct (text_answer g [new_frame l] I) as (r & Er & V). rewrite Er in Q.
    destruct V as [Nl|(Nl & bits & Vb & Fz)].
    + destruct (IH o1 pt w1 rest Ig' Rd1 Hc ltac:(rewrite Es1; exact Tb) ltac:(intros c; rewrite Es1; apply Es) C1 Rw1) as (o' & w' & L & K). exists o', w'. split; [|exact K].
      cbn [load_all]. rewrite <- L. apply (bind_ok (load_one g) (fun _ => load_all gs) _ tt). unfold load_one. unfold bind at 1. cbn [fst]. rewrite T. cbn [negb]. rewrite (bind_ok (query g false) _ _ _ _ Q). rewrite Nl. reflexivity.
    + set (o2 := mkObd (o_interface o1) (enable_bits mode pid bits (o_supported o1)) (o_fast o1) (o_timeout o1) (o_last_command o1) (o_last_header o1) (o_frame_counts o1)).
      destruct (enable_announces g mode pid bits (o_supported o1) Em Ep ltac:(rewrite Es1; exact Tb)) as [T2 E2].
      destruct (IH o2 pt w1 rest Ig' ltac:(destruct Rd1; split; assumption) Hc T2) as (o' & w' & L & K); [|exact C1|exact Rw1|].
      { intros c. cbn [o2 o_supported]. rewrite E2, Es1, Es. split; [|auto]. intros [X|X]; [exact X|]. destruct (zero_announce _ _ _ Fz X). }
      exists o', w'. split; [|exact K].
      cbn [load_all]. rewrite <- L. apply (bind_ok (load_one g) (fun _ => load_all gs) _ tt). unfold load_one. unfold bind at 1. cbn [fst]. rewrite T. cbn [negb]. rewrite (bind_ok (query g false) _ _ _ _ Q). rewrite Nl, Vb, Em, Ep.
      unfold bind, obd_of, gets. cbn [fst]. reflexivity.
  - assert (I : In g pid_getters) by (apply Ig; left; reflexivity). assert (Ig' : incl gs pid_getters) by (intros x X; apply Ig; right; exact X).
    destruct (getter_fact g I) as (_ & Hh & _ & mode & pid & Em & Ep).
    destruct (may_list_test o pt p g sup Rd Hc Es) as [T _]. specialize (T ML). rewrite <- app_assoc in Rw.
    destruct (ready_query o pt p g w a _ lines ms Rd T Hh C Rw Y Cl) as (o1 & w1 & Q & Rd1 & Es2 & Rw1 & C1).
    destruct Sp as (u & ls & Hf & Dl & Mk & Sil). assert (Np : forall r, h1 :: data <> 67 :: r) by congruence.
    destruct (delivered p _ u ls _ eq_refl Dl ltac:(intros _; apply Np) ltac:(intros _; exact Np)) as (m & C2 & Dm & Tx). rewrite (dtc_cut_other _ Np) in Dm.
    pose proof (first_heard (c_ecu g) p _ u lines ls ms m Hc eq_refl Cl Hf C2 Tx Mk Sil) as W.
    destruct (bits_answer g ms m h1 h2 d I W ltac:(rewrite Dm; exact Rz) ltac:(rewrite Dm; exact (delivers_bytes _ _ _ _ Dl))) as (r & Er & Nl & Vb).
    replace (match ms with [] => Ok empty_response | _ => cmd_call g ms end) with (Ok r) in Q by (destruct ms; [destruct (first_nonempty _ _ _ W eq_refl)|symmetry; exact Er]).
    set (o2 := mkObd (o_interface o1) (enable_bits mode pid (bits_of d) (o_supported o1)) (o_fast o1) (o_timeout o1) (o_last_command o1) (o_last_header o1) (o_frame_counts o1)).
    destruct (enable_announces g mode pid (bits_of d) (o_supported o1) Em Ep ltac:(rewrite Es2; exact Tb)) as [T2 E2].
    destruct (IH o2 pt w1 rest Ig' ltac:(destruct Rd1; split; assumption) Hc T2) as (o' & w' & L & K); [|exact C1|exact Rw1|].
    { intros c. cbn [o2 o_supported]. rewrite E2, Es2, Es1, Es. reflexivity. }
    exists o', w'. split; [|exact K].
    cbn [load_all]. rewrite <- L. apply (bind_ok (load_one g) (fun _ => load_all gs) _ tt). unfold load_one. unfold bind at 1. cbn [fst]. rewrite T. cbn [negb]. rewrite (bind_ok (query g false) _ _ _ _ Q). rewrite Nl, Vb, Em, Ep.
    unfold bind, obd_of, gets. cbn [fst]. reflexivity.
Qed.
