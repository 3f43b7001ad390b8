(* Property C66: voltages printed by the adapter. Uses the real numbers of the standard library (see DESIGN.md). *)
From Coq Require Import ZArith List Bool Lia String Reals Lra.
From Verif Require Import Py Num Utils Protocol Decoders Command CommandTable Commands World Elm SpecWire SpecProto SpecCmd SpecElm SpecNum SpecVolt
  PyFacts WireFacts ProtocolThms ElmFacts VoltThms Properties_Protocol Properties_Decoders Properties_Elm.
Import ListNotations.
Open Scope string_scope. Open Scope list_scope. Open Scope Z_scope.

(* a text that is a printed voltage and not just digits is no hex line *)
Lemma hex_chars l c : hex_line l -> In c l -> c <> 32 -> hexval c <> None.
Proof.
  rewrite hex_line_isHex. unfold isHex, no_spaces, remove_char. rewrite forallb_forall. intros X I N E. specialize (X c). rewrite filter_In in X.
  assert (K : negb (c =? 32) = true) by (apply negb_true_iff, Z.eqb_neq; lia). specialize (X (conj I K)). rewrite E in X. discriminate.
Qed.
Lemma printed_not_hex l whole frac : printed l whole frac -> l <> whole -> ~ hex_line l.
Proof.
  intros (Dw & Df & _ & u & U & H) N X.
  assert (K : In 46 l \/ In 86 l \/ In 118 l).
  { destruct H as [[-> ->]| ->]; [|left; apply in_or_app; right; left; reflexivity].
    cbn in U. destruct U as [<-|[<-|[<-|[]]]]; [rewrite app_nil_r in N; congruence|right; left|right; right]; apply in_or_app; right; left; reflexivity. }
  destruct K as [K|[K|K]]; refine (hex_chars l _ X K _ eq_refl); discriminate.
Qed.
Lemma call_text p l : In (p_class p) protocol_classes \/ p_class p = UnknownProtocol -> ~ hex_line l ->
  call p [l] = Ok [mkMessage [new_frame l] ECU_UNKNOWN []].
Proof.
  intros Hp N. rewrite (C07_text_passed_through p [l] [] [l] Hp); [reflexivity| |].
  - apply selects_skip; [exact N|constructor].
  - apply selects_keep; [exact N|constructor].
Qed.
Lemma volt_eval c l : named ["ELM_VOLTAGE"] c ->
  evaluates c [mkMessage [new_frame l] ECU_UNKNOWN []] (match py_float (remove_char 118 (lower l)) with Some x => VQty (PyFloat x) (str "volt") | None => VNone end).
Proof.
  intros N. pose proof (named_check _ (fun c => match c_decode c with D_elm_voltage => (c_ecu c =? ECU_UNKNOWN) && (c_bytes c =? 0) | _ => false end) c N ltac:(vm_compute; reflexivity)) as K.
  cbv beta in K. destruct (c_decode c) eqn:D; try discriminate K. apply andb_true_iff in K. destruct K as [K1 K2]. apply Z.eqb_eq in K1, K2.
  unfold evaluates, cmd_call. rewrite K1, K2. cbn [filter m_ecu]. change (0 <? Z.land ECU_UNKNOWN ECU_UNKNOWN) with true. cbv iota. cbn [map].
  unfold constrain. change (0 <? 0) with false. cbv iota. cbn [nonempty]. rewrite D. cbn [run_decoder]. unfold dec_elm_voltage. cbn [get nth_error rbind m_frames new_frame f_raw].
  destruct (py_float _); cbn [rbind]; eexists; split; reflexivity.
Qed.

(* ------------------------------------------------------------------ C66 *)
(* the value of ELM_VOLTAGE is the printed number, as precisely as a double can tell *)
Theorem C66_voltage : forall c p l whole frac, named ["ELM_VOLTAGE"] c -> In (p_class p) protocol_classes \/ p_class p = UnknownProtocol ->
  printed l whole frac -> l <> whole -> (List.length whole <= 250)%nat ->
  exists ms x, call p [l] = Ok ms /\ evaluates c ms (VQty (PyFloat x) (str "volt")) /\ nearest_double x (printed_value whole frac).
Proof.
  intros c p l whole frac N Hp P Nw L. eexists _, _. split; [apply (call_text p l Hp), (printed_not_hex l whole frac P Nw)|].
  split; [pose proof (volt_eval c l N) as E; rewrite (py_float_printed l whole frac P) in E; exact E|].
  destruct P as (Dw & Df & _). apply rnd_nearest, scaled_rep; assumption.
Qed.
(* the test made when connecting: a printed voltage counts as too low exactly when it is below 6 *)
Theorem C66_threshold : forall l whole frac, printed l whole frac -> (List.length whole <= 250)%nat -> (List.length frac <= 15)%nat ->
  exists v, voltage l = Some v /\ (below_six v <-> (printed_value whole frac < 6)%R).
Proof.
  intros l whole frac P L1 L2. eexists. split; [exact (py_float_printed l whole frac P)|]. destruct P as (Dw & Df & _).
  apply (below_six_iff whole frac _ Dw Df L2), scaled_rep; assumption.
Qed.
(* so nothing is asked of a car on less than 6 volts *)
Theorem C66_no_car_below_six : forall name baud proto timeout slp w e w',
  new_elm name baud proto timeout true slp w = (Ok e, w') -> e_status e = CAR_CONNECTED \/ e_status e = OBD_CONNECTED ->
  exists t0 t1 t2 t3 l, w_trace w' = w_trace w ++ t0 ++ t1 ++ t2 ++ t3 /\ asks 12 (str "AT RV") t2 [l] /\
    forall whole frac, printed l whole frac -> (List.length whole <= 250)%nat -> (List.length frac <= 15)%nat -> (6 <= printed_value whole frac)%R.
Proof.
  intros name baud proto timeout slp w e w' H S.
  assert (K : exists t0 t1 t2 t3 l v, w_trace w' = w_trace w ++ t0 ++ t1 ++ t2 ++ t3 /\ asks 12 (str "AT RV") t2 [l] /\ voltage l = Some v /\ ~ below_six v).
  { destruct S as [S|S].
    - destruct (C37_car_connected_partial _ _ _ _ _ _ _ _ _ H S) as (t0 & t1 & t2 & t3 & id & a & T & _ & (l & v & A & V & B) & _). exists t0, t1, t2, t3, l, v. auto.
    - destruct (C37_obd_connected _ _ _ _ _ _ _ _ _ H S) as (_ & t0 & t1 & t2 & t3 & l & v & T & _ & A & V & B & _). exists t0, t1, t2, t3, l, v. auto. }
  destruct K as (t0 & t1 & t2 & t3 & l & v & T & A & V & B). exists t0, t1, t2, t3, l. split; [exact T|]. split; [exact A|].
  intros whole frac P L1 L2. destruct (C66_threshold l whole frac P L1 L2) as (v' & V' & Q). assert (v' = v) as -> by congruence.
  apply Rnot_lt_le. tauto.
Qed.
(* any other text gives a null response *)
Definition low (c : Z) : Z := if (65 <=? c) && (c <=? 90) then c + 32 else c.
Lemma low_low c : low (low c) = low c.
Proof. unfold low. destruct (Z.leb_spec 65 c), (Z.leb_spec c 90); cbn [andb]; repeat match goal with |- context [?a <=? ?b] => destruct (Z.leb_spec a b); try lia end; cbn [andb]; lia. Qed.
Lemma in_strip f c l : In c l -> f c = false -> In c (strip_by f l).
Proof.
  intros I N. destruct (DecoderThms3.strip_ex f l) as (p & q & E & Fp & Fq & _). rewrite E in I. rewrite Forall_forall in Fp, Fq.
  apply in_app_or in I. destruct I as [I|I]; [rewrite (Fp _ I) in N; discriminate|]. apply in_app_or in I. destruct I as [I|I]; [exact I|rewrite (Fq _ I) in N; discriminate].
Qed.
Lemma strip_sub f c l : In c (strip_by f l) -> In c l.
Proof. intros I. destruct (DecoderThms3.strip_ex f l) as (p & q & E & _). rewrite E. apply in_or_app. right. apply in_or_app. auto. Qed.
Definition plain (l : text) : Prop := Forall (fun c => 0 <= c < 128 /\ ~ digit c) l.
Lemma plain_ascii l : plain l -> map to_ascii_digit l = l.
Proof.
  intros H. apply map_keep. eapply Forall_impl; [|exact H]. intros c [B _]. cbv beta. unfold to_ascii_digit. rewrite find_none; [reflexivity|].
  assert (G : Forall (fun z => 1632 <= z) nd_zeros) by (repeat constructor; discriminate).
  eapply Forall_impl; [|exact G]. intros z Hz. cbv beta in *. apply andb_false_iff. left. apply Z.leb_gt. lia.
Qed.
Lemma plain_sub l k : plain l -> (forall c, In c k -> In c l) -> plain k.
Proof. unfold plain. rewrite !Forall_forall. auto. Qed.
Lemma plain_lower l : plain l -> plain (lower l).
Proof.
  unfold plain, lower. rewrite !Forall_forall. intros H c I. apply in_map_iff in I. destruct I as (x & E & I). specialize (H x I). subst c.
  unfold digit in *. destruct (Z.leb_spec 65 x), (Z.leb_spec x 90); cbn [andb]; lia.
Qed.
Lemma plain_digits l : plain l -> take_digits l = ([], l).
Proof.
  intros [|c t [_ N] _]; [reflexivity|]. cbn. assert (is_digit c = false) as ->; [|reflexivity]. unfold is_digit, digit in *.
  apply andb_false_iff. destruct (Z.leb_spec 48 c); [right; apply Z.leb_gt; lia|left; reflexivity].
Qed.
Lemma no_number l : plain l -> (exists ch, In ch l /\ ~ In ch white /\ ~ In ch special_chars) -> py_float (remove_char 118 (lower l)) = None.
Proof.
  intros P (ch & I & W & N).
  set (s := remove_char 118 (lower l)).
  assert (Ps : plain s) by (apply (plain_sub (lower l)); [apply plain_lower, P|intros c; unfold s, remove_char; rewrite filter_In; tauto]).
  assert (Hch : 0 <= ch < 128) by (unfold plain in P; rewrite Forall_forall in P; apply P, I).
  assert (Lw : uspace (low ch) = false).
  { destruct (uspace (low ch)) eqn:E; [|reflexivity]. exfalso. unfold low in E. destruct ((65 <=? ch) && (ch <=? 90)) eqn:E2.
    - apply andb_true_iff in E2. rewrite !Z.leb_le in E2. unfold uspace in E. rewrite !orb_true_iff, !andb_true_iff, !Z.leb_le, !Z.eqb_eq in E. lia.
    - apply W. apply ElmFacts.uspace_white in E. exact E. }
  assert (Ne : forall x, In x (str "infty av+-_") -> low ch <> x).
  { intros x X E. unfold low in E. destruct ((65 <=? ch) && (ch <=? 90)) eqn:E2.
    - assert (ch = x - 32) by lia. apply andb_true_iff in E2. rewrite !Z.leb_le in E2. apply N. cbn in X.
      repeat (destruct X as [<-|X]; [cbn in H; try lia; rewrite H; vm_compute; tauto|]). destruct X.
    - subst x. cbn in X. repeat (destruct X as [X|X]; [first [apply N; rewrite <- X; vm_compute; tauto|apply W; rewrite <- X; vm_compute; tauto]|]). destruct X. }
  assert (Is : In (low ch) (strip_by uspace s)).
  { apply in_strip; [|exact Lw]. unfold s, remove_char. rewrite filter_In. split; [apply in_map_iff; exists ch; split; [reflexivity|exact I]|].
    apply negb_true_iff, Z.eqb_neq. apply (Ne 118). vm_compute. tauto. }
  unfold py_float. assert (Ps1 : plain (strip_by uspace s)) by (apply (plain_sub s _ Ps); intros c; apply strip_sub). rewrite (plain_ascii _ Ps1).
  destruct (underscores_ok false _); [|reflexivity]. cbn [negb]. set (r := lower (remove_char 95 (strip_by uspace s))).
  assert (Pr : plain r) by (apply plain_lower, (plain_sub _ _ Ps1); intros c; unfold remove_char; rewrite filter_In; tauto).
  assert (Ir : In (low ch) r).
  { apply in_map_iff. exists (low ch). split; [apply low_low|]. unfold remove_char. rewrite filter_In. split; [exact Is|]. apply negb_true_iff, Z.eqb_neq. apply (Ne 95). vm_compute. tauto. }
  clearbody r. destruct (take_sign r) as [neg q] eqn:Sg.
  assert (Iq : In (low ch) q /\ plain q).
  { unfold take_sign in Sg. destruct r as [|c t]; [destruct Ir|].
    assert (Pt : plain t) by (inversion Pr; assumption).
    destruct (Z.eqb_spec c 45) as [->|]; [|destruct (Z.eqb_spec c 43) as [->|]]; injection Sg as <- <-.
    - split; [|exact Pt]. destruct Ir as [E|Ir]; [|exact Ir]. exfalso. apply (Ne 45); [vm_compute; tauto|auto].
    - split; [|exact Pt]. destruct Ir as [E|Ir]; [|exact Ir]. exfalso. apply (Ne 43); [vm_compute; tauto|auto].
    - auto. }
  destruct Iq as [Iq Pq].
  assert (Wd : forall w, (forall x, In x w -> In x (str "infty av+-_")) -> text_eqb q w = false).
  { intros w Hw. destruct (text_eqb q w) eqn:E; [|reflexivity]. exfalso. apply text_eqb_eq in E. subst w. exact (Ne _ (Hw _ Iq) eq_refl). }
  rewrite !Wd by (intros x X; vm_compute in X |- *; tauto). cbn [orb]. rewrite (plain_digits q Pq).
  destruct q as [|c t]; [reflexivity|]. destruct (c =? 46); [|reflexivity]. inversion Pq; subst. rewrite (plain_digits t) by assumption. reflexivity.
Qed.
Theorem C66_other_text : forall c p l, named ["ELM_VOLTAGE"] c -> In (p_class p) protocol_classes \/ p_class p = UnknownProtocol -> ~ hex_line l ->
  Forall (fun ch => 0 <= ch < 128 /\ ~ digit ch) l -> (exists ch, In ch l /\ ~ In ch white /\ ~ In ch special_chars) ->
  exists ms r, call p [l] = Ok ms /\ cmd_call c ms = Ok r /\ is_null r = true.
Proof.
  intros c p l N Hp Nh P Ch. destruct (volt_eval c l N) as (r & C & V). rewrite (no_number l P Ch) in V.
  eexists _, r. split; [apply (call_text p l Hp Nh)|]. split; [exact C|]. unfold is_null. rewrite V. apply orb_true_r.
Qed.
Ltac digs := repeat first [apply Forall_nil | apply Forall_cons; [vm_compute; split; discriminate|]].
Example C66_example : printed (str "12.4V") (str "12") (str "4") /\ printed_value (str "12") (str "4") = (124 / 10)%R
  /\ exists x, voltage (str "5.9V") = Some x /\ below_six x.
Proof.
  split; [|split].
  - split; [digs|]. split; [digs|]. split; [discriminate|]. exists (str "V"). split; [cbn; auto|]. right. reflexivity.
  - unfold printed_value. change (decimal (str "12" ++ str "4")) with 124. change (List.length (str "4")) with 1%nat. rewrite pow_1. reflexivity.
  - destruct (C66_threshold (str "5.9V") (str "5") (str "9")) as (v & V & B); [|cbn; lia|cbn; lia|].
    + split; [digs|]. split; [digs|]. split; [discriminate|]. exists (str "V"). split; [cbn; auto|]. right. reflexivity.
    + exists v. split; [exact V|]. apply B. unfold printed_value. change (decimal (str "5" ++ str "9")) with 59. change (List.length (str "9")) with 1%nat. rewrite pow_1. lra.
Qed.
Example C66_example_text : ~ hex_line (str "NO DATA") /\ (exists ch, In ch (str "NO DATA") /\ ~ In ch white /\ ~ In ch special_chars).
Proof. split; [rewrite hex_line_isHex; vm_compute; discriminate|]. exists 79. split; [vm_compute; tauto|]. split; intros H; vm_compute in H; repeat (destruct H as [H|H]; [discriminate H|]); destruct H. Qed.

Print Assumptions C66_voltage.
Print Assumptions C66_threshold.
Print Assumptions C66_no_car_below_six.
Print Assumptions C66_other_text.
