(* Property C108: answers are read in the frame format of the protocol the connection shows. *)
From Coq Require Import ZArith List Bool Lia String.
From Verif Require Import Py Num Utils Protocol Codes UasTable Decoders Command CommandTable Commands World Elm Obd SpecWire SpecBits SpecProto SpecCmd SpecElm SpecObd SpecE2E SpecFormats
  PyFacts ElmFacts ElmThms ObdFacts ObdThms ObdThms2 ObdThms8 E2EThms6 Examples Properties_Protocol Properties_Elm Properties_Obd Properties_EndToEnd.
Import ListNotations.
Open Scope string_scope. Open Scope list_scope. Open Scope Z_scope.

Lemma of_table (P : text -> pclass -> bool) id c : forallb (fun kv => P (fst kv) (snd kv)) supported_protocols = true -> lookup id = Some c -> exists k, text_eqb k id = true /\ P k c = true.
Proof.
  unfold lookup. generalize supported_protocols as l. induction l as [|[k v] l IH]; intros F L; [discriminate L|]. cbn [forallb fst snd] in F. apply andb_prop in F as [F1 F2].
  cbn [dict_get] in L. destruct (text_eqb k id) eqn:E; [|exact (IH F2 L)]. injection L as <-. eauto.
Qed.
Definition is_format (id : text) (f : family) : bool :=
  match f with FLegacy => existsb (text_eqb id) older_protocols | FCan w => existsb (text_eqb id) (can_protocols w) | FUnknown => false end.
(* the protocol of a connection that shows the id of one: its family is the one of the table *)
Theorem C108_format : forall cf port scan w t0 h o w1 id, session cf port scan w t0 h (o, w1) -> obd_status o <> NOT_CONNECTED -> obd_protocol_id o = Ok id -> id <> [] ->
  exists p, uses o p /\ ((pc_family (p_class p) = FLegacy /\ In id older_protocols) \/ exists width, pc_family (p_class p) = FCan width /\ In id (can_protocols width)).
Proof.
  intros cf port scan w t0 h o w1 id S N Hid Ne. apply session_origin in S. unfold origin, obd_status, obd_protocol_id, elm_protocol_id, uses in *.
  destruct (o_interface o) as [e|]; [|contradiction]. destruct (S N) as (p & Ep & Cf). exists p. split; [eauto|]. rewrite Ep in Hid. injection Hid as <-.
  destruct Cf as [->|(k & c & lines & L & Np)]; [destruct Ne; reflexivity|]. rewrite (new_protocol_class _ _ _ Np).
  destruct (of_table (fun k c => is_format (pc_id c) (pc_family c)) k c ltac:(vm_compute; reflexivity) L) as (k' & _ & F). unfold is_format in F.
  destruct (pc_family c) as [| |width]; [discriminate F| |].
  - left. split; [reflexivity|]. apply existsb_exists in F as (x & I & E). apply text_eqb_iff in E. subst x. exact I.
  - right. exists width. split; [reflexivity|]. apply existsb_exists in F as (x & I & E). apply text_eqb_iff in E. subst x. exact I.
Qed.
(* the formats exclude each other *)
Lemma width_of id w w' : In id (can_protocols w) -> In id (can_protocols w') -> w = w'.
Proof.
  unfold can_protocols. intros H H'. destruct (w =? 11) eqn:A; [apply Z.eqb_eq in A|destruct (w =? 29) eqn:B; [apply Z.eqb_eq in B|destruct H]];
    (destruct (w' =? 11) eqn:A'; [apply Z.eqb_eq in A'|destruct (w' =? 29) eqn:B'; [apply Z.eqb_eq in B'|destruct H']]); try congruence; exfalso;
    vm_compute in H; vm_compute in H'; intuition congruence.
Qed.
Lemma not_older id w : In id (can_protocols w) -> In id older_protocols -> False.
Proof.
  unfold can_protocols, older_protocols. intros H H'. destruct (w =? 11); [|destruct (w =? 29); [|destruct H]]; vm_compute in H; vm_compute in H'; intuition congruence.
Qed.
(* so: a connection that shows a CAN protocol reads single frames with the ids of that protocol (and C01-C06 apply to it with this width) *)
Theorem C108_can : forall cf port scan w t0 h o w1 id ecu payload padding line, session cf port scan w t0 h (o, w1) -> obd_status o <> NOT_CONNECTED -> obd_protocol_id o = Ok id ->
  In id (can_protocols (id_width ecu)) -> id_ok ecu -> Forall is_byte payload -> Forall is_byte padding ->
  payload <> [] -> (List.length payload + List.length padding <= 7)%nat -> payload <> [67] -> can_line ecu line (single_frame payload padding) ->
  exists p m, uses o p /\ pc_family (p_class p) = FCan (id_width ecu) /\ call p [line] = Ok [m] /\ m_data m = dtc_cut payload /\ m_tx_id m = Some (sender ecu).
Proof.
  intros cf port scan w t0 h o w1 id ecu payload padding line S N Hid I Ho Fp Fd Np Ln N67 Cl.
  destruct (C108_format cf port scan w t0 h o w1 id S N Hid) as (p & U & [[_ O]|(w' & Ef & I')]); [intros ->; unfold can_protocols in I; destruct (_ =? 11); [|destruct (_ =? 29)]; vm_compute in I; intuition congruence|destruct (not_older _ _ I O)|].
  rewrite (width_of _ _ _ I' I) in Ef. destruct (C02_can_single_frame_round_trip p ecu payload padding line Ef Ho Fp Fd Np Ln N67 Cl) as (m & C & D & T & _). exists p, m. auto 6.
Qed.
(* and one that shows an older protocol reads lines of three header bytes, data and checksum *)
Theorem C108_older : forall cf port scan w t0 h o w1 id t line mode d, session cf port scan w t0 h (o, w1) -> obd_status o <> NOT_CONNECTED -> obd_protocol_id o = Ok id ->
  In id older_protocols -> legacy_from t line (mode :: d) -> mode <> 67 ->
  exists p m, uses o p /\ pc_family (p_class p) = FLegacy /\ call p [line] = Ok [m] /\ m_data m = mode :: d /\ m_tx_id m = Some t.
Proof.
  intros cf port scan w t0 h o w1 id t line mode d S N Hid I Lf M.
  destruct (C108_format cf port scan w t0 h o w1 id S N Hid) as (p & U & [[Ef _]|(w' & _ & I')]); [intros ->; vm_compute in I; intuition congruence| |destruct (not_older _ _ I' I)].
  destruct (C10_legacy_single_line p t line mode d Ef Lf M) as (m & C & D & T). exists p, m. auto 6.
Qed.
Lemma rmap_all {A B} (f : A -> res B) (P : B -> Prop) l : (forall x, exists y, f x = Ok y /\ P y) -> exists ys, rmap f l = Ok ys /\ Forall P ys.
Proof.
  intros H. induction l as [|x l (ys & IH & F)]; [exists []; split; [reflexivity|constructor]|]. destruct (H x) as (y & E & Py). exists (y :: ys). cbn. rewrite E. cbn. rewrite IH. cbn. split; [reflexivity|constructor; assumption].
Qed.
Lemma no_data p : p_class p = UnknownProtocol -> p_map p = [] -> forall lines, exists ms, call p lines = Ok ms /\ forall m, In m ms -> m_data m = [] /\ m_ecu m = ECU_UNKNOWN.
Proof.
  intros E M lines. unfold call, protocol_call. rewrite E, M.
  destruct (rmap_all (parse_frame UnknownProtocol) (fun _ => True) (map no_spaces (filter (fun l => isHex (no_spaces l)) lines))) as (fs & -> & _); [intros x; cbn; eauto|]. cbn [rbind].
  match goal with |- context [rmap ?f ?l] => destruct (rmap_all f (Forall (fun m => m_data m = [] /\ m_ecu m = ECU_UNKNOWN)) l) as (ms & -> & F) end.
  - intros [k v]. eexists. split; [reflexivity|]. repeat constructor.
  - cbn [rbind]. eexists. split; [reflexivity|]. intros m I. apply in_app_or in I as [I|I].
    + apply in_concat in I as (l & Il & I). rewrite Forall_forall in F. specialize (F l Il). rewrite Forall_forall in F. exact (F m I).
    + apply in_map_iff in I as (l & <- & _). split; reflexivity.
Qed.
(* with no protocol found, an answer is not interpreted: its messages carry no data and no ECU *)
Theorem C108_none : forall cf port scan w t0 h o w1, session cf port scan w t0 h (o, w1) -> obd_status o <> NOT_CONNECTED -> obd_protocol_id o = Ok [] ->
  exists p, uses o p /\ forall lines, exists ms, call p lines = Ok ms /\ forall m, In m ms -> m_data m = [] /\ m_ecu m = ECU_UNKNOWN.
Proof.
  intros cf port scan w t0 h o w1 S N Hid. enough (exists p, uses o p /\ p_class p = UnknownProtocol /\ p_map p = []) as (p & U & E & M) by (exists p; split; [exact U|exact (no_data p E M)]).
  apply session_origin in S. unfold origin, obd_status, obd_protocol_id, elm_protocol_id, uses in *.
  destruct (o_interface o) as [e|]; [|contradiction]. destruct (S N) as (p & Ep & Cf). exists p. split; [eauto|]. rewrite Ep in Hid. injection Hid as Hid.
  destruct Cf as [->|(k & c & lines & L & Np)]; [split; reflexivity|]. exfalso. rewrite (new_protocol_class _ _ _ Np) in Hid.
  destruct (of_table (fun k c => nonempty (pc_id c)) k c ltac:(vm_compute; reflexivity) L) as (k' & _ & F). rewrite Hid in F. discriminate F.
Qed.
Example C108_example : let '(o, _) := snd (outcome (setup true) (fresh up) []) in obd_status o <> NOT_CONNECTED /\ obd_protocol_id o = Ok (str "6") /\ In (str "6") (can_protocols 11).
Proof. vm_compute. repeat split; try discriminate. left. reflexivity. Qed.
Print Assumptions C108_format.
Print Assumptions C108_can.
Print Assumptions C108_older.
Print Assumptions C108_none.
