(* The marks of a connection, and whole lists of trouble codes. *)
From Coq Require Import ZArith List Bool Lia Sorted String.
From Verif Require Import Py Num Utils Protocol Codes Decoders Command CommandTable Commands World Elm Obd SpecWire SpecProto SpecCmd SpecElm SpecObd SpecE2E
  PyFacts WireFacts CommandThms ObdFacts ObdThms ObdThms2 ObdThms8 EcuMapThms DecoderThms3 Properties_Protocol Properties_Decoders E2EThms E2EThms2 E2EThms4.
Import ListNotations.
Open Scope string_scope. Open Scope list_scope. Open Scope Z_scope.

Definition a_mark (v : Z) : Prop := v = ECU_UNKNOWN \/ v = ECU_ENGINE \/ v = ECU_TRANSMISSION.
Definition marks_ok (m : ecu_map) : Prop := Forall (fun kv => a_mark (snd kv)) m.
Lemma marks_set m k v : a_mark v -> marks_ok m -> marks_ok (dict_set oz_eqb m k v).
Proof.
  intros V. unfold marks_ok. induction 1 as [|[k0 v0] m H F IH]; cbn; [constructor; [exact V|constructor]|].
  destruct (oz_eqb k0 k); constructor; cbn in *; auto.
Qed.
Lemma marks_get m k v : marks_ok m -> dict_get oz_eqb m k = Some v -> a_mark v.
Proof.
  unfold marks_ok. induction 1 as [|[k0 v0] m H F IH]; cbn; [discriminate|]. destruct (oz_eqb k0 k); [intros E; injection E as <-; exact H|exact IH].
Qed.
Lemma marks_initial c : marks_ok (initial_map c).
Proof.
  unfold initial_map. cbv zeta. assert (N : marks_ok []) by constructor.
  destruct (tx_id_engine c), (tx_id_transmission c); repeat (apply marks_set; [unfold a_mark; auto|]); exact N.
Qed.
Lemma marks_populate c m ms : marks_ok m -> marks_ok (populate_ecu_map c m ms).
Proof.
  intros F. unfold populate_ecu_map. cbv zeta. destruct (filter m_parsed ms) as [|a [|b l]]; [exact F|apply marks_set; [unfold a_mark; auto|exact F]|].
  set (ms' := a :: b :: l) in *. clearbody ms'.
  assert (G : forall l s, marks_ok (fst s) -> marks_ok (fst (fold_left (match_known c) l s))).
  { clear. induction l as [|x l IH]; intros [m f] F; cbn [fold_left]; [exact F|]. apply IH. unfold match_known. cbn [fst] in F.
    destruct (m_tx_id x); [|exact F].     repeat match goal with |- context [if ?b then _ else _] => destruct b end; cbn [fst]; try exact F; apply marks_set; try exact F; unfold a_mark; auto. }
  assert (K : forall l m, marks_ok m -> marks_ok (fold_left mark_unknown l m)).
  { clear. induction l as [|x l IH]; intros m F; cbn [fold_left]; [exact F|]. apply IH. unfold mark_unknown. destruct (dict_mem _ _ _); [exact F|]. apply marks_set; [unfold a_mark; auto|exact F]. }
  specialize (G ms' (m, false) F). destruct (fold_left (match_known c) ms' (m, false)) as [m1 f]. cbn [fst] in G.
  apply K. destruct f; [exact G|]. apply marks_set; [unfold a_mark; auto|exact G].
Qed.
Lemma came_marks p : came_from p -> marks_ok (p_map p).
Proof.
  intros [->|(id & c & lines & _ & N)]; [constructor|]. unfold new_protocol in N. cbv zeta in N.
  destruct (protocol_call c (initial_map c) lines) as [ms|]; cbn [rbind] in N; [|discriminate].
  destruct (log_map _); cbn [rbind] in N; [|discriminate]. injection N as <-. cbn [p_map]. apply marks_populate, marks_initial.
Qed.
Lemma mark_heeds p u : marks_ok (p_map p) -> heeds ECU_ALL p u.
Proof.
  intros M. apply heeds_iff. destruct (dict_get oz_eqb (p_map p) (Some u)) as [v|] eqn:E; [|exists 0; split; reflexivity].
  apply (marks_get _ _ _ M) in E. destruct E as [-> |[-> | ->]]; [exists 0|exists 1|exists 2]; split; reflexivity.
Qed.
Lemma reading_came c p lines q : reading c p lines q -> came_from p.
Proof.
  intros (cf & port & scan & w & t0 & h & o & w1 & force & o' & w2 & t & S & H & T & A & U). pose proof (session_origin _ _ _ _ _ _ _ _ S) as O. apply session_oinv in S as (OI & _).
  destruct (query_spec _ _ _ _ _ _ _ OI H) as (t' & T' & Q). rewrite T in T'. apply app_inv_head in T'. subst t'.
  destruct U as (e & Hi & Hp). unfold origin in O. rewrite Hi in O.
  assert (N : e_status e <> NOT_CONNECTED).
  { intros N. assert (Z0 : t = []).
    { inversion Q; subst; auto; exfalso; match goal with X : o_interface o = Some ?e0, Y : e_status ?e0 <> NOT_CONNECTED |- _ => rewrite Hi in X; injection X as <-; contradiction end. }
    subst t. destruct A as (a & b & s & E & k & rs & -> & _). apply (f_equal (@List.length _)) in E. rewrite app_length in E. cbn in E. lia. }
  destruct (O N) as (p' & P' & C). rewrite Hp in P'. injection P' as <-. exact C.
Qed.
Lemma reading_marks c p lines q : reading c p lines q -> marks_ok (p_map p).
Proof. intros R. exact (came_marks p (reading_came _ _ _ _ R)). Qed.
Lemma selects_all {A} (P : A -> Prop) l : Forall P l -> selects P l l.
Proof. induction 1; constructor; assumption. Qed.

Lemma trouble_codes mode c p lines q rs ps codes : (mode = 3 /\ named ["GET_DTC"] c) \/ (mode = 7 /\ named ["GET_CURRENT_DTC"] c /\ pc_family (p_class p) <> FLegacy) ->
  reading c p lines q -> StronglySorted Z.lt (map fst rs) -> rs <> [] ->
  (forall u codes, In (u, codes) rs -> exists ls, heard_from (pc_family (p_class p)) u lines ls /\ reports_codes (pc_family (p_class p)) mode u ls codes) ->
  (forall u, ~ In u (map fst rs) -> silent (pc_family (p_class p)) u lines) ->
  byte_pairs (List.concat (map snd rs)) ps -> selects real_code ps codes ->
  exists l, r_value q = VDtcs l /\ Forall2 (fun p e => fst e = dtc_text (fst p) (snd p) /\ described DTC (fst e) (snd e)) codes l.
Proof.
  intros Hm R Sr Ne Rs Q P C. destruct (reading_call _ _ _ _ R) as (Hc & ms & Hcall & V). pose proof (reading_marks _ _ _ _ R) as M.
  assert (Hc' : In (p_class p) protocol_classes).
  { destruct Hc as [Hc|Hc]; [exact Hc|]. exfalso. destruct rs as [|[u cs] rs]; [congruence|]. destruct (Rs u cs (or_introl eq_refl)) as (ls & _ & X). rewrite Hc in X. cbn in X. inversion X. }
  assert (Hl : pc_family (p_class p) <> FLegacy \/ mode = 3) by (destruct Hm as [[-> _]|(_ & _ & N)]; auto).
  destruct (reported_messages p mode lines ms rs Hc' Hl Hcall Sr Rs Q) as (obd & texts & E & D & Ft & T & Fe & Fx).
  assert (Nm : named ["GET_DTC"; "GET_CURRENT_DTC"] c).
  { destruct Hm as [[_ [I N]]|(_ & [I N] & _)]; (split; [exact I|]); cbn [map In] in *; tauto. }
  assert (Ea : c_ecu c = ECU_ALL).
  { apply Z.eqb_eq. exact (named_check _ (fun c => c_ecu c =? ECU_ALL) c Nm ltac:(vm_compute; reflexivity)). }
  assert (Sel : selects (for_it c) ms ms).
  { apply selects_all. rewrite E. apply Forall_app. unfold for_it. rewrite Ea. split.
    - eapply Forall_impl; [|exact Fe]. intros m (u & Tu & ->). apply heeds_iff, mark_heeds, M.
    - eapply Forall_impl; [|exact Fx]. intros m ->. exists 0. split; reflexivity. }
  assert (Nms : ms <> []).
  { intros X. rewrite X in E. symmetry in E. apply app_eq_nil in E as [-> _]. destruct rs; [congruence|discriminate T]. }
  assert (B : Forall (fun m => Forall is_byte (m_data m)) ms) by (exact (call_bytes _ _ _ _ (proj1 (classes_ok _ Hc')) Hcall)).
  assert (Dat : List.concat (map (fun m => skipn 2 (m_data m)) ms) = List.concat (map snd rs)).
  { rewrite E, map_app, concat_app, D. replace (List.concat (map (fun m => skipn 2 (m_data m)) texts)) with (@nil Z); [apply app_nil_r|].
    clear -Ft. induction Ft as [|m l H F IH]; [reflexivity|]. cbn [map List.concat]. rewrite H, <- IH. reflexivity. }
  destruct (C20_trouble_codes c ms ms ps codes Nm Sel Nms B ltac:(rewrite Dat; exact P) C) as (l & (r & Er & Ev) & F).
  exists l. split; [|exact F]. destruct V as [[-> _]|[_ V]]; [congruence|]. rewrite Er in V. injection V as <-. exact Ev.
Qed.
