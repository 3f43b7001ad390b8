(* Proofs of the protocol properties *)
From Coq Require Import ZArith List Bool Lia Permutation Sorted.
From Coq Require Import ZifyBool ZifyNat.
From Verif Require Import Py Utils Protocol SpecWire SpecProto PyFacts WireFacts ProtocolFacts CanFacts.
Import ListNotations.
Open Scope Z_scope.
Ltac Zify.zify_post_hook ::= Z.div_mod_to_equations.
Arguments Z.div : simpl never.
Arguments Z.modulo : simpl never.
Arguments Z.mul : simpl never.
Arguments Z.add : simpl never.
Arguments Z.sub : simpl never.
Arguments Z.land : simpl never.

(* ------------------------------------------------------------------ *)
(* lines and frames *)
Lemma id_digits_inj h h' a b : id_width h = id_width h' -> id_ok h -> id_ok h' ->
  id_digits h ++ nibbles a = id_digits h' ++ nibbles b -> h = h' /\ a = b.
Proof.
  destruct h as [x y z|x y z u], h' as [x' y' z'|x' y' z' u']; cbn [id_width]; try congruence; intros _ _ _.
  - cbn. intros E. injection E as -> -> -> E. apply nibbles_inj in E. auto.
  - cbn [id_digits]. rewrite <- !nibbles_app. intros E. apply nibbles_inj in E. injection E as -> -> -> -> ->. auto.
Qed.
Lemma can_frame_acceptable h s data : Forall is_byte data ->
  (exists f, can_frame h s data = Some f) <-> acceptable data.
Proof.
  intros F. unfold can_frame, acceptable. split.
  - intros [f H]. destruct (_ || _) eqn:E; [congruence|]. apply orb_false_iff in E. destruct E as [E1 E2].
    apply Nat.ltb_ge in E1, E2. split; [lia|]. destruct data as [|pci [|lo d]]; try congruence.
    inversion F as [|? ? Hp F1]; subst. inversion F1 as [|? ? Hl _]; subst. unfold is_byte in *.
    destruct (Z.eqb_spec (pci / 16) 0). { destruct (Z.eqb_spec (pci mod 16) 0); [congruence|]. lia. }
    destruct (Z.eqb_spec (pci / 16) 1). { destruct (Z.eqb_spec (256 * (pci mod 16) + lo) 0); [congruence|]. lia. }
    destruct (Z.eqb_spec (pci / 16) 2); [lia|congruence].
  - intros [[H1 H2] H].
    assert (E : (length data <? 2)%nat || (8 <? length data)%nat = false).
    { apply orb_false_iff; split; apply Nat.ltb_ge; lia. }
    rewrite E. destruct data as [|pci [|lo d]]; try tauto.
    inversion F as [|? ? Hp F1]; subst. inversion F1 as [|? ? Hl _]; subst. unfold is_byte in *.
    destruct (Z.eqb_spec (pci / 16) 0). { destruct (Z.eqb_spec (pci mod 16) 0); [lia|eauto]. }
    destruct (Z.eqb_spec (pci / 16) 1). { destruct (Z.eqb_spec (256 * (pci mod 16) + lo) 0); [lia|eauto]. }
    destruct (Z.eqb_spec (pci / 16) 2); [eauto|lia].
Qed.
Lemma pf_can_eq c h l data : pc_family c = FCan (id_width h) -> id_ok h -> Forall is_byte data -> can_line h l data ->
  pf c (no_spaces l) = can_frame h (no_spaces l) data /\ line_isHex l = true.
Proof.
  intros Ec Hh Fd Hl. apply shows_no_spaces in Hl. split.
  - unfold pf, parse_frame. rewrite Ec. rewrite (can_parse_frame_eq h _ data Hh Fd Hl). reflexivity.
  - eapply digits_of_isHex; exact Hl.
Qed.

(* what a line contributes *)
Definition line_frames (c : pclass) (l : text) : list frame := if line_isHex l then opt_list (pf c (no_spaces l)) else [].
Lemma frames_of_flat c lines : frames_of c lines = flat_map (line_frames c) lines.
Proof. reflexivity. Qed.
Lemma line_frames_sent c t l f : class_ok c -> pc_family c <> FUnknown ->
  line_frames c l = [f] -> f_tx_id f = Some t -> sent_by (pc_family c) t l (f_data f) /\ f_raw f = no_spaces l.
Proof.
  intros Hc Hu Hl Ht. unfold line_frames in Hl. destruct (line_isHex l) eqn:Hx; [|discriminate].
  destruct (pf c (no_spaces l)) as [g|] eqn:Hp; cbn in Hl; [|discriminate]. injection Hl as ->.
  unfold sent_by. destruct (pc_family c) as [| |w] eqn:Ec; [congruence| |].
  - destruct (pf_legacy_ints c _ f Ec Hx Hp) as (b1 & b2 & tx & data & ck & Fb & Hd & Hlen & ->). cbn in *.
    injection Ht as <-. split; [|reflexivity]. exists b1, b2, ck. split; [exact Fb|]. split; [|exact Hlen].
    apply no_spaces_shows. exact Hd.
  - destruct (pf_can_ints c w _ f Ec Hc Hx Hp) as (h & data & Hw & Hh & Fd & Hd & Hf).
    pose proof (can_frame_tx _ _ _ _ Hf) as (Htx & Hdata & Hraw & Hlen). rewrite Hdata. split; [|exact Hraw].
    exists h. rewrite Htx in Ht. injection Ht as Ht. repeat split; auto.
    + apply no_spaces_shows; exact Hd.
    + apply (can_frame_acceptable h (no_spaces l) data Fd); eauto.
    + apply (can_frame_acceptable h (no_spaces l) data Fd); eauto.
    + apply (can_frame_acceptable h (no_spaces l) data Fd); eauto.
Qed.
Lemma sent_line_frames c t l data : class_ok c -> sent_by (pc_family c) t l data ->
  exists f, line_frames c l = [f] /\ f_tx_id f = Some t /\ f_data f = data /\ f_raw f = no_spaces l.
Proof.
  intros Hc H. unfold sent_by in H. unfold line_frames. destruct (pc_family c) as [| |w] eqn:Ec; [tauto| |].
  - destruct H as (b1 & b2 & ck & Fb & Hl & Hlen). apply shows_no_spaces in Hl.
    unfold line_isHex. rewrite (digits_of_isHex _ _ Hl). unfold pf, parse_frame. rewrite Ec.
    rewrite (legacy_parse_frame_eq _ _ _ _ _ _ Fb Hl).
    assert (E : (length data <? 2)%nat || (7 <? length data)%nat = false).
    { apply orb_false_iff; split; apply Nat.ltb_ge; lia. }
    rewrite E. cbn. eauto 10.
  - destruct H as (h & <- & Hh & Ht & Fd & Hl & Acc).
    destruct (pf_can_eq c h l data Ec Hh Fd Hl) as [-> ->].
    destruct (proj2 (can_frame_acceptable h (no_spaces l) data Fd) Acc) as [f Hf]. rewrite Hf.
    pose proof (can_frame_tx _ _ _ _ Hf) as (Htx & Hdata & Hraw & Hlen).
    exists f. cbn. rewrite Htx, Ht. auto.
Qed.
Lemma line_frames_one c l : line_frames c l = [] \/ exists f, line_frames c l = [f].
Proof. unfold line_frames. destruct (line_isHex l), (pf c (no_spaces l)); cbn; eauto. Qed.

(* the frames of one ECU come from exactly its acceptable lines *)
Lemma ecu_lines c t lines : class_ok c -> pc_family c <> FUnknown ->
  exists ls, selects (is_from (pc_family c) t) lines ls
    /\ Forall2 (fun f l => sent_by (pc_family c) t l (f_data f) /\ f_raw f = no_spaces l) (from_id (Some t) (frames_of c lines)) ls.
Proof.
  intros Hc Hu. induction lines as [|l lines (ls & Hs & Hf)]; [exists []; split; constructor|].
  rewrite frames_of_flat in *. cbn [flat_map]. unfold from_id in *. rewrite filter_app.
  destruct (line_frames_one c l) as [E|[f E]]; rewrite E; cbn [filter].
  - exists ls. split; [|exact Hf]. constructor; [|exact Hs]. intros [d Hd].
    destruct (sent_line_frames c t l d Hc Hd) as (f & E2 & _). congruence.
  - destruct (oz_eqb (f_tx_id f) (Some t)) eqn:Et.
    + apply oz_eqb_eq in Et. pose proof (line_frames_sent c t l f Hc Hu E Et) as [Hd Hr].
      exists (l :: ls). split; [constructor; [eexists; exact Hd|exact Hs]|]. cbn. constructor; auto.
    + exists ls. split; [|exact Hf]. constructor; [|exact Hs]. intros [d Hd].
      destruct (sent_line_frames c t l d Hc Hd) as (g & E2 & Et2 & _). rewrite E in E2. injection E2 as <-.
      rewrite Et2, oz_eqb_refl in Et. congruence.
Qed.
Lemma selects_fun {A} (P : A -> Prop) l a b : selects P l a -> selects P l b -> a = b.
Proof.
  intros H; revert b; induction H as [|x l ls Px H IH|x l ls Px H IH]; intros b Hb; inversion Hb; subst; auto; try contradiction.
  f_equal; auto.
Qed.
(* frames of an ECU are a function of its acceptable lines *)
Lemma from_id_selects c t lines ls : class_ok c -> pc_family c <> FUnknown -> selects (is_from (pc_family c) t) lines ls ->
  from_id (Some t) (frames_of c lines) = flat_map (line_frames c) ls.
Proof.
  intros Hc Hu. rewrite frames_of_flat. induction 1 as [|l lines ls Pl H IH|l lines ls Pl H IH]; [reflexivity| |];
    cbn [flat_map]; unfold from_id in *; rewrite filter_app, IH.
  - destruct Pl as [d Hd]. destruct (sent_line_frames c t l d Hc Hd) as (f & -> & Et & _). cbn [filter].
    rewrite Et, oz_eqb_refl. reflexivity.
  - destruct (line_frames_one c l) as [E|[f E]]; rewrite E; cbn [filter]; [reflexivity|].
    destruct (oz_eqb (f_tx_id f) (Some t)) eqn:Et; [|reflexivity]. exfalso. apply Pl.
    apply oz_eqb_eq in Et. eexists. apply (line_frames_sent c t l f Hc Hu E Et).
Qed.

Lemma frames_wf c w lines : pc_family c = FCan w -> class_ok c -> Forall wf (frames_of c lines).
Proof.
  intros Ec Hc. apply Forall_forall. intros f Hf. apply frames_of_In in Hf. destruct Hf as (l & _ & Hx & Hp).
  destruct (pf_can_ints c w _ f Ec Hc Hx Hp) as (h & data & _ & _ & Fd & _ & Hf).
  pose proof (can_frame_tx _ _ _ _ Hf) as (_ & Hdata & _). exists h, (no_spaces l). rewrite Hdata. auto.
Qed.
Lemma from_id_Forall (P : frame -> Prop) k fs : Forall P fs -> Forall P (from_id k fs).
Proof. intros H. apply Forall_forall. intros f Hf. apply filter_In in Hf. rewrite Forall_forall in H. apply H; tauto. Qed.

(* ------------------------------------------------------------------ *)
(* C07, C14: shape of the result *)
Lemma frames_of_hex c lines : frames_of c (filter line_isHex lines) = frames_of c lines.
Proof.
  unfold frames_of. induction lines as [|l lines IH]; cbn; [reflexivity|].
  destruct (line_isHex l) eqn:E; cbn; [rewrite E|]; rewrite IH; reflexivity.
Qed.
Lemma selects_filter (P : text -> Prop) b l ls : (forall x, P x <-> b x = true) -> selects P l ls -> ls = filter b l.
Proof.
  intros Hb. induction 1 as [|x l ls Px H IH|x l ls Px H IH]; cbn; [reflexivity| |].
  - apply Hb in Px. rewrite Px, IH. reflexivity.
  - rewrite Hb in Px. apply not_true_iff_false in Px. rewrite Px. exact IH.
Qed.
Lemma text_messages_hex lines : text_messages (filter line_isHex lines) = [].
Proof.
  unfold text_messages. induction lines as [|l lines IH]; cbn; [reflexivity|].
  destruct (line_isHex l) eqn:E; cbn; [rewrite E|]; exact IH.
Qed.
Lemma text_pass_through p lines hexes texts : class_ok (p_class p) ->
  selects hex_line lines hexes -> selects (fun l => ~ hex_line l) lines texts ->
  call p lines = match call p hexes with
                 | Ok obd => Ok (obd ++ map (fun l => mkMessage [new_frame l] ECU_UNKNOWN []) texts)
                 | Raise e => Raise e
                 end.
Proof.
  intros Hc Hh Ht. apply (selects_filter _ line_isHex) in Hh; [|intros x; apply hex_line_isHex].
  apply (selects_filter _ (fun l => negb (line_isHex l))) in Ht.
  2: { intros x. rewrite hex_line_isHex. unfold line_isHex. rewrite negb_true_iff, not_true_iff_false. reflexivity. }
  subst. unfold call. rewrite !call_eq by exact Hc. rewrite frames_of_hex, text_messages_hex.
  destruct (rmap _ _); cbn; [|reflexivity]. rewrite app_nil_r. reflexivity.
Qed.

Lemma concat_sorted c m fs ks r : Forall (fun k => from_id k fs <> [] /\ (forall f, In f (from_id k fs) -> f_tx_id f = k)) ks ->
  rmap (ecu_message c m fs) ks = Ok r ->
  exists ks', map m_tx_id (List.concat r) = ks' /\ (forall R, StronglySorted R ks -> StronglySorted R ks')
    /\ Forall (fun msg => m_ecu msg = tag m (m_tx_id msg)) (List.concat r).
Proof.
  revert r; induction ks as [|k ks IH]; intros r F H.
  - cbn in H. injection H as <-. exists []. repeat split; auto. constructor.
  - inversion F as [|? ? [Hk Hid] F']; subst. cbn in H. destruct (ecu_message c m fs k) as [l|] eqn:E; cbn in H; [|discriminate].
    destruct (rmap (ecu_message c m fs) ks) as [r'|] eqn:E2; cbn in H; [|discriminate]. injection H as <-.
    destruct (IH r' F' eq_refl) as (ks' & Hm & Hs & Ht).
    unfold ecu_message in E. destruct (parse_message c (from_id k fs)) as [[d|]|]; cbn in E; try discriminate; injection E as <-.
    + exists (k :: ks'). cbn. assert (Tx : m_tx_id (mkMessage (from_id k fs) (tag m k) d) = k).
      { unfold m_tx_id. cbn. destruct (from_id k fs) as [|f t] eqn:Ef; [congruence|]. apply Hid; left; reflexivity. }
      rewrite Tx, Hm. split; [reflexivity|]. split.
      * intros R S. inversion S as [|? ? S' Fk]; subst. constructor; [auto|].
        (* every kept id comes from ks *)
        apply Forall_forall. intros x Hx. apply in_map_iff in Hx. destruct Hx as (msg & <- & Hmsg).
        destruct (proj1 (rmap_concat_filter c m fs ks r' E2 msg) Hmsg) as (k' & d' & Hk' & _ & ->).
        rewrite Forall_forall in Fk, F'. destruct (F' k' Hk') as [Hne Hid'].
        unfold m_tx_id. cbn. destruct (from_id k' fs) as [|f t] eqn:Ef; [congruence|].
        rewrite (Hid' f) by (left; reflexivity). apply Fk; exact Hk'.
      * constructor; [rewrite Tx; reflexivity|exact Ht].
    + exists ks'. cbn. split; [exact Hm|]. split; [|exact Ht]. intros R S. inversion S; auto.
Qed.
Lemma ids_from fs : Forall (fun k => from_id k fs <> [] /\ (forall f, In f (from_id k fs) -> f_tx_id f = k)) (ids fs).
Proof.
  apply Forall_forall. intros k Hk. split.
  - destruct (from_id_head k fs Hk) as (f & t & -> & _). congruence.
  - intros f Hf. apply filter_In in Hf. apply oz_eqb_eq; tauto.
Qed.
Lemma call_ordered p lines ms : class_ok (p_class p) -> pc_family (p_class p) <> FUnknown -> call p lines = Ok ms ->
  exists obd ts texts, ms = obd ++ texts
    /\ map m_tx_id obd = map Some ts /\ StronglySorted Z.lt ts
    /\ Forall (fun m => m_ecu m = match dict_get oz_eqb (p_map p) (m_tx_id m) with Some e => e | None => ECU_UNKNOWN end) obd
    /\ Forall (fun m => exists l, In l lines /\ ~ hex_line l /\ m = mkMessage [new_frame l] ECU_UNKNOWN []) texts.
Proof.
  intros Hc Hu H. unfold call in H. rewrite call_eq in H by exact Hc.
  destruct (rmap _ _) as [r|] eqn:E; cbn in H; [|discriminate]. injection H as <-.
  set (fs := frames_of (p_class p) lines) in *.
  destruct (concat_sorted (p_class p) (p_map p) fs (ids fs) r (ids_from fs) E) as (ks' & Hm & Hs & Ht).
  destruct (ids_ints fs (frames_of_ints _ lines Hc Hu)) as (ts & Ets & Sts).
  (* relation on options *)
  pose (R := fun a b : option Z => exists x y, a = Some x /\ b = Some y /\ x < y).
  assert (S : StronglySorted R (ids fs)).
  { rewrite Ets. clear -Sts. induction Sts as [|t ts S IH F]; cbn; constructor; [exact IH|].
    apply Forall_forall. intros x Hx. apply in_map_iff in Hx. destruct Hx as (u & <- & Hu).
    rewrite Forall_forall in F. exists t, u. auto. }
  apply Hs in S.
  assert (Hint : Forall (fun k => exists t, k = Some t) ks').
  { rewrite <- Hm. apply Forall_forall. intros x Hx. apply in_map_iff in Hx. destruct Hx as (msg & <- & Hmsg).
    destruct (proj1 (rmap_concat_filter _ _ fs _ r E msg) Hmsg) as (k' & d' & Hk' & _ & ->).
    rewrite Ets in Hk'. apply in_map_iff in Hk'. destruct Hk' as (t & <- & Hk').
    destruct (from_id_head (Some t) fs) as (f & tl' & Ef & Hf); [rewrite Ets; apply in_map; exact Hk'|].
    unfold m_tx_id. cbn. rewrite Ef. eauto. }
  assert (X : exists us, ks' = map Some us /\ StronglySorted Z.lt us).
  { clear -S Hint. induction S as [|k ks S IH F]; [exists []; split; [reflexivity|constructor]|].
    inversion Hint as [|? ? [t ->] Hint']; subst. destruct (IH Hint') as (us & -> & Hus). exists (t :: us). split; [reflexivity|].
    constructor; [exact Hus|]. apply Forall_forall. intros u Hu. rewrite Forall_forall in F.
    destruct (F (Some u) (in_map Some us u Hu)) as (x & y & E1 & E2 & L). congruence. }
  destruct X as (us & -> & Hus).
  exists (List.concat r), us, (text_messages lines). repeat split; auto.
  apply Forall_forall. intros m Hmm. unfold text_messages in Hmm. apply in_map_iff in Hmm. destruct Hmm as (l & <- & Hl).
    apply filter_In in Hl. exists l. split; [tauto|]. split; [|reflexivity]. rewrite hex_line_isHex.
    destruct Hl as [_ Hl]. unfold line_isHex in Hl. apply negb_true_iff in Hl. congruence.
Qed.

(* ------------------------------------------------------------------ *)
(* C08 *)
Lemma malformed_frames c l : class_ok c -> malformed (pc_family c) l -> line_frames c l = [].
Proof.
  intros Hc Hm. destruct (line_frames_one c l) as [E|[f E]]; [exact E|exfalso].
  assert (Hu : pc_family c <> FUnknown) by (intros Eu; rewrite Eu in Hm; inversion Hm).
  assert (Ht : exists t, f_tx_id f = Some t).
  { pose proof (frames_of_ints c [l] Hc Hu) as F. rewrite frames_of_flat in F. cbn in F. rewrite E in F. inversion F; assumption. }
  destruct Ht as [t Ht]. destruct (line_frames_sent c t l f Hc Hu E Ht) as [Hs _].
  unfold sent_by in Hs. destruct (pc_family c) as [| |w] eqn:Ec; [tauto| |].
  - destruct Hs as (b1 & b2 & ck & Fb & Hl & Hlen). unfold legacy_line in Hl.
    inversion Hm as [| | | | | |line ds H1 H2 E1 E2|line ds H1 H2 E1 E2]; subst;
      pose proof (shows_fun _ _ _ Hl H1) as <-; rewrite nibbles_length in H2.
    + rewrite Nat.even_mul in H2. discriminate.
    + rewrite !app_length in H2. cbn [length] in H2. lia.
  - destruct Hs as (h & Hw & Hh & Hst & Fd & Hl & [Hlen Acc]). unfold can_line in Hl.
    assert (Ld : length (id_digits h ++ nibbles (f_data f)) = (id_size w + 2 * length (f_data f))%nat).
    { rewrite app_length, nibbles_length. subst w. destruct h; reflexivity. }
    inversion Hm as [w' line ds H1 H2|w' line ds n H1 H2 H3|w' line ds H1 H2|w' line h' pci d Hw' Hh' Fd' H1 H2
                    |w' line h' d Hw' Hh' Fd' H1|w' line h' d Hw' Hh' Fd' H1| |]; subst;
      try (pose proof (shows_fun _ _ _ Hl H1) as <-; rewrite Ld in H2).
    + rewrite Nat.even_add, Nat.even_mul in H2. cbn [Nat.even orb] in H2. destruct h; discriminate.
    + destruct h; cbn in H2; lia.
    + destruct h; cbn in H2; lia.
    + pose proof (shows_fun _ _ _ Hl H1) as E2. apply id_digits_inj in E2; auto. destruct E2 as [_ E2]. rewrite E2 in *.
      destruct d; lia.
    + pose proof (shows_fun _ _ _ Hl H1) as E2. apply id_digits_inj in E2; auto. destruct E2 as [_ E2]. rewrite E2 in *.
      destruct d; lia.
    + pose proof (shows_fun _ _ _ Hl H1) as E2. apply id_digits_inj in E2; auto. destruct E2 as [_ E2]. rewrite E2 in *.
      lia.
Qed.
Lemma malformed_hex f l : malformed f l -> hex_line l.
Proof. destruct 1; eexists; eassumption. Qed.
Lemma malformed_ignored p l1 l l2 : class_ok (p_class p) -> malformed (pc_family (p_class p)) l ->
  call p (l1 ++ l :: l2) = call p (l1 ++ l2).
Proof.
  intros Hc Hm. unfold call. rewrite !call_eq by exact Hc.
  assert (E : frames_of (p_class p) (l1 ++ l :: l2) = frames_of (p_class p) (l1 ++ l2)).
  { rewrite !frames_of_flat, !flat_map_app. cbn [flat_map]. rewrite malformed_frames by assumption. reflexivity. }
  rewrite E. destruct (rmap _ _); cbn; [|reflexivity]. do 2 f_equal. unfold text_messages. rewrite !filter_app. cbn [filter].
  apply malformed_hex, hex_line_isHex in Hm. unfold line_isHex at 2. rewrite Hm. reflexivity.
Qed.
Lemma malformed_or_sent f l : (match f with FCan w => w = 11 \/ w = 29 | FLegacy => True | FUnknown => False end) ->
  hex_line l -> malformed f l \/ exists t d, sent_by f t l d.
Proof.
  intros Hf [ds Hs]. pose proof (digits_of_nibbles _ _ (shows_no_spaces _ _ Hs)) as F.
  destruct f as [| |w]; [tauto| |].
  - destruct (Nat.even (length ds)) eqn:Ev; [|left; eapply malformed_legacy_odd; eassumption].
    destruct (pair_up ds F Ev) as (bs & -> & Fb). 
    destruct (Nat.ltb_spec (length (nibbles bs)) 12); [left; eapply malformed_legacy_length; [exact Hs|lia]|].
    destruct (Nat.ltb_spec 22 (length (nibbles bs))); [left; eapply malformed_legacy_length; [exact Hs|lia]|].
    rewrite nibbles_length in *. destruct bs as [|a [|b [|c bs]]]; cbn [length] in *; try lia.
    destruct (exists_last (l := bs)) as (data & ck & ->); [destruct bs; cbn in *; [lia|congruence]|].
    right. exists c, data, a, b, ck. split; [exact Fb|]. split; [exact Hs|]. rewrite app_length in *; cbn in *; lia.
  - assert (G : forall h data, id_width h = w -> id_ok h -> Forall is_byte data -> ds = id_digits h ++ nibbles data ->
      malformed (FCan w) l \/ exists t d, sent_by (FCan w) t l d).
    { intros h data Hw Hh Fd ->.
      assert (Ld : length (id_digits h ++ nibbles data) = (id_size w + 2 * length data)%nat).
      { rewrite app_length, nibbles_length. subst w. destruct h; reflexivity. }
      destruct (Nat.ltb_spec (length data) 2); [left; eapply malformed_can_length; [exact Hs|exact Ld|lia]|].
      destruct (Nat.ltb_spec 8 (length data)); [left; eapply malformed_can_length; [exact Hs|exact Ld|lia]|].
      destruct data as [|pci [|lo d]]; cbn [length] in *; try lia.
      inversion Fd as [|? ? Hp Fd1]; subst. inversion Fd1 as [|? ? Hl Fd2]; subst. unfold is_byte in *.
      destruct (Z_le_gt_dec 3 (pci / 16)) as [L3|L3]; [left; exact (malformed_can_type _ l h pci (lo :: d) eq_refl Hh Fd Hs L3)|].
      destruct (Z.eq_dec pci 0) as [->|]; [left; exact (malformed_can_zero _ l h (lo :: d) eq_refl Hh Fd1 Hs)|].
      destruct (Z.eq_dec pci 16) as [->|].
      { destruct (Z.eq_dec lo 0) as [->|]; [left; exact (malformed_can_zero_first _ l h d eq_refl Hh Fd2 Hs)|].
        right. exists (sender h), (16 :: lo :: d), h. repeat split; auto; cbn [length]; try lia. }
      right. exists (sender h), (pci :: lo :: d), h. repeat split; auto; cbn [length]; try lia. }
    destruct Hf as [-> | ->].
    + destruct (Nat.even (length ds)) eqn:Ev; [left; eapply malformed_can_odd; [exact Hs|exact Ev]|].
      destruct (Nat.ltb_spec (length ds) 7); [left; eapply malformed_can_short; [exact Hs|exact H]|].
      destruct ds as [|a [|b [|c ds]]]; cbn [length] in *; try lia.
      inversion F as [|? ? Ha F1]; subst. inversion F1 as [|? ? Hb F2]; subst. inversion F2 as [|? ? Hcc F3]; subst.
      destruct (pair_up ds F3) as (data & -> & Fd).
      { change (Nat.even (S (length ds)) = false) in Ev. rewrite Nat.even_succ, <- Nat.negb_even in Ev.
        destruct (Nat.even (length ds)); [reflexivity|discriminate]. }
      apply (G (Id11 a b c) data); cbn; auto.
    + destruct (Nat.even (length ds)) eqn:Ev; [|left; eapply malformed_can_odd; [exact Hs|exact Ev]].
      destruct (Nat.ltb_spec (length ds) 12); [left; eapply malformed_can_short; [exact Hs|exact H]|].
      destruct (pair_up ds F Ev) as (bs & -> & Fb). rewrite nibbles_length in *.
      destruct bs as [|a [|b [|c [|d data]]]]; cbn [length] in *; try lia.
      repeat match goal with H : Forall is_byte (_ :: _) |- _ => inversion H; clear H; subst end.
      apply (G (Id29 a b c d) data); cbn; auto.
Qed.

(* ------------------------------------------------------------------ *)
(* C06 *)
Lemma rmap_filter_tx c m fs ks r t : rmap (ecu_message c m fs) ks = Ok r -> NoDup ks ->
  Forall (fun k => from_id k fs <> [] /\ (forall f, In f (from_id k fs) -> f_tx_id f = k)) ks ->
  filter (fun msg => oz_eqb (m_tx_id msg) (Some t)) (List.concat r)
  = if existsb (fun k => oz_eqb k (Some t)) ks then
      match ecu_message c m fs (Some t) with Ok l => l | Raise _ => [] end
    else [].
Proof.
  revert r; induction ks as [|k ks IH]; intros r H N F; [cbn in H; injection H as <-; reflexivity|].
  inversion N as [|? ? Nk N']; subst. inversion F as [|? ? [Hk Hid] F']; subst.
  cbn in H. destruct (ecu_message c m fs k) as [l|] eqn:E; cbn in H; [|discriminate].
  destruct (rmap (ecu_message c m fs) ks) as [r'|] eqn:E2; cbn in H; [|discriminate]. injection H as <-.
  cbn. rewrite filter_app, (IH r' eq_refl N' F').
  assert (Hl : Forall (fun msg => m_tx_id msg = k) l).
  { unfold ecu_message in E. destruct (parse_message c (from_id k fs)) as [[d|]|]; cbn in E; try discriminate; injection E as <-; repeat constructor.
    unfold m_tx_id. cbn. destruct (from_id k fs) as [|f t0] eqn:Ef; [congruence|]. apply Hid; left; reflexivity. }
  destruct (oz_eqb k (Some t)) eqn:Ek.
  - apply oz_eqb_eq in Ek. subst k. rewrite E. cbn.
    assert (Ex : existsb (fun k => oz_eqb k (Some t)) ks = false).
    { apply not_true_iff_false. intros Ex. apply existsb_exists in Ex. destruct Ex as (k & Hk' & Ek). apply oz_eqb_eq in Ek. subst; contradiction. }
    rewrite Ex, app_nil_r.
    clear -Hl. induction Hl as [|msg l E _ IH]; cbn; [reflexivity|]. rewrite E, oz_eqb_refl, IH. reflexivity.
  - cbn. assert (El : filter (fun msg => oz_eqb (m_tx_id msg) (Some t)) l = []).
    { clear -Hl Ek. induction Hl as [|msg l E _ IH]; cbn; [reflexivity|]. rewrite E, Ek. exact IH. }
    rewrite El. reflexivity.
Qed.
Lemma text_messages_no_tx lines t : filter (fun msg => oz_eqb (m_tx_id msg) (Some t)) (text_messages lines) = [].
Proof. unfold text_messages. induction (filter _ lines) as [|l ls IH]; cbn; [reflexivity|]. exact IH. Qed.
Lemma ecu_messages p lines ms t : class_ok (p_class p) -> call p lines = Ok ms ->
  filter (fun m => oz_eqb (m_tx_id m) (Some t)) ms
  = match from_id (Some t) (frames_of (p_class p) lines) with
    | [] => []
    | _ => match ecu_message (p_class p) (p_map p) (frames_of (p_class p) lines) (Some t) with Ok l => l | Raise _ => [] end
    end.
Proof.
  intros Hc H. unfold call in H. rewrite call_eq in H by exact Hc.
  destruct (rmap _ _) as [r|] eqn:E; cbn in H; [|discriminate]. injection H as <-.
  rewrite filter_app, text_messages_no_tx, app_nil_r.
  rewrite (rmap_filter_tx _ _ _ _ _ t E (ids_NoDup _) (ids_from _)).
  destruct (existsb _ _) eqn:Ex.
  - apply existsb_exists in Ex. destruct Ex as (k & Hk & Ek). apply oz_eqb_eq in Ek. subst k.
    destruct (from_id_head _ _ Hk) as (f & tl' & -> & _). reflexivity.
  - destruct (from_id (Some t) (frames_of (p_class p) lines)) as [|f l] eqn:Ef; [reflexivity|].
    exfalso. apply not_true_iff_false in Ex. apply Ex. apply existsb_exists. exists (Some t). split; [|apply oz_eqb_refl].
    assert (Hf : In f (from_id (Some t) (frames_of (p_class p) lines))) by (rewrite Ef; left; reflexivity).
    apply filter_In in Hf. apply ids_In. exists f. split; [tauto|]. apply oz_eqb_eq; tauto.
Qed.
Lemma no_interference p l1 l2 ls ms1 ms2 t : class_ok (p_class p) -> pc_family (p_class p) <> FUnknown ->
  selects (is_from (pc_family (p_class p)) t) l1 ls -> selects (is_from (pc_family (p_class p)) t) l2 ls ->
  call p l1 = Ok ms1 -> call p l2 = Ok ms2 ->
  filter (fun m => oz_eqb (m_tx_id m) (Some t)) ms1 = filter (fun m => oz_eqb (m_tx_id m) (Some t)) ms2.
Proof.
  intros Hc Hu S1 S2 H1 H2. rewrite (ecu_messages p l1 ms1 t Hc H1), (ecu_messages p l2 ms2 t Hc H2).
  unfold ecu_message. rewrite (from_id_selects _ t l1 ls Hc Hu S1), (from_id_selects _ t l2 ls Hc Hu S2). reflexivity.
Qed.
