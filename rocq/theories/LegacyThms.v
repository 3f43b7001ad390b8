(* Proofs of the legacy properties: C09 (legacy), C10, C11 *)
From Coq Require Import ZArith List Bool Lia Permutation Sorted.
From Coq Require Import ZifyBool ZifyNat.
From Verif Require Import Py Utils Protocol SpecWire SpecProto PyFacts WireFacts ProtocolFacts CanFacts ProtocolThms CanThms.
Import ListNotations.
Open Scope Z_scope.
Ltac Zify.zify_post_hook ::= Z.div_mod_to_equations.
Arguments Z.div : simpl never.
Arguments Z.modulo : simpl never.
Arguments Z.mul : simpl never.
Arguments Z.add : simpl never.
Arguments Z.sub : simpl never.
Arguments Z.land : simpl never.

Definition obyte (d : bytes) : Z := nth 2 d 0.

Lemma get_nth (d : bytes) i : (i < length d)%nat -> get d i = Ok (nth i d 0).
Proof. intros H. unfold get. rewrite (nth_error_nth' d 0 H). reflexivity. Qed.
Lemma combine_map_self {A} (k : A -> Z) l : combine (map k l) l = map (fun x => (k x, x)) l.
Proof. induction l; cbn; congruence. Qed.

(* frames of one ECU with the same mode *)
Lemma legacy_same_mode fs mode : fs <> [] -> Forall (fun f => exists d, f_data f = mode :: d) fs ->
  legacy_parse_message fs =
  if mode =? 67 then Ok (Some ([67; 0] ++ List.concat (map (@tl Z) (map f_data fs))))
  else match fs with
       | [f] => Ok (Some (f_data f))
       | _ => let! keys := rmap order_byte fs in
              let s := sort_by obyte (map f_data fs) in
              if contiguous (map obyte s) 1 (zlen fs) then
                match s with
                | d0 :: rest => Ok (Some (pop_at 2 d0 ++ List.concat (map (skipn 3) rest)))
                | [] => Ok None
                end
              else Ok None
       end.
Proof.
  intros Hne F. unfold legacy_parse_message.
  destruct fs as [|f fs]; [congruence|]. inversion F as [|? ? (d & Ed) F']; subst.
  change (get (f :: fs) 0) with (Ok f). cbn [rbind]. rewrite Ed. change (get (mode :: d) 0) with (Ok mode). cbn [rbind tl].
  assert (E : rmap (fun f => get (f_data f) 0) fs = Ok (map (fun _ => mode) fs)).
  { apply rmap_total. intros g Hg. rewrite Forall_forall in F'. destruct (F' g Hg) as (d' & ->). reflexivity. }
  rewrite E. cbn [rbind].
  assert (E2 : forallb (fun m => mode =? m) (map (fun _ : frame => mode) fs) = true).
  { clear. induction fs; cbn; [reflexivity|]. rewrite Z.eqb_refl. assumption. }
  rewrite E2. cbn [negb]. destruct (mode =? 67) eqn:Em.
  - rewrite fold_left_app_acc, !map_map. rewrite (map_ext (fun x => from 1 (f_data x)) (fun x => tl (f_data x))) by (intros; apply from_tl). reflexivity.
  - destruct fs as [|g fs]; [rewrite ?Ed; reflexivity|].
    set (l := f :: g :: fs) in *.
    destruct (rmap order_byte l) as [keys|e] eqn:Ek; cbn [rbind]; [|reflexivity].
    assert (Ekeys : keys = map (fun f => obyte (f_data f)) l).
    { apply rmap_Ok in Ek. clear -Ek. induction Ek as [|x y l1 l2 H _ IH]; cbn; [reflexivity|]. f_equal; [|exact IH].
      unfold order_byte in H. apply get_Ok in H. unfold obyte. symmetry. apply nth_error_nth. exact H. }
    rewrite Ekeys, combine_map_self, sort_by_map. cbn [fst].
    rewrite (sort_by_map obyte f_data l). cbn [snd].
    rewrite !map_map. cbn [fst snd].
    set (s := sort_by (fun x => obyte (f_data x)) l). rewrite map_id.
    destruct (contiguous _ 1 (zlen l)); cbn [negb]; [|reflexivity].
    destruct s as [|f0 rest]; cbn [map]; [reflexivity|]. rewrite fold_left_app_acc, map_map. reflexivity.
Qed.
Lemma legacy_mixed_modes fs : Forall (fun f => f_data f <> []) fs -> fs <> [] ->
  (forall mode, ~ Forall (fun f => exists d, f_data f = mode :: d) fs) -> legacy_parse_message fs = Ok None.
Proof.
  intros F Hne N. unfold legacy_parse_message. destruct fs as [|f fs]; [congruence|].
  inversion F as [|? ? Hf F']; subst. destruct (f_data f) as [|mode d] eqn:Ed; [congruence|].
  change (get (f :: fs) 0) with (Ok f). cbn [rbind]. rewrite Ed. change (get (mode :: d) 0) with (Ok mode). cbn [rbind tl].
  assert (E : rmap (fun f => get (f_data f) 0) fs = Ok (map (fun f => hd 0 (f_data f)) fs)).
  { apply rmap_total. intros g Hg. rewrite Forall_forall in F'. specialize (F' g Hg). destruct (f_data g); [congruence|reflexivity]. }
  rewrite E. cbn [rbind]. destruct (forallb _ _) eqn:Ef; [|reflexivity]. exfalso. apply (N mode). constructor; [eauto|].
  clear -Ef F'. induction fs as [|g fs IH]; constructor; inversion F'; subst; cbn in Ef; apply andb_true_iff in Ef; destruct Ef as [E1 E2].
  - apply Z.eqb_eq in E1. destruct (f_data g) as [|x y]; [congruence|]. cbn in E1. subst. eauto.
  - apply IH; assumption.
Qed.
Lemma rmap_order_ok fs : Forall (fun f => (3 <= length (f_data f))%nat) fs -> exists ks, rmap order_byte fs = Ok ks.
Proof.
  intros F. apply rmap_is_ok. intros f Hf. rewrite Forall_forall in F. specialize (F f Hf).
  unfold order_byte. rewrite get_nth by lia. eauto.
Qed.

(* ------------------------------------------------------------------ *)
Lemma legacy_frames c t lines datas : pc_family c = FLegacy -> Forall2 (legacy_from t) lines datas ->
  exists fs, frames_of c lines = fs /\ map f_data fs = datas /\ map f_raw fs = map no_spaces lines
    /\ Forall (fun f => f_tx_id f = Some t) fs /\ Forall (fun l => line_isHex l = true) lines.
Proof.
  intros Ec F. assert (Hc : class_ok c) by (unfold class_ok; rewrite Ec; exact I).
  induction F as [|l d lines datas Hl F (fs & E1 & E2 & E3 & E4 & E5)]; [exists []; repeat split; constructor|].
  assert (Hs : sent_by (pc_family c) t l d) by (rewrite Ec; exact Hl).
  destruct (sent_line_frames c _ l d Hc Hs) as (f & Ef & Ht & Edata & Eraw).
  exists (f :: fs). rewrite frames_of_flat in *. cbn [flat_map]. rewrite Ef, E1. cbn. rewrite Edata, Eraw, E2, E3.
  repeat split; auto. constructor; [|exact E5].
  destruct (line_isHex l) eqn:El; [reflexivity|]. unfold line_frames in Ef. rewrite El in Ef. discriminate.
Qed.
Lemma legacy_from_length t l d : legacy_from t l d -> (2 <= length d <= 7)%nat.
Proof. intros (? & ? & ? & _ & _ & H); exact H. Qed.

(* a single line *)
Lemma legacy_single p t line mode d : pc_family (p_class p) = FLegacy -> legacy_from t line (mode :: d) -> mode <> 67 ->
  exists m, call p [line] = Ok [m] /\ m_data m = mode :: d /\ m_tx_id m = Some t.
Proof.
  intros Ec Hl Hm. assert (Hc : class_ok (p_class p)) by (unfold class_ok; rewrite Ec; exact I).
  destruct (legacy_frames (p_class p) t [line] [mode :: d] Ec) as (fs & E1 & E2 & E3 & E4 & E5); [constructor; [exact Hl|constructor]|].
  destruct fs as [|f [|]]; try discriminate. injection E2 as E2.
  rewrite (single_ecu_call p _ [f] t Hc E1); auto; [|congruence].
  unfold parse_message. rewrite Ec. rewrite (legacy_same_mode [f] mode); [|congruence|constructor; [eauto|constructor]].
  destruct (Z.eqb_spec mode 67); [congruence|]. rewrite E2. cbn. eexists. split; [reflexivity|]. cbn.
  inversion E4; auto.
Qed.

(* C11 *)
Lemma legacy_trouble_codes p t lines datas : pc_family (p_class p) = FLegacy -> lines <> [] ->
  Forall2 (fun l d => legacy_from t l (67 :: d)) lines datas ->
  exists m, call p lines = Ok [m] /\ m_data m = [67; 0] ++ List.concat datas /\ m_tx_id m = Some t
    /\ map f_raw (m_frames m) = map no_spaces lines.
Proof.
  intros Ec Hne F. assert (Hc : class_ok (p_class p)) by (unfold class_ok; rewrite Ec; exact I).
  destruct (legacy_frames (p_class p) t lines (map (cons 67) datas) Ec) as (fs & E1 & E2 & E3 & E4 & E5).
  { clear -F. induction F; cbn; constructor; auto. }
  assert (Hfs : fs <> []).
  { intros ->. destruct lines; [congruence|discriminate]. }
  rewrite (single_ecu_call p lines fs t Hc E1 Hfs E4 E5). unfold parse_message. rewrite Ec.
  rewrite (legacy_same_mode fs 67 Hfs).
  - cbn [Z.eqb Pos.eqb]. rewrite E2, map_map. cbn [tl]. rewrite map_id. cbn [one_message]. eexists. split; [reflexivity|]. cbn.
    split; [reflexivity|]. split; [|exact E3]. destruct fs as [|f fs]; [congruence|]. inversion E4; assumption.
  - clear -E2. revert datas E2. induction fs as [|f fs IH]; intros [|d ds] E2; try discriminate; constructor; injection E2 as E2 E2'; eauto.
Qed.

(* C10: round trip *)
Definition numbered (mode pid : Z) (parts : list bytes) : list bytes :=
  map (fun x => legacy_part mode pid (fst x) (snd x)) (combine (zseq 1 (length parts)) parts).
Lemma numbered_obyte mode pid parts : map obyte (numbered mode pid parts) = zseq 1 (length parts).
Proof.
  unfold numbered. rewrite map_map. unfold obyte, legacy_part. cbn [nth].
  apply (map_fst_combine (zseq 1 (length parts)) parts). apply zseq_length.
Qed.
Lemma numbered_rest mode pid s parts : map (skipn 3) (map (fun x => legacy_part mode pid (fst x) (snd x)) (combine (zseq s (length parts)) parts)) = parts.
Proof. rewrite map_map. unfold legacy_part. cbn [skipn]. apply (map_snd_combine (zseq s (length parts)) parts). apply zseq_length. Qed.
Lemma legacy_multi_round_trip p t mode pid parts lines datas : pc_family (p_class p) = FLegacy -> mode <> 67 ->
  (2 <= length parts)%nat -> Permutation datas (numbered mode pid parts) -> Forall2 (legacy_from t) lines datas ->
  exists m, call p lines = Ok [m] /\ m_data m = mode :: pid :: List.concat parts /\ m_tx_id m = Some t
    /\ map f_data (m_frames m) = datas /\ map f_raw (m_frames m) = map no_spaces lines.
Proof.
  intros Ec Hm Hn P F. assert (Hc : class_ok (p_class p)) by (unfold class_ok; rewrite Ec; exact I).
  destruct (legacy_frames (p_class p) t lines datas Ec F) as (fs & E1 & E2 & E3 & E4 & E5).
  assert (Ld : length datas = length parts).
  { rewrite (Permutation_length P). unfold numbered. rewrite map_length, combine_length, zseq_length. lia. }
  assert (Lf : length fs = length parts) by (rewrite <- Ld, <- E2, map_length; reflexivity).
  assert (Hfs : fs <> []) by (intros ->; cbn in Lf; lia).
  rewrite (single_ecu_call p lines fs t Hc E1 Hfs E4 E5). unfold parse_message. rewrite Ec.
  assert (Fd : Forall (fun d => exists i part, d = legacy_part mode pid i part) datas).
  { eapply Permutation_Forall; [symmetry; exact P|]. apply Forall_forall. intros d Hd. unfold numbered in Hd.
    apply in_map_iff in Hd. destruct Hd as (x & <- & _). eauto. }
  rewrite <- E2 in Fd. rewrite Forall_map in Fd.
  rewrite (legacy_same_mode fs mode Hfs).
  2: { eapply Forall_impl; [|exact Fd]. intros f (i & part & ->). unfold legacy_part. eauto. }
  destruct (Z.eqb_spec mode 67); [congruence|].
  destruct (rmap_order_ok fs) as (ks & Ek).
  { eapply Forall_impl; [|exact Fd]. intros f (i & part & ->). unfold legacy_part. cbn; lia. }
  destruct fs as [|f [|g fs']] eqn:Efs; [congruence|cbn in Lf; lia|]. rewrite <- Efs in *. rewrite Ek. cbn [rbind].
  assert (Es : sort_by obyte (map f_data fs) = numbered mode pid parts).
  { rewrite E2. rewrite (sort_by_unique obyte datas (numbered mode pid parts) P).
    - apply sort_by_id. pose proof (zseq_sorted 1 (length parts)) as S. rewrite <- (numbered_obyte mode pid) in S.
      clear -S. induction (numbered mode pid parts) as [|x l IH]; [constructor|]. cbn in S. inversion S as [|? ? S' F]; subst.
      constructor; [apply IH; exact S'|]. rewrite Forall_map in F. exact F.
    - eapply Permutation_NoDup; [symmetry; apply Permutation_map; exact P|]. rewrite numbered_obyte. apply zseq_NoDup. }
  rewrite Es, numbered_obyte.
  assert (C : contiguous (zseq 1 (length parts)) 1 (zlen fs) = true).
  { apply contiguous_spec. rewrite zseq_length. unfold zlen. rewrite zseq_length, Lf.
    repeat split; [|lia]. destruct (length parts); [lia|]. rewrite zseq_S; congruence. }
  rewrite C. unfold numbered. destruct parts as [|a parts]; [cbn in Hn; lia|]. cbn [length]. rewrite zseq_S. cbn [combine map].
  rewrite numbered_rest. unfold legacy_part at 1, pop_at. cbn [fst snd firstn skipn one_message]. eexists. split; [reflexivity|]. cbn.
  split; [reflexivity|]. split; [|split; assumption]. rewrite Efs in *. inversion E4; assumption.
Qed.

(* C10: a gap, a repetition, different modes *)
Lemma legacy_not_numbered p t mode lines datas : pc_family (p_class p) = FLegacy -> mode <> 67 ->
  (2 <= length datas)%nat -> Forall2 (legacy_from t) lines datas ->
  Forall (fun d => exists pid i part, d = legacy_part mode pid i part) datas ->
  ~ Permutation (map obyte datas) (zseq 1 (length datas)) -> call p lines = Ok [].
Proof.
  intros Ec Hm Hn F Fd N. assert (Hc : class_ok (p_class p)) by (unfold class_ok; rewrite Ec; exact I).
  destruct (legacy_frames (p_class p) t lines datas Ec F) as (fs & E1 & E2 & E3 & E4 & E5).
  assert (Lf : length fs = length datas) by (rewrite <- E2, map_length; reflexivity).
  assert (Hfs : fs <> []) by (intros ->; cbn in Lf; lia).
  rewrite (single_ecu_call p lines fs t Hc E1 Hfs E4 E5). unfold parse_message. rewrite Ec.
  rewrite <- E2 in Fd. rewrite Forall_map in Fd.
  rewrite (legacy_same_mode fs mode Hfs).
  2: { eapply Forall_impl; [|exact Fd]. intros f (pid & i & part & ->). unfold legacy_part. eauto. }
  destruct (Z.eqb_spec mode 67); [congruence|].
  destruct (rmap_order_ok fs) as (ks & Ek).
  { eapply Forall_impl; [|exact Fd]. intros f (pid & i & part & ->). unfold legacy_part. cbn; lia. }
  destruct fs as [|f [|g fs']] eqn:Efs; [congruence|cbn in Lf; lia|]. rewrite <- Efs in *. rewrite Ek. cbn [rbind].
  destruct (contiguous _ _ _) eqn:C; [|reflexivity]. exfalso. apply N. apply contiguous_spec in C. destruct C as (_ & C & _).
  rewrite E2 in C.
  assert (P : Permutation (map obyte (sort_by obyte datas)) (map obyte datas)) by (apply Permutation_map, sort_by_perm).
  rewrite <- P. rewrite C at 1. rewrite map_length, (Permutation_length (sort_by_perm obyte datas)). reflexivity.
Qed.
Lemma legacy_different_modes p t lines datas : pc_family (p_class p) = FLegacy -> Forall2 (legacy_from t) lines datas ->
  lines <> [] -> (forall mode, ~ Forall (fun d => exists r, d = mode :: r) datas) -> call p lines = Ok [].
Proof.
  intros Ec F Hne N. assert (Hc : class_ok (p_class p)) by (unfold class_ok; rewrite Ec; exact I).
  destruct (legacy_frames (p_class p) t lines datas Ec F) as (fs & E1 & E2 & E3 & E4 & E5).
  assert (Hfs : fs <> []).
  { intros ->. destruct lines; [congruence|discriminate]. }
  rewrite (single_ecu_call p lines fs t Hc E1 Hfs E4 E5). unfold parse_message. rewrite Ec.
  rewrite legacy_mixed_modes; [reflexivity| |exact Hfs|].
  - apply (Forall_map f_data (fun d => d <> [])). rewrite E2. clear -F. induction F as [|l d ls ds H F IH]; constructor; [|exact IH].
    apply legacy_from_length in H. destruct d; [cbn in H; lia|congruence].
  - intros mode Hm. apply (N mode). rewrite <- E2. apply Forall_map. exact Hm.
Qed.

(* C09: exactly when a legacy call raises *)
Definition too_short (t : Z) (lines : list text) : Prop :=
  exists ls datas mode, selects (is_from FLegacy t) lines ls /\ Forall2 (legacy_from t) ls datas
    /\ (2 <= length datas)%nat /\ mode <> 67 /\ Forall (fun d => exists r, d = mode :: r) datas
    /\ Exists (fun d => length d = 2%nat) datas.
Lemma legacy_message_raise fs e : fs <> [] -> Forall (fun f => (2 <= length (f_data f))%nat) fs ->
  legacy_parse_message fs = Raise e <->
  (e = IndexError /\ (2 <= length fs)%nat /\ exists mode, mode <> 67 /\ Forall (fun f => exists d, f_data f = mode :: d) fs
    /\ Exists (fun f => length (f_data f) = 2%nat) fs).
Proof.
  intros Hne F.
  assert (Fn : Forall (fun f => f_data f <> []) fs).
  { eapply Forall_impl; [|exact F]. cbv beta. intros f H E. rewrite E in H. cbn in H; lia. }
  assert (Dec : (exists mode, Forall (fun f => exists d, f_data f = mode :: d) fs) \/ (forall mode, ~ Forall (fun f => exists d, f_data f = mode :: d) fs)).
  { destruct fs as [|f fs]; [congruence|]. inversion Fn as [|? ? Hf Fn']; subst. destruct (f_data f) as [|m d] eqn:Ed; [congruence|].
    destruct (Forall_dec (fun f => exists d, f_data f = m :: d)) with (l := fs) as [Y|N].
    - intros g. destruct (f_data g) as [|x r]; [right; intros (? & ?); congruence|].
      destruct (Z.eq_dec x m) as [->|]; [left; eauto|right; intros (? & E); congruence].
    - left. exists m. constructor; eauto.
    - right. intros mode H. inversion H as [|? ? (d' & E) H']; subst. rewrite Ed in E. injection E as -> _. contradiction. }
  destruct Dec as [(mode & Fm)|N].
  2: { rewrite (legacy_mixed_modes fs Fn Hne N). split; [discriminate|]. intros (_ & _ & m & _ & H & _). exfalso. exact (N m H). }
  rewrite (legacy_same_mode fs mode Hne Fm).
  assert (Um : forall m', Forall (fun f => exists d, f_data f = m' :: d) fs -> m' = mode).
  { intros m' H. destruct fs as [|f fs]; [congruence|]. inversion H as [|? ? (d & E) _]; subst. inversion Fm as [|? ? (d' & E') _]; subst. congruence. }
  destruct (Z.eqb_spec mode 67) as [->|Hm].
  { split; [discriminate|]. intros (_ & _ & m & Hm & H & _). apply Um in H. congruence. }
  destruct fs as [|f [|g fs]]; [congruence| |].
  { split; [discriminate|]. intros (_ & H & _). cbn in H; lia. }
  set (l := f :: g :: fs) in *.
  destruct (Exists_dec (fun f => length (f_data f) = 2%nat) l) as [Y|N]; [intros; apply Nat.eq_dec| |].
  - assert (R : rmap order_byte l = Raise IndexError).
    { destruct (rmap order_byte l) as [ks|e'] eqn:Er.
      - exfalso. apply Exists_exists in Y. destruct Y as (x & Hx & Lx).
        destruct (proj1 (rmap_is_ok order_byte l) (ex_intro _ ks Er) x Hx) as (y & Hy). unfold order_byte in Hy.
        rewrite get_ge in Hy by lia. discriminate.
      - apply rmap_Raise in Er. destruct Er as (l1 & x & l2 & _ & Ex & _). unfold order_byte, get in Ex.
        destruct (nth_error (f_data x) 2); congruence. }
    rewrite R. cbn [rbind]. split.
    + intros E; injection E as <-. repeat split; [unfold l; cbn; lia|]. exists mode. auto.
    + intros (-> & _). reflexivity.
  - destruct (rmap_order_ok l) as (ks & Ek).
    { apply Forall_forall. intros x Hx. rewrite Forall_forall in F. specialize (F x Hx).
      assert (length (f_data x) <> 2%nat) by (intros E; apply N; apply Exists_exists; eauto). lia. }
    rewrite Ek. cbn [rbind]. split.
    + destruct (contiguous _ _ _); [|discriminate]. destruct (sort_by _ _); discriminate.
    + intros (_ & _ & m & _ & _ & X). contradiction.
Qed.
Lemma legacy_call_raise p lines e : pc_family (p_class p) = FLegacy ->
  call p lines = Raise e <-> e = IndexError /\ exists t, too_short t lines.
Proof.
  intros Ec. assert (Hc : class_ok (p_class p)) by (unfold class_ok; rewrite Ec; exact I).
  assert (Hu : pc_family (p_class p) <> FUnknown) by congruence.
  unfold call. rewrite call_eq by exact Hc.
  assert (G : forall t, exists ls datas, selects (is_from FLegacy t) lines ls /\ Forall2 (legacy_from t) ls datas
            /\ map f_data (from_id (Some t) (frames_of (p_class p) lines)) = datas).
  { intros t. destruct (ecu_lines (p_class p) t lines Hc Hu) as (ls & Hs & F2). rewrite Ec in Hs, F2.
    exists ls, (map f_data (from_id (Some t) (frames_of (p_class p) lines))). split; [exact Hs|]. split; [|reflexivity].
    clear -F2. induction F2 as [|a b l1 l2 [Hab _] F IH]; cbn; constructor; auto. }
  assert (L2 : forall t, Forall (fun f => (2 <= length (f_data f))%nat) (from_id (Some t) (frames_of (p_class p) lines))).
  { intros t. destruct (G t) as (ls & datas & _ & F & Ed). apply (Forall_map f_data (fun d => (2 <= length d)%nat)). rewrite Ed.
    clear -F. induction F as [|l d ls ds H F IH]; constructor; [|exact IH]. apply legacy_from_length in H; lia. }
  assert (K : forall t, In (Some t) (ids (frames_of (p_class p) lines)) ->
            forall e, ecu_message (p_class p) (p_map p) (frames_of (p_class p) lines) (Some t) = Raise e <-> e = IndexError /\ too_short t lines).
  { intros t Ht e'. destruct (from_id_head _ _ Ht) as (f & tl' & Ef & _).
    unfold ecu_message, parse_message. rewrite Ec.
    set (fs := from_id (Some t) (frames_of (p_class p) lines)) in *.
    assert (Hfs : fs <> []) by congruence.
    pose proof (legacy_message_raise fs e' Hfs (L2 t)) as R.
    destruct (G t) as (ls & datas & Hs & F & Ed). fold fs in Ed.
    transitivity (legacy_parse_message fs = Raise e').
    { destruct (legacy_parse_message fs) as [[d|]|]; cbn; split; congruence. }
    rewrite R. split.
    - intros (-> & L & mode & Hm & Fm & X). split; [reflexivity|]. exists ls, datas, mode. rewrite <- Ed. rewrite map_length.
      repeat split; auto; [rewrite Ed; exact F|apply Forall_map; exact Fm|apply Exists_map; exact X].
    - intros (-> & ls' & datas' & mode & Hs' & F' & L & Hm & Fm & X). 
      assert (ls' = ls) by (eapply selects_fun; eassumption). subst ls'.
      assert (datas' = datas).
      { clear -F F'. revert datas F. induction F' as [|l d ls ds H F' IH]; intros datas F; inversion F as [|? d' ? ds' H' F1]; subst; [reflexivity|].
        f_equal; [|apply IH; exact F1]. destruct H as (b1 & b2 & ck & Fb & Hl & _). destruct H' as (c1 & c2 & ck' & Fb' & Hl' & _).
        unfold legacy_line in *. pose proof (shows_fun _ _ _ Hl Hl') as E. apply nibbles_inj in E; auto.
        injection E as _ _ E. apply app_inj_tail in E. tauto. }
      subst datas'. split; [reflexivity|]. rewrite <- Ed, map_length in L. split; [exact L|]. exists mode. split; [exact Hm|].
      rewrite <- Ed in Fm, X. split; [rewrite Forall_map in Fm; exact Fm|rewrite Exists_map in X; exact X]. }
  destruct (ids_ints _ (frames_of_ints _ lines Hc Hu)) as (ts & Ets & _).
  split.
  - intros H. destruct (rmap _ _) as [r|e'] eqn:E; cbn in H; [discriminate|]. injection H as ->.
    apply rmap_Raise in E. destruct E as (l1 & k & l2 & El & Ek & _).
    assert (Hk : In k (ids (frames_of (p_class p) lines))) by (rewrite El; apply in_elt).
    pose proof Hk as Hk'. rewrite Ets in Hk'. apply in_map_iff in Hk'. destruct Hk' as (t & <- & Ht).
    apply (K t Hk) in Ek. destruct Ek as [-> X]. eauto.
  - intros (-> & t & X).
    assert (Hk : In (Some t) (ids (frames_of (p_class p) lines))).
    { destruct X as (ls & datas & mode & Hs & F & L & _). apply ids_In.
      assert (Ls : ls <> []) by (intros ->; inversion F; subst; cbn in L; lia).
      pose proof (from_id_selects (p_class p) t lines ls Hc Hu) as E. rewrite Ec in E. specialize (E Hs).
      destruct ls as [|l ls]; [congruence|]. inversion F as [|? d ? ds Hl _]; subst.
      destruct (sent_line_frames (p_class p) t l d Hc) as (f & Ef & Etx & _); [rewrite Ec; exact Hl|].
      exists f. split; [|exact Etx].
      assert (Hin : In f (from_id (Some t) (frames_of (p_class p) lines))) by (rewrite E; cbn [flat_map]; rewrite Ef; left; reflexivity).
      apply filter_In in Hin; tauto. }
    destruct (rmap _ _) as [r|e'] eqn:E; cbn [rbind].
    + exfalso. destruct (proj1 (rmap_is_ok _ _) (ex_intro _ r E) _ Hk) as (y & Hy).
      assert (R : ecu_message (p_class p) (p_map p) (frames_of (p_class p) lines) (Some t) = Raise IndexError) by (apply (K t Hk); auto).
      congruence.
    + f_equal. apply rmap_Raise in E. destruct E as (l1 & k & l2 & El & Ek & _).
      assert (Hk2 : In k (ids (frames_of (p_class p) lines))) by (rewrite El; apply in_elt).
      pose proof Hk2 as Hk'. rewrite Ets in Hk'. apply in_map_iff in Hk'. destruct Hk' as (t' & <- & Ht').
      apply (K t' Hk2) in Ek. tauto.
Qed.

(* ------------------------------------------------------------------ *)
(* C06: two lists of lines that agree per ECU and on the texts give the same result, exceptions included *)
Lemma sorted_lt_same a : forall b, StronglySorted Z.lt a -> StronglySorted Z.lt b -> (forall x, In x a <-> In x b) -> a = b.
Proof.
  induction a as [|x a IH]; intros [|y b] Sa Sb H.
  - reflexivity.
  - exfalso. apply (proj2 (H y)). left; reflexivity.
  - exfalso. apply (proj1 (H x)). left; reflexivity.
  - inversion Sa as [|? ? Sa' Fa]; subst. inversion Sb as [|? ? Sb' Fb]; subst. rewrite Forall_forall in Fa, Fb.
    assert (x = y).
    { destruct (proj1 (H x) (or_introl eq_refl)) as [E|I1]; [congruence|]. destruct (proj2 (H y) (or_introl eq_refl)) as [E|I2]; [congruence|].
      specialize (Fb x I1). specialize (Fa y I2). lia. }
    subst y. f_equal. apply IH; auto. intros z. split; intros Hz.
    + destruct (proj1 (H z) (or_intror Hz)) as [<-|I]; [specialize (Fa x Hz); lia|exact I].
    + destruct (proj2 (H z) (or_intror Hz)) as [<-|I]; [specialize (Fb x Hz); lia|exact I].
Qed.
Lemma selects_exists {A} (P : A -> Prop) l : (forall x, P x \/ ~ P x) -> exists ls, selects P l ls.
Proof.
  intros D. induction l as [|x l (ls & IH)]; [exists []; constructor|]. destruct (D x); [exists (x :: ls)|exists ls]; constructor; assumption.
Qed.
Lemma call_agree p l1 l2 : class_ok (p_class p) -> pc_family (p_class p) <> FUnknown ->
  (forall t ls, selects (is_from (pc_family (p_class p)) t) l1 ls <-> selects (is_from (pc_family (p_class p)) t) l2 ls) ->
  (forall ls, selects (fun l => ~ hex_line l) l1 ls <-> selects (fun l => ~ hex_line l) l2 ls) ->
  call p l1 = call p l2.
Proof.
  intros Hc Hu He Ht. unfold call. rewrite !call_eq by exact Hc. set (c := p_class p) in *.
  assert (Ef : forall t, from_id (Some t) (frames_of c l1) = from_id (Some t) (frames_of c l2)).
  { intros t. destruct (ecu_lines c t l1 Hc Hu) as (ls & Hs & _).
    rewrite (from_id_selects c t l1 ls Hc Hu Hs). symmetry. apply (from_id_selects c t l2 ls Hc Hu). apply He. exact Hs. }
  assert (Ei : ids (frames_of c l1) = ids (frames_of c l2)).
  { destruct (ids_ints _ (frames_of_ints c l1 Hc Hu)) as (t1 & E1 & S1). destruct (ids_ints _ (frames_of_ints c l2 Hc Hu)) as (t2 & E2 & S2).
    rewrite E1, E2. f_equal. apply sorted_lt_same; auto.
    assert (G : forall la lb ta tb, (forall t, from_id (Some t) (frames_of c la) = from_id (Some t) (frames_of c lb)) ->
       ids (frames_of c la) = map Some ta -> ids (frames_of c lb) = map Some tb -> forall x, In x ta -> In x tb).
    { intros la lb ta tb Hab Ea Eb x Hx. assert (Hi : In (Some x) (ids (frames_of c la))) by (rewrite Ea; apply in_map; exact Hx).
      destruct (from_id_head _ _ Hi) as (f & r & Efr & Hf). rewrite Hab in Efr.
      assert (Hin : In f (from_id (Some x) (frames_of c lb))) by (rewrite Efr; left; reflexivity). apply filter_In in Hin.
      assert (Hi2 : In (Some x) (ids (frames_of c lb))) by (apply ids_In; exists f; tauto). rewrite Eb in Hi2.
      apply in_map_iff in Hi2. destruct Hi2 as (y & Ey & Hy). congruence. }
    intros x. split; [apply (G l1 l2 t1 t2)|apply (G l2 l1 t2 t1)]; auto. }
  assert (Et : text_messages l1 = text_messages l2).
  { destruct (selects_exists (fun l => ~ hex_line l) l1) as (ls & Hs).
    { intros x. destruct (isHex (no_spaces x)) eqn:E; [right|left]; rewrite hex_line_isHex; congruence. }
    assert (Hs2 : selects (fun l => ~ hex_line l) l2 ls) by (apply Ht; exact Hs).
    assert (D : forall x, ~ hex_line x <-> negb (line_isHex x) = true).
    { intros x. rewrite hex_line_isHex. unfold line_isHex. rewrite negb_true_iff, not_true_iff_false. reflexivity. }
    apply (selects_filter _ (fun l => negb (line_isHex l)) _ _ D) in Hs, Hs2. unfold text_messages. congruence. }
  rewrite Ei, Et. f_equal. apply rmap_ext. intros k Hk.
  destruct (ids_ints _ (frames_of_ints c l2 Hc Hu)) as (t2 & E2 & _). rewrite E2 in Hk. apply in_map_iff in Hk. destruct Hk as (t & <- & _).
  unfold ecu_message. rewrite Ef. reflexivity.
Qed.
Lemma unknown_never_raises p lines : pc_family (p_class p) = FUnknown -> exists ms, call p lines = Ok ms.
Proof.
  intros E. unfold call. rewrite call_eq by (unfold class_ok; rewrite E; exact I).
  assert (exists r, rmap (ecu_message (p_class p) (p_map p) (frames_of (p_class p) lines)) (ids (frames_of (p_class p) lines)) = Ok r) as (r & ->).
  { apply rmap_is_ok. intros k _. unfold ecu_message, parse_message. rewrite E. cbn. eauto. }
  cbn. eauto.
Qed.
(* CAN: enough bytes *)
Lemma can_never_raises p w lines : (w = 11 \/ w = 29) -> pc_family (p_class p) = FCan w ->
  (forall l t d, In l lines -> frame_from w t l d -> (3 <= length d)%nat /\ 
     (forall n r, d = n :: r -> n / 16 = 0 -> 2 <= n) /\ (forall a b r, d = a :: b :: r -> a / 16 = 1 -> 2 <= 256 * (a mod 16) + b)) ->
  exists ms, call p lines = Ok ms.
Proof.
  intros Hw Ec H. destruct (call p lines) as [ms|e] eqn:E; [eauto|]. exfalso.
  destruct (can_call_raise p w lines e Hw Ec E) as (_ & t & ls & datas & Hs & F & R).
  assert (Hin : forall l, In l ls -> In l lines).
  { clear -Hs. induction Hs; intros l0 Hl; [destruct Hl| |right; auto]. destruct Hl as [<-|Hl]; [left; reflexivity|right; auto]. }
  assert (Hd : forall d, In d datas -> exists l, In l lines /\ frame_from w t l d).
  { clear -F Hin. induction F as [|l d ls ds Hl F IH]; intros d0 Hd0; [destruct Hd0|]. destruct Hd0 as [<-|Hd0]; [exists l; split; [apply Hin; left; reflexivity|exact Hl]|].
    apply IH; [|exact Hd0]. intros l' Hl'. apply Hin. right; exact Hl'. }
  assert (L : forall x : bytes, x = [67] -> length x = 1%nat) by (intros x ->; reflexivity).
  inversion R as [n d Hn E1 E2|frames pci lo d ord Hlen Hff Hperm Hne Hord E1 E2].
  - subst datas. destruct (Hd (n :: d) (or_introl eq_refl)) as (l & Hl & Hf). destruct (H l t (n :: d) Hl Hf) as (H3 & H4 & _).
    specialize (H4 n d eq_refl ltac:(lia)). apply L in E2. rewrite firstn_length in E2. cbn [length] in H3. lia.
  - subst frames. assert (Hi : In (pci :: lo :: d) (filter (fun x => frame_type x =? 1) datas)) by (rewrite Hff; left; reflexivity).
    apply filter_In in Hi. destruct Hi as [Hi Ht]. destruct (Hd _ Hi) as (l & Hl & Hf). destruct (H l t _ Hl Hf) as (H3 & _ & H4).
    apply Z.eqb_eq in Ht. cbn in Ht. specialize (H4 pci lo d eq_refl Ht). cbn [length] in H3.
    apply L in E2. rewrite firstn_length, app_length in E2.
    destruct ord as [|o ord]; [congruence|].
    assert (Ho : In o datas).
    { assert (In o (filter (fun x => frame_type x =? 2) datas)) by (eapply Permutation_in; [exact Hperm|left; reflexivity]). apply filter_In in H0; tauto. }
    destruct (Hd o Ho) as (l2 & Hl2 & Hf2). destruct (H l2 t o Hl2 Hf2) as (H5 & _). cbn [map List.concat] in E2. rewrite app_length in E2.
    destruct o as [|x o]; cbn [length tl] in *; lia.
Qed.
