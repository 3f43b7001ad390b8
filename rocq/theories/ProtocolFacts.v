(* Grouping of frames by ECU and the shape of the result of Protocol.__call__ *)
From Coq Require Import ZArith List Bool Lia Permutation Sorted.
From Coq Require Import ZifyBool ZifyNat.
From Verif Require Import Py Utils Protocol SpecWire PyFacts WireFacts.
Import ListNotations.
Open Scope Z_scope.
Arguments Z.div : simpl never.
Arguments Z.modulo : simpl never.
Arguments Z.mul : simpl never.
Arguments Z.add : simpl never.
Arguments Z.land : simpl never.

Definition class_ok (c : pclass) : Prop :=
  match pc_family c with FCan b => b = 11 \/ b = 29 | _ => True end.

(* parse_frame does not raise on hex text *)
Definition pf (c : pclass) (s : text) : option frame :=
  match parse_frame c s with Ok o => o | Raise _ => None end.
Lemma parse_frame_total c s : class_ok c -> isHex s = true -> parse_frame c s = Ok (pf c s).
Proof.
  intros Hc Hs. destruct (isHex_digits_of s Hs) as [ds Hd]. pose proof (digits_of_nibbles _ _ Hd) as F.
  unfold pf, parse_frame, class_ok in *. destruct (pc_family c) as [| |b]; [reflexivity| |].
  - destruct (legacy_digits_cases ds F) as [(b1 & b2 & tx & data & ck & Fb & ->)|H].
    + rewrite (legacy_parse_frame_eq _ _ _ _ _ _ Fb Hd). reflexivity.
    + rewrite (H s Hd). reflexivity.
  - destruct (can_digits_cases b ds Hc F) as [(h & data & <- & Hh & Fb & ->)|H].
    + rewrite (can_parse_frame_eq h s data Hh Fb Hd). reflexivity.
    + rewrite (H s Hd). reflexivity.
Qed.

Definition line_isHex (l : text) : bool := isHex (no_spaces l).
Definition opt_list {A} (o : option A) : list A := match o with Some x => [x] | None => [] end.
(* the frames a list of lines gives *)
Definition frames_of (c : pclass) (lines : list text) : list frame :=
  flat_map (fun l => if line_isHex l then opt_list (pf c (no_spaces l)) else []) lines.
Lemma frames_of_app c a b : frames_of c (a ++ b) = frames_of c a ++ frames_of c b.
Proof. apply flat_map_app. Qed.

Lemma parsed_frames c lines : class_ok c ->
  rmap (parse_frame c) (map no_spaces (filter (fun l => isHex (no_spaces l)) lines))
  = Ok (map (fun l => pf c (no_spaces l)) (filter line_isHex lines)).
Proof.
  intros Hc. rewrite rmap_map. apply rmap_total. intros l Hl. apply filter_In in Hl. apply parse_frame_total; tauto.
Qed.
Lemma frames_of_eq c lines :
  flat_map (fun o => match o with Some f => [f] | None => [] end) (map (fun l => pf c (no_spaces l)) (filter line_isHex lines))
  = frames_of c lines.
Proof.
  unfold frames_of. induction lines as [|l lines IH]; cbn; [reflexivity|].
  destruct (line_isHex l); cbn; [|exact IH]. rewrite IH. reflexivity.
Qed.

(* ids in order of first appearance *)
Definition from_id (k : option Z) (fs : list frame) : list frame := filter (fun f => oz_eqb (f_tx_id f) k) fs.
Definition add_id (ks : list (option Z)) (f : frame) : list (option Z) :=
  if existsb (fun k => oz_eqb k (f_tx_id f)) ks then ks else ks ++ [f_tx_id f].
Definition fkeys (fs : list frame) : list (option Z) := fold_left add_id fs [].

Lemma fkeys_snoc fs f : fkeys (fs ++ [f]) = add_id (fkeys fs) f.
Proof. unfold fkeys. rewrite fold_left_app. reflexivity. Qed.
Lemma fkeys_In fs k : In k (fkeys fs) <-> exists f, In f fs /\ f_tx_id f = k.
Proof.
  induction fs as [|f fs IH] using rev_ind; [cbn; split; [tauto|intros (? & [] & _)]|].
  rewrite fkeys_snoc. unfold add_id. destruct (existsb _ _) eqn:E.
  - rewrite IH. split.
    + intros (g & Hg & <-). exists g. rewrite in_app_iff; auto.
    + intros (g & Hg & <-). rewrite in_app_iff in Hg. destruct Hg as [Hg|[<-|[]]]; [eauto|].
      apply existsb_exists in E. destruct E as (k & Hk & Ek). apply oz_eqb_eq in Ek. subst k. apply IH; exact Hk.
  - rewrite in_app_iff, IH. split.
    + intros [(g & Hg & <-)|[<-|[]]]; [exists g|exists f]; rewrite in_app_iff; cbn; auto.
    + intros (g & Hg & <-). rewrite in_app_iff in Hg. destruct Hg as [Hg|[<-|[]]]; [left; eauto|right; cbn; auto].
Qed.
Lemma fkeys_NoDup fs : NoDup (fkeys fs).
Proof.
  induction fs as [|f fs IH] using rev_ind; [constructor|].
  rewrite fkeys_snoc. unfold add_id. destruct (existsb _ _) eqn:E; [exact IH|].
  apply (Permutation_NoDup (Permutation_app_comm [f_tx_id f] (fkeys fs))). cbn. constructor; [|exact IH].
  intros H. apply not_true_iff_false in E. apply E. apply existsb_exists. exists (f_tx_id f). split; [exact H|apply oz_eqb_refl].
Qed.

Lemma dict_get_map_keys (g : option Z -> list frame) ks k :
  dict_get oz_eqb (map (fun k => (k, g k)) ks) k = if existsb (fun k' => oz_eqb k' k) ks then Some (g k) else None.
Proof.
  induction ks as [|k0 ks IH]; cbn; [reflexivity|]. destruct (oz_eqb k0 k) eqn:E; cbn; [|exact IH].
  apply oz_eqb_eq in E. subst; reflexivity.
Qed.
Lemma dict_set_map_keys (g : option Z -> list frame) ks k v : NoDup ks -> In k ks ->
  dict_set oz_eqb (map (fun k => (k, g k)) ks) k v = map (fun k' => (k', if oz_eqb k' k then v else g k')) ks.
Proof.
  induction ks as [|k0 ks IH]; cbn; intros N H; [destruct H|]. inversion N; subst.
  destruct (oz_eqb k0 k) eqn:E.
  - apply oz_eqb_eq in E. subst k0. f_equal. apply map_ext_in. intros k' Hk'.
    destruct (oz_eqb k' k) eqn:E; [apply oz_eqb_eq in E; subst; contradiction|reflexivity].
  - destruct H as [->|H]; [rewrite oz_eqb_refl in E; congruence|]. rewrite IH by assumption. reflexivity.
Qed.
Lemma from_id_snoc k fs f : from_id k (fs ++ [f]) = from_id k fs ++ (if oz_eqb (f_tx_id f) k then [f] else []).
Proof. unfold from_id. rewrite filter_app. cbn. destruct (oz_eqb (f_tx_id f) k); reflexivity. Qed.

Lemma group_frames fs : fold_left group_frame fs [] = map (fun k => (k, from_id k fs)) (fkeys fs).
Proof.
  induction fs as [|f fs IH] using rev_ind; [reflexivity|].
  rewrite fold_left_app. cbn [fold_left]. rewrite IH, fkeys_snoc. unfold group_frame, add_id.
  rewrite dict_get_map_keys.
  destruct (existsb (fun k' => oz_eqb k' (f_tx_id f)) (fkeys fs)) eqn:E.
  - rewrite dict_set_map_keys; [|apply fkeys_NoDup|].
    + apply map_ext. intros k. rewrite from_id_snoc.
      destruct (oz_eqb k (f_tx_id f)) eqn:E2.
      * apply oz_eqb_eq in E2. subst k. rewrite oz_eqb_refl. reflexivity.
      * destruct (oz_eqb (f_tx_id f) k) eqn:E3; [apply oz_eqb_eq in E3; subst k; rewrite oz_eqb_refl in E2; congruence|].
        rewrite app_nil_r; reflexivity.
    + apply existsb_exists in E. destruct E as (k & Hk & Ek). apply oz_eqb_eq in Ek. subst k; exact Hk.
  - rewrite dict_set_new by (rewrite dict_get_map_keys, E; reflexivity).
    rewrite map_app. cbn [map]. f_equal.
    + apply map_ext_in. intros k Hk. rewrite from_id_snoc.
      destruct (oz_eqb (f_tx_id f) k) eqn:E3; [|rewrite app_nil_r; reflexivity].
      apply oz_eqb_eq in E3. subst k. exfalso. apply not_true_iff_false in E. apply E.
      apply existsb_exists. exists (f_tx_id f). split; [exact Hk|apply oz_eqb_refl].
    + rewrite from_id_snoc, oz_eqb_refl. f_equal. f_equal.
      enough (from_id (f_tx_id f) fs = []) as -> by reflexivity.
      destruct (from_id (f_tx_id f) fs) as [|g l] eqn:Eg; [reflexivity|].
      exfalso. apply not_true_iff_false in E. apply E.
      assert (Hg : In g (from_id (f_tx_id f) fs)) by (rewrite Eg; left; reflexivity).
      apply filter_In in Hg. destruct Hg as [Hg Ek]. apply oz_eqb_eq in Ek.
      apply existsb_exists. exists (f_tx_id f). split; [apply fkeys_In; eauto|apply oz_eqb_refl].
Qed.

(* ids in ascending order *)
Definition ids (fs : list frame) : list (option Z) := sort_by okey (fkeys fs).
Lemma ids_In fs k : In k (ids fs) <-> exists f, In f fs /\ f_tx_id f = k.
Proof.
  rewrite <- fkeys_In. unfold ids. split; apply Permutation_in; [|symmetry]; apply sort_by_perm.
Qed.
Lemma ids_NoDup fs : NoDup (ids fs).
Proof. eapply Permutation_NoDup; [symmetry; apply sort_by_perm|apply fkeys_NoDup]. Qed.

(* every parsed frame carries a number as id, except for the unknown protocol *)
Definition ints (fs : list frame) : Prop := Forall (fun f => exists t, f_tx_id f = Some t) fs.

Lemma ids_sorted_ints ks : NoDup ks -> Forall (fun k => exists t, k = Some t) ks ->
  StronglySorted (fun a b => okey a <= okey b) ks ->
  exists ts, ks = map Some ts /\ StronglySorted Z.lt ts.
Proof.
  induction ks as [|k ks IH]; intros N F S; [exists []; split; [reflexivity|constructor]|].
  inversion N; subst. inversion F as [|? ? (t & ->) F']; subst. inversion S as [|? ? S' Fk]; subst.
  destruct IH as (ts & -> & Hs); try assumption. exists (t :: ts). split; [reflexivity|].
  constructor; [exact Hs|]. apply Forall_forall. intros u Hu. rewrite Forall_forall in Fk.
  assert (Hu' : In (Some u) (map Some ts)) by (apply in_map; exact Hu).
  specialize (Fk _ Hu'). cbn in Fk. assert (t <> u) by (intros ->; contradiction). lia.
Qed.
Lemma ids_ints fs : ints fs -> exists ts, ids fs = map Some ts /\ StronglySorted Z.lt ts.
Proof.
  intros H. apply ids_sorted_ints.
  - apply ids_NoDup.
  - apply Forall_forall. intros k Hk. apply ids_In in Hk. destruct Hk as (f & Hf & <-).
    unfold ints in H. rewrite Forall_forall in H. apply H; exact Hf.
  - apply sort_by_sorted.
Qed.

Definition tag (m : ecu_map) (k : option Z) : Z := match dict_get oz_eqb m k with Some e => e | None => ECU_UNKNOWN end.
Definition text_message (l : text) : message := mkMessage [new_frame l] ECU_UNKNOWN [].
Definition text_messages (lines : list text) : list message := map text_message (filter (fun l => negb (line_isHex l)) lines).
Definition ecu_message (c : pclass) (m : ecu_map) (fs : list frame) (k : option Z) : res (list message) :=
  let! r := parse_message c (from_id k fs) in
  match r with Some d => Ok [mkMessage (from_id k fs) (tag m k) d] | None => Ok [] end.

Theorem call_eq c m lines : class_ok c ->
  protocol_call c m lines =
  rbind (rmap (ecu_message c m (frames_of c lines)) (ids (frames_of c lines)))
        (fun ms => Ok (List.concat ms ++ text_messages lines)).
Proof.
  intros Hc. unfold protocol_call. rewrite parsed_frames by exact Hc. cbn [rbind].
  rewrite frames_of_eq, group_frames, sort_by_map. cbn [fst].
  change (fun x : option Z => okey x) with okey.
  rewrite rmap_map. reflexivity.
Qed.

Lemma pf_can_ints c b s f : pc_family c = FCan b -> class_ok c -> isHex s = true -> pf c s = Some f ->
  exists h data, id_width h = b /\ id_ok h /\ Forall is_byte data /\ digits_of s (id_digits h ++ nibbles data)
    /\ can_frame h s data = Some f.
Proof.
  intros Eb Hc Hs H. unfold pf, parse_frame in H. rewrite Eb in H. unfold class_ok in Hc. rewrite Eb in Hc.
  destruct (isHex_digits_of s Hs) as [ds Hd]. pose proof (digits_of_nibbles _ _ Hd) as F.
  destruct (can_digits_cases b ds Hc F) as [(h & data & <- & Hh & Fb & ->)|Hn].
  - rewrite (can_parse_frame_eq h s data Hh Fb Hd) in H. exists h, data. auto.
  - rewrite (Hn s Hd) in H. congruence.
Qed.
Lemma can_frame_tx h s data f : can_frame h s data = Some f ->
  f_tx_id f = Some (sender h) /\ f_data f = data /\ f_raw f = s /\ (2 <= length data <= 8)%nat.
Proof.
  unfold can_frame. destruct (_ || _) eqn:E; [congruence|]. apply orb_false_iff in E. destruct E as [E1 E2].
  apply Nat.ltb_ge in E1, E2. destruct data as [|pci [|d1 data]]; try congruence.
  repeat match goal with |- context [if ?b then _ else _] => destruct b eqn:? end; try congruence;
    intros H; injection H as <-; cbn; repeat split; auto.
Qed.
Lemma pf_legacy_ints c s f : pc_family c = FLegacy -> isHex s = true -> pf c s = Some f ->
  exists b1 b2 tx data ck, Forall is_byte ([b1; b2; tx] ++ data ++ [ck]) /\ digits_of s (nibbles ([b1; b2; tx] ++ data ++ [ck]))
    /\ (2 <= length data <= 7)%nat /\ f = legacy_frame b1 b2 tx s data.
Proof.
  intros Eb Hs H. unfold pf, parse_frame in H. rewrite Eb in H.
  destruct (isHex_digits_of s Hs) as [ds Hd]. pose proof (digits_of_nibbles _ _ Hd) as F.
  destruct (legacy_digits_cases ds F) as [(b1 & b2 & tx & data & ck & Fb & ->)|Hn].
  - rewrite (legacy_parse_frame_eq _ _ _ _ _ _ Fb Hd) in H.
    destruct (_ || _) eqn:E; [congruence|]. apply orb_false_iff in E. destruct E as [E1 E2].
    apply Nat.ltb_ge in E1, E2. injection H as <-. exists b1, b2, tx, data, ck. repeat split; auto.
  - rewrite (Hn s Hd) in H. congruence.
Qed.
Lemma frames_of_In c lines f : In f (frames_of c lines) ->
  exists l, In l lines /\ isHex (no_spaces l) = true /\ pf c (no_spaces l) = Some f.
Proof.
  intros H. unfold frames_of in H. apply in_flat_map in H. destruct H as (l & Hl & H).
  exists l. unfold line_isHex in H. destruct (isHex (no_spaces l)); [|destruct H].
  destruct (pf c (no_spaces l)); [|destruct H]. destruct H as [<-|[]]. auto.
Qed.
Lemma frames_of_ints c lines : class_ok c -> pc_family c <> FUnknown -> ints (frames_of c lines).
Proof.
  intros Hc Hu. apply Forall_forall. intros f Hf. apply frames_of_In in Hf. destruct Hf as (l & _ & Hx & Hp).
  destruct (pc_family c) as [| |b] eqn:Ec; [congruence| |].
  - destruct (pf_legacy_ints c _ f Ec Hx Hp) as (b1 & b2 & tx & data & ck & _ & _ & _ & ->). cbn; eauto.
  - destruct (pf_can_ints c b _ f Ec Hc Hx Hp) as (h & data & _ & _ & _ & _ & Hf). apply can_frame_tx in Hf.
    destruct Hf as [-> _]; eauto.
Qed.

(* the ECU messages are one per id, in the order of ids *)
Lemma rmap_concat_filter c m fs ks r :
  rmap (ecu_message c m fs) ks = Ok r ->
  forall msg, In msg (List.concat r) <->
    exists k d, In k ks /\ parse_message c (from_id k fs) = Ok (Some d) /\ msg = mkMessage (from_id k fs) (tag m k) d.
Proof.
  revert r; induction ks as [|k ks IH]; intros r H msg.
  - cbn in H. injection H as <-. cbn. split; [tauto|]. intros (? & ? & [] & _).
  - cbn in H. unfold ecu_message at 1 in H.
    destruct (parse_message c (from_id k fs)) as [[d|]|] eqn:E; cbn in H; try congruence;
      destruct (rmap (ecu_message c m fs) ks) as [r'|] eqn:E2; cbn in H; try congruence; injection H as <-;
      cbn; specialize (IH r' eq_refl msg).
    + split.
      * intros [<-|H]; [exists k, d; auto|]. apply IH in H. destruct H as (k' & d' & ? & ? & ?). exists k', d'. auto.
      * intros (k' & d' & [<-|Hk] & Hp & Hm); [left; congruence|right; apply IH; eauto].
    + rewrite IH. split; intros (k' & d' & Hk & Hp & Hm); exists k', d'; [auto|].
      destruct Hk as [<-|Hk]; [congruence|auto].
Qed.
Lemma from_id_head k fs : In k (ids fs) -> exists f t, from_id k fs = f :: t /\ f_tx_id f = k.
Proof.
  intros H. apply ids_In in H. destruct H as (g & Hg & Hk).
  assert (Hi : In g (from_id k fs)) by (apply filter_In; split; [exact Hg|apply oz_eqb_eq; exact Hk]).
  destruct (from_id k fs) as [|f t] eqn:E; [destruct Hi|]. exists f, t. split; [reflexivity|].
  assert (Hf : In f (from_id k fs)) by (rewrite E; left; reflexivity).
  apply filter_In in Hf. apply oz_eqb_eq; tauto.
Qed.
