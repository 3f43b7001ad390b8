(* Proofs of the CAN properties: C01-C05, C09, C12 *)
From Coq Require Import ZArith List Bool Lia Permutation Sorted.
From Coq Require Import ZifyBool ZifyNat.
From Verif Require Import Py Utils Protocol SpecWire SpecProto PyFacts WireFacts ProtocolFacts CanFacts ProtocolThms.
Import ListNotations.
Open Scope Z_scope.
Ltac Zify.zify_post_hook ::= Z.div_mod_to_equations.
Arguments Z.div : simpl never.
Arguments Z.modulo : simpl never.
Arguments Z.mul : simpl never.
Arguments Z.add : simpl never.
Arguments Z.sub : simpl never.
Arguments Z.land : simpl never.

Lemma fkeys_single fs t : fs <> [] -> Forall (fun f => f_tx_id f = Some t) fs -> fkeys fs = [Some t].
Proof.
  induction fs as [|f fs IH] using rev_ind; [congruence|]. intros _ F. apply Forall_app in F. destruct F as [F1 F2].
  inversion F2 as [|? ? Hf _]; subst. rewrite fkeys_snoc. unfold add_id. rewrite Hf.
  destruct fs as [|g fs]; [reflexivity|]. rewrite IH by (congruence || assumption). cbn. rewrite Z.eqb_refl. reflexivity.
Qed.
Lemma from_id_all fs t : Forall (fun f => f_tx_id f = Some t) fs -> from_id (Some t) fs = fs.
Proof.
  unfold from_id. induction 1 as [|f fs Hf F IH]; cbn; [reflexivity|]. rewrite Hf. cbn. rewrite Z.eqb_refl, IH. reflexivity.
Qed.
Definition one_message (p : protocol) (t : Z) (fs : list frame) (r : res (option bytes)) : res (list message) :=
  match r with
  | Ok (Some d) => Ok [mkMessage fs (tag (p_map p) (Some t)) d]
  | Ok None => Ok []
  | Raise e => Raise e
  end.
Lemma single_ecu_call p lines fs t : class_ok (p_class p) -> frames_of (p_class p) lines = fs -> fs <> [] ->
  Forall (fun f => f_tx_id f = Some t) fs -> Forall (fun l => line_isHex l = true) lines ->
  call p lines = one_message p t fs (parse_message (p_class p) fs).
Proof.
  intros Hc Ef Hne Ft Hx. unfold call. rewrite call_eq by exact Hc. rewrite Ef.
  unfold ids. rewrite (fkeys_single fs t Hne Ft). cbn [sort_by insert_by rmap]. unfold ecu_message.
  rewrite (from_id_all fs t Ft).
  assert (Et : text_messages lines = []).
  { unfold text_messages. clear -Hx. induction Hx as [|l ls Hl _ IH]; cbn; [reflexivity|]. rewrite Hl. exact IH. }
  rewrite Et. unfold one_message. destruct (parse_message (p_class p) fs) as [[d|]|]; reflexivity.
Qed.

(* the frames printed for a list of data *)
Lemma printed_frames c h lines datas : pc_family c = FCan (id_width h) -> id_ok h ->
  Forall (Forall is_byte) datas -> Forall acceptable datas -> Forall2 (can_line h) lines datas ->
  exists fs, frames_of c lines = fs /\ map f_data fs = datas /\ map f_raw fs = map no_spaces lines
    /\ Forall (fun f => f_tx_id f = Some (sender h)) fs /\ Forall (fun l => line_isHex l = true) lines.
Proof.
  intros Ec Hh Fb Fa F. assert (Hc : class_ok c) by (unfold class_ok; rewrite Ec; destruct h; cbn; auto).
  induction F as [|l d lines datas Hl F IH]; [exists []; repeat split; constructor|].
  inversion Fb as [|? ? Hd Fb']; subst. inversion Fa as [|? ? Ha Fa']; subst.
  destruct (IH Fb' Fa') as (fs & E1 & E2 & E3 & E4 & E5).
  assert (Hs : sent_by (pc_family c) (sender h) l d) by (rewrite Ec; exists h; repeat split; auto; apply Ha).
  destruct (sent_line_frames c _ l d Hc Hs) as (f & Ef & Ht & Edata & Eraw).
  exists (f :: fs). rewrite frames_of_flat in *. cbn [flat_map]. rewrite Ef, E1. cbn. rewrite Edata, Eraw, E2, E3.
  repeat split; auto. constructor; [|exact E5]. apply shows_no_spaces in Hl. eapply digits_of_isHex; exact Hl.
Qed.

(* ------------------------------------------------------------------ *)
(* C02 *)
Lemma single_frame_round_trip p h payload padding line :
  pc_family (p_class p) = FCan (id_width h) -> id_ok h ->
  Forall is_byte payload -> Forall is_byte padding ->
  payload <> [] -> (length payload + length padding <= 7)%nat -> payload <> [67] ->
  can_line h line (single_frame payload padding) ->
  exists m, call p [line] = Ok [m] /\ m_data m = dtc_cut payload /\ m_tx_id m = Some (sender h)
    /\ map f_data (m_frames m) = [single_frame payload padding].
Proof.
  intros Ec Hh Fp Fq Hne Hlen H43 Hl.
  assert (Hc : class_ok (p_class p)) by (unfold class_ok; rewrite Ec; destruct h; cbn; auto).
  set (d := single_frame payload padding) in *.
  assert (L1 : (1 <= length payload)%nat) by (destruct payload; cbn; [congruence|lia]).
  assert (Fd : Forall is_byte d).
  { unfold d, single_frame. apply Forall_app; split; [|exact Fq]. constructor; [unfold is_byte; lia|exact Fp]. }
  assert (Ha : acceptable d).
  { unfold acceptable, d, single_frame. cbn [app length]. rewrite app_length. split; [lia|].
    destruct payload as [|a payload]; [congruence|]. cbn [app]. left. cbn [length] in *. lia. }
  destruct (printed_frames (p_class p) h [line] [d] Ec Hh) as (fs & E1 & E2 & E3 & E4 & E5);
    [constructor; [assumption|constructor]..|].
  destruct fs as [|f [|]]; try discriminate. injection E2 as E2.
  rewrite (single_ecu_call p [line] [f] (sender h) Hc E1 ltac:(congruence) E4 E5).
  unfold parse_message. rewrite Ec. unfold one_message.
  assert (W : wf f). 
  { pose proof (frames_wf (p_class p) _ [line] Ec Hc) as W. rewrite E1 in W. inversion W; assumption. }
  pose proof (wf_facts f W) as (_ & ES & _ & _ & _ & EL & _).
  assert (Sf : isSF f = true).
  { rewrite ES, E2. unfold d, single_frame. cbn. apply Z.eqb_eq. lia. }
  specialize (EL Sf). unfold can_parse_message. change (is_type FRAME_TYPE_SF f) with (isSF f). rewrite Sf. cbn [negb].
  unfold len_of. rewrite EL. cbn [rbind]. rewrite E2.
  replace (slice 1 (1 + Z.to_nat (number d)) d) with payload.
  - rewrite (trim_dtc_ok payload Hne H43 Fp). cbn [rbind].
    eexists. split; [reflexivity|]. cbn. rewrite E2. inversion E4; subst. auto.
  - unfold d, single_frame, number, slice. cbn [app skipn].
    replace (1 + Z.to_nat (Z.of_nat (length payload) mod 16) - 1)%nat with (length payload + 0)%nat by lia.
    rewrite firstn_app_2. cbn. rewrite app_nil_r. reflexivity.
Qed.

(* ------------------------------------------------------------------ *)
(* C03, C12, C09 *)
Lemma message_sound p w lines ms m : (w = 11 \/ w = 29) -> pc_family (p_class p) = FCan w -> call p lines = Ok ms -> In m ms ->
  (exists l, In l lines /\ ~ hex_line l /\ m = mkMessage [new_frame l] ECU_UNKNOWN [])
  \/ (exists t ls payload, m_tx_id m = Some t
       /\ selects (is_from (FCan w) t) lines ls
       /\ Forall2 (fun f l => frame_from w t l (f_data f)) (m_frames m) ls
       /\ reassembled (map f_data (m_frames m)) payload /\ payload <> [] /\ m_data m = dtc_cut payload).
Proof.
  intros Hw Ec H Hm.
  assert (Hc : class_ok (p_class p)) by (unfold class_ok; rewrite Ec; auto).
  assert (Hu : pc_family (p_class p) <> FUnknown) by congruence.
  unfold call in H. rewrite call_eq in H by exact Hc.
  destruct (rmap _ _) as [r|] eqn:E; cbn in H; [|discriminate]. injection H as <-.
  apply in_app_or in Hm. destruct Hm as [Hm|Hm].
  - right. destruct (proj1 (rmap_concat_filter _ _ _ _ r E m) Hm) as (k & d & Hk & Hp & ->).
    destruct (ids_ints _ (frames_of_ints _ lines Hc Hu)) as (ts & Ets & _).
    rewrite Ets in Hk. apply in_map_iff in Hk. destruct Hk as (t & <- & Ht).
    assert (Hk : In (Some t) (ids (frames_of (p_class p) lines))) by (rewrite Ets; apply in_map; exact Ht).
    destruct (from_id_head _ _ Hk) as (f & tl' & Ef & Hf).
    destruct (ecu_lines (p_class p) t lines Hc Hu) as (ls & Hs & F2). rewrite Ec in Hs, F2.
    unfold parse_message in Hp. rewrite Ec in Hp.
    pose proof (can_message_inv (from_id (Some t) (frames_of (p_class p) lines))) as Inv.
    rewrite Hp in Inv. destruct Inv as (payload & R & Fp & Np & N43 & Ed).
    { apply from_id_Forall. eapply frames_wf; eassumption. }
    { rewrite Ef. congruence. }
    exists t, ls, payload. cbn [m_frames m_data m_tx_id]. split; [unfold m_tx_id; cbn; rewrite Ef; exact Hf|].
    split; [exact Hs|]. split; [|auto].
    eapply Forall2_imp; [|exact F2]. intros a b [Hab _]. exact Hab.
  - left. unfold text_messages in Hm. apply in_map_iff in Hm. destruct Hm as (l & <- & Hl).
    apply filter_In in Hl. exists l. split; [tauto|]. split; [|reflexivity]. rewrite hex_line_isHex.
    destruct Hl as [_ Hl]. unfold line_isHex in Hl. apply negb_true_iff in Hl. congruence.
Qed.

Lemma can_call_raise p w lines e : (w = 11 \/ w = 29) -> pc_family (p_class p) = FCan w -> call p lines = Raise e ->
  e = IndexError /\
  exists t ls datas, selects (is_from (FCan w) t) lines ls /\ Forall2 (frame_from w t) ls datas /\ reassembled datas [67].
Proof.
  intros Hw Ec H.
  assert (Hc : class_ok (p_class p)) by (unfold class_ok; rewrite Ec; auto).
  assert (Hu : pc_family (p_class p) <> FUnknown) by congruence.
  unfold call in H. rewrite call_eq in H by exact Hc.
  destruct (rmap _ _) as [r|e'] eqn:E; cbn in H; [discriminate|]. injection H as ->.
  apply rmap_Raise in E. destruct E as (l1 & k & l2 & El & Ek & _).
  assert (Hk : In k (ids (frames_of (p_class p) lines))) by (rewrite El; apply in_elt).
  destruct (ids_ints _ (frames_of_ints _ lines Hc Hu)) as (ts & Ets & _).
  pose proof Hk as Hk'. rewrite Ets in Hk'. apply in_map_iff in Hk'. destruct Hk' as (t & <- & Ht).
  destruct (from_id_head _ _ Hk) as (f & tl' & Ef & Hf).
  destruct (ecu_lines (p_class p) t lines Hc Hu) as (ls & Hs & F2). rewrite Ec in Hs, F2.
  unfold ecu_message, parse_message in Ek. rewrite Ec in Ek.
  pose proof (can_message_inv (from_id (Some t) (frames_of (p_class p) lines))) as Inv.
  destruct (can_parse_message (from_id (Some t) (frames_of (p_class p) lines))) as [[d|]|e'] eqn:Ep; cbn in Ek; try discriminate.
  injection Ek as ->.
  destruct Inv as [-> R].
  { apply from_id_Forall. eapply frames_wf; eassumption. }
  { rewrite Ef; congruence. }
  split; [reflexivity|]. exists t, ls, (map f_data (from_id (Some t) (frames_of (p_class p) lines))).
  split; [exact Hs|]. split; [|exact R].
  clear -F2. induction F2 as [|a b l1 l2 [Hab _] F IH]; cbn; constructor; auto.
Qed.

(* ------------------------------------------------------------------ *)
(* segmentation *)
Lemma consecutive_facts i rest frames : consecutive i rest frames -> 0 <= i ->
  Forall2 (fun d c => frame_type d = 2 /\ number d = c mod 16 /\ (2 <= length d <= 8)%nat) frames (zseq i (length frames))
  /\ (exists pad, List.concat (map (@tl Z) frames) = rest ++ pad) /\ frames <> [] /\ rest <> [].
Proof.
  induction 1 as [i rest pad Hne Hlen|i chunk rest frames Hlen Hne H IH]; intros Hi.
  - split; [|split; [|split; congruence]].
    + cbn [length]. rewrite zseq_S. constructor; [|constructor]. unfold frame_type, number. cbn [length]. rewrite app_length.
      destruct rest; cbn [length] in *; [congruence|]. lia.
    + exists pad. cbn. rewrite app_nil_r. reflexivity.
  - destruct IH as (F & (pad & E) & _); [lia|]. split; [|split; [|split]].
    + cbn [length]. rewrite zseq_S. constructor; [|exact F]. unfold frame_type, number. cbn [length]. lia.
    + exists pad. cbn. rewrite E, app_assoc. reflexivity.
    + congruence.
    + destruct chunk; cbn in Hlen; [lia|]. cbn; congruence.
Qed.
Lemma acceptable_cf d : frame_type d = 2 -> (2 <= length d <= 8)%nat -> acceptable d.
Proof. unfold acceptable, frame_type. intros H L. split; [exact L|]. destruct d as [|a [|b d]]; cbn in *; lia. Qed.

Lemma Forall2_nth_l {A B} (R : A -> B -> Prop) a b i x : Forall2 R a b -> nth_error a i = Some x -> exists y, nth_error b i = Some y /\ R x y.
Proof. intros H; revert i; induction H as [|u v a b Huv H IH]; intros [|i] Hi; cbn in *; try congruence; [injection Hi as <-; eauto|eauto]. Qed.

Definition announced (payload : bytes) : Z := Z.of_nat (length payload).

(* everything about the i-th frame of a segmented payload *)
Lemma segmented_facts payload frames : segmented payload frames -> announced payload <= 4095 -> Forall (Forall is_byte) frames ->
  exists a, nth_error frames 0 = Some (16 + announced payload / 256 :: announced payload mod 256 :: a)
    /\ length a = 6%nat
    /\ (2 <= length frames)%nat
    /\ Forall acceptable frames
    /\ (forall i d, nth_error frames (S i) = Some d -> frame_type d = 2 /\ number d = Z.of_nat (S i) mod 16)
    /\ (exists rest pad, payload = a ++ rest /\ List.concat (map (@tl Z) (tl frames)) = rest ++ pad /\ rest <> []).
Proof.
  destruct 1 as [a rest fr La Hcons]. intros Hlen Fb.
  destruct (consecutive_facts _ _ _ Hcons ltac:(lia)) as (F & (pad & Ep) & Hne & Hr).
  unfold announced in *. set (n := Z.of_nat (length (a ++ rest))) in *.
  assert (Hn : 7 <= n) by (unfold n; rewrite app_length, La; destruct rest; cbn [length]; [congruence|lia]).
  exists a. split; [reflexivity|]. split; [exact La|]. split; [destruct fr; cbn; [congruence|lia]|].
  split; [|split].
  - constructor.
    + unfold acceptable. cbn [length]. rewrite La. split; [lia|]. right; left. lia.
    + clear -F. induction F as [|d c ds cs Hd F IH]; constructor; [apply acceptable_cf; tauto|exact IH].
  - intros i d Hi. cbn [nth_error] in Hi. destruct (Forall2_nth_l _ _ _ _ _ F Hi) as (c & Hc & Ht & Hnum & _).
    split; [exact Ht|]. rewrite zseq_nth in Hc by (apply nth_error_Some; congruence). injection Hc as <-. rewrite Hnum. f_equal. lia.
  - exists rest, pad. cbn [tl]. auto.
Qed.

Lemma tolerable_follows cs : tolerable cs -> (forall c t, cs = c :: t -> 0 <= c <= 15) /\ (forall a b l r, cs = l ++ a :: b :: r -> recoverable a b).
Proof.
  unfold tolerable. destruct cs as [|q cs]; intros H.
  - split; [congruence|]. intros a b [|] r E; discriminate.
  - destruct H as [Hq H]. split; [intros c t E; injection E as <- _; lia|].
    clear Hq. revert q H. induction cs as [|c cs IH]; intros q H a b l r E.
    + destruct l as [|x [|]]; discriminate.
    + inversion H as [|? ? ? Hf H']; subst. destruct l as [|x l]; cbn in E.
      * injection E as <- <- _. exact Hf.
      * injection E as <- E. eapply IH; eassumption.
Qed.

Lemma Forall2_filter {A B} (R : A -> B -> Prop) (P : A -> bool) (Q : B -> bool) a b :
  Forall2 R a b -> (forall x y, In x a -> R x y -> P x = Q y) -> Forall2 R (filter P a) (filter Q b).
Proof.
  induction 1 as [|x y a b Hxy H IH]; intros HP; cbn; [constructor|].
  rewrite (HP x y (or_introl eq_refl) Hxy). assert (IH' : Forall2 R (filter P a) (filter Q b)) by (apply IH; intros; apply HP; [right|]; assumption).
  destruct (Q y); [constructor|]; assumption.
Qed.

(* the frames with given indices of a segmented payload, as parsed *)
Lemma received_frames c h payload frames order lines : pc_family c = FCan (id_width h) -> id_ok h ->
  segmented payload frames -> announced payload <= 4095 -> Forall (Forall is_byte) frames -> printed h frames order lines ->
  exists fs, frames_of c lines = fs /\ Forall2 (fun f i => nth_error frames i = Some (f_data f)) fs order
    /\ map f_raw fs = map no_spaces lines
    /\ Forall (fun f => f_tx_id f = Some (sender h)) fs /\ Forall (fun l => line_isHex l = true) lines /\ Forall wf fs
    /\ Forall2 (fun f i => nth_error frames i = Some (f_data f)) (filter isFF fs) (filter (Nat.eqb 0) order)
    /\ Forall2 (fun f i => nth_error frames i = Some (f_data f) /\ f_seq f = Z.of_nat i mod 16)
               (filter isCF fs) (filter (fun i => negb (Nat.eqb i 0)) order).
Proof.
  intros Ec Hh Hs Hl Fb Hp.
  destruct (segmented_facts payload frames Hs Hl Fb) as (a & H0 & La & Ln & Fa & Hcf & _).
  assert (Hd : exists datas, Forall2 (can_line h) lines datas /\ Forall2 (fun d i => nth_error frames i = Some d) datas order).
  { clear -Hp. induction Hp as [|i l order lines (d & Hd & Hl) H (datas & IH1 & IH2)]; [exists []; split; constructor|].
    exists (d :: datas). split; constructor; assumption. }
  destruct Hd as (datas & D1 & D2).
  assert (Din : forall d, In d datas -> In d frames).
  { clear -D2. intros d Hd. induction D2 as [|x i ds os Hx H IH]; [destruct Hd|]. destruct Hd as [<-|Hd]; [eapply nth_error_In; exact Hx|auto]. }
  destruct (printed_frames c h lines datas Ec Hh) as (fs & E1 & E2 & E3 & E4 & E5).
  { apply Forall_forall. intros d Hd. rewrite Forall_forall in Fb. auto. }
  { apply Forall_forall. intros d Hd. rewrite Forall_forall in Fa. auto. }
  { exact D1. }
  assert (Hc : class_ok c) by (unfold class_ok; rewrite Ec; destruct h; cbn; auto).
  assert (W : Forall wf fs) by (rewrite <- E1; eapply frames_wf; eassumption).
  assert (F2 : Forall2 (fun f i => nth_error frames i = Some (f_data f)) fs order).
  { rewrite <- E2 in D2. clear -D2. revert order D2. induction fs as [|f fs IH]; intros order D2; inversion D2; subst; constructor; auto. }
  exists fs. split; [exact E1|]. split; [exact F2|]. split; [exact E3|]. split; [exact E4|]. split; [exact E5|]. split; [exact W|].
  assert (Kind : forall f i, In f fs -> nth_error frames i = Some (f_data f) -> isFF f = Nat.eqb 0 i /\ isCF f = negb (Nat.eqb i 0) /\ (isCF f = true -> f_seq f = Z.of_nat i mod 16)).
  { intros f i Hf Hi. rewrite Forall_forall in W. pose proof (wf_facts f (W f Hf)) as (_ & _ & EF & EC & ES & _).
    destruct i as [|i].
    - rewrite H0 in Hi. injection Hi as Hi.
      assert (T1 : frame_type (f_data f) = 1).
      { rewrite <- Hi. unfold frame_type. unfold announced in *. lia. }
      rewrite T1 in EF, EC. cbn in *. rewrite EF, EC. repeat split. discriminate.
    - destruct (Hcf i _ Hi) as [T2 N2]. rewrite T2 in EF, EC. cbn [Z.eqb] in *. rewrite EF, EC. cbn. repeat split.
      intros _. rewrite (ES EC). exact N2. }
  split.
  - apply Forall2_filter; [exact F2|]. intros f i Hf Hi. apply (Kind f i Hf Hi).
  - assert (F3 : Forall2 (fun f i => nth_error frames i = Some (f_data f) /\ In f fs) (filter isCF fs) (filter (fun i => negb (Nat.eqb i 0)) order)).
    { apply Forall2_filter.
      - assert (G : forall l, (forall f, In f l -> In f fs) -> forall o, Forall2 (fun f i => nth_error frames i = Some (f_data f)) l o ->
                   Forall2 (fun f i => nth_error frames i = Some (f_data f) /\ In f fs) l o).
        { intros l Hl' o Ho. induction Ho; constructor; [split; [assumption|apply Hl'; left; reflexivity]|]. apply IHHo. intros; apply Hl'; right; assumption. }
        apply (G fs); auto.
      - intros f i Hf [Hi _]. apply (Kind f i Hf Hi). }
    assert (Hcfs : Forall (fun f => isCF f = true) (filter isCF fs)) by (apply Forall_forall; intros f Hf; apply filter_In in Hf; tauto).
    clear -F3 Hcfs Kind. induction F3 as [|f i l o [Hi Hf] F3 IH]; constructor.
    + inversion Hcfs; subst. split; [exact Hi|]. apply (Kind f i Hf Hi). assumption.
    + apply IH. inversion Hcfs; assumption.
Qed.

Lemma filter0_seq n : forall s, (0 < s)%nat -> filter (Nat.eqb 0) (seq s n) = [].
Proof.
  induction n as [|n IH]; intros s Hs; cbn [seq filter]; [reflexivity|].
  destruct (Nat.eqb_spec 0 s); [lia|]. apply IH; lia.
Qed.
Lemma perm_filter0 order n : Permutation order (seq 0 (S n)) ->
  filter (Nat.eqb 0) order = [0%nat] /\ Permutation (filter (fun i => negb (Nat.eqb i 0)) order) (seq 1 n).
Proof.
  intros P. split.
  - apply (Permutation_filter (Nat.eqb 0)) in P.
    assert (E : filter (Nat.eqb 0) (seq 0 (S n)) = [0%nat]).
    { cbn [seq filter Nat.eqb]. f_equal. apply filter0_seq; lia. }
    rewrite E in P. symmetry in P. apply Permutation_length_1_inv in P. exact P.
  - apply (Permutation_filter (fun i => negb (Nat.eqb i 0))) in P.
    assert (E : filter (fun i => negb (Nat.eqb i 0)) (seq 0 (S n)) = seq 1 n).
    { cbn [seq filter Nat.eqb negb]. apply forallb_filter_all. intros x Hx. apply in_seq in Hx.
      destruct (Nat.eqb_spec x 0); [lia|reflexivity]. }
    rewrite E in P. exact P.
Qed.

(* ------------------------------------------------------------------ *)
(* the payload bytes carried by the first k consecutive frames *)
Lemma consecutive_prefix i rest frames : consecutive i rest frames -> forall k, (k <= length frames)%nat ->
  firstn (length rest) (List.concat (map (@tl Z) (firstn k frames))) = firstn (7 * k) rest.
Proof.
  induction 1 as [i rest pad Hne Hlen|i chunk rest frames Hlen Hne H IH]; intros k Hk.
  - destruct k as [|[|k]]; [rewrite firstn_nil; reflexivity| |cbn in Hk; lia].
    cbn [firstn map tl List.concat]. rewrite app_nil_r.
    replace (length rest) with (length rest + 0)%nat by lia. rewrite firstn_app_2. cbn [firstn]. rewrite app_nil_r.
    symmetry. apply firstn_all2. lia.
  - destruct k as [|k]; [cbn; rewrite firstn_nil; reflexivity|].
    cbn [firstn map tl List.concat]. rewrite app_length, firstn_app_2, IH by (cbn in Hk; lia).
    replace (7 * S k)%nat with (length chunk + 7 * k)%nat by lia. rewrite firstn_app_2. reflexivity.
Qed.
Lemma map_nth_seq {A} (l : list A) d n : (n <= length l)%nat -> map (fun i => nth i l d) (seq 0 n) = firstn n l.
Proof.
  revert l; induction n as [|n IH]; intros l H; [reflexivity|]. destruct l as [|x l]; [cbn in H; lia|].
  cbn [seq map firstn nth]. f_equal. rewrite <- seq_shift, map_map. cbn [nth]. apply IH. cbn in H; lia.
Qed.
Lemma zseq_dat (frames : list bytes) n : (S n <= length frames)%nat ->
  List.concat (map (fun c => tl (nth (Z.to_nat c) frames [])) (zseq 1 n)) = List.concat (map (@tl Z) (firstn n (tl frames))).
Proof.
  intros H. f_equal. unfold zseq. rewrite map_map.
  rewrite <- (map_nth_seq (tl frames) [] n), map_map by (destruct frames; cbn in *; lia).
  apply map_ext. intros i. f_equal. replace (Z.to_nat (1 + Z.of_nat i)) with (S i) by lia. destruct frames; [destruct i|]; reflexivity.
Qed.

Definition datas_of (frames : list bytes) (order : list nat) : list bytes := map (fun i => nth i frames []) order.

(* first frame and the first k consecutive frames, in any tolerable order of arrival *)
Lemma prefix_received p h payload frames order lines k :
  pc_family (p_class p) = FCan (id_width h) -> id_ok h ->
  segmented payload frames -> announced payload <= 4095 -> Forall (Forall is_byte) frames ->
  (1 <= k < length frames)%nat -> Permutation order (seq 0 (S k)) -> tolerable (consecutive_indices order) ->
  printed h frames order lines ->
  exists m, call p lines = Ok [m] /\ m_data m = dtc_cut (firstn (6 + 7 * k) payload) /\ m_tx_id m = Some (sender h)
    /\ map f_data (m_frames m) = datas_of frames order /\ map f_raw (m_frames m) = map no_spaces lines.
Proof.
  intros Ec Hh Hs Hl Fb Hk P T Hp.
  assert (Hc : class_ok (p_class p)) by (unfold class_ok; rewrite Ec; destruct h; cbn; auto).
  destruct (received_frames (p_class p) h payload frames order lines Ec Hh Hs Hl Fb Hp)
    as (fs & E1 & F2 & E3 & E4 & E5 & W & FF & CF).
  destruct (perm_filter0 order k P) as [O0 O1].
  assert (Lo : length order = S k) by (rewrite (Permutation_length P), seq_length; reflexivity).
  assert (Lf : length fs = S k) by (rewrite (Forall2_length _ _ _ F2); exact Lo).
  assert (Hne : fs <> []) by (destruct fs; cbn in Lf; congruence).
  rewrite (single_ecu_call p lines fs (sender h) Hc E1 Hne E4 E5).
  unfold parse_message. rewrite Ec.
  rewrite O0 in FF. inversion FF as [|f0 ? l0 ? H0 FF' Ef0]; subst. inversion FF'; subst. symmetry in Ef0.
  set (fs := frames_of (p_class p) lines) in *.
  assert (Es : map f_seq (filter isCF fs) = map (fun c => c mod 16) (consecutive_indices order)).
  { clear -CF. unfold consecutive_indices. induction CF as [|f i l o [_ H] F IH]; cbn; [reflexivity|]. rewrite H, IH. reflexivity. }
  destruct (tolerable_follows _ T) as [T1 T2].
  assert (Es2 : seqs (map f_seq (filter isCF fs)) = consecutive_indices order) by (rewrite Es; apply seqs_true; assumption).
  assert (Pc : Permutation (consecutive_indices order) (zseq 1 k)).
  { unfold consecutive_indices. rewrite O1. unfold zseq. rewrite <- seq_shift, map_map.
    erewrite map_ext; [reflexivity|]. intros; cbv beta; lia. }
  assert (Fd : Forall2 (fun f c => f_data f = nth (Z.to_nat c) frames []) (filter isCF fs) (consecutive_indices order)).
  { unfold consecutive_indices. clear -CF. induction CF as [|f i l o [H _] F IH]; cbn; constructor; [|exact IH].
    rewrite Nat2Z.id. symmetry. apply nth_error_nth. exact H. }
  rewrite (can_parse_complete fs f0 (consecutive_indices order) (fun c => nth (Z.to_nat c) frames []) k); auto; try lia.
  destruct Hs as [a rest fr La Hcons]. cbn [nth_error] in H0. injection H0 as H0.
  set (pl := a ++ rest) in *.
  assert (Wf0 : wf f0).
  { rewrite Forall_forall in W. apply W. assert (In f0 (filter isFF fs)) by (rewrite Ef0; left; reflexivity). apply filter_In in H; tauto. }
  assert (Ff0 : isFF f0 = true) by (assert (In f0 (filter isFF fs)) by (rewrite Ef0; left; reflexivity); apply filter_In in H; tauto).
  pose proof (wf_facts f0 Wf0) as (_ & _ & _ & _ & _ & _ & EL). destruct (EL Ff0) as (pci & lo & d0 & Ed0 & Elen).
  unfold len_of. rewrite Elen. cbn [rbind]. rewrite Ed0 in H0. injection H0 as Ep Elo Ed.
  replace (256 * (pci mod 16) + lo) with (announced pl) by (unfold announced in *; lia).
  rewrite Ed0. unfold from. cbn [skipn]. rewrite <- Ed.
  rewrite zseq_dat by lia. cbn [tl].
  unfold upto. replace (Z.to_nat (announced pl)) with (length a + length rest)%nat by (unfold announced, pl; rewrite app_length; lia).
  rewrite firstn_app_2, (consecutive_prefix _ _ _ Hcons) by (cbn [length] in Hk; lia).
  assert (Epl : a ++ firstn (7 * k) rest = firstn (6 + 7 * k) pl) by (unfold pl; rewrite <- La, firstn_app_2; reflexivity).
  rewrite Epl.
  assert (Lr : (1 <= length rest)%nat).
  { destruct (consecutive_facts _ _ _ Hcons ltac:(lia)) as (_ & _ & _ & Hr). destruct rest; cbn; [congruence|lia]. }
  assert (Ll : (2 <= length (firstn (6 + 7 * k) pl))%nat) by (rewrite <- Epl, app_length; lia).
  rewrite trim_dtc_ok.
  - cbn [rbind]. unfold one_message. eexists. split; [reflexivity|]. cbn.
    split; [reflexivity|]. split.
    { unfold m_tx_id. cbn. destruct fs as [|g gs]; [congruence|]. inversion E4; assumption. }
    split; [|exact E3]. clear -F2. unfold datas_of. induction F2 as [|f i l o H F IH]; cbn [map]; [reflexivity|].
    rewrite IH. f_equal. symmetry. apply nth_error_nth. exact H.
  - intros E. rewrite E in Ll. cbn in Ll. lia.
  - intros E. rewrite E in Ll. cbn in Ll. lia.
  - rewrite <- Epl. inversion Fb as [|? ? B1 B2]; subst. apply Forall_app. split.
    + inversion B1 as [|? ? _ B3]; subst. inversion B3; assumption.
    + rewrite <- (consecutive_prefix _ _ _ Hcons) by (cbn [length] in Hk; lia). apply Forall_firstn, Forall_concat.
      apply Forall_forall. intros x Hx. apply in_map_iff in Hx. destruct Hx as (y & <- & Hy). apply Forall_tl.
      rewrite Forall_forall in B2. apply B2. rewrite <- (firstn_skipn k fr). apply in_or_app; auto.
Qed.

Lemma segmented_length payload frames : segmented payload frames -> (2 <= length frames)%nat /\ (length payload <= 6 + 7 * (length frames - 1))%nat.
Proof.
  intros [a rest fr La Hc].
  assert (G : (length rest <= 7 * length fr)%nat /\ fr <> []).
  { clear -Hc. induction Hc as [i rest pad Hne Hlen|i chunk rest frames Hlen Hne H [IH1 IH2]].
    - split; [cbn; lia|congruence].
    - split; [rewrite app_length; cbn [length]; lia|congruence]. }
  destruct G as [G1 G2]. cbn [length]. rewrite app_length. destruct fr; [congruence|]. cbn [length] in *. lia.
Qed.

(* C05 *)
Lemma reordered_round_trip p h payload frames order lines :
  pc_family (p_class p) = FCan (id_width h) -> id_ok h ->
  segmented payload frames -> announced payload <= 4095 -> Forall (Forall is_byte) frames ->
  Permutation order (seq 0 (length frames)) -> tolerable (consecutive_indices order) ->
  printed h frames order lines ->
  exists m, call p lines = Ok [m] /\ m_data m = dtc_cut payload /\ m_tx_id m = Some (sender h)
    /\ map f_data (m_frames m) = datas_of frames order /\ map f_raw (m_frames m) = map no_spaces lines.
Proof.
  intros Ec Hh Hs Hl Fb P T Hp. destruct (segmented_length _ _ Hs) as [L1 L2].
  destruct (prefix_received p h payload frames order lines (length frames - 1) Ec Hh Hs Hl Fb) as (m & H1 & H2 & H3); auto; try lia.
  - replace (S (length frames - 1)) with (length frames) by lia. exact P.
  - exists m. rewrite H2. split; [exact H1|]. split; [|exact H3]. f_equal. apply firstn_all2. lia.
Qed.
Lemma tolerable_zseq n : tolerable (zseq 1 n).
Proof.
  destruct n as [|n]; [exact I|]. rewrite zseq_S. unfold tolerable. split; [lia|].
  assert (G : forall s, tolerable_from s (zseq (s + 1) n)); [|apply G].
  induction n as [|n IH]; intros s; [constructor|]. rewrite zseq_S. constructor; [|apply IH].
  unfold follows. lia.
Qed.
Lemma consecutive_indices_seq n : consecutive_indices (seq 0 (S n)) = zseq 1 n.
Proof.
  unfold consecutive_indices. cbn [seq filter Nat.eqb negb]. rewrite forallb_filter_all.
  - unfold zseq. rewrite <- seq_shift, map_map. apply map_ext. intros; lia.
  - intros x Hx. apply in_seq in Hx. destruct (Nat.eqb_spec x 0); [lia|reflexivity].
Qed.
(* C01 *)
Lemma in_order_printed h frames lines : Forall2 (can_line h) lines frames -> printed h frames (seq 0 (length frames)) lines.
Proof.
  unfold printed. intros F. 
  assert (G : forall pre, Forall2 (fun i line => exists d, nth_error (pre ++ frames) i = Some d /\ can_line h line d) (seq (length pre) (length frames)) lines).
  { induction F as [|l d lines frames Hl F IH]; intros pre; cbn; constructor.
    - exists d. split; [|exact Hl]. rewrite nth_error_app2, Nat.sub_diag by lia. reflexivity.
    - specialize (IH (pre ++ [d])). rewrite app_length, <- app_assoc in IH. cbn in IH.
      replace (length pre + 1)%nat with (S (length pre)) in IH by lia. exact IH. }
  exact (G []).
Qed.
Lemma round_trip p h payload frames lines :
  pc_family (p_class p) = FCan (id_width h) -> id_ok h ->
  segmented payload frames -> announced payload <= 4095 -> Forall (Forall is_byte) frames ->
  Forall2 (can_line h) lines frames ->
  exists m, call p lines = Ok [m] /\ m_data m = dtc_cut payload /\ m_tx_id m = Some (sender h)
    /\ map f_data (m_frames m) = frames /\ map f_raw (m_frames m) = map no_spaces lines.
Proof.
  intros Ec Hh Hs Hl Fb F. destruct (segmented_length _ _ Hs) as [L1 _].
  destruct (reordered_round_trip p h payload frames (seq 0 (length frames)) lines Ec Hh Hs Hl Fb) as (m & H1 & H2 & H3 & H4 & H5).
  - reflexivity.
  - replace (length frames) with (S (length frames - 1)) by lia. rewrite consecutive_indices_seq. apply tolerable_zseq.
  - apply in_order_printed; exact F.
  - exists m. repeat split; auto. rewrite H4. unfold datas_of. rewrite map_nth_seq by lia. apply firstn_all.
Qed.

(* ------------------------------------------------------------------ *)
(* C04: what is dropped *)
Lemma dropped p h payload frames order lines :
  pc_family (p_class p) = FCan (id_width h) -> id_ok h ->
  segmented payload frames -> announced payload <= 4095 -> Forall (Forall is_byte) frames -> printed h frames order lines ->
  (filter (Nat.eqb 0) order <> [0%nat] \/
   (tolerable (consecutive_indices order) /\ ~ exists n, Permutation (consecutive_indices order) (zseq 1 n)) \/
   (~ exists n, Permutation (seqs (map (fun c => c mod 16) (consecutive_indices order))) (zseq 1 n))) ->
  call p lines = Ok [].
Proof.
  intros Ec Hh Hs Hl Fb Hp D.
  assert (Hc : class_ok (p_class p)) by (unfold class_ok; rewrite Ec; destruct h; cbn; auto).
  destruct (received_frames (p_class p) h payload frames order lines Ec Hh Hs Hl Fb Hp)
    as (fs & E1 & F2 & E3 & E4 & E5 & W & FF & CF).
  destruct fs as [|g gs] eqn:Efs.
  { inversion F2; subst. destruct Hp as [|? ? ? ? Hp]; [|discriminate].
    unfold call. rewrite call_eq by exact Hc. rewrite E1. reflexivity. }
  rewrite <- Efs in *. assert (Hne : fs <> []) by congruence. clear Efs.
  rewrite (single_ecu_call p lines fs (sender h) Hc E1 Hne E4 E5).
  enough (can_parse_message fs = Ok None) as E by (unfold parse_message; rewrite Ec, E; reflexivity).
  assert (Nsf : Forall (fun f => isSF f = false) fs).
  { destruct (segmented_facts payload frames Hs Hl Fb) as (a & H0 & La & Ln & Fa & Hcf & _).
    clear -F2 W Hcf H0 Hl. induction F2 as [|f i l o Hi F IH]; constructor; inversion W as [|? ? Wf W']; subst; auto.
    destruct (wf_facts f Wf) as (_ & ES & _). rewrite ES. apply Z.eqb_neq. destruct i as [|i].
    - rewrite H0 in Hi. injection Hi as <-. unfold frame_type. unfold announced in *. lia.
    - destruct (Hcf i _ Hi) as [-> _]. lia. }
  destruct (Nat.eq_dec (length fs) 1) as [L|L].
  { destruct fs as [|f [|]]; try discriminate. inversion Nsf; subst. unfold can_parse_message.
    change (is_type FRAME_TYPE_SF f) with (isSF f). rewrite H1. reflexivity. }
  assert (Es : map f_seq (filter isCF fs) = map (fun c => c mod 16) (consecutive_indices order)).
  { clear -CF. unfold consecutive_indices. induction CF as [|f i l o [_ H] F IH]; cbn; [reflexivity|]. rewrite H, IH. reflexivity. }
  assert (D' : filter (Nat.eqb 0) order <> [0%nat] \/ 
    ~ exists n, Permutation (seqs (map (fun c => c mod 16) (consecutive_indices order))) (zseq 1 n)).
  { destruct D as [D|[[T D]|D]]; [left; exact D| |right; exact D]. right.
    destruct (tolerable_follows _ T) as [T1 T2]. rewrite seqs_true; assumption. }
  destruct D' as [D'|D'].
  - rewrite can_parse_multi by exact L.
    assert (Z0 : Forall (fun i => i = 0%nat) (filter (Nat.eqb 0) order)).
    { apply Forall_forall. intros x Hx. apply filter_In in Hx. destruct Hx as [_ Hx]. apply Nat.eqb_eq in Hx. congruence. }
    pose proof (Forall2_length _ _ _ FF) as LF.
    destruct (filter isFF fs) as [|f0 [|f1 l]]; auto. exfalso. apply D'.
    destruct (filter (Nat.eqb 0) order) as [|x [|]]; try discriminate. inversion Z0; subst. reflexivity.
  - apply can_parse_gap; [exact L|]. rewrite Es. intros P. apply D'. eexists; exact P.
Qed.

Lemma first_frame_lost p h payload frames order lines :
  pc_family (p_class p) = FCan (id_width h) -> id_ok h ->
  segmented payload frames -> announced payload <= 4095 -> Forall (Forall is_byte) frames -> printed h frames order lines ->
  ~ In 0%nat order -> call p lines = Ok [].
Proof.
  intros. eapply dropped; eauto. left. intros E. apply H5.
  assert (In 0%nat (filter (Nat.eqb 0) order)) by (rewrite E; left; reflexivity). apply filter_In in H6; tauto.
Qed.
Lemma In_consecutive_indices order i : In (Z.of_nat i) (consecutive_indices order) <-> In i order /\ i <> 0%nat.
Proof.
  unfold consecutive_indices. rewrite in_map_iff. split.
  - intros (x & E & Hx). apply Nat2Z.inj in E. subst. apply filter_In in Hx. destruct (Nat.eqb_spec i 0); cbn in Hx; intuition congruence.
  - intros [H1 H2]. exists i. split; [reflexivity|]. apply filter_In. split; [exact H1|]. destruct (Nat.eqb_spec i 0); [congruence|reflexivity].
Qed.
Lemma consecutive_lost p h payload frames order lines i j :
  pc_family (p_class p) = FCan (id_width h) -> id_ok h ->
  segmented payload frames -> announced payload <= 4095 -> Forall (Forall is_byte) frames -> printed h frames order lines ->
  tolerable (consecutive_indices order) -> ~ In i order -> In j order -> (i < j)%nat -> call p lines = Ok [].
Proof.
  intros. destruct i as [|i]; [eapply first_frame_lost; eauto|].
  eapply dropped; eauto. right; left. split; [assumption|]. intros (n & P).
  assert (Hj : In (Z.of_nat j) (zseq 1 n)).
  { eapply Permutation_in; [exact P|]. apply In_consecutive_indices. split; [assumption|lia]. }
  assert (Hi : In (Z.of_nat (S i)) (zseq 1 n)) by (apply zseq_In in Hj; apply zseq_In; lia).
  apply (Permutation_in (l' := consecutive_indices order)) in Hi; [|symmetry; exact P].
  apply In_consecutive_indices in Hi. tauto.
Qed.
(* a frame received twice *)
Lemma NoDup_map_of_nat l : NoDup (map Z.of_nat l) -> NoDup l.
Proof. apply NoDup_map_inv. Qed.
Lemma frame_twice p h payload frames order lines :
  pc_family (p_class p) = FCan (id_width h) -> id_ok h ->
  segmented payload frames -> announced payload <= 4095 -> Forall (Forall is_byte) frames -> printed h frames order lines ->
  tolerable (consecutive_indices order) -> ~ NoDup order -> call p lines = Ok [].
Proof.
  intros Ec Hh Hs Hl Fb Hp T N.
  destruct (list_eq_dec Nat.eq_dec (filter (Nat.eqb 0) order) [0%nat]) as [E|E]; [|eapply dropped; eauto].
  eapply dropped; eauto. right; left. split; [exact T|]. intros (n & P). apply N.
  assert (N1 : NoDup (consecutive_indices order)) by (eapply Permutation_NoDup; [symmetry; exact P|apply zseq_NoDup]).
  apply NoDup_map_of_nat in N1.
  assert (G : forall l : list nat, NoDup (filter (fun i => negb (Nat.eqb i 0)) l) -> NoDup (filter (Nat.eqb 0) l) -> NoDup l).
  { clear. induction l as [|x l IH]; cbn; intros A B; [constructor|].
    destruct x as [|x]; cbn in A, B.
    - inversion B; subst. constructor; [|auto]. intros Hx. apply H1. apply filter_In. auto.
    - inversion A; subst. constructor; [|auto]. intros Hx. apply H1. apply filter_In. auto. }
  apply G; [exact N1|]. rewrite E. constructor; [intros []|constructor].
Qed.

(* in order of arrival, few frames missing *)
Lemma last_ge cs : forall p : nat, StronglySorted lt (p :: cs) -> (p + length cs <= last cs p)%nat.
Proof.
  induction cs as [|q cs IH]; intros p S; [cbn; lia|]. inversion S as [|? ? S' F]; subst. inversion F; subst.
  specialize (IH q S'). replace (last (q :: cs) p) with (last cs q); [cbn [length]; lia|].
  destruct cs; [reflexivity|]. change (last (q :: n :: cs) p) with (last (n :: cs) p).
  clear. revert n; induction cs as [|x cs IH]; intros n; [reflexivity|]. cbn [last] in *. apply IH.
Qed.
Lemma last_cons {A} (l : list A) x d : last (x :: l) d = last l x.
Proof. revert x d; induction l as [|y l IH]; intros x d; [reflexivity|]. change (last (x :: y :: l) d) with (last (y :: l) d). rewrite !IH. reflexivity. Qed.
Lemma few_tolerable cs : forall p : nat, StronglySorted lt (p :: cs) -> (last cs p - p - length cs <= 7)%nat ->
  tolerable_from (Z.of_nat p) (map Z.of_nat cs).
Proof.
  induction cs as [|q cs IH]; intros p S H; [constructor|]. inversion S as [|? ? S' F]; subst. inversion F as [|? ? Hpq _]; subst.
  rewrite last_cons in H. pose proof (last_ge cs q S') as G. cbn [length] in H. cbn [map]. constructor.
  - unfold follows. lia.
  - apply IH; [exact S'|lia].
Qed.
Lemma sorted_zero order : StronglySorted lt order -> In 0%nat order -> exists cs, order = 0%nat :: cs /\ Forall (fun i => (0 < i)%nat) cs.
Proof.
  intros S H. destruct S as [|x l S F]; [destruct H|]. destruct H as [->|H]; [exists l; auto|].
  rewrite Forall_forall in F. specialize (F _ H). lia.
Qed.
Lemma few_lost p h payload frames order lines :
  pc_family (p_class p) = FCan (id_width h) -> id_ok h ->
  segmented payload frames -> announced payload <= 4095 -> Forall (Forall is_byte) frames -> printed h frames order lines ->
  StronglySorted lt order -> (1 <= S (last order 0%nat) - length order <= 7)%nat -> call p lines = Ok [].
Proof.
  intros Ec Hh Hs Hl Fb Hp S H.
  destruct (in_dec Nat.eq_dec 0%nat order) as [H0|H0]; [|eapply first_frame_lost; eauto].
  destruct (sorted_zero order S H0) as (cs & -> & F). rewrite last_cons in H. cbn [length] in H.
  assert (Ei : consecutive_indices (0%nat :: cs) = map Z.of_nat cs).
  { unfold consecutive_indices. cbn [filter Nat.eqb negb]. rewrite forallb_filter_all; [reflexivity|].
    intros x Hx. rewrite Forall_forall in F. specialize (F x Hx). destruct (Nat.eqb_spec x 0); [lia|reflexivity]. }
  destruct cs as [|c cs]; [cbn in H; lia|]. rewrite last_cons in H. cbn [length] in H.
  inversion S as [|? ? S' _]; subst. pose proof (last_ge cs c S') as G.
  eapply dropped; eauto. right; left. rewrite Ei. split.
  - cbn [map tolerable]. inversion F; subst. split; [lia|]. apply few_tolerable; [exact S'|lia].
  - intros (n & P).
    assert (Ln : n = Datatypes.S (length cs)).
    { apply Permutation_length in P. rewrite map_length, zseq_length in P. cbn in P; lia. }
    assert (Hin : In (Z.of_nat (last cs c)) (zseq 1 n)).
    { eapply Permutation_in; [exact P|]. apply in_map. rewrite <- (last_cons cs c 0%nat).
      rewrite (app_removelast_last 0%nat (l := c :: cs)) at 2 by congruence. apply in_or_app; right; left; reflexivity. }
    apply zseq_In in Hin. lia.
Qed.

Lemma seq_shift_by b : forall m, map (fun i => (b + i)%nat) (seq 0 m) = seq b m.
Proof.
  intros m. revert b; induction m as [|m IH]; intros b; [reflexivity|]. cbn [seq map]. f_equal; [lia|].
  rewrite <- (IH (S b)), <- seq_shift, map_map. apply map_ext; intros; lia.
Qed.
(* in order of arrival, one burst of frames missing *)
Lemma seqs_from_app ds1 : forall p ds2, seqs_from p (ds1 ++ ds2) = seqs_from p ds1 ++ seqs_from (last (seqs_from p ds1) p) ds2.
Proof.
  induction ds1 as [|d ds1 IH]; intros p ds2; [reflexivity|]. cbn [seqs_from app]. rewrite last_cons, IH. reflexivity.
Qed.
Lemma seqs_run m : forall p q, (p + 1) mod 16 = q mod 16 -> seqs_from p (map (fun c => c mod 16) (zseq q m)) = zseq (p + 1) m.
Proof.
  induction m as [|m IH]; intros p q H; [reflexivity|]. rewrite !zseq_S. cbn [map seqs_from].
  assert (E : next_seq p (q mod 16) = p + 1) by (unfold next_seq; destruct (Z.ltb_spec (p - p mod 16 + q mod 16) (p - 7)); lia).
  rewrite E. f_equal. apply IH. lia.
Qed.
Lemma burst_lost p h payload frames lines a b m :
  pc_family (p_class p) = FCan (id_width h) -> id_ok h ->
  segmented payload frames -> announced payload <= 4095 -> Forall (Forall is_byte) frames ->
  printed h frames (seq 0 (S a) ++ seq b m) lines ->
  (a + 1 < b)%nat -> (1 <= m)%nat -> Z.of_nat (b - a - 1) mod 16 <> 0 -> call p lines = Ok [].
Proof.
  intros Ec Hh Hs Hl Fb Hp Hab Hm Hmod. eapply dropped; eauto. right; right.
  assert (Ei : consecutive_indices (seq 0 (S a) ++ seq b m) = zseq 1 a ++ zseq (Z.of_nat b) m).
  { unfold consecutive_indices. rewrite filter_app, map_app. f_equal; [apply consecutive_indices_seq|].
    rewrite forallb_filter_all.
    - unfold zseq. rewrite <- (seq_shift_by b). rewrite map_map. apply map_ext. intros; lia.
    - intros x Hx. apply in_seq in Hx. destruct (Nat.eqb_spec x 0); [lia|reflexivity]. }
  rewrite Ei, map_app. destruct m as [|m]; [lia|]. intros (n & P).
  assert (Ln : n = (a + S m)%nat).
  { apply Permutation_length in P. rewrite seqs_length, app_length, !map_length, !zseq_length in P. lia. }
  destruct a as [|a].
  - rewrite zseq_S in P. change (zseq 1 0) with (@nil Z) in P. cbn [map app seqs] in P.
    rewrite (seqs_run m (Z.of_nat b mod 16) (Z.of_nat b + 1)) in P by lia.
    assert (H1 : In 1 (zseq 1 n)) by (apply zseq_In; lia).
    apply (Permutation_in (l' := Z.of_nat b mod 16 :: zseq (Z.of_nat b mod 16 + 1) m)) in H1; [|symmetry; exact P].
    assert (H2 : In (Z.of_nat b mod 16) (zseq 1 n)) by (eapply Permutation_in; [exact P|left; reflexivity]).
    apply zseq_In in H2. destruct H1 as [H1|H1]; [|apply zseq_In in H1]; lia.
  - rewrite zseq_S in P. cbn [map app seqs] in P. rewrite seqs_from_app in P.
    change (1 mod 16) with 1 in P. rewrite (seqs_run a 1 (1 + 1)) in P by lia.
    set (q := last (zseq (1 + 1) a) 1) in P.
    assert (Eq : q = 1 + Z.of_nat a).
    { unfold q. destruct a as [|a]; [cbn; lia|]. rewrite zseq_last by lia. lia. }
    rewrite (zseq_S (Z.of_nat b)) in P. cbn [map seqs_from] in P.
    set (s0 := next_seq q (Z.of_nat b mod 16)) in P.
    assert (Hs0 : s0 mod 16 = Z.of_nat b mod 16) by (unfold s0; rewrite next_seq_mod; lia).
    rewrite (seqs_run m s0 (Z.of_nat b + 1)) in P by lia.
    assert (Hn0 : s0 <> q + 1) by lia.
    set (L := 1 :: zseq (1 + 1) a ++ s0 :: zseq (s0 + 1) m) in P.
    assert (N : NoDup L) by (eapply Permutation_NoDup; [symmetry; exact P|apply zseq_NoDup]).
    assert (H2 : In s0 (zseq 1 n)) by (eapply Permutation_in; [exact P|]; unfold L; right; apply in_or_app; right; left; reflexivity).
    apply zseq_In in H2.
    assert (E1 : L = zseq 1 (S a) ++ zseq s0 (S m)) by (unfold L; rewrite !zseq_S; reflexivity).
    assert (H3 : ~ In s0 (zseq 1 (S a))).
    { intros X. rewrite E1 in N. rewrite (zseq_S s0) in N. apply NoDup_remove_2 in N. apply N. apply in_or_app; auto. }
    rewrite zseq_In in H3.
    assert (H4 : In (q + 1) (zseq 1 n)) by (apply zseq_In; lia).
    apply (Permutation_in (l' := L)) in H4; [|symmetry; exact P]. rewrite E1 in H4. apply in_app_or in H4.
    destruct H4 as [H4|H4]; apply zseq_In in H4; lia.
Qed.
