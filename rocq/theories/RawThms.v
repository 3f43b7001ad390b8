(* Provenance of the lines of a message. *)
From Coq Require Import ZArith List Bool Lia Sorted.
From Verif Require Import Py Utils Protocol Decoders Command SpecWire SpecProto PyFacts WireFacts ProtocolFacts CanFacts ProtocolThms SpecRaw.
Import ListNotations.
Open Scope Z_scope.

Fixpoint enum {A} (k : nat) (l : list A) : list (nat * A) := match l with [] => [] | x :: l => (k, x) :: enum (S k) l end.
Lemma enum_nth {A} (l : list A) k i x : In (i, x) (enum k l) -> (k <= i)%nat /\ nth_error l (i - k) = Some x.
Proof.
  revert k. induction l as [|y l IH]; intros k H; [destruct H|]. destruct H as [H|H].
  - injection H as <- <-. split; [lia|]. rewrite Nat.sub_diag. reflexivity.
  - apply IH in H as [L H]. split; [lia|]. replace (i - k)%nat with (S (i - S k)) by lia. exact H.
Qed.
Definition ef (c : pclass) (k : nat) (lines : list text) : list (nat * frame) :=
  flat_map (fun il => map (pair (fst il)) (line_frames c (snd il))) (enum k lines).
Lemma ef_frames c k lines : map snd (ef c k lines) = frames_of c lines.
Proof.
  revert k. induction lines as [|l lines IH]; intros k; [reflexivity|]. unfold ef. cbn [enum flat_map fst snd]. rewrite map_app. fold (ef c (S k) lines).
  rewrite IH. change (frames_of c (l :: lines)) with (line_frames c l ++ frames_of c lines). f_equal. rewrite map_map. cbn [snd]. apply map_id.
Qed.
Lemma line_frames_raw c l f : class_ok c -> In f (line_frames c l) -> hex_line l /\ f_raw f = no_spaces l.
Proof.
  intros Hc H. assert (Hx : hex_line l).
  { apply hex_line_isHex. unfold line_frames, line_isHex in H. destruct (isHex (no_spaces l)); [reflexivity|destruct H]. }
  split; [exact Hx|]. destruct (line_frames_one c l) as [E|[g E]]; rewrite E in H; [destruct H|]. destruct H as [->|[]].
  destruct (pc_family c) as [| |w] eqn:Ec.
  - unfold line_frames in E. destruct (line_isHex l); [|discriminate]. unfold pf, parse_frame in E. rewrite Ec in E. cbn in E. injection E as <-. reflexivity.
  - assert (Hf : In f (frames_of c [l])) by (rewrite frames_of_flat; cbn; rewrite E; left; reflexivity).
    pose proof (frames_of_ints c [l] Hc ltac:(congruence)) as I. unfold ints in I. rewrite Forall_forall in I. destruct (I _ Hf) as [t Ht].
    apply (line_frames_sent c t l f Hc); [congruence|exact E|exact Ht].
  - assert (Hf : In f (frames_of c [l])) by (rewrite frames_of_flat; cbn; rewrite E; left; reflexivity).
    pose proof (frames_of_ints c [l] Hc ltac:(congruence)) as I. unfold ints in I. rewrite Forall_forall in I. destruct (I _ Hf) as [t Ht].
    apply (line_frames_sent c t l f Hc); [congruence|exact E|exact Ht].
Qed.
Lemma ef_In c k lines i f : class_ok c -> In (i, f) (ef c k lines) ->
  exists l, In (i, l) (enum k lines) /\ hex_line l /\ f_raw f = no_spaces l.
Proof.
  intros Hc H. unfold ef in H. apply in_flat_map in H as ([j l] & Hj & H). apply in_map_iff in H as (g & E & H). injection E as <- <-.
  exists l. split; [exact Hj|]. apply (line_frames_raw c); assumption.
Qed.
Lemma enum_ge {A} (l : list A) k : Forall (fun x => (k <= fst x)%nat) (enum k l).
Proof. apply Forall_forall. intros [i x] H. apply enum_nth in H. cbn. lia. Qed.
(* indices go up *)
Lemma enum_sorted {A} (l : list A) k : StronglySorted lt (map fst (enum k l)).
Proof.
  revert k. induction l as [|x l IH]; intros k; [constructor|]. cbn [enum map fst]. constructor; [apply IH|].
  apply Forall_forall. intros i H. apply in_map_iff in H as ([j y] & <- & H). apply enum_nth in H. cbn. lia.
Qed.
Lemma ef_sorted c k lines : StronglySorted lt (map fst (ef c k lines)).
Proof.
  revert k. induction lines as [|l lines IH]; intros k; [constructor|]. unfold ef. cbn [enum flat_map fst snd]. rewrite map_app. fold (ef c (S k) lines).
  assert (G : Forall (lt k) (map fst (ef c (S k) lines))).
  { apply Forall_forall. intros i H. apply in_map_iff in H as ([j f] & <- & H). unfold ef in H. apply in_flat_map in H as ([j' l'] & Hj & H).
    apply in_map_iff in H as (g & E & _). injection E as <- _. apply enum_nth in Hj. cbn. lia. }
  destruct (line_frames_one c l) as [E|[f E]]; rewrite E; cbn [map app fst]; [apply IH|]. constructor; [apply IH|exact G].
Qed.
Lemma sorted_filter {B} (p : nat * B -> bool) l : StronglySorted lt (map fst l) -> StronglySorted lt (map fst (filter p l)).
Proof.
  induction l as [|x l IH]; intros H; [constructor|]. cbn [map] in H. apply StronglySorted_inv in H as [H1 H2]. cbn [filter]. destruct (p x); [|apply IH; exact H1].
  cbn [map]. constructor; [apply IH; exact H1|]. rewrite Forall_forall in *. intros i Hi. apply H2. apply in_map_iff in Hi as (y & <- & Hy).
  apply filter_In in Hy as [Hy _]. apply in_map. exact Hy.
Qed.
Lemma sorted_NoDup l : StronglySorted lt l -> NoDup l.
Proof.
  induction 1 as [|x l H IH F]; constructor; [|exact IH]. intros I. rewrite Forall_forall in F. apply F in I. lia.
Qed.
Lemma NoDup_fst_inj {B} (l : list (nat * B)) i x y : NoDup (map fst l) -> In (i, x) l -> In (i, y) l -> x = y.
Proof.
  induction l as [|[j z] l IH]; intros N H1 H2; [destruct H1|]. cbn [map fst] in N. apply NoDup_cons_iff in N as [N1 N2].
  destruct H1 as [H1|H1], H2 as [H2|H2].
  - congruence.
  - injection H1 as -> ->. exfalso. apply N1. apply (in_map fst _ (i, y)). exact H2.
  - injection H2 as -> ->. exfalso. apply N1. apply (in_map fst _ (i, x)). exact H1.
  - apply IH; assumption.
Qed.
Lemma NoDup_app_i {A} (a b : list A) : NoDup a -> NoDup b -> (forall x, In x a -> In x b -> False) -> NoDup (a ++ b).
Proof.
  induction a as [|x a IH]; intros Na Nb D; [exact Nb|]. apply NoDup_cons_iff in Na as [N1 N2]. cbn [app]. constructor.
  - rewrite in_app_iff. intros [H|H]; [exact (N1 H)|apply (D x); [left; reflexivity|exact H]].
  - apply IH; [exact N2|exact Nb|]. intros y H1 H2. apply (D y); [right; exact H1|exact H2].
Qed.

Definition places_of (c : pclass) (lines : list text) (k : option Z) : list nat :=
  map fst (filter (fun e => oz_eqb (f_tx_id (snd e)) k) (ef c 0 lines)).
Lemma from_id_ef c lines k : from_id k (frames_of c lines) = map snd (filter (fun e => oz_eqb (f_tx_id (snd e)) k) (ef c 0 lines)).
Proof.
  rewrite <- (ef_frames c 0). unfold from_id. induction (ef c 0 lines) as [|[i f] l IH]; [reflexivity|]. cbn [map filter snd].
  destruct (oz_eqb (f_tx_id f) k); cbn [map snd]; [f_equal|]; exact IH.
Qed.
Lemma ecu_shows c lines k e d : class_ok c -> In k (ids (frames_of c lines)) -> shows_lines lines (mkMessage (from_id k (frames_of c lines)) e d) (places_of c lines k).
Proof.
  intros Hc Hk. split; [|split].
  - destruct (from_id_head _ _ Hk) as (f & t & E & _). rewrite from_id_ef in E. unfold places_of. destruct (filter _ _); discriminate.
  - apply sorted_filter, ef_sorted.
  - exists (map f_raw (from_id k (frames_of c lines))). split; [|reflexivity]. rewrite from_id_ef. unfold places_of. rewrite map_map.
    assert (G : forall l, incl l (ef c 0 lines) -> Forall2 (fun i s => exists l, nth_error lines i = Some l /\ appears l s) (map fst l) (map (fun x => f_raw (snd x)) l)).
    { induction l as [|[i f] l IH]; intros I; [constructor|]. cbn [map fst snd]. constructor; [|apply IH; intros x H; apply I; right; exact H].
      destruct (ef_In c 0 lines i f Hc (I _ (or_introl eq_refl))) as (ln & H1 & H2 & H3). exists ln. apply enum_nth in H1 as [_ H1]. rewrite Nat.sub_0_r in H1.
      split; [exact H1|]. left. split; [exact H2|exact H3]. }
    apply G. intros x H. apply filter_In in H. tauto.
Qed.
Lemma ecu_messages_show c m lines : class_ok c -> forall ks r, incl ks (ids (frames_of c lines)) -> NoDup ks -> rmap (ecu_message c m (frames_of c lines)) ks = Ok r ->
  exists used, incl used ks /\ NoDup used /\ Forall2 (shows_lines lines) (List.concat r) (map (places_of c lines) used).
Proof.
  intros Hc. induction ks as [|k ks IH]; intros r I N H.
  - cbn in H. injection H as <-. exists []. split; [intros x []|]. split; constructor.
  - cbn [rmap] in H. unfold ecu_message at 1 in H. apply NoDup_cons_iff in N as [N1 N2].
    destruct (parse_message c (from_id k (frames_of c lines))) as [[d|]|] eqn:E; cbn [rbind] in H; try discriminate H;
      destruct (rmap (ecu_message c m (frames_of c lines)) ks) as [r'|] eqn:E2; cbn [rbind] in H; try discriminate H; injection H as <-;
      destruct (IH r' (fun x Hx => I x (or_intror Hx)) N2 eq_refl) as (used & U1 & U2 & U3).
    + exists (k :: used). split; [intros x [<-|Hx]; [left; reflexivity|right; apply U1; exact Hx]|]. split; [constructor; [intros Hx; apply N1; apply U1; exact Hx|exact U2]|].
      cbn [List.concat app map]. constructor; [|exact U3]. apply ecu_shows; [exact Hc|]. apply I. left. reflexivity.
    + exists used. split; [intros x Hx; right; apply U1; exact Hx|]. split; [exact U2|exact U3].
Qed.
Lemma places_disjoint c lines ks : NoDup ks -> NoDup (List.concat (map (places_of c lines) ks)).
Proof.
  pose proof (sorted_NoDup _ (ef_sorted c 0 lines)) as S. induction ks as [|k ks IH]; intros N; [constructor|]. apply NoDup_cons_iff in N as [N1 N2].
  cbn [map List.concat]. apply NoDup_app_i; [apply sorted_NoDup, sorted_filter, ef_sorted|apply IH; exact N2|].
  intros i H1 H2. apply in_map_iff in H1 as ([j f] & <- & H1). apply filter_In in H1 as [H1 K1]. apply oz_eqb_eq in K1. cbn [fst snd] in *.
  apply in_concat in H2 as (x & Hx & H2). apply in_map_iff in Hx as (k' & <- & Hk). apply in_map_iff in H2 as ([j' g] & E & H2). cbn [fst] in E. subst j'.
  apply filter_In in H2 as [H2 K2]. apply oz_eqb_eq in K2. cbn [snd] in K2. pose proof (NoDup_fst_inj _ _ _ _ S H1 H2) as ->. apply N1. rewrite <- K1, K2. exact Hk.
Qed.
(* the text messages *)
Definition text_places (lines : list text) : list nat := map fst (filter (fun il => negb (line_isHex (snd il))) (enum 0 lines)).
Lemma enum_snd {A} (l : list A) k : map snd (enum k l) = l.
Proof. revert k. induction l as [|x l IH]; intros k; [reflexivity|]. cbn. f_equal. apply IH. Qed.
Lemma text_shows lines : Forall2 (shows_lines lines) (text_messages lines) (map (fun i => [i]) (text_places lines)).
Proof.
  unfold text_messages, text_places.
  assert (E : filter (fun l => negb (line_isHex l)) lines = map snd (filter (fun il => negb (line_isHex (snd il))) (enum 0 lines))).
  { rewrite <- (enum_snd lines 0) at 1. induction (enum 0 lines) as [|[i l] x IH]; [reflexivity|]. cbn [map filter snd]. destruct (negb _); cbn [map snd]; [f_equal|]; exact IH. }
  rewrite E. assert (G : forall x, incl x (filter (fun il => negb (line_isHex (snd il))) (enum 0 lines)) ->
    Forall2 (shows_lines lines) (map text_message (map snd x)) (map (fun i => [i]) (map fst x))).
  { induction x as [|[i l] x IH]; intros I; [constructor|]. cbn [map fst snd]. constructor; [|apply IH; intros y H; apply I; right; exact H].
    pose proof (I _ (or_introl eq_refl)) as H. apply filter_In in H as [H1 H2]. apply enum_nth in H1 as [_ H1]. rewrite Nat.sub_0_r in H1. cbn [snd] in H2.
    split; [discriminate|]. split; [repeat constructor|]. exists [l]. split; [|reflexivity]. constructor; [|constructor]. exists l. split; [exact H1|]. right. split; [|reflexivity].
    rewrite hex_line_isHex. unfold line_isHex in H2. destruct (isHex _); [discriminate|discriminate]. }
  apply G. intros x H. exact H.
Qed.
Lemma text_places_In lines i : In i (text_places lines) <-> exists l, nth_error lines i = Some l /\ ~ hex_line l.
Proof.
  unfold text_places. split.
  - intros H. apply in_map_iff in H as ([j l] & <- & H). apply filter_In in H as [H1 H2]. apply enum_nth in H1 as [_ H1]. rewrite Nat.sub_0_r in H1. exists l. split; [exact H1|].
    cbn [snd] in H2. rewrite hex_line_isHex. unfold line_isHex in H2. destruct (isHex _); [discriminate H2|discriminate].
  - intros (l & H1 & H2). apply in_map_iff. exists (i, l). split; [reflexivity|]. apply filter_In. split.
    + assert (G : forall k (x : list text) i, nth_error x i = Some l -> In ((k + i)%nat, l) (enum k x)).
      { intros k x. revert k. induction x as [|y x IH]; intros k [|j] Hn; try discriminate Hn; cbn in *; [left; f_equal; [lia|congruence]|].
        right. specialize (IH (S k) j Hn). replace (k + S j)%nat with (S k + j)%nat by lia. exact IH. }
      apply (G 0%nat). exact H1.
    + cbn [snd]. unfold line_isHex. rewrite hex_line_isHex in H2. destruct (isHex _); [exfalso; apply H2; reflexivity|reflexivity].
Qed.
Lemma concat_single {A} (l : list A) : List.concat (map (fun x => [x]) l) = l.
Proof. induction l as [|x l IH]; [reflexivity|]. cbn. f_equal. exact IH. Qed.

Theorem call_made_of p lines ms : class_ok (p_class p) -> call p lines = Ok ms ->
  exists places, made_of lines ms places /\ (forall i l, nth_error lines i = Some l -> ~ hex_line l -> In [i] places).
Proof.
  intros Hc H. unfold call in H. rewrite call_eq in H by exact Hc.
  destruct (rmap _ _) as [r|] eqn:E; cbn [rbind] in H; [|discriminate]. injection H as <-.
  destruct (ecu_messages_show (p_class p) (p_map p) lines Hc _ _ (fun x Hx => Hx) (ids_NoDup _) E) as (used & U1 & U2 & U3).
  exists (map (places_of (p_class p) lines) used ++ map (fun i => [i]) (text_places lines)). split; [split|].
  - apply Forall2_app; [exact U3|apply text_shows].
  - rewrite concat_app, concat_single. apply NoDup_app_i.
    + apply places_disjoint. exact U2.
    + apply sorted_NoDup, sorted_filter, enum_sorted.
    + intros i H1 H2. apply text_places_In in H2 as (l & L1 & L2). apply in_concat in H1 as (x & Hx & H1). apply in_map_iff in Hx as (k & <- & _).
      apply in_map_iff in H1 as ([j f] & <- & H1). apply filter_In in H1 as [H1 _]. destruct (ef_In _ _ _ _ _ Hc H1) as (l' & X1 & X2 & _).
      apply enum_nth in X1 as [_ X1]. rewrite Nat.sub_0_r in X1. cbn [fst] in L1. apply L2. congruence.
  - intros i l H1 H2. apply in_or_app. right. apply in_map_iff. exists i. split; [reflexivity|]. apply text_places_In. exists l. auto.
Qed.

(* a command keeps some of the messages and does not touch their lines *)
Lemma Forall2_filter {A B} (P : A -> B -> Prop) (f : A -> bool) l m : Forall2 P l m -> exists m', Forall2 P (filter f l) m' /\ (forall x, In x m' -> In x m) /\ (forall g : B -> list nat, NoDup (List.concat (map g m)) -> NoDup (List.concat (map g m'))).
Proof.
  induction 1 as [|a b l m H F (m' & H1 & H2 & H3)].
  - exists []. split; [constructor|]. split; [intros x []|]. intros g N. exact N.
  - cbn [filter]. assert (T : forall g : B -> list nat, NoDup (g b ++ List.concat (map g m)) -> NoDup (List.concat (map g m'))).
    { intros g N. apply H3. induction (g b) as [|x r IH]; [exact N|]. cbn in N. apply NoDup_cons_iff in N. apply IH. tauto. }
    destruct (f a).
    + exists (b :: m'). split; [constructor; assumption|]. split; [intros x [<-|Hx]; [left; reflexivity|right; apply H2; exact Hx]|].
      intros g N. cbn [map List.concat] in *. apply NoDup_app_i; [|apply T; exact N|].
      * clear -N. induction (g b) as [|x r IH]; [constructor|]. cbn in N. apply NoDup_cons_iff in N as [N1 N2]. constructor; [|apply IH; exact N2]. intros H. apply N1. apply in_or_app. left. exact H.
      * intros x X1 X2. assert (X3 : In x (List.concat (map g m))). { apply in_concat in X2 as (y & Y1 & Y2). apply in_map_iff in Y1 as (z & <- & Y1). apply in_concat. exists (g z). split; [apply in_map, H2, Y1|exact Y2]. }
        clear -N X1 X3. induction (g b) as [|y r IH]; [destruct X1|]. cbn in N. apply NoDup_cons_iff in N as [N1 N2]. destruct X1 as [->|X1]; [apply N1, in_or_app; right; exact X3|apply IH; assumption].
    + exists m'. split; [exact H1|]. split; [intros x Hx; right; apply H2; exact Hx|]. intros g N. apply T. exact N.
Qed.

Lemma cmd_call_messages c ms q : cmd_call c ms = Ok q -> r_messages q = map (constrain (c_bytes c)) (filter (fun m => 0 <? Z.land (c_ecu c) (m_ecu m)) ms).
Proof.
  unfold cmd_call. set (l := map _ _). destruct (nonempty l) eqn:E.
  - destruct (run_decoder _ l) as [v|]; cbn [rbind]; [|discriminate]. intros H. injection H as <-. reflexivity.
  - intros H. injection H as <-. cbn [r_messages]. destruct l; [reflexivity|discriminate E].
Qed.
Lemma constrain_raw n m : m_raw (constrain n m) = m_raw m.
Proof. unfold constrain. destruct (0 <? n); [|reflexivity]. destruct (n <? _); [reflexivity|]. destruct (_ <? n); reflexivity. Qed.
Lemma cmd_made_of lines c ms q places : cmd_call c ms = Ok q -> made_of lines ms places -> exists places', made_of lines (r_messages q) places' /\ incl places' places.
Proof.
  intros H [F N]. rewrite (cmd_call_messages _ _ _ H). destruct (Forall2_filter _ (fun m => 0 <? Z.land (c_ecu c) (m_ecu m)) _ _ F) as (pl & H1 & H2 & H3).
  exists pl. split; [|exact H2]. split.
  - clear -H1. induction H1 as [|m p l pl (X1 & X2 & ss & X3 & X4) F IH]; [constructor|]. cbn [map]. constructor; [|exact IH]. split; [exact X1|]. split; [exact X2|].
    exists ss. split; [exact X3|]. rewrite constrain_raw. exact X4.
  - specialize (H3 (fun x => x)). rewrite !map_id in H3. apply H3. exact N.
Qed.
