(* Exactly what the CAN parser makes of the frames of an ECU. *)
From Coq Require Import ZArith List Bool Lia Permutation Sorted.
From Coq Require Import ZifyBool ZifyNat.
From Verif Require Import Py Utils Protocol SpecWire SpecProto SpecCan PyFacts WireFacts ProtocolFacts CanFacts ProtocolThms CanThms.
Import ListNotations.
Open Scope Z_scope.
Ltac Zify.zify_post_hook ::= Z.div_mod_to_equations.
Arguments Z.div : simpl never.
Arguments Z.modulo : simpl never.
Arguments Z.mul : simpl never.
Arguments Z.add : simpl never.
Arguments Z.sub : simpl never.
Arguments Z.land : simpl never.

Lemma taken_after_eq p q : taken_after p q = next_seq p q.
Proof. unfold taken_after, next_seq. replace (16 * (p / 16)) with (p - p mod 16) by lia. reflexivity. Qed.
Lemma taken_from_eq p qs : taken_from p qs = seqs_from p qs.
Proof. revert p; induction qs as [|q qs IH]; intros p; cbn; [reflexivity|]. rewrite taken_after_eq, IH. reflexivity. Qed.
Lemma taken_eq qs : taken qs = seqs qs.
Proof. destruct qs as [|q qs]; cbn; [reflexivity|]. rewrite taken_from_eq. reflexivity. Qed.
Lemma one_to_eq n : one_to n = zseq 1 n.
Proof.
  unfold one_to. enough (H : forall s n, map Z.of_nat (seq s n) = zseq (Z.of_nat s) n) by exact (H 1%nat n).
  clear. intros s n. revert s; induction n as [|n IH]; intros s; [reflexivity|]. rewrite zseq_S. cbn [seq map]. f_equal. rewrite IH. f_equal. lia.
Qed.
Lemma combine_map_r {A B C} (g : B -> C) (a : list A) (b : list B) : combine a (map g b) = map (fun x => (fst x, g (snd x))) (combine a b).
Proof. revert b; induction a as [|x a IH]; intros [|y b]; cbn; try reflexivity. f_equal. apply IH. Qed.

(* sorting by the numbers taken *)
Lemma sort_combine_zseq {A} (ord : list A) n : length ord = n -> sort_by fst (combine (zseq 1 n) ord) = combine (zseq 1 n) ord.
Proof.
  intros L. apply sort_by_id. assert (G : forall s n (ord : list A), length ord = n -> StronglySorted (fun a b => fst a <= fst b) (combine (zseq s n) ord)).
  { clear. intros s n. revert s; induction n as [|n IH]; intros s ord L; [cbn; constructor|]. rewrite zseq_S. destruct ord as [|x ord]; [discriminate|]. cbn in L. injection L as L.
    cbn [combine]. constructor; [apply IH, L|]. apply Forall_forall. intros [c y] H. cbn. apply in_combine_l in H. apply zseq_In in H. lia. }
  apply G, L.
Qed.
Lemma arranged {A} (cs : list Z) (xs : list A) : length cs = length xs -> xs <> [] ->
  (contiguous (map fst (sort_by fst (combine cs xs))) 1 (zlen xs) = true <-> exists ord, length ord = length xs /\ Permutation (combine cs xs) (combine (zseq 1 (length ord)) ord))
  /\ forall ord, length ord = length xs -> Permutation (combine cs xs) (combine (zseq 1 (length ord)) ord) -> map snd (sort_by fst (combine cs xs)) = ord.
Proof.
  intros L Ne.
  assert (U : forall ord : list A, length ord = length xs -> Permutation (combine cs xs) (combine (zseq 1 (length ord)) ord) -> sort_by fst (combine cs xs) = combine (zseq 1 (length ord)) ord).
  { intros ord Lo P. rewrite <- (sort_combine_zseq ord (length ord) eq_refl). apply sort_by_unique; [exact P|].
    eapply Permutation_NoDup; [symmetry; apply Permutation_map, P|]. rewrite map_fst_combine by (rewrite zseq_length; reflexivity). apply zseq_NoDup. }
  assert (Ls : length (sort_by fst (combine cs xs)) = length xs) by (rewrite (Permutation_length (sort_by_perm fst _)), combine_length, L; apply Nat.min_id).
  split; [split|].
  - intros C. apply contiguous_spec in C. destruct C as (_ & E & _). exists (map snd (sort_by fst (combine cs xs))). rewrite map_length. split; [exact Ls|].
    rewrite map_length in E. rewrite <- E. rewrite <- (sort_by_perm fst (combine cs xs)) at 1.
    generalize (sort_by fst (combine cs xs)). clear. induction l as [|[a b] l IH]; cbn; [constructor|]. constructor. exact IH.
  - intros (ord & Lo & P). rewrite (U ord Lo P), map_fst_combine by (rewrite zseq_length; reflexivity). apply contiguous_spec. unfold zlen. rewrite zseq_length, Lo.
    repeat split; [|lia]. destruct xs as [|x xs]; [congruence|]. cbn [length]. rewrite zseq_S. discriminate.
  - intros ord Lo P. rewrite (U ord Lo P), map_snd_combine by (rewrite zseq_length; reflexivity). reflexivity.
Qed.

(* the message made of the frames of one ECU *)
Definition outcome_of (datas : list bytes) (r : res (option bytes)) : Prop :=
  (exists payload, understood datas payload /\ payload <> [] /\ payload <> [67] /\ r = Ok (Some (dtc_cut payload)))
  \/ (understood datas [67] /\ r = Raise IndexError)
  \/ ((forall payload, ~ understood datas payload) /\ r = Ok None).

Lemma understood_fun datas a b : understood datas a -> understood datas b -> a = b.
Proof.
  intros A B. destruct A as [n d H|frames pci lo d ord L F Nc Lo P].
  - remember [n :: d] as X. destruct B as [n' d' H'|frames pci lo d0 ord L F Nc Lo P]; [congruence|]. subst. cbn in L. lia.
  - destruct B as [n' d' H'|frames pci' lo' d' ord' L' F' Nc' Lo' P']; [cbn in L; lia|]. rewrite F in F'. injection F' as <- <- <-. f_equal. f_equal. f_equal. f_equal.
    rewrite one_to_eq in P, P'. set (cs := taken (map number (consecutives frames))) in *.
    assert (Lc : length cs = length (consecutives frames)) by (unfold cs; rewrite taken_eq, seqs_length, map_length; reflexivity).
    destruct (arranged cs (consecutives frames) Lc Nc) as [_ U]. rewrite <- (U ord Lo P). apply U; assumption.
Qed.

Lemma trim_outcome datas payload : understood datas payload -> Forall is_byte payload -> payload <> [] -> outcome_of datas (let! d := trim_dtc payload in Ok (Some d)).
Proof.
  intros U F N. destruct (list_eq_dec Z.eq_dec payload [67]) as [->|N2]; [right; left; auto|]. left. exists payload. rewrite (trim_dtc_ok payload N N2 F). auto.
Qed.
Lemma can_message_exact frames : Forall wf frames -> frames <> [] -> outcome_of (map f_data frames) (can_parse_message frames).
Proof.
  intros W Hne.
  assert (Wb : Forall (fun f => Forall is_byte (f_data f)) frames)
    by (eapply Forall_impl; [|exact W]; intros f (h & s & Fb & _); exact Fb).
  assert (Wf : Forall (fun f => _) frames) by (eapply Forall_impl; [|exact W]; exact wf_facts). cbv beta in Wf.
  pose proof (can_message_inv frames W Hne) as Inv.
  destruct (Nat.eq_dec (length frames) 1) as [L|L].
  - destruct frames as [|f [|]]; cbn in L; try congruence. inversion Wf as [|? ? (Acc & ES & _ & _ & _ & EL & _) _]; subst.
    inversion Wb as [|? ? Fb _]; subst.
    unfold can_parse_message. fold isSF. change (is_type FRAME_TYPE_SF f) with (isSF f).
    destruct (isSF f) eqn:Sf; cbn [negb].
    + symmetry in ES. apply Z.eqb_eq in ES. specialize (EL eq_refl).
      unfold len_of. rewrite EL. cbn [rbind map]. unfold acceptable, number, frame_type in *.
      destruct (f_data f) as [|pci [|lo d]] eqn:Ed; [cbn in Acc; tauto..|].
      destruct Acc as [_ Acc]. assert (Hp : pci mod 16 <> 0) by lia. assert (Hq : pci mod 16 = pci) by lia.
      inversion Fb as [|? ? Hpci Fb']; subst. unfold is_byte in Hpci. rewrite Hq.
      replace (slice 1 (1 + Z.to_nat pci) (pci :: lo :: d)) with (firstn (Z.to_nat pci) (lo :: d)) by (unfold slice; cbn [skipn]; f_equal; lia).
      apply trim_outcome; [apply understood_single; lia|apply Forall_firstn; exact Fb'|]. destruct (Z.to_nat pci) eqn:En; [lia|]. cbn; congruence.
    + right; right. split; [|reflexivity]. intros payload U. cbn [map] in U. remember [f_data f] as X eqn:EX. destruct U as [n d H|frames pci lo d ord L2 _ _ _ _].
      * injection EX as EX. rewrite <- EX in ES. unfold frame_type in ES. symmetry in ES. apply Z.eqb_neq in ES. lia.
      * subst. cbn in L2. lia.
  - assert (Ff : firsts (map f_data frames) = map f_data (filter isFF frames)).
    { unfold firsts. symmetry. apply (filter_data (fun x => frame_type x =? 1) isFF). eapply Forall_impl; [|exact Wf]. cbv beta. tauto. }
    assert (Fc : consecutives (map f_data frames) = map f_data (filter isCF frames)).
    { unfold consecutives. symmetry. apply (filter_data (fun x => frame_type x =? 2) isCF). eapply Forall_impl; [|exact Wf]. cbv beta. tauto. }
    assert (Fn : map number (consecutives (map f_data frames)) = map f_seq (filter isCF frames)).
    { rewrite Fc, map_map. apply map_ext_in. intros f Hf. apply filter_In in Hf as [Hf C]. rewrite Forall_forall in Wf. destruct (Wf f Hf) as (_ & _ & _ & _ & E & _). symmetry. apply E, C. }
    assert (N0 : forall A : Prop, ((forall pci lo d ord, firsts (map f_data frames) = [pci :: lo :: d] -> consecutives (map f_data frames) <> [] -> length ord = length (consecutives (map f_data frames)) ->
        Permutation (combine (taken (map number (consecutives (map f_data frames)))) (consecutives (map f_data frames))) (combine (one_to (length ord)) ord) -> False) -> forall payload, ~ understood (map f_data frames) payload)).
    { intros _ H payload U. remember (map f_data frames) as X eqn:EX. destruct U as [n d Hn|frames' pci lo d ord L2 F1 F2 F3 F4].
      - apply (f_equal (@length _)) in EX. rewrite map_length in EX. cbn in EX. congruence.
      - eapply H; eassumption. }
    rewrite can_parse_multi in * by exact L.
    destruct (filter isFF frames) as [|f0 [|]] eqn:Eff; [right; right; split; [apply (N0 True); rewrite Ff; discriminate|reflexivity]| |right; right; split; [apply (N0 True); rewrite Ff; discriminate|reflexivity]].
    cbv zeta in *. destruct (nonempty (filter isCF frames)) eqn:Ecf; cbn [negb] in *.
    2:{ right; right. split; [|reflexivity]. apply (N0 True). rewrite Fc. intros. destruct (filter isCF frames); [apply H0; reflexivity|discriminate Ecf]. }
    set (cf := filter isCF frames) in *.
    assert (Ncf : cf <> []) by (apply nonempty_true; exact Ecf).
    assert (Lc : length (seqs (map f_seq cf)) = length (map f_data cf)) by (rewrite seqs_length, !map_length; reflexivity).
    assert (Nd : map f_data cf <> []) by (destruct cf; [congruence|discriminate]).
    destruct (arranged (seqs (map f_seq cf)) (map f_data cf) Lc Nd) as [Co Ar].
    assert (Es : sort_by fst (combine (seqs (map f_seq cf)) (map f_data cf)) = map (fun x => (fst x, f_data (snd x))) (sort_by fst (combine (seqs (map f_seq cf)) cf))).
    { rewrite combine_map_r, sort_by_map. reflexivity. }
    assert (En : map fst (sort_by fst (combine (seqs (map f_seq cf)) (map f_data cf))) = numbers cf) by (rewrite Es, map_map; apply map_ext; reflexivity).
    assert (Eo : map snd (sort_by fst (combine (seqs (map f_seq cf)) (map f_data cf))) = map f_data (in_order cf)) by (rewrite Es; unfold in_order; rewrite !map_map; apply map_ext; reflexivity).
    rewrite En in Co. replace (zlen (map f_data cf)) with (zlen cf) in Co by (unfold zlen; rewrite map_length; reflexivity).
    destruct (contiguous (numbers cf) 1 (zlen cf)) eqn:Ec; cbn [negb] in *.
    + destruct (proj1 Co eq_refl) as (ord & Lo & P). specialize (Ar ord Lo P). rewrite Eo in Ar.
      assert (H0 : In f0 (filter isFF frames)) by (rewrite Eff; left; reflexivity).
      apply filter_In in H0. destruct H0 as [H0 Hff]. rewrite Forall_forall in Wf, Wb. pose proof (Wf f0 H0) as (Acc0 & _ & _ & _ & _ & _ & EL).
      destruct (EL Hff) as (pci & lo & d0 & Ed0 & Elen). unfold len_of in *. rewrite Elen in *. cbn [rbind] in *.
      assert (Em : upto (Z.to_nat (256 * (pci mod 16) + lo)) (multi_bytes f0 cf) = firstn (Z.to_nat (256 * (pci mod 16) + lo)) (d0 ++ List.concat (map (@tl Z) ord))).
      { unfold upto, multi_bytes. f_equal. rewrite Ed0. cbn [from skipn]. f_equal. f_equal. rewrite <- Ar, map_map. apply map_ext; intros; apply from_tl. }
      assert (Un : understood (map f_data frames) (firstn (Z.to_nat (256 * (pci mod 16) + lo)) (d0 ++ List.concat (map (@tl Z) ord)))).
      { apply understood_multi; rewrite ?Ff, ?Fc, ?map_length; cbn [map]; try rewrite Ed0; auto.
        - destruct frames as [|? [|]]; cbn in *; try congruence; lia.
        - rewrite map_length in Lo. exact Lo.
        - rewrite Fc in Fn. rewrite Fn, taken_eq, one_to_eq. exact P. }
      rewrite Em in *. destruct (trim_dtc (firstn (Z.to_nat (256 * (pci mod 16) + lo)) (d0 ++ List.concat (map (@tl Z) ord)))) as [d|e] eqn:T; cbn [rbind] in *.
      * assert (N67 : firstn (Z.to_nat (256 * (pci mod 16) + lo)) (d0 ++ List.concat (map (@tl Z) ord)) <> [67]) by (intros E; rewrite E in T; discriminate T).
        assert (N00 : firstn (Z.to_nat (256 * (pci mod 16) + lo)) (d0 ++ List.concat (map (@tl Z) ord)) <> []) by (intros E; rewrite E in T; discriminate T).
        left. eexists. split; [exact Un|]. split; [exact N00|]. split; [exact N67|]. rewrite (trim_dtc_ok _ N00 N67) in T; [congruence|].
        apply Forall_firstn, Forall_app. pose proof (Wb f0 H0) as Fb0. rewrite Ed0 in Fb0. split.
        -- inversion Fb0 as [|? ? _ F1]; subst. inversion F1; assumption.
        -- apply Forall_concat, Forall_forall. intros x Hx. apply in_map_iff in Hx. destruct Hx as (y & <- & Hy).
           apply Forall_tl. rewrite <- Ar in Hy. apply in_map_iff in Hy. destruct Hy as (f & <- & Hf). apply Wb.
           apply (Permutation_in _ (in_order_perm cf)) in Hf. unfold cf in Hf. apply filter_In in Hf. tauto.
      * destruct Inv as [-> R]. right; left. split; [|reflexivity]. apply trim_dtc_raise in T as [[E|E] _]; [|rewrite E in Un; exact Un].
        exfalso. unfold upto in E. assert (Hn : 256 * (pci mod 16) + lo > 0).
        { unfold acceptable in Acc0. rewrite Ed0 in Acc0. destruct Acc0 as [_ Acc0].
          pose proof (Wb f0 H0) as Fb0. rewrite Ed0 in Fb0. inversion Fb0 as [|? ? Hp F1]; subst. inversion F1 as [|? ? Hlo _]; subst.
          unfold is_byte in *. destruct (Wf f0 H0) as (_ & _ & E1 & _).
          rewrite Hff in E1. symmetry in E1. apply Z.eqb_eq in E1. unfold frame_type in E1. rewrite Ed0 in E1. lia. }
        destruct (Z.to_nat (256 * (pci mod 16) + lo)) eqn:En'; [lia|].
        assert (Ed : d0 ++ List.concat (map (@tl Z) ord) = []) by (destruct (d0 ++ List.concat (map (@tl Z) ord)); [reflexivity|discriminate E]).
        apply app_eq_nil in Ed as [_ Ed]. destruct ord as [|x ord]; [destruct cf; [congruence|discriminate Lo]|]. cbn in Ed. apply app_eq_nil in Ed as [Ed _].
        assert (Hx : In x (map f_data (in_order cf))) by (rewrite Ar; left; reflexivity). apply in_map_iff in Hx as (f & <- & Hf).
        apply (Permutation_in _ (in_order_perm cf)) in Hf. unfold cf in Hf. apply filter_In in Hf as [Hf _]. destruct (Wf f Hf) as ((La & _) & _). destruct (f_data f) as [|? [|]]; cbn in *; try lia; discriminate.
    + right; right. split; [|reflexivity]. apply (N0 True). intros pci lo d ord _ _ Lo P. rewrite Fn, Fc, taken_eq, one_to_eq in P. rewrite Fc in Lo.
      assert (X : false = true) by (apply Co; exists ord; auto). discriminate X.
Qed.

Lemma selected_frames p w t lines ls datas : (w = 11 \/ w = 29) -> pc_family (p_class p) = FCan w -> selects (is_from (FCan w) t) lines ls -> Forall2 (frame_from w t) ls datas ->
  map f_data (from_id (Some t) (frames_of (p_class p) lines)) = datas /\ Forall wf (from_id (Some t) (frames_of (p_class p) lines)).
Proof.
  intros Hw Ec S F. assert (Hc : class_ok (p_class p)) by (unfold class_ok; rewrite Ec; auto). assert (Hu : pc_family (p_class p) <> FUnknown) by congruence.
  split; [|apply from_id_Forall; eapply frames_wf; eassumption].
  rewrite (from_id_selects (p_class p) t lines ls Hc Hu) by (rewrite Ec; exact S). clear S. induction F as [|l d ls datas Hl F IH]; [reflexivity|]. cbn [flat_map].
  destruct (sent_line_frames (p_class p) t l d Hc) as (f & -> & _ & E & _); [rewrite Ec; exact Hl|]. cbn. rewrite E, IH. reflexivity.
Qed.

Lemma can_exact p w lines t ls datas ms : (w = 11 \/ w = 29) -> pc_family (p_class p) = FCan w ->
  selects (is_from (FCan w) t) lines ls -> Forall2 (frame_from w t) ls datas -> call p lines = Ok ms ->
  (forall payload, understood datas payload -> exists m, filter (fun m => oz_eqb (m_tx_id m) (Some t)) ms = [m] /\ map f_data (m_frames m) = datas /\ m_data m = dtc_cut payload)
  /\ ((forall payload, ~ understood datas payload) -> filter (fun m => oz_eqb (m_tx_id m) (Some t)) ms = []).
Proof.
  intros Hw Ec S F H. assert (Hc : class_ok (p_class p)) by (unfold class_ok; rewrite Ec; auto). assert (Hu : pc_family (p_class p) <> FUnknown) by congruence.
  destruct (selected_frames p w t lines ls datas Hw Ec S F) as [Ed W]. rewrite (ecu_messages p lines ms t Hc H).
  destruct (from_id (Some t) (frames_of (p_class p) lines)) as [|f fs] eqn:Ef.
  - cbn in Ed. subst datas. split; [|reflexivity]. intros payload U. exfalso. remember [] as X eqn:EX. destruct U; [discriminate|subst; cbn in *; lia].
  - pose proof (can_message_exact (f :: fs) W ltac:(discriminate)) as X. rewrite Ed in X. unfold ecu_message, parse_message. rewrite Ef, Ec.
    assert (Nr : forall e, can_parse_message (f :: fs) <> Raise e).
    { intros e E. unfold call in H. rewrite call_eq in H by exact Hc. destruct (rmap _ _) as [r|] eqn:R; [|discriminate H].
      assert (I0 : In (Some t) (ids (frames_of (p_class p) lines))).
      { apply ids_In. assert (Hf : In f (from_id (Some t) (frames_of (p_class p) lines))) by (rewrite Ef; left; reflexivity). apply filter_In in Hf as [Hf Ht]. exists f. split; [exact Hf|]. apply oz_eqb_eq, Ht. }
      clear H. revert r R I0. generalize (ids (frames_of (p_class p) lines)). induction l as [|k l IH]; intros r R [].
      - subst k. cbn in R. unfold ecu_message at 1 in R. unfold parse_message in R. rewrite Ef, Ec, E in R. discriminate R.
      - cbn in R. destruct (ecu_message _ _ _ k); [|discriminate R]. cbn in R. destruct (rmap _ l) as [r'|] eqn:R'; [|discriminate R]. apply (IH _ eq_refl H). }
    destruct X as [(payload & U & _ & _ & ->)|[(_ & E)|(N & ->)]]; cbn [rbind].
    + split; [|intros N; exfalso; apply (N payload U)]. intros payload' U'. rewrite (understood_fun _ _ _ U' U). eexists. split; [reflexivity|]. cbn [m_frames m_data]. auto.
    + exfalso. apply (Nr _ E).
    + split; [|reflexivity]. intros payload U. exfalso. apply (N payload U).
Qed.

Lemma can_raise_exact p w lines e : (w = 11 \/ w = 29) -> pc_family (p_class p) = FCan w ->
  call p lines = Raise e <-> e = IndexError /\ exists t ls datas, selects (is_from (FCan w) t) lines ls /\ Forall2 (frame_from w t) ls datas /\ understood datas [67].
Proof.
  intros Hw Ec. assert (Hc : class_ok (p_class p)) by (unfold class_ok; rewrite Ec; auto). assert (Hu : pc_family (p_class p) <> FUnknown) by congruence.
  split.
  - intros H. unfold call in H. rewrite call_eq in H by exact Hc.
    destruct (rmap _ _) as [r|e'] eqn:E; cbn in H; [discriminate|]. injection H as ->.
    apply rmap_Raise in E. destruct E as (l1 & k & l2 & El & Ek & _).
    assert (Hk : In k (ids (frames_of (p_class p) lines))) by (rewrite El; apply in_elt).
    destruct (ids_ints _ (frames_of_ints _ lines Hc Hu)) as (ts & Ets & _).
    pose proof Hk as Hk'. rewrite Ets in Hk'. apply in_map_iff in Hk'. destruct Hk' as (t & <- & Ht).
    destruct (from_id_head _ _ Hk) as (f & tl' & Ef & Hf).
    destruct (ecu_lines (p_class p) t lines Hc Hu) as (ls & Hs & F2). rewrite Ec in Hs, F2.
    unfold ecu_message, parse_message in Ek. rewrite Ec in Ek.
    pose proof (can_message_exact (from_id (Some t) (frames_of (p_class p) lines))) as X.
    destruct X as [(payload & _ & _ & _ & E)|[(U & E)|(_ & E)]].
    + apply from_id_Forall. eapply frames_wf; eassumption.
    + rewrite Ef; congruence.
    + rewrite E in Ek. discriminate Ek.
    + rewrite E in Ek. cbn in Ek. injection Ek as <-. split; [reflexivity|]. exists t, ls, (map f_data (from_id (Some t) (frames_of (p_class p) lines))). split; [exact Hs|]. split; [|exact U].
      clear -F2. induction F2 as [|a b l1 l2 [Hab _] F IH]; cbn; constructor; auto.
    + rewrite E in Ek. discriminate Ek.
  - intros (-> & t & ls & datas & S & F & U). destruct (call p lines) as [ms|e] eqn:C.
    + exfalso. destruct (selected_frames p w t lines ls datas Hw Ec S F) as [Ed W].
      destruct (can_exact p w lines t ls datas ms Hw Ec S F C) as [A _]. destruct (A _ U) as (m & E & _ & _). clear A.
      rewrite (ecu_messages p lines ms t Hc C) in E. destruct (from_id (Some t) (frames_of (p_class p) lines)) as [|f fs] eqn:Ef; [discriminate E|].
      unfold ecu_message, parse_message in E. rewrite Ef, Ec in E.
      destruct (can_message_exact (f :: fs) W ltac:(discriminate)) as [(payload & U' & _ & N & X)|[(_ & X)|(N & X)]]; try rewrite Ed in U'; try rewrite Ed in N.
      * apply N, (understood_fun _ _ _ U' U).
      * rewrite X in E. discriminate E.
      * apply (N _ U).
    + destruct (proj1 (conj (can_call_raise p w lines e Hw Ec C) Logic.I)) as [-> _]. reflexivity.
Qed.
