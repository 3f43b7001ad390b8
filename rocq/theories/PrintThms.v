(* Lemmas about the printed forms of responses. *)
From Coq Require Import ZArith List Bool Lia Sorted.
From Coq Require Import ZifyBool ZifyNat.
From Verif Require Import Py Num Utils Protocol Codes UasTable Decoders Command SpecWire SpecBits SpecCmd SpecMonitor SpecPrint
  PyFacts WireFacts ProtocolFacts DecoderThms DecoderThms2 DecoderThms3 Print.
Import ListNotations.
Open Scope Z_scope.

Lemma join_lines ls : ls <> [] -> Forall (fun l => ~ In 10 l) ls -> lines_of (join [10] ls) ls.
Proof.
  induction ls as [|l ls IH]; intros N F; [congruence|]. inversion F as [|? ? Hl F']; subst. destruct ls as [|l2 ls].
  - constructor. exact Hl.
  - change (join [10] (l :: l2 :: ls)) with (l ++ 10 :: join [10] (l2 :: ls)). constructor; [exact Hl|]. apply IH; [discriminate|exact F'].
Qed.

Lemma standard_iff tid : In tid (map fst TEST_IDS) <-> standard tid.
Proof. unfold standard. change (map fst TEST_IDS) with [1; 2; 3; 4; 5; 6; 7; 8; 9; 10; 11; 12]. cbn [In]. lia. Qed.
Lemma new_keys : map fst (mon_tests new_monitor) = [1; 2; 3; 4; 5; 6; 7; 8; 9; 10; 11; 12].
Proof. reflexivity. Qed.

Lemma set_keys (d : list (Z * mtest)) k v :
  map fst (dict_set Z.eqb d k v) = if existsb (Z.eqb k) (map fst d) then map fst d else map fst d ++ [k].
Proof.
  induction d as [|[k1 v1] d IH]; cbn [dict_set map fst existsb]; [reflexivity|].
  rewrite (Z.eqb_sym k k1). destruct (k1 =? k); cbn [map fst orb]; [reflexivity|]. rewrite IH. destruct (existsb _ _); reflexivity.
Qed.
Lemma step_keys mon b : map fst (mon_tests (mon_step mon b)) =
  match test_of b with
  | Some t => match t_tid t with Some k => map fst (dict_set Z.eqb (mon_tests mon) k t) | None => map fst (mon_tests mon) end
  | None => map fst (mon_tests mon)
  end.
Proof. unfold mon_step, add_test. destruct (test_of b) as [t|]; [|reflexivity]. destruct (t_tid t); reflexivity. Qed.
Lemma precedes_more bs b t1 t2 : precedes bs t1 t2 -> precedes (bs ++ [b]) t1 t2.
Proof.
  intros [H|(N1 & N2 & l1 & x & l2 & -> & U & F)]; [left; exact H|]. right. split; [exact N1|]. split; [exact N2|].
  exists l1, x, (l2 ++ [b]). split; [rewrite <- app_assoc; reflexivity|auto].
Qed.
Lemma sorted_impl (R R' : Z -> Z -> Prop) l : (forall x y, R x y -> R' x y) -> StronglySorted R l -> StronglySorted R' l.
Proof. intros H S. induction S as [|x l S IH F]; constructor; [exact IH|]. revert F. apply Forall_impl. apply H. Qed.
Lemma sorted_snoc (R : Z -> Z -> Prop) l k : StronglySorted R l -> Forall (fun x => R x k) l -> StronglySorted R (l ++ [k]).
Proof.
  induction 1 as [|x l S IH F]; intros G; cbn; [constructor; constructor|]. inversion G; subst. constructor; [auto|].
  apply Forall_app. split; [exact F|]. constructor; [assumption|constructor].
Qed.
Lemma keys_order bs : Forall (fun b => length b = 9%nat) bs ->
  let ks := map fst (mon_tests (fold_left mon_step bs new_monitor)) in
  StronglySorted (precedes bs) ks /\ (forall t, standard t -> In t ks)
  /\ (forall t, In t ks -> standard t \/ exists b, In b bs /\ usable t b) /\ (forall t b, In b bs -> usable t b -> In t ks).
Proof.
  induction bs as [|b bs IH] using rev_ind; intros F ks.
  - subst ks. cbn [fold_left]. rewrite new_keys. split; [|split; [|split]].
    + repeat (constructor; [|repeat (constructor; [left; unfold standard; lia|]); constructor]). constructor.
    + intros t St. apply standard_iff in St. exact St.
    + intros t It. left. apply standard_iff. exact It.
    + intros t b [].
  - apply Forall_app in F. destruct F as [F Fb]. inversion Fb as [|? ? L _]; subst. specialize (IH F). cbv zeta in IH. destruct IH as (S1 & S2 & S3 & S4).
    subst ks. rewrite fold_left_app. change (fold_left mon_step [b] (fold_left mon_step bs new_monitor)) with (mon_step (fold_left mon_step bs new_monitor) b). remember (fold_left mon_step bs new_monitor) as mon eqn:Emon.
    pose proof (test_of_usable b L) as U. pose proof (step_keys mon b) as Sk0. destruct (test_of b) as [t|].
    + destruct U as (Et & Ub & _). rewrite Et in Sk0. rewrite Sk0, set_keys. clear Sk0. set (k := block_tid b) in *.
      assert (S1' : StronglySorted (precedes (bs ++ [b])) (map fst (mon_tests mon))) by (revert S1; apply sorted_impl; intros; apply precedes_more; assumption).
      assert (Uk : forall t, usable t b -> t = k) by (intros t0 [X _]; symmetry; exact X).
      destruct (existsb (Z.eqb k) (map fst (mon_tests mon))) eqn:Ex.
      * apply existsb_exists in Ex. destruct Ex as (k' & Ik & Ek). apply Z.eqb_eq in Ek. subst k'.
        split; [exact S1'|]. split; [exact S2|]. split.
        -- intros t0 It. destruct (S3 t0 It) as [|(b' & Ib & Ub')]; [left; assumption|right; exists b'; split; [apply in_or_app; left; exact Ib|exact Ub']].
        -- intros t0 b0 Ib U0. apply in_app_iff in Ib. destruct Ib as [Ib|[<-|[]]]; [eauto|]. rewrite (Uk t0 U0). exact Ik.
      * assert (Nk : ~ In k (map fst (mon_tests mon))).
        { intros X. assert (existsb (Z.eqb k) (map fst (mon_tests mon)) = true); [|congruence]. apply existsb_exists. exists k. split; [exact X|apply Z.eqb_refl]. }
        split; [apply sorted_snoc; [exact S1'|]|split; [|split]].
        -- apply Forall_forall. intros x Ix. destruct (S3 x Ix) as [Sx|(b' & Ib & Ub')].
           ++ left. split; [exact Sx|]. intros Sk. destruct (Nk (S2 k Sk)).
           ++ destruct (Z.le_gt_cases 1 x) as [X1|X1]; [destruct (Z.le_gt_cases x 12) as [X2|X2]|];
                [left; split; [split; assumption|intros Sk; destruct (Nk (S2 k Sk))]|right|right];
                (split; [unfold standard; lia|]; split; [intros Sk; exact (Nk (S2 k Sk))|];
                 apply in_split in Ib; destruct Ib as (l1 & l2 & Eb); exists l1, b', (l2 ++ [b]); split; [rewrite Eb, <- app_assoc; reflexivity|]; split; [exact Ub'|];
                 apply Forall_forall; intros y Iy Uy; apply Nk; apply (S4 k y); [|exact Uy]; rewrite Eb; apply in_app_iff in Iy; apply in_or_app; cbn [In] in *; tauto).
        -- intros t0 St. apply in_or_app. left. auto.
        -- intros t0 It. apply in_app_iff in It. destruct It as [It|[<-|[]]]; [|right; exists b; split; [apply in_or_app; right; left; reflexivity|exact Ub]].
           destruct (S3 t0 It) as [|(b' & Ib & Ub')]; [left; assumption|right; exists b'; split; [apply in_or_app; left; exact Ib|exact Ub']].
        -- intros t0 b0 Ib U0. apply in_or_app. apply in_app_iff in Ib. destruct Ib as [Ib|[<-|[]]]; [left; eauto|]. right. left. symmetry. apply Uk. exact U0.
    + rewrite Sk0. clear Sk0. split; [revert S1; apply sorted_impl; intros; apply precedes_more; assumption|]. split; [exact S2|]. split.
      * intros t0 It. destruct (S3 t0 It) as [|(b' & Ib & Ub')]; [left; assumption|right; exists b'; split; [apply in_or_app; left; exact Ib|exact Ub']].
      * intros t0 b0 Ib U0. apply in_app_iff in Ib. destruct Ib as [Ib|[<-|[]]]; [eauto|]. destruct U0 as [_ X]. destruct (U X).
Qed.

Lemma tests_order bs : Forall (fun b => length b = 9%nat) bs ->
  exists tids, map t_tid (monitor_tests (fold_left mon_step bs new_monitor)) = map Some tids /\ StronglySorted (precedes bs) tids.
Proof.
  intros F. destruct (keys_order bs F) as (S1 & _). pose proof (tests_keyed bs F) as K. cbv zeta in S1. unfold monitor_tests.
  induction (mon_tests (fold_left mon_step bs new_monitor)) as [|[k v] d IH]; [exists []; split; [reflexivity|constructor]|].
  cbn [map fst snd] in *. inversion K as [|? ? Kv K']; subst. inversion S1 as [|? ? S1' Fk]; subst. specialize (IH S1' K').
  destruct IH as (tids & Et & St). cbn [filter]. destruct (test_is_null v) eqn:Nv; cbn [negb]; [exists tids; auto|].
  cbn [snd fst] in Kv. destruct Kv as [X|Kv]; [congruence|]. exists (k :: tids). split; [cbn [map]; rewrite Kv, Et; reflexivity|]. constructor; [exact St|].
  apply Forall_forall. intros x Ix. rewrite Forall_forall in Fk. apply Fk.
  assert (Ix' : In (Some x) (map t_tid (filter (fun t => negb (test_is_null t)) (map snd d)))) by (rewrite Et; apply in_map; exact Ix).
  apply in_map_iff in Ix'. destruct Ix' as (t & Ett & It). apply filter_In in It. destruct It as [It Nt]. apply in_map_iff in It. destruct It as ([k2 t2] & E2 & I2). cbn in E2. subst t2.
  rewrite Forall_forall in K'. specialize (K' _ I2). cbn in K'. destruct K' as [X|X]; [rewrite X in Nt; discriminate|]. apply in_map_iff. exists (k2, t). split; [cbn; congruence|exact I2].
Qed.

Lemma descs_plain : Forall (fun e => ~ In 10 (snd (snd e)) /\ ~ In 58 (snd (snd e))) TEST_IDS.
Proof.
  apply Forall_forall. intros e I. assert (C : forallb (fun e => negb (existsb (Z.eqb 10) (snd (snd e))) && negb (existsb (Z.eqb 58) (snd (snd e)))) TEST_IDS = true) by (vm_compute; reflexivity).
  rewrite forallb_forall in C. specialize (C e I). apply andb_true_iff in C. destruct C as [A B]. apply negb_true_iff in A, B.
  split; intros X; [assert (E : existsb (Z.eqb 10) (snd (snd e)) = true)|assert (E : existsb (Z.eqb 58) (snd (snd e)) = true)]; try congruence; apply existsb_exists; eexists; (split; [exact X|reflexivity]).
Qed.
Lemma desc_plain tid name desc : names_test tid name desc -> ~ In 10 desc /\ ~ In 58 desc.
Proof.
  intros [I|(_ & _ & ->)].
  - pose proof descs_plain as F. rewrite Forall_forall in F. exact (F _ I).
  - split; vm_compute; intuition discriminate.
Qed.
Lemma descs_distinct t1 n1 t2 n2 d : In (t1, (n1, d)) TEST_IDS -> In (t2, (n2, d)) TEST_IDS -> t1 = t2.
Proof.
  intros I1 I2.
  assert (C : forallb (fun e1 => forallb (fun e2 => negb (text_eqb (snd (snd e1)) (snd (snd e2))) || (fst e1 =? fst e2)) TEST_IDS) TEST_IDS = true) by (vm_compute; reflexivity).
  rewrite forallb_forall in C. specialize (C _ I1). rewrite forallb_forall in C. specialize (C _ I2). cbn [fst snd] in C. rewrite text_eqb_refl in C. cbn [negb orb] in C. lia.
Qed.

(* a block's test is printed as one line that tells it *)
Lemma str_tells showq b t : block_test b t -> tells showq t (str_mtest showq t).
Proof.
  intros (mid & tid & id & v1 & v2 & l1 & l2 & h1 & h2 & u & name & desc & v & lo & hi & _ & _ & _ & _ & _ & _ & ->).
  unfold tells, str_mtest. cbn [t_desc t_value show_text]. exists desc.
  destruct v as [n q|b0]; [|destruct b0]; (eexists; split; [reflexivity|]; split; [reflexivity|]);
    cbn [show_tval show_bool]; destruct (test_passed _); reflexivity.
Qed.
Lemma str_plain showq b t : (forall n u, ~ In 10 (showq n u)) -> block_test b t -> ~ In 10 (str_mtest showq t).
Proof.
  intros Q (mid & tid & id & v1 & v2 & l1 & l2 & h1 & h2 & u & name & desc & v & lo & hi & _ & _ & Nt & _ & _ & _ & ->).
  unfold str_mtest. cbn [t_desc t_value show_text]. destruct (desc_plain _ _ _ Nt) as [D _]. rewrite !in_app_iff.
  assert (V : ~ In 10 (show_tval showq (Some v))) by (destruct v as [n q|[]]; cbn [show_tval show_bool]; [apply Q|vm_compute; intuition discriminate..]).
  destruct (test_passed _); (intros [X|[X|[X|[X|[X|X]]]]]; [exact (D X)| |exact (V X)| | |]; vm_compute in X; intuition discriminate).
Qed.
Lemma colon_split (a b x y : text) : ~ In 58 a -> ~ In 58 b -> a ++ 32 :: 58 :: x = b ++ 32 :: 58 :: y -> a = b.
Proof.
  revert b. induction a as [|c a IH]; intros b Na Nb E.
  - destruct b as [|c b]; [reflexivity|]. cbn in E. injection E as <- E. destruct b as [|c b]; [discriminate E|]. cbn in E. injection E as <- _. destruct Nb; cbn; auto.
  - destruct b as [|c' b].
    + cbn in E. injection E as -> E. destruct a as [|c a]; [discriminate E|]. cbn in E. injection E as -> _. destruct Na; cbn; auto.
    + cbn in E. injection E as <- E. f_equal. apply IH; [intros X; apply Na; right; exact X|intros X; apply Nb; right; exact X|exact E].
Qed.
Lemma tail_eq (x y a b : text) : length a = length b -> x ++ a = y ++ b -> a = b.
Proof.
  intros L E. pose proof (f_equal (@rev Z) E) as R. rewrite !rev_app_distr in R. 
  assert (G : forall (l1 l2 m1 m2 : text), length l1 = length l2 -> l1 ++ m1 = l2 ++ m2 -> l1 = l2).
  { clear. induction l1 as [|p l1 IH]; intros l2 m1 m2 L E; destruct l2 as [|q l2]; try discriminate L; [reflexivity|]. cbn in E. injection E as -> E. f_equal. apply (IH l2 m1 m2); [injection L as L; exact L|exact E]. }
  apply (G (rev a) (rev b)) in R; [|rewrite !rev_length; exact L]. apply (f_equal (@rev Z)) in R. rewrite !rev_involutive in R. exact R.
Qed.
Lemma tells_unique showq t1 t2 l : tells showq t1 l -> tells showq t2 l ->
  (forall d, t_desc t1 = Some d -> ~ In 58 d) -> (forall d, t_desc t2 = Some d -> ~ In 58 d) ->
  t_desc t1 = t_desc t2 /\ test_passed t1 = test_passed t2.
Proof.
  intros (d1 & v1 & E1 & _ & L1) (d2 & v2 & E2 & _ & L2) P1 P2. subst l. split.
  - rewrite E1, E2. f_equal. symmetry. apply (colon_split d2 d1 (32 :: v2 ++ (if test_passed t2 then str " [PASSED]" else str " [FAILED]")) (32 :: v1 ++ (if test_passed t1 then str " [PASSED]" else str " [FAILED]")));
      [apply P2; exact E2|apply P1; exact E1|]. symmetry. exact L2.
  - rewrite !app_assoc in L2. apply tail_eq in L2; [|destruct (test_passed t1), (test_passed t2); reflexivity].
    destruct (test_passed t1), (test_passed t2); try reflexivity; discriminate L2.
Qed.
