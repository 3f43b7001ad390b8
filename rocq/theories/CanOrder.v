(* Frames of a segmented message, lost, repeated and out of order. *)
From Coq Require Import ZArith List Bool Lia Permutation Sorted.
From Coq Require Import ZifyBool ZifyNat.
From Verif Require Import Py Utils Protocol SpecWire SpecProto SpecCan PyFacts WireFacts ProtocolFacts CanFacts ProtocolThms CanThms CanExact.
Import ListNotations.
Open Scope Z_scope.
Ltac Zify.zify_post_hook ::= Z.div_mod_to_equations.
Arguments Z.div : simpl never.
Arguments Z.modulo : simpl never.
Arguments Z.mul : simpl never.
Arguments Z.add : simpl never.
Arguments Z.sub : simpl never.

(* ---- the numbers taken determine the true ones if no frame is displaced by more than 8 ---- *)
Lemma sorted_perm_eq l1 l2 : StronglySorted Z.le l1 -> StronglySorted Z.le l2 -> Permutation l1 l2 -> l1 = l2.
Proof.
  revert l2. induction l1 as [|x l1 IH]; intros l2 S1 S2 P; [apply Permutation_nil in P; congruence|].
  destruct l2 as [|y l2]; [symmetry in P; apply Permutation_nil in P; discriminate|].
  apply StronglySorted_inv in S1 as [S1 F1]. apply StronglySorted_inv in S2 as [S2 F2]. rewrite Forall_forall in F1, F2.
  assert (E : x = y).
  { assert (X : In x (y :: l2)) by (eapply Permutation_in; [exact P|left; reflexivity]). assert (Y : In y (x :: l1)) by (eapply Permutation_in; [symmetry; exact P|left; reflexivity]).
    destruct X as [X|X]; [congruence|]. destruct Y as [Y|Y]; [congruence|]. apply F2 in X. apply F1 in Y. lia. }
  subst y. f_equal. apply IH; [exact S1|exact S2|]. apply Permutation_cons_inv in P. exact P.
Qed.
Lemma groups_sorted_from p qs : Forall (fun q => 0 <= q) qs -> StronglySorted Z.le (map (fun t => t / 16) (p :: seqs_from p qs)).
Proof.
  revert p. induction qs as [|q qs IH]; intros p F; [cbn; constructor; constructor|]. inversion F as [|? ? Hq F']; subst. specialize (IH (next_seq p q) F').
  assert (L : p / 16 <= next_seq p q / 16) by (unfold next_seq; destruct (_ <? _); lia).
  cbn [seqs_from map] in *. constructor; [exact IH|]. apply StronglySorted_inv in IH as [_ IH]. constructor; [exact L|]. eapply Forall_impl; [|exact IH]. cbv beta. intros a Ha. lia.
Qed.
Lemma groups_sorted qs : Forall (fun q => 0 <= q) qs -> StronglySorted Z.le (map (fun t => t / 16) (seqs qs)).
Proof. destruct qs as [|q qs]; [constructor|]. intros F. inversion F; subst. apply (groups_sorted_from q qs). assumption. Qed.
Lemma zseq_groups n s : StronglySorted Z.le (map (fun t => t / 16) (zseq s n)).
Proof.
  revert s; induction n as [|n IH]; intros s; [constructor|]. rewrite zseq_S. cbn [map]. constructor; [apply IH|]. apply Forall_forall. intros x H. apply in_map_iff in H as (y & <- & H).
  apply zseq_In in H. lia.
Qed.
Lemma nth_error_same {A} (a b : list A) : (forall k, nth_error a k = nth_error b k) -> a = b.
Proof.
  revert b. induction a as [|x a IH]; intros [|y b] H; [reflexivity|discriminate (H 0%nat)|discriminate (H 0%nat)|]. pose proof (H 0%nat) as H0. cbn in H0. injection H0 as ->. f_equal.
  apply IH. intros k. exact (H (S k)).
Qed.
Lemma nth_error_Some_lt {A} (l : list A) k x : nth_error l k = Some x -> (k < length l)%nat.
Proof. intros H. apply nth_error_Some. congruence. Qed.
Lemma taken_true cs n : Permutation cs (zseq 1 n) -> (forall k c, nth_error cs k = Some c -> Z.abs (c - (Z.of_nat k + 1)) <= 8) ->
  Permutation (seqs (map (fun c => c mod 16) cs)) (zseq 1 n) -> seqs (map (fun c => c mod 16) cs) = cs.
Proof.
  intros P D Q. set (T := seqs (map (fun c => c mod 16) cs)) in *.
  assert (LT : length T = length cs) by (unfold T; rewrite seqs_length, map_length; reflexivity).
  assert (Ln : length cs = n) by (rewrite (Permutation_length P), zseq_length; reflexivity).
  assert (NC : NoDup cs) by (eapply Permutation_NoDup; [symmetry; exact P|apply zseq_NoDup]).
  assert (NT : NoDup T) by (eapply Permutation_NoDup; [symmetry; exact Q|apply zseq_NoDup]).
  assert (G : forall k t, nth_error T k = Some t -> t / 16 = (Z.of_nat k + 1) / 16).
  { assert (E : map (fun t => t / 16) T = map (fun t => t / 16) (zseq 1 n)).
    { apply sorted_perm_eq; [apply groups_sorted|apply zseq_groups|apply Permutation_map, Q]. apply Forall_forall. intros x H. apply in_map_iff in H as (y & <- & _). lia. }
    intros k t H. assert (H1 : nth_error (map (fun t => t / 16) T) k = Some (t / 16)) by (rewrite nth_error_map, H; reflexivity).
    rewrite E, nth_error_map, zseq_nth in H1 by (apply nth_error_Some_lt in H; lia). cbn in H1. injection H1 as H1. rewrite <- H1. f_equal. lia. }
  assert (M : forall k t c, nth_error T k = Some t -> nth_error cs k = Some c -> t mod 16 = c mod 16).
  { intros k t c H1 H2. pose proof (seqs_mod (map (fun c => c mod 16) cs)) as F. fold T in F.
    pose proof (Forall2_nth _ _ _ k t (c mod 16) F H1) as X. rewrite nth_error_map, H2 in X. specialize (X eq_refl). cbv beta in X. lia. }
  (* who takes number v *)
  assert (W : forall v, In v (zseq 1 n) -> exists k c, nth_error T k = Some v /\ nth_error cs k = Some c /\ In c (zseq 1 n)).
  { intros v H. assert (X : In v T) by (eapply Permutation_in; [symmetry; exact Q|exact H]). apply In_nth_error in X as (k & X). exists k.
    destruct (nth_error cs k) as [c|] eqn:C; [|apply nth_error_None in C; apply nth_error_Some_lt in X; lia]. exists c. split; [exact X|]. split; [reflexivity|]. eapply Permutation_in; [exact P|]. eapply nth_error_In, C. }
  assert (S : forall k j c, nth_error cs k = Some c -> nth_error cs j = Some c -> k = j).
  { intros k j c H1 H2. apply (proj1 (NoDup_nth_error cs) NC); [apply nth_error_Some_lt in H1; exact H1|congruence]. }
  assert (Up : forall m v k, (Z.to_nat (Z.of_nat n - v) < m)%nat -> nth_error T k = Some v -> nth_error cs k = Some (v + 16) -> False).
  { induction m as [|m IH]; intros v k Hm H1 H2; [lia|].
    assert (Hc : In (v + 16) (zseq 1 n)) by (eapply Permutation_in; [exact P|eapply nth_error_In, H2]).
    destruct (W _ Hc) as (j & c & J1 & J2 & J3). apply zseq_In in Hc. pose proof (G _ _ J1) as Gj. pose proof (G _ _ H1) as Gk. pose proof (D _ _ J2) as Dj. pose proof (D _ _ H2) as Dk. pose proof (M _ _ _ J1 J2) as Mj.
    assert (X : c = v \/ c = v + 16 \/ c = v + 32) by lia. destruct X as [-> |[-> | ->]].
    - lia.
    - assert (k = j) by (eapply S; eassumption). subst j. rewrite H1 in J1. injection J1. lia.
    - apply (IH (v + 16) j); [lia|exact J1|]. rewrite J2. f_equal. lia. }
  assert (Dn : forall m v k, (Z.to_nat v < m)%nat -> nth_error T k = Some v -> nth_error cs k = Some (v - 16) -> False).
  { induction m as [|m IH]; intros v k Hm H1 H2; [lia|].
    assert (Hc : In (v - 16) (zseq 1 n)) by (eapply Permutation_in; [exact P|eapply nth_error_In, H2]).
    destruct (W _ Hc) as (j & c & J1 & J2 & J3). apply zseq_In in Hc. pose proof (G _ _ J1) as Gj. pose proof (G _ _ H1) as Gk. pose proof (D _ _ J2) as Dj. pose proof (D _ _ H2) as Dk. pose proof (M _ _ _ J1 J2) as Mj.
    assert (X : c = v \/ c = v - 16 \/ c = v - 32) by lia. destruct X as [-> |[-> | ->]].
    - lia.
    - assert (k = j) by (eapply S; eassumption). subst j. rewrite H1 in J1. injection J1. lia.
    - apply (IH (v - 16) j); [lia|exact J1|]. rewrite J2. f_equal. lia. }
  apply nth_error_same. intros k. destruct (nth_error T k) as [t|] eqn:Et; [|symmetry; apply nth_error_None; apply nth_error_None in Et; lia].
  destruct (nth_error cs k) as [c|] eqn:Ecs; [|apply nth_error_None in Ecs; apply nth_error_Some_lt in Et; lia]. f_equal.
  pose proof (G _ _ Et) as Gk. pose proof (D _ _ Ecs) as Dk. pose proof (M _ _ _ Et Ecs) as Mk.
  assert (X : c = t \/ c = t + 16 \/ c = t - 16) by lia. destruct X as [->|[->| ->]]; [reflexivity| |]; exfalso; [eapply Up|eapply Dn]; eauto.
Qed.

(* ---- the frames of a segmented message ---- *)
Lemma tolerable_exact cs : Forall (fun c => 1 <= c) cs -> (tolerable cs <-> taken (map (fun c => c mod 16) cs) = cs).
Proof.
  intros F. rewrite taken_eq. split.
  - intros H. apply tolerable_follows in H as [H1 H2]. apply seqs_true; assumption.
  - destruct cs as [|c cs]; [intros; exact I|]. cbn. intros E. injection E as E1 E2. inversion F; subst. split; [lia|]. clear F. rewrite E1 in E2. clear E1 H1 H2. 
    revert c E2. induction cs as [|d cs IH]; intros c E; [constructor|]. cbn in E. injection E as E1 E2. constructor; [apply next_seq_recoverable, E1|]. rewrite E1 in E2. apply IH, E2.
Qed.
Lemma arranged_lengths order js : arranged_as order js -> length (taken (map (fun i => Z.of_nat i mod 16) (consecutive_ones order))) = length (consecutive_ones order).
Proof. intros _. rewrite taken_eq, seqs_length, map_length. reflexivity. Qed.
Lemma arranged_numbers order js : arranged_as order js -> Permutation (taken (map (fun i => Z.of_nat i mod 16) (consecutive_ones order))) (one_to (length js)) /\ Permutation (consecutive_ones order) js.
Proof.
  intros A. pose proof (arranged_lengths _ _ A) as L. destruct A as (_ & _ & Lj & P). split.
  - apply (Permutation_map fst) in P. rewrite !map_fst_combine in P; [exact P| |exact L]. unfold one_to. rewrite map_length, seq_length. reflexivity.
  - apply (Permutation_map snd) in P. rewrite !map_snd_combine in P; [exact P| |exact L]. unfold one_to. rewrite map_length, seq_length. reflexivity.
Qed.
Lemma combine_split_eq {A B} (l : list (A * B)) : l = combine (map fst l) (map snd l).
Proof. induction l as [|[a b] l IH]; cbn; [reflexivity|]. f_equal. exact IH. Qed.
Lemma filter_zero order : length (filter (Nat.eqb 0) order) = count_occ Nat.eq_dec order 0%nat.
Proof. induction order as [|i order IH]; [reflexivity|]. cbn [filter count_occ]. destruct (Nat.eq_dec i 0) as [->|N]; [exact (f_equal S IH)|]. destruct i; [congruence|]. exact IH. Qed.

Lemma order_exact p h payload frames order lines :
  pc_family (p_class p) = FCan (id_width h) -> id_ok h -> segmented payload frames -> Z.of_nat (length payload) <= 4095 -> Forall (Forall is_byte) frames -> printed h frames order lines ->
  (forall js, arranged_as order js -> exists m, call p lines = Ok [m] /\ m_data m = dtc_cut (put_together frames (length payload) js) /\ m_tx_id m = Some (sender h) /\ map f_raw (m_frames m) = map no_spaces lines)
  /\ ((forall js, ~ arranged_as order js) -> call p lines = Ok []).
Proof.
  intros Ec Hh Hs Hl Fb Hp. assert (Hc : class_ok (p_class p)) by (unfold class_ok; rewrite Ec; destruct h; cbn; auto).
  destruct (segmented_facts payload frames Hs Hl Fb) as (a & H0 & La & Ln & Fa & Hcf & _).
  destruct (received_frames (p_class p) h payload frames order lines Ec Hh Hs Hl Fb Hp) as (fs & E1 & F2 & E3 & E4 & E5 & W & FF & FC).
  assert (Ed : map f_data fs = map (fun i => nth i frames []) order).
  { clear -F2. induction F2 as [|f i fs order H F IH]; [reflexivity|]. cbn. rewrite IH. f_equal. symmetry. apply nth_error_nth, H. }
  assert (Wf : Forall (fun f => _) fs) by (eapply Forall_impl; [|exact W]; exact wf_facts). cbv beta in Wf.
  assert (Ff : firsts (map f_data fs) = map (fun _ => 16 + announced payload / 256 :: announced payload mod 256 :: a) (filter (Nat.eqb 0) order)).
  { unfold firsts. rewrite <- (filter_data (fun x => frame_type x =? 1) isFF) by (eapply Forall_impl; [|exact Wf]; cbv beta; tauto).
    assert (Z0 : Forall (fun i => i = 0%nat) (filter (Nat.eqb 0) order)) by (apply Forall_forall; intros i Hi; apply filter_In in Hi as [_ Hi]; destruct i; [reflexivity|discriminate]).
    clear -FF H0 Z0. induction FF as [|f i l1 l2 H F IH]; [reflexivity|]. inversion Z0; subst. cbn. rewrite IH by assumption. f_equal. rewrite H in H0. congruence. }
  assert (Fc : consecutives (map f_data fs) = map (fun i => nth i frames []) (consecutive_ones order)).
  { unfold consecutives. rewrite <- (filter_data (fun x => frame_type x =? 2) isCF) by (eapply Forall_impl; [|exact Wf]; cbv beta; tauto). unfold consecutive_ones.
    clear -FC. induction FC as [|f i l1 l2 [H _] F IH]; [reflexivity|]. cbn. rewrite IH. f_equal. symmetry. apply nth_error_nth, H. }
  assert (Fn : map number (consecutives (map f_data fs)) = map (fun i => Z.of_nat i mod 16) (consecutive_ones order)).
  { rewrite Fc, map_map. apply map_ext_in. intros i Hi. unfold consecutive_ones in Hi.
    apply filter_In in Hi as [Hi Nz]. destruct i as [|i]; [discriminate|]. destruct (nth_error frames (S i)) as [d|] eqn:N.
    - replace (nth (S i) frames []) with d by (symmetry; apply nth_error_nth, N). apply (Hcf i d N).
    - exfalso. clear -F2 Hi N. induction F2 as [|f j l1 l2 H F IH]; [destruct Hi|]. destruct Hi as [->|Hi]; [congruence|auto]. }
  assert (Nf : nth 0 frames [] = 16 + announced payload / 256 :: announced payload mod 256 :: a) by (apply nth_error_nth, H0).
  assert (Key : forall pl, understood (map f_data fs) pl -> exists js, arranged_as order js /\ pl = put_together frames (length payload) js).
  { intros pl U. remember (map f_data fs) as X eqn:EX. destruct U as [n d Hn|X pci lo d ord L2 F1 Nc Lo P].
    - exfalso. destruct fs as [|f [|]]; try discriminate EX. cbn [map] in EX. injection EX as EX. inversion F2 as [|? i ? ? Hi F2']; subst. inversion F2'; subst.
      rewrite <- EX in Hi. destruct i as [|i]; [rewrite H0 in Hi; injection Hi as Hi _; unfold announced in *; lia|]. destruct (Hcf i _ Hi) as [T _]. unfold frame_type in T. lia.
    - subst X. rewrite Fn, Fc in P. rewrite Fc in Nc, Lo. rewrite map_length in Lo. rewrite combine_map_r in P. symmetry in P. apply Permutation_map_inv in P as (l3 & E & P).
      exists (map snd l3). assert (Ls : length l3 = length ord) by (apply (f_equal (@length _)) in E; rewrite combine_length, map_length in E; unfold one_to in E; rewrite map_length, seq_length, Nat.min_id in E; congruence).
      assert (E1' : map fst l3 = one_to (length ord)).
      { apply (f_equal (map fst)) in E. rewrite map_fst_combine, map_map in E by (unfold one_to; rewrite map_length, seq_length; reflexivity). rewrite E. apply map_ext. reflexivity. }
      assert (E2' : ord = map (fun i => nth i frames []) (map snd l3)).
      { apply (f_equal (map snd)) in E. rewrite map_snd_combine, map_map in E by (unfold one_to; rewrite map_length, seq_length; reflexivity). rewrite E, map_map. apply map_ext. reflexivity. }
      rewrite Ff in F1. assert (C1 : length (filter (Nat.eqb 0) order) = 1%nat) by (apply (f_equal (@length _)) in F1; rewrite map_length in F1; exact F1).
      split.
      + split; [rewrite <- filter_zero; exact C1|]. rewrite map_length. split; [|split].
        * destruct l3; [|discriminate]. destruct ord; [|discriminate Ls]. destruct (consecutive_ones order); [congruence|discriminate Lo].
        * congruence.
        * rewrite Ls, <- E1', <- combine_split_eq. exact P.
      + unfold put_together. rewrite Nf. cbn [skipn]. destruct (filter (Nat.eqb 0) order) as [|? [|]]; try discriminate C1. cbn in F1. injection F1 as <- <- <-.
        replace (Z.to_nat (256 * ((16 + announced payload / 256) mod 16) + announced payload mod 256)) with (length payload) by (unfold announced in *; lia).
        rewrite E2', map_map. reflexivity. }
  assert (Key2 : forall js, arranged_as order js -> understood (map f_data fs) (put_together frames (length payload) js)).
  { intros js (C & Nj & Lj & P). rewrite <- filter_zero in C. destruct (filter (Nat.eqb 0) order) as [|z [|]] eqn:EZ; try discriminate C.
    unfold put_together. rewrite Nf. cbn [skipn]. replace (length payload) with (Z.to_nat (256 * ((16 + announced payload / 256) mod 16) + announced payload mod 256)) by (unfold announced in *; lia).
    rewrite <- (map_map (fun j => nth j frames []) (@tl Z)). apply understood_multi.
    - rewrite Ed, map_length. assert (A1 : In z order) by (apply (proj1 (filter_In (Nat.eqb 0) z order)); rewrite EZ; left; reflexivity).
      assert (A2 : exists y, In y (consecutive_ones order)) by (destruct (consecutive_ones order) as [|y]; [destruct js; [congruence|discriminate Lj]|exists y; left; reflexivity]).
      destruct A2 as [y A2]. unfold consecutive_ones in A2. apply filter_In in A2 as [A2 A3]. assert (A4 : z = 0%nat) by (assert (X : In z (filter (Nat.eqb 0) order)) by (rewrite EZ; left; reflexivity); apply filter_In in X as [_ X]; destruct z; [reflexivity|discriminate]).
      destruct order as [|u [|]]; cbn in *; [tauto| |lia]. destruct A1 as [->|[]]. destruct A2 as [<-|[]]. subst. discriminate.
    - rewrite Ff. reflexivity.
    - rewrite Fc. destruct (consecutive_ones order); [destruct js; [congruence|discriminate Lj]|discriminate].
    - rewrite Fc, !map_length. exact Lj.
    - rewrite Fn, Fc, map_length, !combine_map_r. apply Permutation_map, P. }
  destruct fs as [|f fs].
  - inversion F2; subst order. inversion Hp; subst lines. split.
    + intros js (C & _). discriminate C.
    + intros _. unfold call. rewrite call_eq by exact Hc. rewrite E1. reflexivity.
  - rewrite (single_ecu_call p lines (f :: fs) (sender h) Hc E1 ltac:(discriminate) E4 E5). unfold parse_message. rewrite Ec.
    destruct (can_message_exact (f :: fs) W ltac:(discriminate)) as [(pl & U & N1 & N2 & ->)|[(U & _)|(N & ->)]].
    + split.
      * intros js A. rewrite (understood_fun _ _ _ U (Key2 js A)). eexists. split; [reflexivity|]. cbn [m_data m_frames]. split; [reflexivity|]. split; [|exact E3]. inversion E4; subst. assumption.
      * intros A. destruct (Key _ U) as (js & J & _). destruct (A js J).
    + exfalso. destruct (Key _ U) as (js & _ & E). apply (f_equal (@length _)) in E. unfold put_together in E. rewrite Nf in E. cbn [skipn] in E. rewrite firstn_length, app_length, La in E.
      destruct Hs as [a' rest fr La' _]. rewrite app_length in E. cbn [length] in E. lia.
    + split; [|reflexivity]. intros js A. destruct (N _ (Key2 js A)).
Qed.
Lemma filter_all {A} (f : A -> bool) l : (forall x, In x l -> f x = true) -> filter f l = l.
Proof. induction l as [|x l IH]; intros H; cbn; [reflexivity|]. rewrite (H x (or_introl eq_refl)). f_equal. apply IH. intros y Hy. apply H. right. exact Hy. Qed.
Lemma consecutive_positions order k i : NoDup order -> In 0%nat order -> nth_error (consecutive_ones order) k = Some i -> nth_error order k = Some i \/ nth_error order (S k) = Some i.
Proof.
  intros N I H. destruct (in_split _ _ I) as (l1 & l2 & ->). apply NoDup_remove in N as [_ N].
  assert (E : consecutive_ones (l1 ++ 0%nat :: l2) = l1 ++ l2).
  { unfold consecutive_ones. rewrite filter_app. cbn [filter Nat.eqb negb]. f_equal; apply filter_all; intros x Hx; destruct x; try reflexivity; exfalso; apply N; apply in_or_app; auto. }
  rewrite E in H. destruct (Nat.lt_ge_cases k (length l1)) as [L|L].
  - left. rewrite nth_error_app1 in * by exact L. exact H.
  - right. rewrite nth_error_app2 in H by exact L. rewrite nth_error_app2 by lia. replace (S k - length l1)%nat with (S (k - length l1)) by lia. exact H.
Qed.
Lemma displaced_exact p h payload frames order lines :
  pc_family (p_class p) = FCan (id_width h) -> id_ok h -> segmented payload frames -> Z.of_nat (length payload) <= 4095 -> Forall (Forall is_byte) frames ->
  Permutation order (seq 0 (length frames)) -> displaced_by 7 order -> printed h frames order lines -> ~ tolerable (consecutive_indices order) -> call p lines = Ok [].
Proof.
  intros Ec Hh Hs Hl Fb Po D Hp Nt. apply (order_exact p h payload frames order lines Ec Hh Hs Hl Fb Hp). intros js A. apply Nt.
  destruct (arranged_numbers _ _ A) as [Q _]. pose proof (proj1 (proj2 (proj2 A))) as Lj.
  assert (L2 : (2 <= length frames)%nat) by (apply (segmented_length payload); exact Hs).
  assert (No : NoDup order) by (eapply Permutation_NoDup; [symmetry; exact Po|apply seq_NoDup]).
  assert (Io : In 0%nat order) by (eapply Permutation_in; [symmetry; exact Po|apply in_seq; lia]).
  assert (Pc : Permutation (consecutive_indices order) (zseq 1 (length frames - 1))).
  { unfold consecutive_indices. rewrite <- one_to_eq. unfold one_to. apply Permutation_map. apply NoDup_Permutation; [apply NoDup_filter, No|apply seq_NoDup|].
    intros x. rewrite filter_In, in_seq. split.
    - intros [X Y]. apply (Permutation_in _ Po) in X. apply in_seq in X. destruct x; [discriminate|lia].
    - intros X. split; [eapply Permutation_in; [symmetry; exact Po|apply in_seq; lia]|destruct x; [lia|reflexivity]]. }
  assert (Em : map (fun c => c mod 16) (consecutive_indices order) = map (fun i => Z.of_nat i mod 16) (consecutive_ones order)) by (unfold consecutive_indices, consecutive_ones; rewrite map_map; reflexivity).
  apply tolerable_exact; [apply Forall_forall; intros c Hc; apply (Permutation_in _ Pc) in Hc; apply zseq_In in Hc; lia|].
  rewrite taken_eq. apply (taken_true _ (length frames - 1) Pc).
  - intros k c H. unfold consecutive_indices in H. rewrite nth_error_map in H. fold (consecutive_ones order) in H. destruct (nth_error (consecutive_ones order) k) as [i|] eqn:Hi; [|discriminate H]. cbn in H. injection H as <-.
    destruct (consecutive_positions order k i No Io Hi) as [X|X]; apply D in X; lia.
  - rewrite Em, <- taken_eq, Q, one_to_eq. replace (length js) with (length frames - 1)%nat; [reflexivity|].
    rewrite Lj. apply Permutation_length in Pc. unfold consecutive_indices in Pc. rewrite map_length, zseq_length in Pc. symmetry. exact Pc.
Qed.

(* in order, at most 8 frames missing *)
Lemma sorted_full cs : forall q : nat, StronglySorted lt (q :: cs) -> (last cs q - q - length cs <= 0)%nat -> q :: cs = seq q (S (length cs)).
Proof.
  induction cs as [|r cs IH]; intros q S H; [reflexivity|]. inversion S as [|? ? S' F]; subst. inversion F as [|? ? Hqr _]; subst. rewrite last_cons in H. cbn [length] in H. pose proof (last_ge cs r S') as G.
  assert (r = Datatypes.S q) by lia. subst r. cbn [length seq]. f_equal. rewrite (IH _ S' ltac:(lia)). reflexivity.
Qed.
Lemma eight cs : forall p : nat, StronglySorted lt (p :: cs) -> (last cs p - p - length cs <= 8)%nat ->
  tolerable_from (Z.of_nat p) (map Z.of_nat cs) \/ exists k m, p :: cs = seq p (S k) ++ seq (p + k + 9) m /\ (1 <= m)%nat.
Proof.
  induction cs as [|q cs IH]; intros p S H; [left; constructor|]. inversion S as [|? ? S' F]; subst. inversion F as [|? ? Hpq _]; subst. rewrite last_cons in H. cbn [length] in H. pose proof (last_ge cs q S') as G.
  destruct (Nat.eq_dec q (Datatypes.S p)) as [->|N].
  - destruct (IH _ S' ltac:(lia)) as [T|(k & m & E & Hm)].
    + left. cbn [map]. constructor; [unfold follows; lia|exact T].
    + right. exists (Datatypes.S k), m. split; [|exact Hm]. rewrite E. cbn [seq app]. f_equal. f_equal. replace (p + Datatypes.S k + 9)%nat with (Datatypes.S p + k + 9)%nat by lia. reflexivity.
  - destruct (Nat.le_gt_cases q (p + 8)) as [L|L].
    + left. cbn [map]. constructor; [unfold follows; lia|]. apply few_tolerable; [exact S'|lia].
    + right. exists 0%nat, (Datatypes.S (length cs)). split; [|lia]. rewrite (sorted_full cs q S') by lia. cbn [seq app length]. assert (E : q = (p + 0 + 9)%nat) by lia. rewrite E. reflexivity.
Qed.
Lemma eight_lost p h payload frames order lines :
  pc_family (p_class p) = FCan (id_width h) -> id_ok h ->
  segmented payload frames -> announced payload <= 4095 -> Forall (Forall is_byte) frames -> printed h frames order lines ->
  StronglySorted lt order -> (1 <= S (last order 0%nat) - length order <= 8)%nat -> call p lines = Ok [].
Proof.
  intros Ec Hh Hs Hl Fb Hp S H.
  destruct (in_dec Nat.eq_dec 0%nat order) as [H0|H0]; [|eapply first_frame_lost; eauto].
  destruct (sorted_zero order S H0) as (cs & -> & F). pose proof H as H'. rewrite last_cons in H. cbn [length] in H.
  destruct (eight cs 0 S ltac:(lia)) as [T|(k & m & E & Hm)].
  - assert (Ei : consecutive_indices (0%nat :: cs) = map Z.of_nat cs).
    { unfold consecutive_indices. cbn [filter Nat.eqb negb]. rewrite forallb_filter_all; [reflexivity|].
      intros x Hx. rewrite Forall_forall in F. specialize (F x Hx). destruct (Nat.eqb_spec x 0); [lia|reflexivity]. }
    destruct cs as [|c cs]; [cbn in H; lia|]. rewrite last_cons in H. cbn [length] in H.
    inversion S as [|? ? S' _]; subst. pose proof (last_ge cs c S') as G.
    eapply dropped; eauto. right; left. rewrite Ei. split.
    + cbn [map tolerable] in *. inversion F; subst. inversion T; subst. split; [lia|assumption].
    + intros (n & P).
      assert (Ln : n = Datatypes.S (length cs)).
      { apply Permutation_length in P. rewrite map_length, zseq_length in P. cbn in P; lia. }
      assert (Hin : In (Z.of_nat (last cs c)) (zseq 1 n)).
      { eapply Permutation_in; [exact P|]. apply in_map. rewrite <- (last_cons cs c 0%nat).
        rewrite (app_removelast_last 0%nat (l := c :: cs)) at 2 by congruence. apply in_or_app; right; left; reflexivity. }
      apply zseq_In in Hin. lia.
  - rewrite E in Hp. replace (0 + k + 9)%nat with (k + 9)%nat in Hp by lia.
    apply (burst_lost p h payload frames lines k (k + 9) m Ec Hh Hs Hl Fb Hp); [lia|exact Hm|]. replace (k + 9 - k - 1)%nat with 8%nat by lia. cbn. lia.
Qed.
