(* Facts about Py.v *)
From Coq Require Import ZArith List Bool Lia Permutation Sorted.
From Coq Require Import ZifyBool ZifyNat.
From Verif Require Import Py.
Import ListNotations.
Open Scope Z_scope.

Lemma text_eqb_eq a b : text_eqb a b = true <-> a = b.
Proof.
  revert b; induction a as [|x a IH]; destruct b as [|y b]; cbn; try (split; congruence).
  rewrite andb_true_iff, Z.eqb_eq, IH. split; [intros [? ?]; congruence | intros E; injection E; auto].
Qed.
Lemma text_eqb_refl a : text_eqb a a = true.
Proof. apply text_eqb_eq; reflexivity. Qed.
Lemma text_eqb_neq a b : text_eqb a b = false <-> a <> b.
Proof. rewrite <- not_true_iff_false, text_eqb_eq; reflexivity. Qed.
Lemma text_eqb_sym a b : text_eqb a b = text_eqb b a.
Proof. apply eq_true_iff_eq; rewrite !text_eqb_eq; split; congruence. Qed.

Lemma oz_eqb_eq a b : oz_eqb a b = true <-> a = b.
Proof.
  destruct a as [x|], b as [y|]; cbn; rewrite ?Z.eqb_eq; split; try congruence; intros E; injection E; auto.
Qed.
Lemma oz_eqb_refl a : oz_eqb a a = true.
Proof. apply oz_eqb_eq; reflexivity. Qed.
Lemma oz_eqb_neq a b : oz_eqb a b = false <-> a <> b.
Proof. rewrite <- not_true_iff_false, oz_eqb_eq; reflexivity. Qed.

Lemma nonempty_true {A} (l : list A) : nonempty l = true <-> l <> [].
Proof. destruct l; cbn; split; congruence. Qed.
Lemma nonempty_false {A} (l : list A) : nonempty l = false <-> l = [].
Proof. destruct l; cbn; split; congruence. Qed.

Lemma get_Ok {A} (l : list A) i x : get l i = Ok x <-> nth_error l i = Some x.
Proof. unfold get; destruct (nth_error l i); split; congruence. Qed.
Lemma get_lt {A} (l : list A) i : (i < length l)%nat -> exists x, get l i = Ok x /\ nth_error l i = Some x.
Proof.
  intros H. unfold get. destruct (nth_error l i) eqn:E; eauto.
  apply nth_error_None in E; lia.
Qed.
Lemma get_ge {A} (l : list A) i : (length l <= i)%nat -> get l i = Raise IndexError.
Proof. intros H. unfold get. apply nth_error_None in H. rewrite H; reflexivity. Qed.

(* rmap *)
Lemma rmap_Ok {A B} (f : A -> res B) l r : rmap f l = Ok r <-> Forall2 (fun x y => f x = Ok y) l r.
Proof.
  revert r; induction l as [|x l IH]; intros r; cbn.
  - split; [intros E; injection E as <-; constructor | intros H; inversion H; reflexivity].
  - destruct (f x) as [y|e] eqn:E; cbn.
    + destruct (rmap f l) as [ys|e] eqn:E2; cbn.
      * split.
        -- intros H; injection H as <-. constructor; [exact E|]. apply IH; reflexivity.
        -- intros H; inversion H; subst.
           match goal with Hf : Forall2 _ l _ |- _ => apply IH in Hf; injection Hf as -> end. congruence.
      * split; [congruence|]. intros H; inversion H; subst.
        match goal with Hf : Forall2 _ l _ |- _ => apply IH in Hf; congruence end.
    + split; [congruence|]. intros H; inversion H; congruence.
Qed.
Lemma rmap_total {A B} (f : A -> res B) (g : A -> B) l : (forall x, In x l -> f x = Ok (g x)) -> rmap f l = Ok (map g l).
Proof.
  intros H. apply rmap_Ok. induction l as [|x l IH]; cbn; constructor.
  - apply H; left; reflexivity.
  - apply IH; intros y Hy; apply H; right; exact Hy.
Qed.
Lemma rmap_Raise {A B} (f : A -> res B) l e :
  rmap f l = Raise e ->
  exists l1 x l2, l = l1 ++ x :: l2 /\ f x = Raise e /\ (forall y, In y l1 -> exists v, f y = Ok v).
Proof.
  induction l as [|x l IH]; cbn; [congruence|].
  destruct (f x) as [y|e'] eqn:E; cbn.
  - destruct (rmap f l) as [ys|e'] eqn:E2; cbn; [congruence|]. intros H; injection H as ->.
    destruct (IH eq_refl) as (l1 & x' & l2 & -> & Hx & Hl).
    exists (x :: l1), x', l2. split; [reflexivity|]. split; [exact Hx|].
    intros z [<-|Hz]; eauto.
  - intros H; injection H as ->. exists [], x, l. repeat split; auto. intros ? [].
Qed.
Lemma rmap_is_ok {A B} (f : A -> res B) l :
  (exists r, rmap f l = Ok r) <-> (forall x, In x l -> exists y, f x = Ok y).
Proof.
  split.
  - intros [r H] x Hx. apply rmap_Ok in H. induction H; [destruct Hx|]. destruct Hx as [<-|Hx]; eauto.
  - induction l as [|x l IH]; intros H; cbn; [eauto|].
    destruct (H x (or_introl eq_refl)) as [y ->]. cbn.
    destruct IH as [r ->]; [intros z Hz; apply H; right; exact Hz|]. cbn; eauto.
Qed.
Lemma rmap_app {A B} (f : A -> res B) l1 l2 :
  rmap f (l1 ++ l2) = rbind (rmap f l1) (fun a => rbind (rmap f l2) (fun b => Ok (a ++ b))).
Proof.
  induction l1 as [|x l1 IH]; cbn; [destruct (rmap f l2); reflexivity|].
  destruct (f x); cbn; [|reflexivity]. rewrite IH. destruct (rmap f l1); cbn; [|reflexivity].
  destruct (rmap f l2); reflexivity.
Qed.
Lemma rmap_ext {A B} (f g : A -> res B) l : (forall x, In x l -> f x = g x) -> rmap f l = rmap g l.
Proof.
  induction l as [|x l IH]; cbn; intros H; [reflexivity|].
  rewrite (H x (or_introl eq_refl)). destruct (g x); cbn; [|reflexivity].
  rewrite IH; [reflexivity|]. intros y Hy; apply H; right; exact Hy.
Qed.
Lemma rmap_map {A B C} (h : A -> B) (f : B -> res C) l : rmap f (map h l) = rmap (fun x => f (h x)) l.
Proof. induction l as [|x l IH]; cbn; [reflexivity|]. destruct (f (h x)); cbn; [|reflexivity]. rewrite IH; reflexivity. Qed.

(* sort_by *)
Section Sort.
  Context {A : Type} (key : A -> Z).
  Lemma insert_by_perm x l : Permutation (insert_by key x l) (x :: l).
  Proof.
    induction l as [|y l IH]; cbn; [reflexivity|].
    destruct (key x <=? key y); [reflexivity|]. rewrite IH. apply perm_swap.
  Qed.
  Lemma sort_by_perm l : Permutation (sort_by key l) l.
  Proof. induction l as [|x l IH]; cbn; [reflexivity|]. rewrite insert_by_perm, IH; reflexivity. Qed.
  Lemma insert_by_sorted x l :
    StronglySorted (fun a b => key a <= key b) l -> StronglySorted (fun a b => key a <= key b) (insert_by key x l).
  Proof.
    induction 1 as [|y l Hs IH Hy]; cbn; [repeat constructor|].
    destruct (key x <=? key y) eqn:E.
    - constructor; [constructor; assumption|]. constructor; [lia|].
      eapply Forall_impl; [|exact Hy]. cbn; intros; lia.
    - constructor; [exact IH|].
      eapply Permutation_Forall; [symmetry; apply insert_by_perm|]. constructor; [lia|exact Hy].
  Qed.
  Lemma sort_by_sorted l : StronglySorted (fun a b => key a <= key b) (sort_by key l).
  Proof. induction l as [|x l IH]; cbn; [constructor|]. apply insert_by_sorted; exact IH. Qed.
  Lemma insert_by_min x l : Forall (fun y => key x <= key y) l -> insert_by key x l = x :: l.
  Proof. destruct 1 as [|y l Hy _]; cbn; [reflexivity|]. destruct (Z.leb_spec (key x) (key y)); [reflexivity|lia]. Qed.
  Lemma sort_by_id l : StronglySorted (fun a b => key a <= key b) l -> sort_by key l = l.
  Proof. induction 1 as [|x l Hs IH Hx]; cbn; [reflexivity|]. rewrite IH. apply insert_by_min; exact Hx. Qed.
End Sort.
(* a list without equal keys sorts to the same result from any order *)
Lemma sorted_unique {A} (key : A -> Z) l1 l2 :
  StronglySorted (fun a b => key a <= key b) l1 -> StronglySorted (fun a b => key a <= key b) l2 ->
  Permutation l1 l2 -> NoDup (map key l1) -> l1 = l2.
Proof.
  revert l2; induction l1 as [|x l1 IH]; intros l2 S1 S2 P N.
  - apply Permutation_nil in P; congruence.
  - destruct l2 as [|y l2]; [symmetry in P; apply Permutation_nil in P; congruence|].
    inversion S1 as [|? ? S1' F1]; subst. inversion S2 as [|? ? S2' F2]; subst.
    inversion N as [|? ? Nx N']; subst.
    assert (E : x = y).
    { assert (Hx : In x (y :: l2)) by (eapply Permutation_in; [exact P|left; reflexivity]).
      assert (Hy : In y (x :: l1)) by (eapply Permutation_in; [symmetry; exact P|left; reflexivity]).
      destruct Hx as [->|Hx]; [reflexivity|]. destruct Hy as [->|Hy]; [reflexivity|].
      rewrite Forall_forall in F1, F2. specialize (F1 y Hy). specialize (F2 x Hx).
      exfalso; apply Nx. apply in_map_iff. exists y; split; [lia|exact Hy]. }
    subst y. f_equal. apply IH; try assumption. eapply Permutation_cons_inv; exact P.
Qed.
Lemma sort_by_unique {A} (key : A -> Z) l1 l2 :
  Permutation l1 l2 -> NoDup (map key l1) -> sort_by key l1 = sort_by key l2.
Proof.
  intros P N. apply (sorted_unique key); try apply sort_by_sorted.
  - rewrite !sort_by_perm; exact P.
  - eapply Permutation_NoDup; [|exact N]. apply Permutation_map. symmetry; apply sort_by_perm.
Qed.
Lemma sort_by_map {A B} (key : B -> Z) (h : A -> B) l :
  sort_by key (map h l) = map h (sort_by (fun x => key (h x)) l).
Proof.
  induction l as [|x l IH]; cbn; [reflexivity|]. rewrite IH. clear IH.
  induction (sort_by (fun x0 => key (h x0)) l) as [|y t IH]; cbn; [reflexivity|].
  destruct (key (h x) <=? key (h y)); cbn; [reflexivity|]. rewrite IH; reflexivity.
Qed.

(* dict *)
Section DictFacts.
  Context {K V : Type} (eqb : K -> K -> bool).
  Hypothesis eqb_refl : forall a, eqb a a = true.
  Hypothesis eqb_sym : forall a b, eqb a b = eqb b a.
  Hypothesis eqb_trans : forall a b c, eqb a b = true -> eqb b c = true -> eqb a c = true.
  Lemma dict_eqb_congr a b c : eqb a b = true -> eqb a c = eqb b c.
  Proof.
    intros H. apply eq_true_iff_eq; split; intros E.
    - eapply eqb_trans; [|exact E]. rewrite eqb_sym; exact H.
    - eapply eqb_trans; eassumption.
  Qed.
  Lemma dict_get_set (d : list (K * V)) k v k' :
    dict_get eqb (dict_set eqb d k v) k' = if eqb k k' then Some v else dict_get eqb d k'.
  Proof.
    induction d as [|[k0 v0] d IH]; cbn; [reflexivity|].
    destruct (eqb k0 k) eqn:E; cbn.
    - rewrite (dict_eqb_congr k0 k k' E). destruct (eqb k k'); reflexivity.
    - rewrite IH. destruct (eqb k0 k') eqn:E2; [|reflexivity].
      destruct (eqb k k') eqn:E3; [|reflexivity].
      assert (eqb k0 k = true) by (eapply eqb_trans; [exact E2|rewrite eqb_sym; exact E3]). congruence.
  Qed.
  Lemma dict_mem_set (d : list (K * V)) k v k' :
    dict_mem eqb (dict_set eqb d k v) k' = eqb k k' || dict_mem eqb d k'.
  Proof. unfold dict_mem. rewrite dict_get_set. destruct (eqb k k'); reflexivity. Qed.
  Lemma dict_set_new (d : list (K * V)) k v : dict_get eqb d k = None -> dict_set eqb d k v = d ++ [(k, v)].
  Proof.
    induction d as [|[k0 v0] d IH]; cbn; [reflexivity|]. destruct (eqb k0 k); [congruence|].
    intros H; rewrite IH; auto.
  Qed.
  Lemma dict_get_In (d : list (K * V)) k v : dict_get eqb d k = Some v -> exists k', In (k', v) d /\ eqb k' k = true.
  Proof.
    induction d as [|[k0 v0] d IH]; cbn; [congruence|]. destruct (eqb k0 k) eqn:E.
    - intros H; injection H as ->. eauto.
    - intros H; destruct (IH H) as (k' & ? & ?); eauto.
  Qed.
End DictFacts.

(* slices *)
Lemma zlen_nonneg {A} (l : list A) : 0 <= zlen l.
Proof. unfold zlen; lia. Qed.
Lemma zlen_app {A} (a b : list A) : zlen (a ++ b) = zlen a + zlen b.
Proof. unfold zlen; rewrite app_length; lia. Qed.
Lemma zlen_cons {A} (a : A) (b : list A) : zlen (a :: b) = zlen b + 1.
Proof. unfold zlen; cbn [length]; lia. Qed.
Lemma zlen_map {A B} (f : A -> B) l : zlen (map f l) = zlen l.
Proof. unfold zlen; rewrite map_length; reflexivity. Qed.

Lemma fold_left_app_acc {A B} (f : A -> list B) l acc :
  fold_left (fun a x => a ++ f x) l acc = acc ++ List.concat (map f l).
Proof.
  revert acc; induction l as [|x l IH]; cbn; intros acc; [rewrite app_nil_r; reflexivity|].
  rewrite IH, app_assoc; reflexivity.
Qed.
Lemma Forall2_length {A B} (R : A -> B -> Prop) l1 l2 : Forall2 R l1 l2 -> length l1 = length l2.
Proof. induction 1; cbn; congruence. Qed.
Lemma Forall2_map_r {A B C} (R : A -> C -> Prop) (f : B -> C) l1 l2 :
  Forall2 (fun a b => R a (f b)) l1 l2 <-> Forall2 R l1 (map f l2).
Proof.
  split.
  - induction 1; cbn; constructor; auto.
  - revert l1; induction l2 as [|b l2 IH]; intros l1 H; inversion H; subst; constructor; auto.
Qed.
Lemma NoDup_filter {A} (f : A -> bool) l : NoDup l -> NoDup (filter f l).
Proof.
  induction 1 as [|x l Hx N IH]; cbn; [constructor|]. destruct (f x); [|exact IH].
  constructor; [|exact IH]. intros H; apply filter_In in H; tauto.
Qed.
Lemma Permutation_filter {A} (f : A -> bool) l1 l2 : Permutation l1 l2 -> Permutation (filter f l1) (filter f l2).
Proof.
  induction 1 as [|x l1 l2 P IH|x y l|l1 l2 l3 P1 IH1 P2 IH2]; cbn; try reflexivity.
  - destruct (f x); [apply perm_skip|]; exact IH.
  - destruct (f x), (f y); try reflexivity. apply perm_swap.
  - etransitivity; eassumption.
Qed.
Lemma Forall2_imp {A B} (R S : A -> B -> Prop) a b : (forall x y, R x y -> S x y) -> Forall2 R a b -> Forall2 S a b.
Proof. intros H F; induction F; constructor; auto. Qed.
Lemma forallb_filter_all {A} (P : A -> bool) l : (forall x, In x l -> P x = true) -> filter P l = l.
Proof. induction l as [|x l IH]; intros H; cbn; [reflexivity|]. rewrite (H x) by (left; reflexivity). f_equal. apply IH. intros; apply H; right; assumption. Qed.
