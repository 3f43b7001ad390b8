(* Reading concrete lines, for the examples beside the theorems *)
From Coq Require Import ZArith List Bool Lia String Permutation.
From Verif Require Import Py Utils SpecWire WireFacts.
Import ListNotations.
Open Scope Z_scope.
Fixpoint read_digits (l : text) : option (list Z) :=
  match l with
  | [] => Some []
  | c :: t => if c =? 32 then read_digits t
              else match hexval c, read_digits t with Some d, Some ds => Some (d :: ds) | _, _ => None end
  end.
Lemma read_digits_shows l : forall ds, read_digits l = Some ds -> shows l ds.
Proof.
  induction l as [|c l IH]; intros ds H; cbn in H; [injection H as <-; constructor|].
  destruct (Z.eqb_spec c 32) as [->|N]; [constructor; auto|].
  destruct (hexval c) as [d|] eqn:E; [|discriminate]. destruct (read_digits l) as [ds'|]; [|discriminate]. injection H as <-.
  constructor; [|auto]. unfold hexval in E. unfold digit_char.
  repeat match type of E with context [if ?b then _ else _] => destruct b eqn:? end; try discriminate; injection E as <-; lia.
Qed.
Ltac show := apply read_digits_shows; vm_compute; reflexivity.
Ltac bytes_ok := repeat first [apply Forall_nil | apply Forall_cons]; (split; vm_compute; congruence).
(* decidable permutation of short lists of numbers, for examples *)
Definition perm_nat (a b : list nat) : bool :=
  forallb (fun x => Nat.eqb (count_occ Nat.eq_dec a x) (count_occ Nat.eq_dec b x)) (a ++ b).
Lemma perm_nat_ok a b : perm_nat a b = true -> Permutation a b.
Proof.
  intros H. apply (Permutation_count_occ Nat.eq_dec). intros x. unfold perm_nat in H. rewrite forallb_forall in H.
  destruct (in_dec Nat.eq_dec x (a ++ b)) as [I|I]; [apply Nat.eqb_eq, H, I|].
  assert (Ia : ~ In x a) by (intros ?; apply I; apply in_or_app; auto). assert (Ib : ~ In x b) by (intros ?; apply I; apply in_or_app; auto).
  apply (count_occ_not_In Nat.eq_dec) in Ia, Ib. congruence.
Qed.
