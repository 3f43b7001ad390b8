(* For examples: port activity in which every answer is read in one piece, checked against an adapter and a car. *)
From Coq Require Import ZArith List Bool Lia String.
From Verif Require Import Py World Elm SpecElm PyFacts ElmFacts ElmThms SpecAdapter SpecAdapter2.
Import ListNotations.
Open Scope Z_scope.

Definition lines_eqb (a b : list text) : bool := Nat.eqb (length a) (length b) && forallb (fun p => text_eqb (fst p) (snd p)) (combine a b).
Lemma lines_eqb_eq a : forall b, lines_eqb a b = true -> a = b.
Proof.
  induction a as [|x a IH]; intros [|y b] H; try discriminate H; [reflexivity|]. unfold lines_eqb in H. cbn in H. apply andb_true_iff in H as [H1 H]. apply andb_true_iff in H as [H2 H].
  apply text_eqb_iff in H2. subst y. f_equal. apply IH. unfold lines_eqb. rewrite H1, H. reflexivity.
Qed.
Section Car.
  Context {Car : Type} (f : Car -> option text -> text -> list text * Car).
  Definition does_c (a : adapter) (s : Car) (l : bytes) (lines : list text) : option (adapter * Car) :=
    match understand l with
    | KReset => Some (mkAdapter true false None l, s)
    | KEcho0 => if lines_eqb lines [str "OK"] then Some (mkAdapter false (ad_headers a) (ad_header a) l, s) else None
    | KHeaders1 => if lines_eqb lines [str "OK"] then Some (mkAdapter (ad_echo a) true (ad_header a) l, s) else None
    | KLinefeeds0 => if lines_eqb lines [str "OK"] then Some (remember_line l a, s) else None
    | KHeader h => if lines_eqb lines [str "OK"] then Some (mkAdapter (ad_echo a) (ad_headers a) (Some h) l, s) else None
    | KHarmless => Some (remember_line l a, s)
    | KRequest req => let (full, s') := f s (ad_header a) req in if negb (ad_headers a) || lines_eqb lines full then Some (remember_line l a, s') else None
    | KCounted req n => let (full, s') := f s (ad_header a) req in if lines_eqb lines (firstn (Z.to_nat n) full) then Some (remember_line l a, s') else None
    | _ => None
    end.
  Lemma does_c_ok a s l lines a' s' : does_c a s l lines = Some (a', s') -> does (answers f) a s l lines a' s' /\ understand l <> KBlank.
  Proof.
    unfold does_c, does. destruct (understand l) eqn:U; intros H; try discriminate H; (split; [|discriminate]);
      try (destruct (lines_eqb lines [str "OK"]) eqn:E; [|discriminate H]; apply lines_eqb_eq in E); try (injection H as <- <-; auto).
    - destruct (f s (ad_header a) req) as [full s1] eqn:F. destruct (negb (ad_headers a) || lines_eqb lines full) eqn:E; [|discriminate H]. injection H as <- <-. exists full. split; [exact F|]. split; [|reflexivity]. intros X. rewrite X in E. apply lines_eqb_eq, E.
    - destruct (f s (ad_header a) req) as [full s1] eqn:F. destruct (lines_eqb lines (firstn (Z.to_nat n) full)) eqn:E; [|discriminate H]. apply lines_eqb_eq in E. injection H as <- <-. exists full. split; [exact F|]. auto.
  Qed.
  Definition obeys_c a s l lines := match understand l with KBlank => does_c a s (ad_last a) lines | _ => does_c a s l lines end.
  Fixpoint follows_c (a : adapter) (s : Car) (t : list event) : option (adapter * Car) :=
    match t with
    | [] => Some (a, s)
    | EvOpen _ true :: t | EvBaud _ :: t | EvTimeout _ :: t => follows_c a s t
    | EvWrite l :: EvRead (Some o) :: t =>
        if (last l 0 =? CR) && (last o 0 =? PROMPT) && negb (existsb (Z.eqb PROMPT) (removelast o)) && negb (text_eqb l []) && negb (text_eqb o []) then
          match obeys_c a s (removelast l) (clean o) with Some (a', s') => follows_c a' s' t | None => None end
        else None
    | _ => None
    end.
  Lemma last_split (l : bytes) x : last l 0 = x -> l <> [] -> l = removelast l ++ [x].
  Proof. intros <- N. apply app_removelast_last, N. Qed.
  Lemma follows_c_ok n : forall t a s a' s', (length t <= n)%nat -> follows_c a s t = Some (a', s') -> follows (answers f) (a, s, []) t (a', s', []).
  Proof.
    induction n as [|n IH]; intros t a s a' s' L H; (destruct t as [|ev t]; [injection H as <- <-; constructor|]); [cbn in L; lia|]. cbn [length] in L.
    destruct ev as [nm b|[|] l|r| |b|ti|]; cbn [follows_c] in H; try discriminate H.
    - destruct b; [|discriminate H]. econstructor; [constructor|]. apply IH; [lia|exact H].
    - destruct t as [|[ | |[o|]| | | | ] t]; try discriminate H. destruct (_ && _) eqn:C in H; [|discriminate H]. repeat (apply andb_true_iff in C as [C ?]).
      destruct (obeys_c a s (removelast l) (clean o)) as [[a1 s1]|] eqn:O; [|discriminate H]. cbn [length] in L.
      assert (Nl : l <> []) by (intros ->; discriminate). assert (No : o <> []) by (intros ->; discriminate).
      apply Z.eqb_eq in C. assert (Eo : last o 0 = PROMPT) by (apply Z.eqb_eq; assumption).
      pose proof (last_split l CR C Nl) as El. pose proof (last_split o PROMPT Eo No) as Eo2.
      assert (Np : ~ In PROMPT (removelast o)).
      { intros I. assert (X : existsb (Z.eqb PROMPT) (removelast o) = true) by (apply existsb_exists; exists PROMPT; split; [exact I|apply Z.eqb_refl]). rewrite X in *. discriminate. }
      apply fo_cons with (y := (a1, s1, o)).
      + rewrite El, Eo2. apply mv_write with (lines := clean o).
        * unfold obeys_c in O. unfold obeys. destruct (understand (removelast l)) eqn:U; apply does_c_ok in O; apply O.
        * split; [exact Np|]. exists []. rewrite <- Eo2. split; [apply clean_lines|reflexivity].
      + apply fo_cons with (y := (a1, s1, [])); [|apply IH; [lia|exact H]]. replace o with (o ++ []) at 1 by apply app_nil_r. apply mv_read. exact No.
    - econstructor; [constructor|]. apply IH; [lia|exact H].
    - econstructor; [constructor|]. apply IH; [lia|exact H].
  Qed.
  Lemma follows_check a s t a' s' : follows_c a s t = Some (a', s') -> follows (answers f) (a, s, []) t (a', s', []).
  Proof. apply (follows_c_ok (length t)). lia. Qed.
End Car.
