(* For examples: port activity in which every answer is read in one piece, or not at all, checked against an adapter with a low power mode and a car. *)
From Coq Require Import ZArith List Bool Lia String.
From Verif Require Import Py World Elm SpecElm PyFacts ElmFacts ElmThms SpecAdapter SpecAdapter2 SpecSleep AdapterThms AdapterCheck.
Import ListNotations.
Open Scope Z_scope.

Definition told_c (a : adapter) (l : bytes) : bool := text_eqb (plain l) sleep_line || text_eqb (plain l) [] && text_eqb (plain (ad_last a)) sleep_line.
Lemma told_iff a l : told_c a l = true <-> told_to_sleep a l.
Proof. unfold told_c, told_to_sleep. rewrite orb_true_iff, andb_true_iff, !text_eqb_iff. reflexivity. Qed.
Definition acknowledged_c (out : bytes) : bool := text_eqb out (str "OK") || text_eqb out (str "OK" ++ [13; 13]) || text_eqb out (str "OK" ++ [13; 13; PROMPT]) || text_eqb out (str "OK" ++ [13; PROMPT]).
Lemma acknowledged_c_ok out : acknowledged_c out = true -> acknowledged out.
Proof.
  unfold acknowledged_c. rewrite !orb_true_iff, !text_eqb_iff. intros [[[-> | ->] | ->] | ->].
  - exists [], []. split; [constructor|]. split; [constructor|]. left. reflexivity.
  - exists [], [13; 13]. split; [constructor|]. split; [repeat (constructor; [right; reflexivity|]); constructor|]. left. reflexivity.
  - exists [], [13; 13]. split; [constructor|]. split; [repeat (constructor; [right; reflexivity|]); constructor|]. right. reflexivity.
  - exists [], [13]. split; [constructor|]. split; [repeat (constructor; [right; reflexivity|]); constructor|]. right. reflexivity.
Qed.
Section Car.
  Context {Car : Type} (f : Car -> option text -> text -> list text * Car) (wk : adapter -> adapter) (unread : bytes).
  Definition zstep_c (b : bool) (a : adapter) (s : Car) (l o : bytes) : option (bool * adapter * Car) :=
    if b then Some (false, wk a, s)
    else if negb (last l 0 =? CR) || text_eqb l [] then None
    else if told_c a (removelast l) then if ad_echo a || acknowledged_c o then Some (true, if text_eqb (plain (removelast l)) [] then a else remember_line (removelast l) a, s) else None
    else if (last o 0 =? PROMPT) && negb (existsb (Z.eqb PROMPT) (removelast o)) && negb (text_eqb o []) then
      match obeys_c f a s (removelast l) (clean o) with Some (a', s') => Some (false, a', s') | None => None end
    else None.
  Fixpoint zfollows_c (b : bool) (a : adapter) (s : Car) (t : list event) : option (bool * adapter * Car) :=
    match t with
    | [] => Some (b, a, s)
    | EvOpen _ true :: t | EvBaud _ :: t | EvTimeout _ :: t => zfollows_c b a s t
    | EvWrite l :: t =>
        match t with
        | EvRead (Some o) :: t => if text_eqb o [] then None else match zstep_c b a s l o with Some (b', a', s') => match t with EvRead (Some []) :: t => zfollows_c b' a' s' t | _ => zfollows_c b' a' s' t end | None => None end
        | _ => match zstep_c b a s l unread with Some (b', a', s') => zfollows_c b' a' s' t | None => None end
        end
    | _ => None
    end.
  Notation zm := (zmoves (answers f) (fun a a' => a' = wk a)). Notation zf := (zfollows (answers f) (fun a a' => a' = wk a)).
  Lemma zstep_ok b a s l o b' a' s' p : zstep_c b a s l o = Some (b', a', s') -> zm (b, (a, s, p)) (EvWrite l) (b', (a', s', o)).
  Proof.
    unfold zstep_c. destruct b; [intros H; injection H as <- <- <-; constructor; reflexivity|].
    destruct (negb (last l 0 =? CR) || text_eqb l []) eqn:E1; [discriminate|]. apply orb_false_iff in E1 as [E1 E2]. apply negb_false_iff, Z.eqb_eq in E1.
    assert (Nl : l <> []) by (intros ->; discriminate E2). pose proof (last_split l CR E1 Nl) as El.
    destruct (told_c a (removelast l)) eqn:T.
    - destruct (ad_echo a || acknowledged_c o) eqn:A; [|discriminate]. intros H. injection H as <- <- <-. rewrite El at 1. apply z_sleep; [apply told_iff, T|]. intros E. rewrite E in A. apply acknowledged_c_ok, A.
    - destruct (_ && _) eqn:C; [|discriminate]. apply andb_true_iff in C as [C C3]. apply andb_true_iff in C as [C1 C2]. destruct (obeys_c f a s (removelast l) (clean o)) as [[a1 s1]|] eqn:O; [|discriminate].
      intros H. injection H as <- <- <-. assert (No : o <> []) by (intros ->; discriminate). apply Z.eqb_eq in C1. pose proof (last_split o PROMPT C1 No) as Eo.
      assert (Np : ~ In PROMPT (removelast o)).
      { intros I. assert (X : existsb (Z.eqb PROMPT) (removelast o) = true) by (apply existsb_exists; exists PROMPT; split; [exact I|apply Z.eqb_refl]). rewrite X in *. discriminate. }
      apply z_awake.
      + rewrite El, Eo. apply mv_write with (lines := clean o).
        * unfold obeys_c in O. unfold obeys. destruct (understand (removelast l)) eqn:U; apply does_c_ok in O; apply O.
        * split; [exact Np|]. exists []. rewrite <- Eo. split; [apply clean_lines|reflexivity].
      + intros fl l0 X Y. assert (l0 = removelast l) by (injection X as _ X; rewrite El in X; apply app_inj_tail in X as [X _]; auto). subst l0. apply told_iff in Y. congruence.
  Qed.
  Lemma zfollows_c_ok n : forall t b a s p b' a' s', (length t <= n)%nat -> zfollows_c b a s t = Some (b', a', s') -> exists p', zf (b, (a, s, p)) t (b', (a', s', p')).
  Proof.
    assert (NW : forall b a s p ev y, moves (answers f) (a, s, p) ev y -> ~ is_write ev -> zm (b, (a, s, p)) ev (b, y)).
    { intros b a s p ev y M W. destruct b; [apply z_asleep; assumption|apply z_awake; [exact M|]]. intros fl l ->. contradiction W. exact Logic.I. }
    induction n as [|n IH]; intros t b a s p b' a' s' L H; (destruct t as [|ev t]; [injection H as <- <- <-; exists p; constructor|]); [cbn in L; lia|]. cbn [length] in L.
    destruct ev as [nm ok|[|] l|r| |bd|ti|]; cbn [zfollows_c] in H; try discriminate H.
    - destruct ok; [|discriminate H]. destruct (IH t b a s [] _ _ _ ltac:(lia) H) as (p' & F). exists p'. econstructor; [apply NW; [constructor|exact (fun X => X)]|exact F].
    - assert (Un : match zstep_c b a s l unread with Some (b', a', s') => zfollows_c b' a' s' t | None => None end = Some (b', a', s') -> exists p', zf (b, (a, s, p)) (EvWrite l :: t) (b', (a', s', p'))).
      { intros X. destruct (zstep_c b a s l unread) as [[[b1 a1] s1]|] eqn:Z; [|discriminate X]. destruct (IH t b1 a1 s1 unread _ _ _ ltac:(lia) X) as (p' & F). exists p'. econstructor; [apply zstep_ok, Z|exact F]. }
      destruct t as [|[ | |[o|]| | | | ] t]; try (apply Un; exact H). cbn [length] in L.
      destruct (text_eqb o []) eqn:Eo; [discriminate H|]. assert (No : o <> []) by (intros ->; discriminate Eo).
      destruct (zstep_c b a s l o) as [[[b1 a1] s1]|] eqn:Z; [|discriminate H]. assert (F : exists p', zf (b1, (a1, s1, [])) t (b', (a', s', p'))).
      { destruct t as [|[ | |[[|]|]| | | | ] t]; try (refine (IH _ b1 a1 s1 [] _ _ _ _ H); cbn [length] in *; lia). cbn [length] in L. destruct (IH t b1 a1 s1 [] _ _ _ ltac:(lia) H) as (p' & F). exists p'.
        econstructor; [apply NW; [constructor|exact (fun X => X)]|exact F]. }
      destruct F as (p' & F). exists p'. econstructor; [apply zstep_ok, Z|]. econstructor; [|exact F]. apply NW; [|exact (fun X => X)]. rewrite <- (app_nil_r o) at 1. apply mv_read. exact No.
    - destruct (IH t b a s p _ _ _ ltac:(lia) H) as (p' & F). exists p'. econstructor; [apply NW; [constructor|exact (fun X => X)]|exact F].
    - destruct (IH t b a s p _ _ _ ltac:(lia) H) as (p' & F). exists p'. econstructor; [apply NW; [constructor|exact (fun X => X)]|exact F].
  Qed.
  Lemma zfollows_check b a s p t b' a' s' : zfollows_c b a s t = Some (b', a', s') -> exists p', zf (b, (a, s, p)) t (b', (a', s', p')).
  Proof. apply (zfollows_c_ok (length t)). lia. Qed.
End Car.
