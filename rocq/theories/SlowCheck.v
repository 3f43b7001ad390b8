(* For examples: port activity checked against a slow adapter and a car; outs tells, for each line written, how many of the unread bytes arrive late, and what is printed. *)
From Coq Require Import ZArith List Bool Lia String.
From Verif Require Import Py World Elm SpecElm PyFacts ElmFacts ElmThms SpecAdapter SpecAdapter2 SpecSlow AdapterCheck AdapterThms Properties_Elm.
Import ListNotations.
Open Scope Z_scope.

Section Car.
  Context {Car : Type} (f : Car -> option text -> text -> list text * Car) (on_time : bool).
  Definition keep (n : nat) (p : bytes) : bytes := skipn (List.length p - n) p.
  Fixpoint slow_c (a : adapter) (s : Car) (pend : bytes) (outs : list (nat * bytes)) (t : list event) : option (adapter * Car * bytes * list (nat * bytes)) :=
    match t with
    | [] => Some (a, s, pend, outs)
    | EvOpen _ true :: t => slow_c a s [] outs t
    | EvBaud _ :: t | EvTimeout _ :: t => slow_c a s pend outs t
    | EvWrite l :: t =>
        match outs with
        | (n, out) :: outs =>
            if (last l 0 =? CR) && negb (text_eqb l []) && negb (existsb (Z.eqb PROMPT) out) && (negb on_time || Nat.eqb n 0) then
              match obeys_c f a s (removelast l) (clean (out ++ [PROMPT])) with Some (a', s') => slow_c a' s' (keep n pend ++ out ++ [PROMPT]) outs t | None => None end
            else None
        | [] => None
        end
    | EvRead (Some []) :: t => slow_c a s pend outs t
    | EvRead (Some x) :: t => match behind x pend with Some rest => slow_c a s rest outs t | None => None end
    | _ => None
    end.
  Lemma behind_app x : forall p rest, behind x p = Some rest -> p = x ++ rest.
  Proof.
    induction x as [|c x IH]; intros p rest H; [injection H as <-; reflexivity|]. destruct p as [|d p]; [discriminate H|]. cbn [behind] in H. destruct (c =? d) eqn:E; [|discriminate H].
    apply Z.eqb_eq in E. subst d. cbn [app]. f_equal. apply IH, H.
  Qed.
  Lemma keep_zero p : keep 0 p = [].
  Proof. unfold keep. rewrite Nat.sub_0_r. apply skipn_all. Qed.
  Lemma slow_check t : forall a s pend outs a' s' p' outs', slow_c a s pend outs t = Some (a', s', p', outs') -> slow_follows (answers f) on_time (a, s, pend) t (a', s', p').
  Proof.
    induction t as [|ev t IH]; intros a s pend outs a' s' p' outs' H; cbn [slow_c] in H; [injection H as <- <- <- <-; constructor|].
    destruct ev as [nm o|[|] l|r| |bd|ti|]; try discriminate H.
    - destruct o; [|discriminate H]. econstructor; [constructor|]. eapply IH, H.
    - destruct outs as [|[n out] outs]; [discriminate H|]. destruct (_ && _) eqn:C in H; [|discriminate H]. repeat (apply andb_true_iff in C as [C ?]).
      destruct (obeys_c f a s (removelast l) (clean (out ++ [PROMPT]))) as [[a1 s1]|] eqn:O; [|discriminate H].
      assert (Nl : l <> []) by (intros ->; discriminate). apply Z.eqb_eq in C. pose proof (last_split l CR C Nl) as El.
      assert (Np : ~ In PROMPT out).
      { intros I. assert (X : existsb (Z.eqb PROMPT) out = true) by (apply existsb_exists; exists PROMPT; split; [exact I|apply Z.eqb_refl]). rewrite X in *. discriminate. }
      apply sf_cons with (y := (a1, s1, keep n pend ++ out ++ [PROMPT])); [|eapply IH, H]. rewrite El. rewrite <- (firstn_skipn (List.length pend - n) pend) at 1. fold (keep n pend). apply sl_write with (lines := clean (out ++ [PROMPT])).
      + unfold obeys_c in O. unfold obeys. destruct (understand (removelast l)) eqn:U; apply does_c_ok in O; apply O.
      + split; [exact Np|]. exists []. split; [apply clean_lines|reflexivity].
      + intros E. rewrite E in *. cbn [negb orb] in *. assert (n = 0%nat) by (apply Nat.eqb_eq; assumption). subst n. apply keep_zero.
    - destruct r as [[|c x]|]; [| |discriminate H].
      + econstructor; [apply sl_idle|]. eapply IH, H.
      + destruct (behind (c :: x) pend) as [rest|] eqn:B; [|discriminate H]. apply behind_app in B. subst pend. econstructor; [apply sl_read; discriminate|]. eapply IH, H.
    - econstructor; [constructor|]. eapply IH, H.
    - econstructor; [constructor|]. eapply IH, H.
  Qed.
End Car.

(* every header set is acknowledged at once *)
Definition sets_header (l : bytes) : bool := match behind (str "AT SH ") l with Some _ => true | None => false end.
Fixpoint acks_c (t : list event) : bool :=
  match t with
  | [] => true
  | EvWrite l :: rest => (if sets_header l then match rest with EvRead (Some x) :: _ => existsb (Z.eqb PROMPT) x && lines_eqb (clean x) [str "OK"] | _ => false end else true) && acks_c rest
  | _ :: rest => acks_c rest
  end.
Lemma acks_tail t1 : forall t2, acks_c (t1 ++ t2) = true -> acks_c t2 = true.
Proof. induction t1 as [|ev t1 IH]; intros t2 H; [exact H|]. apply IH. destruct ev as [| [|] | | | | |]; cbn [app acks_c] in H; try exact H. apply andb_true_iff in H. apply H. Qed.
Lemma first_read rs bs x rest : attempt [PROMPT] rs bs -> (exists more, map EvRead rs ++ rest = EvRead (Some x) :: more) -> In PROMPT x -> rs = [Some x] /\ bs = x.
Proof.
  intros A (more & E) Ip. assert (Nx : x <> []) by (intros ->; destruct Ip).
  destruct A as [chunks last Q N M|chunks Q]; (destruct chunks as [|c chunks]; cbn [map app] in E; injection E as E _).
  - subst last. cbn. rewrite app_nil_r. auto.
  - exfalso. subst c. apply (proj2 Q). apply holds_prompt. cbn [concat]. apply in_or_app. auto.
  - subst x. contradiction.
  - exfalso. subst c. apply (proj2 Q). apply holds_prompt. cbn [concat]. apply in_or_app. auto.
Qed.
Lemma acks_check t : acks_c t = true -> acknowledged t.
Proof.
  intros H t1 t2 t3 hd lines -> (n & rs & -> & Hd & _). apply acks_tail in H. cbn [app acks_c] in H. apply andb_true_iff in H as [H _].
  assert (Sh : sets_header ((str "AT SH " ++ hd ++ str " ") ++ [CR]) = true) by (unfold sets_header; rewrite <- app_assoc; generalize ((hd ++ str " ") ++ [CR]); intros u; reflexivity).
  rewrite Sh in H. destruct (map EvRead rs ++ t3) as [|[nm o|l|[x|]| |bd|ti|] more] eqn:E; try discriminate H.
  apply andb_true_iff in H as [H1 H2]. apply lines_eqb_eq in H2. assert (Ip : In PROMPT x) by (apply existsb_exists in H1; destruct H1 as (y & I & Y); apply Z.eqb_eq in Y; subst y; exact I).
  destruct Hd as [rs bs lines A L|rs bs m rest lines A L Hd].
  - destruct (first_read _ _ x t3 A (ex_intro _ _ E) Ip) as (_ & ->). rewrite <- H2. exact (C34_lines_determined _ _ _ L (clean_lines x)).
  - exfalso. rewrite map_app, <- app_assoc in E. destruct (first_read _ _ x _ A (ex_intro _ _ E) Ip) as (_ & ->). pose proof (C34_lines_determined _ _ _ L (clean_lines x)) as X. rewrite H2 in X. discriminate X.
Qed.
