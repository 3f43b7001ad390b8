(* Proofs about SpecAdapter: exchanges with an adapter. *)
From Coq Require Import ZArith List Bool Lia String.
From Verif Require Import Py Num Utils Protocol Decoders Command CommandTable Commands World Elm Obd SpecElm SpecObd SpecE2E SpecAdapter
  PyFacts ElmFacts ElmThms ObdFacts ObdThms ObdThms2 ObdThms4 ObdThms5 Properties_Elm.
Import ListNotations.
Open Scope string_scope. Open Scope list_scope. Open Scope Z_scope.

Section Car.
  Context {Car : Type} (ask : Car -> option text -> text -> list text -> Car -> Prop).
  Notation follows := (follows ask). Notation obeys := (obeys ask). Notation moves := (moves ask). Notation does := (does ask).
  Lemma follows_app t1 t2 x z : follows x (t1 ++ t2) z <-> exists y, follows x t1 y /\ follows y t2 z.
  Proof.
    revert x. induction t1 as [|ev t1 IH]; intros x; cbn [app].
    - split; [intros H; exists x; split; [constructor|exact H]|intros (y & H1 & H2); inversion H1; subst; exact H2].
    - split.
      + intros H. inversion H; subst. apply IH in H5. destruct H5 as (u & A & B). exists u. split; [econstructor; eassumption|exact B].
      + intros (u & A & B). inversion A; subst. econstructor; [eassumption|]. apply IH. eauto.
  Qed.
  Lemma move_read a s pend x y : x <> [] -> moves (a, s, pend) (EvRead (Some x)) y -> exists rest, pend = x ++ rest /\ y = (a, s, rest).
  Proof. intros N H. inversion H; subst; [eauto|contradiction]. Qed.
  Lemma move_idle a s pend y : moves (a, s, pend) (EvRead (Some [])) y -> pend = [] /\ y = (a, s, []).
  Proof. intros H. inversion H; subst; [contradiction|auto]. Qed.
  Lemma follow_chunks chunks : Forall (fun c => c <> []) chunks -> forall a s pend y, follows (a, s, pend) (map EvRead (map Some chunks)) y ->
    exists rest, pend = concat chunks ++ rest /\ y = (a, s, rest).
  Proof.
    induction 1 as [|x l N F IH]; intros a s pend y H; cbn [map] in H.
    - inversion H; subst. exists pend. auto.
    - inversion H; subst. apply (move_read _ _ _ _ _ N) in H3. destruct H3 as (rest & -> & ->). apply IH in H5. destruct H5 as (r & -> & ->).
      exists r. cbn [concat]. rewrite <- app_assoc. auto.
  Qed.
  Lemma holds_prompt s : holds [PROMPT] s <-> In PROMPT s.
  Proof. split; [intros (a & b & ->); apply in_or_app; right; left; reflexivity|]. intros I. apply in_split in I as (a & b & ->). exists a, b. reflexivity. Qed.
  Lemma answer_nil lines : answer_lines [] lines -> lines = [].
  Proof. intros H. apply (C34_lines_determined [] lines []); [exact H|]. exists []. split; [constructor|constructor]. Qed.
  (* the adapter has nothing to say *)
  Lemma attempt_idle rs bs a s y : attempt [PROMPT] rs bs -> follows (a, s, []) (map EvRead rs) y -> bs = [] /\ y = (a, s, []).
  Proof.
    intros A H. destruct A as [chunks last Q N M|chunks Q].
    - assert (F : Forall (fun c => c <> []) (chunks ++ [last])) by (apply Forall_app; split; [exact (proj1 Q)|auto]).
      destruct (follow_chunks _ F _ _ _ _ H) as (rest & E & _). symmetry in E. apply app_eq_nil in E as [E _]. rewrite E in M. apply holds_prompt in M. destruct M.
    - rewrite map_app in H. apply follows_app in H. destruct H as (u & H1 & H2). destruct (follow_chunks _ (proj1 Q) _ _ _ _ H1) as (rest & E & ->).
      symmetry in E. apply app_eq_nil in E as [E ->]. rewrite E. cbn [map] in H2. inversion H2; subst. apply move_idle in H4. destruct H4 as [_ ->]. inversion H6; subst. auto.
  Qed.
  Lemma heard_idle n rs lines a s y : heard [PROMPT] n rs lines -> follows (a, s, []) (map EvRead rs) y -> lines = [] /\ y = (a, s, []).
  Proof.
    intros H. revert y. induction H as [rs bs lines A L|rs bs n rest lines A L H IH]; intros y F.
    - destruct (attempt_idle _ _ _ _ _ A F) as [-> ->]. split; [apply answer_nil, L|reflexivity].
    - rewrite map_app in F. apply follows_app in F. destruct F as (u & F1 & F2). destruct (attempt_idle _ _ _ _ _ A F1) as [-> ->]. exact (IH _ F2).
  Qed.
  Lemma attempt_answer rs bs a s out y : ~ In PROMPT out -> attempt [PROMPT] rs bs -> follows (a, s, out ++ [PROMPT]) (map EvRead rs) y -> bs = out ++ [PROMPT] /\ y = (a, s, []).
  Proof.
    intros NP A H. destruct A as [chunks last Q N M|chunks Q].
    - assert (F : Forall (fun c => c <> []) (chunks ++ [last])) by (apply Forall_app; split; [exact (proj1 Q)|auto]).
      destruct (follow_chunks _ F _ _ _ _ H) as (rest & E & ->). remember (concat (chunks ++ [last])) as bs. apply holds_prompt in M.
      destruct rest as [|r0 rest0] using rev_ind; [rewrite app_nil_r in E; auto|]. exfalso. rewrite app_assoc in E. apply app_inj_tail in E as [E _]. apply NP. rewrite E. apply in_or_app. auto.
    - rewrite map_app in H. apply follows_app in H. destruct H as (u & H1 & H2). destruct (follow_chunks _ (proj1 Q) _ _ _ _ H1) as (rest & E & ->).
      cbn [map] in H2. inversion H2; subst. apply move_idle in H4. destruct H4 as [-> _]. rewrite app_nil_r in E. exfalso. apply (proj2 Q). apply holds_prompt. rewrite <- E. apply in_or_app. right. left. reflexivity.
  Qed.
  (* one exchange *)
  Lemma asked n cmd t lines a s pend a' s' p' : cmd <> [127; 127] -> asks n cmd t lines -> follows (a, s, pend) t (a', s', p') ->
    exists shown echo, obeys a s cmd shown a' s' /\ lines = echo ++ shown /\ (ad_echo a = false -> echo = []) /\ p' = [].
  Proof.
    intros NP (k & rs & -> & H & _ & _) F. inversion F as [|x ev y t z M F1]; subst. inversion M; subst.
    2:{ exfalso. apply NP. change [127; 127; CR] with ([127; 127] ++ [CR])%list in *. match goal with X : _ = (cmd ++ [CR])%list |- _ => apply app_inj_tail in X as [X _]; auto end. }
    match goal with X : (?l ++ [CR])%list = (cmd ++ [CR])%list |- _ => apply app_inj_tail in X as [-> _] end.
    match goal with X : prints _ _ _ |- _ => destruct X as (NO & echo & L & E) end.
    exists lines0, echo. split; [|split; [|split; [exact E|]]].
    - destruct H as [rs bs lines A AL|rs bs n0 rest lines A AL H].
      + destruct (attempt_answer _ _ _ _ _ _ NO A F1) as [-> Y]. injection Y as -> -> ->. assumption.
      + rewrite map_app in F1. apply follows_app in F1. destruct F1 as (u & F1 & F2). destruct (attempt_answer _ _ _ _ _ _ NO A F1) as [-> ->].
        destruct (heard_idle _ _ _ _ _ _ H F2) as [_ Y]. injection Y as -> -> ->. assumption.
    - destruct H as [rs bs lines A AL|rs bs n0 rest lines A AL H].
      + destruct (attempt_answer _ _ _ _ _ _ NO A F1) as [-> Y]. exact (C34_lines_determined _ _ _ AL L).
      + rewrite map_app in F1. apply follows_app in F1. destruct F1 as (u & F1 & F2). destruct (attempt_answer _ _ _ _ _ _ NO A F1) as [-> ->].
        destruct (heard_idle _ _ _ _ _ _ H F2) as [Z0 Y]. rewrite Z0. exact (C34_lines_determined _ _ _ AL L).
    - destruct H as [rs bs lines A AL|rs bs n0 rest lines A AL H].
      + destruct (attempt_answer _ _ _ _ _ _ NO A F1) as [-> Y]. injection Y as -> -> ->. reflexivity.
      + rewrite map_app in F1. apply follows_app in F1. destruct F1 as (u & F1 & F2). destruct (attempt_answer _ _ _ _ _ _ NO A F1) as [-> ->].
        destruct (heard_idle _ _ _ _ _ _ H F2) as [_ Y]. injection Y as -> -> ->. reflexivity.
  Qed.
  Lemma no_io_error t x y : follows x t y -> ~ io_error t.
  Proof.
    intros H. induction H as [|x ev y t z M F IH]; [intros [[]|[]]|]. intros [[->|I]|[->|I]]; [inversion M|apply IH; left; exact I|inversion M|apply IH; right; exact I].
  Qed.
End Car.
