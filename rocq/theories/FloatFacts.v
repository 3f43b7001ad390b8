(* binary64 arithmetic of Coq.Floats.SpecFloat related to the real numbers, through Flocq. *)
From Coq Require Import ZArith Reals Psatz Lia Bool.
From Flocq Require Import Core Relative Plus_error BinarySingleNaN.
From Verif Require Import Py Num SpecNum.
Open Scope R_scope.

Notation fexp64 := (FLT_exp (-1074) 53).
Notation rnd := (round radix2 fexp64 ZnearestE).

#[global] Instance Hprec : Prec_gt_0 53 := eq_refl.
#[global] Instance Hemax : Prec_lt_emax 53 1024 := eq_refl.

(* f is a well formed finite double whose value is r *)
Definition rep (f : spec_float) (r : R) : Prop :=
  valid_binary 53 1024 f = true /\ is_finite_SF f = true /\ SF2R radix2 f = r.

Lemma rep_bf f r : rep f r -> exists b : binary_float 53 1024, B2SF b = f /\ is_finite b = true /\ B2R b = r.
Proof.
  intros (V & Fi & <-). exists (SF2B f V). rewrite B2SF_SF2B, B2R_SF2B. repeat split.
  rewrite <- Fi, <- is_finite_SF_B2SF, B2SF_SF2B. reflexivity.
Qed.
Lemma bf_rep (b : binary_float 53 1024) : is_finite b = true -> rep (B2SF b) (B2R b).
Proof.
  intros Fi. repeat split.
  - apply valid_binary_B2SF.
  - now rewrite is_finite_SF_B2SF.
  - apply SF2R_B2SF.
Qed.

Lemma SF2R_real f : is_finite_SF f = true -> SF2R radix2 f = float_real f /\ float_finite f.
Proof.
  destruct f as [s|s| |s m e]; simpl; intros H; try discriminate; split; auto.
  unfold F2R. simpl Fnum. simpl Fexp. rewrite bpow_powerRZ. change (IZR radix2) with 2.
  destruct s; simpl cond_Zopp; rewrite ?Rmult_1_l; [|reflexivity].
  change (Z.neg m) with (- Z.pos m)%Z. rewrite opp_IZR. ring.
Qed.
Lemma rep_real f r : rep f r -> float_real f = r /\ float_finite f.
Proof. intros (V & Fi & E). destruct (SF2R_real f Fi) as [A B]. split; congruence. Qed.

Lemma rne_equiv s m l : round_nearest_even m l = choice_mode mode_NE s m l.
Proof. destruct l as [|[| |]]; try reflexivity. simpl. unfold Round.cond_incr. now destruct (Z.even m). Qed.
Lemma bra_equiv sx mx ex lx :
  SpecFloat.binary_round_aux 53 1024 sx mx ex lx = BinarySingleNaN.binary_round_aux 53 1024 mode_NE sx mx ex lx.
Proof.
  unfold SpecFloat.binary_round_aux, BinarySingleNaN.binary_round_aux.
  set (mrse' := shr_fexp _ _ _ _ _). destruct mrse' as [mrs' e']. simpl. now rewrite (rne_equiv sx).
Qed.
Lemma br_equiv s m e : SpecFloat.binary_round 53 1024 s m e = BinarySingleNaN.binary_round 53 1024 mode_NE s m e.
Proof.
  unfold SpecFloat.binary_round, BinarySingleNaN.binary_round, shl_align_fexp.
  set (mez := shl_align _ _ _). destruct mez as [mz ez]. apply bra_equiv.
Qed.
Lemma bn_equiv m e sz :
  SpecFloat.binary_normalize 53 1024 m e sz = B2SF (BinarySingleNaN.binary_normalize 53 1024 Hprec Hemax mode_NE m e sz).
Proof. destruct m as [|p|p]; [reflexivity| |]; simpl; rewrite B2SF_SF2B; apply br_equiv. Qed.

Lemma fmul_equiv (x y : binary_float 53 1024) : fmul (B2SF x) (B2SF y) = B2SF (Bmult mode_NE x y).
Proof.
  unfold fmul, prec64, emax64. destruct x as [sx|sx| |sx mx ex Bx], y as [sy|sy| |sy my ey By]; try reflexivity.
  simpl. rewrite B2SF_SF2B. apply bra_equiv.
Qed.
Lemma fadd_equiv (x y : binary_float 53 1024) : fadd (B2SF x) (B2SF y) = B2SF (Bplus mode_NE x y).
Proof.
  unfold fadd, prec64, emax64. destruct x as [sx|sx| |sx mx ex Bx], y as [sy|sy| |sy my ey By];
    try (simpl; try destruct (Bool.eqb sx sy); reflexivity).
  apply bn_equiv.
Qed.
Lemma fsub_equiv (x y : binary_float 53 1024) : fsub (B2SF x) (B2SF y) = B2SF (Bminus mode_NE x y).
Proof.
  unfold fsub, prec64, emax64. destruct x as [sx|sx| |sx mx ex Bx], y as [sy|sy| |sy my ey By];
    try (simpl; try destruct (Bool.eqb sx _); reflexivity).
  simpl. unfold Zminus. rewrite <- cond_Zopp_negb. apply bn_equiv.
Qed.
Lemma fdiv_equiv (x y : binary_float 53 1024) : fdiv (B2SF x) (B2SF y) = B2SF (Bdiv mode_NE x y).
Proof.
  unfold fdiv, prec64, emax64. destruct x as [sx|sx| |sx mx ex Bx], y as [sy|sy| |sy my ey By]; try reflexivity.
  simpl. rewrite B2SF_SF2B.
  set (melz := SFdiv_core_binary _ _ _ _ _ _). destruct melz as [[mz ez] lz]. apply bra_equiv.
Qed.

(* no overflow below 2^1000 *)
Lemma rnd_small r : Rabs r <= bpow radix2 1000 -> Rlt_bool (Rabs (rnd r)) (bpow radix2 1024) = true.
Proof.
  intros H. apply Rlt_bool_true.
  apply Rle_lt_trans with (bpow radix2 1000).
  - apply abs_round_le_generic; auto with typeclass_instances.
    apply generic_format_bpow. unfold FLT_exp. lia.
  - apply bpow_lt. lia.
Qed.

Lemma rep_mul f g a b : rep f a -> rep g b -> Rabs (a * b) <= bpow radix2 1000 -> rep (fmul f g) (rnd (a * b)).
Proof.
  intros Hf Hg S. destruct (rep_bf _ _ Hf) as (x & <- & Fx & <-). destruct (rep_bf _ _ Hg) as (y & <- & Fy & <-).
  rewrite fmul_equiv. pose proof (Bmult_correct 53 1024 _ _ mode_NE x y) as C.
  simpl round_mode in C. change (SpecFloat.fexp 53 1024) with fexp64 in C.
  rewrite rnd_small in C by exact S. destruct C as (C1 & C2 & _). rewrite <- C1. apply bf_rep.
  rewrite C2, Fx, Fy. reflexivity.
Qed.
Lemma rep_add f g a b : rep f a -> rep g b -> Rabs (a + b) <= bpow radix2 1000 -> rep (fadd f g) (rnd (a + b)).
Proof.
  intros Hf Hg S. destruct (rep_bf _ _ Hf) as (x & <- & Fx & <-). destruct (rep_bf _ _ Hg) as (y & <- & Fy & <-).
  rewrite fadd_equiv. pose proof (Bplus_correct 53 1024 _ _ mode_NE x y Fx Fy) as C.
  simpl round_mode in C. change (SpecFloat.fexp 53 1024) with fexp64 in C.
  rewrite rnd_small in C by exact S. destruct C as (C1 & C2 & _). rewrite <- C1. apply bf_rep, C2.
Qed.
Lemma rep_sub f g a b : rep f a -> rep g b -> Rabs (a - b) <= bpow radix2 1000 -> rep (fsub f g) (rnd (a - b)).
Proof.
  intros Hf Hg S. destruct (rep_bf _ _ Hf) as (x & <- & Fx & <-). destruct (rep_bf _ _ Hg) as (y & <- & Fy & <-).
  rewrite fsub_equiv. pose proof (Bminus_correct 53 1024 _ _ mode_NE x y Fx Fy) as C.
  simpl round_mode in C. change (SpecFloat.fexp 53 1024) with fexp64 in C.
  rewrite rnd_small in C by exact S. destruct C as (C1 & C2 & _). rewrite <- C1. apply bf_rep, C2.
Qed.
Lemma rep_div f g a b : rep f a -> rep g b -> b <> 0 -> Rabs (a / b) <= bpow radix2 1000 -> rep (fdiv f g) (rnd (a / b)).
Proof.
  intros Hf Hg N S. destruct (rep_bf _ _ Hf) as (x & <- & Fx & <-). destruct (rep_bf _ _ Hg) as (y & <- & Fy & <-).
  rewrite fdiv_equiv. pose proof (Bdiv_correct 53 1024 _ _ mode_NE x y N) as C.
  simpl round_mode in C. change (SpecFloat.fexp 53 1024) with fexp64 in C.
  rewrite rnd_small in C by exact S. destruct C as (C1 & C2 & _). rewrite <- C1. apply bf_rep.
  now rewrite C2.
Qed.
Lemma rep_normalize m e sz : Rabs (IZR m * bpow radix2 e) <= bpow radix2 1000 ->
  rep (SpecFloat.binary_normalize 53 1024 m e sz) (rnd (IZR m * bpow radix2 e)).
Proof.
  intros S. rewrite bn_equiv. pose proof (binary_normalize_correct 53 1024 _ _ mode_NE m e sz) as C.
  cbv zeta in C. unfold F2R in C. simpl Fnum in C. simpl Fexp in C.
  simpl round_mode in C. change (SpecFloat.fexp 53 1024) with fexp64 in C.
  rewrite rnd_small in C by exact S. destruct C as (C1 & C2 & _). rewrite <- C1. apply bf_rep, C2.
Qed.
Lemma rep_of_Z n : Rabs (IZR n) <= bpow radix2 1000 -> rep (float_of_Z n) (rnd (IZR n)).
Proof.
  intros S. unfold float_of_Z, prec64, emax64.
  pose proof (rep_normalize n 0 false) as H. simpl (bpow radix2 0) in H. rewrite Rmult_1_r in H. exact (H S).
Qed.

Lemma rep_format f a : rep f a -> generic_format radix2 fexp64 a.
Proof.
  intros H. destruct (rep_bf _ _ H) as (x & <- & Fx & <-). apply (generic_format_B2R 53 1024 x).
Qed.

(* the comparison of doubles is that of their values *)
Lemma rep_le f g a b : rep f a -> rep g b -> fle f g = Rle_bool a b.
Proof.
  intros Hf Hg. destruct (rep_bf _ _ Hf) as (x & <- & Fx & <-). destruct (rep_bf _ _ Hg) as (y & <- & Fy & <-).
  unfold fle, SFleb. change (SFcompare (B2SF x) (B2SF y)) with (Bcompare x y).
  rewrite Bcompare_correct by assumption. unfold Rle_bool.
  destruct (Rcompare (B2R x) (B2R y)); reflexivity.
Qed.

(* relative rounding error *)
Definition u := bpow radix2 (-53).
Lemma u_pos : 0 < u. Proof. apply bpow_gt_0. Qed.
Lemma half_bpow : / 2 * bpow radix2 (-53 + 1) = u.
Proof. unfold u. replace (/2) with (bpow radix2 (-1)) by (simpl; lra). rewrite <- bpow_plus. f_equal. Qed.

Lemma rnd_err r : bpow radix2 (-1022) <= Rabs r -> Rabs (rnd r - r) <= u * Rabs r.
Proof.
  intros H. rewrite <- half_bpow. apply relative_error_N_FLT; [reflexivity|exact H].
Qed.
Lemma rnd_err0 r : r = 0 \/ bpow radix2 (-1022) <= Rabs r -> Rabs (rnd r - r) <= u * Rabs r.
Proof.
  intros [-> | H]; [|now apply rnd_err].
  rewrite round_0 by auto with typeclass_instances. rewrite Rminus_0_r, Rabs_R0. lra.
Qed.
Lemma rnd_err_add f g a b : rep f a -> rep g b -> Rabs (rnd (a + b) - (a + b)) <= u * Rabs (a + b).
Proof.
  intros Hf Hg. apply rep_format in Hf, Hg.
  destruct (FLT_plus_error_N_ex radix2 (-1074) 53 (fun x => negb (Z.even x)) a b Hf Hg) as (eps & He & ->).
  replace ((a + b) * (1 + eps) - (a + b)) with (eps * (a + b)) by ring.
  rewrite Rabs_mult. apply Rmult_le_compat_r; [apply Rabs_pos|].
  eapply Rle_trans; [exact He|]. replace (u_ro radix2 53) with u by (symmetry; exact half_bpow).
  pose proof u_pos. apply (Rmult_le_reg_r (1 + u)); [lra|]. field_simplify; [nra|lra].
Qed.
