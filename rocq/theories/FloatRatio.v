(* the float literals of the model (float_of_ratio) are the doubles nearest to the fractions they are written as *)
From Coq Require Import ZArith Reals Psatz Lia Bool.
From Flocq Require Import Core Relative Plus_error Round_odd BinarySingleNaN.
From Verif Require Import Py Num SpecNum FloatFacts.
Open Scope R_scope.

Lemma bpow_IZR e : (0 <= e)%Z -> bpow radix2 e = IZR (2 ^ e).
Proof. intros H. rewrite <- IZR_Zpower by exact H. reflexivity. Qed.

(* quotient and sticky bit *)
Lemma odd_quotient a b : (0 < b)%Z ->
  Zrnd_odd (IZR a / IZR b * 2) = (2 * (a / b) + (if (a mod b =? 0)%Z then 0 else 1))%Z.
Proof.
  intros Hb.
  assert (Hb' : 0 < IZR b) by (apply (IZR_lt 0); lia).
  pose proof (Z.div_mod a b ltac:(lia)) as E. pose proof (Z.mod_pos_bound a b Hb) as B.
  set (q := (a / b)%Z) in *. set (r := (a mod b)%Z) in *.
  assert (Ex : IZR a / IZR b * 2 = IZR (2 * q) + IZR (2 * r) / IZR b).
  { rewrite E. rewrite plus_IZR, !mult_IZR. field. lra. }
  assert (Fl : Zfloor (IZR a / IZR b * 2) = (2 * q + (2 * r) / b)%Z).
  { apply Zfloor_imp. rewrite Ex.
    pose proof (Z.div_mod (2 * r) b ltac:(lia)) as E2. pose proof (Z.mod_pos_bound (2 * r) b Hb) as B2.
    set (q2 := ((2 * r) / b)%Z) in *. set (r2 := ((2 * r) mod b)%Z) in *.
    rewrite E2. rewrite !plus_IZR, !mult_IZR.
    replace (IZR 2 * IZR q + (IZR b * IZR q2 + IZR r2) / IZR b) with (IZR 2 * IZR q + IZR q2 + IZR r2 / IZR b) by (field; lra).
    assert (0 <= IZR r2) by (apply (IZR_le 0); lia).
    assert (IZR r2 < IZR b) by (apply IZR_lt; lia).
    assert (0 <= IZR r2 / IZR b) by (apply Rmult_le_pos; [lra|left; apply Rinv_0_lt_compat; lra]).
    assert (IZR r2 / IZR b < 1) by (apply (Rmult_lt_reg_r (IZR b)); [lra|]; field_simplify; lra).
    simpl (IZR 1). lra. }
  unfold Zrnd_odd. rewrite Fl.
  assert (Q2 : ((2 * r) / b = 0 \/ (2 * r) / b = 1)%Z).
  { assert ((2 * r) / b < 2)%Z by (apply Z.div_lt_upper_bound; lia).
    assert (0 <= (2 * r) / b)%Z by (apply Z.div_pos; lia). lia. }
  destruct (Req_EM_T (IZR a / IZR b * 2) (IZR (2 * q + 2 * r / b))) as [Y|N].
  - (* an integer *)
    assert (Z2 : (2 * r = b * (2 * r / b))%Z).
    { rewrite Ex, plus_IZR in Y. apply Rplus_eq_reg_l in Y. apply eq_IZR. rewrite (mult_IZR b), <- Y. field. lra. }
    destruct (Z.eqb_spec r 0) as [R0|R0]; [rewrite R0 in *; rewrite Z.mul_0_r, Z.div_0_l by lia; lia|].
    destruct Q2 as [Q|Q]; rewrite Q in *; lia.
  - assert (r <> 0)%Z.
    { intros R0. apply N. rewrite Ex, R0, Z.mul_0_r, Z.div_0_l, Z.add_0_r by lia. unfold Rdiv. ring. }
    destruct (Z.eqb_spec r 0) as [|_]; [lia|].
    destruct Q2 as [Q|Q]; rewrite Q in *.
    + rewrite Z.add_0_r, Z.even_mul. simpl orb.
      assert (C : Zceil (IZR a / IZR b * 2) = (Zfloor (IZR a / IZR b * 2) + 1)%Z).
      { apply Zceil_floor_neq. rewrite Fl. intros H1. apply N. rewrite <- H1. rewrite Z.add_0_r. reflexivity. }
      rewrite C, Fl. lia.
    + replace (Z.even (2 * q + 1)) with false; [reflexivity|].
      rewrite Z.even_add, Z.even_mul. reflexivity.
Qed.

Lemma log2_bpow n : (0 < n)%Z -> bpow radix2 (Z.log2 n) <= IZR n < bpow radix2 (Z.log2 n + 1).
Proof.
  intros H. pose proof (Z.log2_spec n H) as [A B]. pose proof (Z.log2_nonneg n).
  rewrite !bpow_IZR by lia. split; [now apply IZR_le|now apply IZR_lt].
Qed.

Lemma ratio_mag num den : (0 < num)%Z -> (0 < den)%Z ->
  bpow radix2 (Z.log2 num - Z.log2 den - 1) <= IZR num / IZR den < bpow radix2 (Z.log2 num - Z.log2 den + 1).
Proof.
  intros Hn Hd. pose proof (log2_bpow num Hn) as [A B]. pose proof (log2_bpow den Hd) as [C D].
  assert (0 < IZR den) by (apply (IZR_lt 0); lia).
  split.
  - apply (Rmult_le_reg_r (IZR den)); [lra|]. unfold Rdiv. rewrite Rmult_assoc, Rinv_l, Rmult_1_r by lra.
    eapply Rle_trans; [apply Rmult_le_compat_l; [apply bpow_ge_0|left; exact D]|].
    rewrite <- bpow_plus. replace (_ + _)%Z with (Z.log2 num) by lia. exact A.
  - apply (Rmult_lt_reg_r (IZR den)); [lra|]. unfold Rdiv. rewrite Rmult_assoc, Rinv_l, Rmult_1_r by lra.
    eapply Rlt_le_trans; [exact B|].
    replace (Z.log2 num + 1)%Z with ((Z.log2 num - Z.log2 den + 1) + Z.log2 den)%Z by lia.
    rewrite bpow_plus. apply Rmult_le_compat_l; [apply bpow_ge_0|exact C].
Qed.

Definition signed_ratio (s : bool) (num den : Z) : R := (if s then -1 else 1) * (IZR num / IZR den).

Theorem rep_ratio s num den : (0 <= num)%Z -> (0 < den)%Z -> (IZR num / IZR den <= bpow radix2 900) ->
  rep (float_of_ratio s num den) (rnd (signed_ratio s num den)).
Proof.
  intros Hn Hd Small. unfold float_of_ratio.
  destruct (Z.eqb_spec num 0) as [->|Nz].
  { unfold signed_ratio, Rdiv. rewrite Rmult_0_l, Rmult_0_r, round_0 by auto with typeclass_instances.
    repeat split. }
  assert (Hn' : (0 < num)%Z) by lia. cbv zeta.
  set (k := (Z.log2 den - Z.log2 num + 56)%Z).
  set (a := if (0 <=? k)%Z then (num * 2 ^ k)%Z else num).
  set (b := if (0 <=? k)%Z then den else (den * 2 ^ (- k))%Z).
  set (m := (2 * (a / b) + (if (a mod b =? 0)%Z then 0 else 1))%Z).
  assert (Hb : (0 < b)%Z) by (unfold b; destruct (Z.leb_spec 0 k); [lia|apply Z.mul_pos_pos; [lia|apply Z.pow_pos_nonneg; lia]]).
  set (x := IZR num / IZR den) in *.
  assert (Hdr : 0 < IZR den) by (apply (IZR_lt 0); lia).
  assert (Eab : IZR a / IZR b = x * bpow radix2 k).
  { unfold a, b, x. destruct (Z.leb_spec 0 k).
    - rewrite mult_IZR, <- bpow_IZR by lia. field. lra.
    - rewrite mult_IZR, <- bpow_IZR by lia. rewrite bpow_opp. pose proof (bpow_gt_0 radix2 k). field. split; lra. }
  pose proof (ratio_mag num den Hn' Hd) as [M1 M2]. fold x in M1, M2.
  assert (Xpos : 0 < x) by (eapply Rlt_le_trans; [apply bpow_gt_0|exact M1]).
  set (M := mag radix2 x : Z).
  assert (ML : (Z.log2 num - Z.log2 den <= M)%Z).
  { apply mag_ge_bpow. rewrite Rabs_pos_eq by lra. exact M1. }
  assert (MU : (M <= Z.log2 num - Z.log2 den + 1)%Z).
  { apply mag_le_bpow; [lra|]. rewrite Rabs_pos_eq by lra. exact M2. }
  set (prec' := (M + k + 1)%Z).
  set (emin' := Z.min (- k - 1) (-1076)).
  assert (P1 : (57 <= prec')%Z) by (unfold prec', k; lia).
  assert (Cx : cexp radix2 (FLT_exp emin' prec') x = (- k - 1)%Z).
  { unfold cexp, FLT_exp. fold M. unfold prec', emin'. lia. }
  assert (Odd : round radix2 (FLT_exp emin' prec') Zrnd_odd x = IZR m * bpow radix2 (- k - 1)).
  { unfold round, F2R, scaled_mantissa. simpl Fnum. simpl Fexp. rewrite Cx. f_equal. f_equal.
    replace (x * bpow radix2 (- (- k - 1))) with (IZR a / IZR b * 2).
    - apply odd_quotient. exact Hb.
    - rewrite Eab. replace (- (- k - 1))%Z with (k + 1)%Z by lia. rewrite bpow_plus. change (bpow radix2 1) with 2. ring. }
  assert (N : rnd (IZR m * bpow radix2 (- k - 1)) = rnd x).
  { rewrite <- Odd. 
    assert (Prec_gt_0 prec') by (unfold Prec_gt_0; lia).
    apply round_N_odd; auto with typeclass_instances.
    - apply exists_NE_FLT. right; lia.
    - apply exists_NE_FLT. right; lia.
    - intros e. unfold FLT_exp. unfold emin'. lia. }
  assert (Bm : Rabs (IZR m * bpow radix2 (- k - 1)) <= bpow radix2 1000).
  { rewrite <- Odd. apply Rle_trans with (bpow radix2 901); [|apply bpow_le; lia].
    assert (Prec_gt_0 prec') by (unfold Prec_gt_0; lia).
    apply abs_round_le_generic; auto with typeclass_instances.
    - apply generic_format_bpow. unfold FLT_exp, emin'.
      assert (M <= 901)%Z by (apply mag_le_bpow; [lra|]; rewrite Rabs_pos_eq by lra;
        eapply Rle_lt_trans; [exact Small|apply bpow_lt; lia]).
      unfold prec'. unfold k in *. lia.
    - rewrite Rabs_pos_eq by lra. eapply Rle_trans; [exact Small|apply bpow_le; lia]. }
  unfold prec64, emax64. destruct s.
  - replace (rnd (signed_ratio true num den)) with (rnd (IZR (- m) * bpow radix2 (- k - 1))).
    + apply rep_normalize. rewrite opp_IZR, Ropp_mult_distr_l_reverse, Rabs_Ropp. exact Bm.
    + rewrite opp_IZR, Ropp_mult_distr_l_reverse, round_NE_opp, N. unfold signed_ratio. fold x.
      replace (-1 * x) with (- x) by ring. now rewrite round_NE_opp.
  - replace (rnd (signed_ratio false num den)) with (rnd (IZR m * bpow radix2 (- k - 1))).
    + apply rep_normalize. exact Bm.
    + rewrite N. unfold signed_ratio. fold x. now rewrite Rmult_1_l.
Qed.
