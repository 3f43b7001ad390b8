(* Reading a printed voltage. *)
From Coq Require Import ZArith List Bool Lia Reals Lra Psatz.
From Flocq Require Import Core.
From Verif Require Import Py Num PyFacts SpecNum SpecVolt FloatFacts FloatRatio.
Import ListNotations.
Open Scope Z_scope.

(* characters of a printed number *)
Definition numchar (c : Z) : Prop := digit c \/ c = 46.
Lemma strip_keep f l : Forall (fun c => f c = false) l -> strip_by f l = l.
Proof.
  intros H. unfold strip_by.
  assert (D : forall k, Forall (fun c => f c = false) k -> drop_while f k = k) by (intros [|c k] F; [reflexivity|inversion F; cbn; now rewrite H2]).
  rewrite (D l H), D, rev_involutive; [reflexivity|]. apply Forall_rev, H.
Qed.
Lemma filter_keep {A} (f : A -> bool) l : Forall (fun c => f c = true) l -> filter f l = l.
Proof. induction 1; cbn; [reflexivity|]. now rewrite H, IHForall. Qed.
Lemma map_keep {A} (f : A -> A) l : Forall (fun c => f c = c) l -> map f l = l.
Proof. induction 1; cbn; congruence. Qed.
Lemma digit_is c : digit c -> is_digit c = true.
Proof. unfold digit, is_digit. intros H. apply andb_true_iff. rewrite !Z.leb_le. lia. Qed.
Lemma take_digits_app d r : Forall digit d -> (match r with [] => True | c :: _ => is_digit c = false end) -> take_digits (d ++ r) = (d, r).
Proof.
  intros H N. induction H; cbn.
  - destruct r as [|c t]; [reflexivity|]. cbn. now rewrite N.
  - rewrite (digit_is _ H), IHForall. reflexivity.
Qed.
Lemma digits_value_decimal l : digits_value l = decimal l.
Proof.
  unfold digits_value.
  assert (G : forall l a, fold_left (fun a c => a * 10 + (c - 48)) l a = a * 10 ^ Z.of_nat (length l) + decimal l).
  { clear l. induction l as [|c t IH]; intros a; cbn [fold_left decimal length]; [cbn; lia|]. rewrite IH, Nat2Z.inj_succ, Z.pow_succ_r by lia. ring. }
  rewrite G. lia.
Qed.
Lemma decimal_bound l : Forall digit l -> 0 <= decimal l < 10 ^ Z.of_nat (length l).
Proof.
  induction 1 as [|c t D _ IH]; [cbn; lia|]. cbn [decimal length]. rewrite Nat2Z.inj_succ, Z.pow_succ_r by lia. unfold digit in D. nia.
Qed.
Lemma keep_white c : numchar c -> uspace c = false.
Proof.
  intros H. assert (46 <= c <= 57) by (unfold numchar, digit in H; lia). unfold uspace.
  repeat match goal with |- context [?a <=? ?b] => destruct (Z.leb_spec a b); try lia end;
  repeat match goal with |- context [?a =? ?b] => destruct (Z.eqb_spec a b); try lia end; reflexivity.
Qed.
Lemma find_none {A} (f : A -> bool) l : Forall (fun x => f x = false) l -> find f l = None.
Proof. induction 1; cbn; [reflexivity|]. now rewrite H. Qed.
Lemma keep_ascii c : numchar c -> to_ascii_digit c = c.
Proof.
  intros H. assert (c <= 57) by (unfold numchar, digit in H; lia). unfold to_ascii_digit. rewrite find_none; [reflexivity|].
  assert (G : Forall (fun z => 57 < z) nd_zeros) by (repeat constructor).
  eapply Forall_impl; [|exact G]. intros z Hz. cbv beta in *. apply andb_false_iff. left. apply Z.leb_gt. lia.
Qed.
Lemma numchar_all l whole frac : Forall digit whole -> Forall digit frac -> l = whole ++ frac \/ l = whole ++ 46 :: frac -> Forall numchar l.
Proof.
  intros A B [-> | ->]; apply Forall_app; split; try (eapply Forall_impl; [|eassumption]; unfold numchar; tauto).
  constructor; [right; reflexivity|]. eapply Forall_impl; [|exact B]. unfold numchar. tauto.
Qed.
Lemma no_underscore l b : Forall numchar l -> underscores_ok b l = true.
Proof.
  intros H. revert b. induction H as [|c t N _ IH]; intros b; [reflexivity|]. cbn [underscores_ok].
  assert (c =? 95 = false) as -> by (apply Z.eqb_neq; unfold numchar, digit in N; lia). apply IH.
Qed.
Lemma keep_lower l : Forall numchar l -> lower l = l.
Proof.
  intros H. apply map_keep. eapply Forall_impl; [|exact H]. intros c N. cbv beta.
  assert (65 <=? c = false) as -> by (apply Z.leb_gt; unfold numchar, digit in N; lia). reflexivity.
Qed.
Lemma keep_remove x l : 57 < x -> Forall numchar l -> remove_char x l = l.
Proof.
  intros Hx H. apply filter_keep. eapply Forall_impl; [|exact H]. intros c N. cbv beta. apply negb_true_iff, Z.eqb_neq.
  unfold numchar, digit in N. lia.
Qed.
Lemma sign_none l : Forall numchar l -> take_sign l = (false, l).
Proof.
  intros [|c t N _]; [reflexivity|]. cbn.
  assert (c =? 45 = false) as -> by (apply Z.eqb_neq; unfold numchar, digit in N; lia).
  assert (c =? 43 = false) as -> by (apply Z.eqb_neq; unfold numchar, digit in N; lia). reflexivity.
Qed.
Lemma not_word l w c0 : Forall numchar l -> 57 < c0 -> text_eqb l (c0 :: w) = false.
Proof.
  intros [|c t N _] H; [reflexivity|]. cbn [text_eqb]. assert (c =? c0 = false) as -> by (apply Z.eqb_neq; unfold numchar, digit in N; lia). reflexivity.
Qed.

(* the number without its unit *)
Lemma py_float_number l whole frac : Forall digit whole -> Forall digit frac -> whole ++ frac <> [] ->
  (frac = [] /\ l = whole \/ l = whole ++ 46 :: frac) ->
  py_float l = Some (scaled false (decimal (whole ++ frac)) (- Z.of_nat (length frac))).
Proof.
  intros Dw Df Ne H.
  assert (N : Forall numchar l).
  { apply (numchar_all l whole frac Dw Df). destruct H as [[E ->]| ->]; [left; rewrite E, app_nil_r; reflexivity|right; reflexivity]. }
  unfold py_float. rewrite (strip_keep uspace l), (map_keep to_ascii_digit l), (no_underscore l false N).
  2: { eapply Forall_impl; [|exact N]. apply keep_ascii. }
  2: { eapply Forall_impl; [|exact N]. apply keep_white. }
  cbn [negb]. rewrite (keep_remove 95 l) by (assumption || lia). rewrite (keep_lower l N), (sign_none l N).
  cbv beta iota zeta. change (str "inf") with (105 :: [110; 102]). change (str "infinity") with (105 :: [110; 102; 105; 110; 105; 116; 121]). change (str "nan") with (110 :: [97; 110]).
  rewrite !not_word by (assumption || lia). cbn [orb].
  destruct H as [[-> ->]| ->].
  - rewrite app_nil_r in Ne. rewrite <- (app_nil_r whole) at 1. rewrite (take_digits_app whole []) by (assumption || exact I).
    rewrite !app_nil_r. destruct whole; [congruence|]. cbn [nonempty orb negb]. rewrite digits_value_decimal. reflexivity.
  - rewrite (take_digits_app whole (46 :: frac)) by (assumption || reflexivity). cbv iota beta. change (46 =? 46) with true. cbv iota.
    rewrite <- (app_nil_r frac) at 1. rewrite (take_digits_app frac []) by (assumption || exact I).
    assert (nonempty whole || nonempty frac = true) as -> by (destruct whole; [destruct frac; [contradiction (Ne eq_refl)|]|]; reflexivity).
    cbn [negb]. rewrite digits_value_decimal. reflexivity.
Qed.
Lemma lower_unit w u : Forall numchar w -> In u [[]; str "V"; str "v"] -> remove_char 118 (lower (w ++ u)) = w.
Proof.
  intros N U. unfold lower. rewrite map_app. fold (lower w) (lower u). rewrite (keep_lower w N). unfold remove_char. rewrite filter_app.
  fold (remove_char 118 w). rewrite keep_remove by (assumption || lia).
  assert (filter (fun x => negb (x =? 118)) (lower u) = []) as ->; [|apply app_nil_r].
  cbn in U. destruct U as [<-|[<-|[<-|[]]]]; reflexivity.
Qed.
Lemma py_float_printed l whole frac : printed l whole frac ->
  py_float (remove_char 118 (lower l)) = Some (scaled false (decimal (whole ++ frac)) (- Z.of_nat (length frac))).
Proof.
  intros (Dw & Df & Ne & u & U & H). apply py_float_number; auto.
  destruct H as [[-> ->]| ->].
  - left. split; [reflexivity|]. apply lower_unit; [|exact U]. eapply Forall_impl; [|exact Dw]. unfold numchar. tauto.
  - right. change (whole ++ str "." ++ frac ++ u) with (whole ++ (46 :: frac) ++ u). rewrite app_assoc. apply lower_unit; [|exact U].
    apply (numchar_all _ whole frac Dw Df). right. reflexivity.
Qed.

Open Scope R_scope.
Lemma IZR_pow10 n : IZR (10 ^ Z.of_nat n) = 10 ^ n.
Proof. rewrite <- pow_IZR. reflexivity. Qed.
Lemma value_bound whole frac : Forall digit whole -> Forall digit frac -> 0 <= printed_value whole frac < 10 ^ length whole.
Proof.
  intros Dw Df. unfold printed_value. assert (P : forall n, 0 < 10 ^ n) by (intros n; apply pow_lt; lra).
  pose proof (decimal_bound (whole ++ frac) ltac:(apply Forall_app; auto)) as [B1 B2]. rewrite app_length, Nat2Z.inj_add, Z.pow_add_r in B2 by lia.
  apply IZR_le in B1. apply IZR_lt in B2. rewrite mult_IZR, !IZR_pow10 in B2. split.
  - apply Rmult_le_pos; [exact B1|]. left. apply Rinv_0_lt_compat, P.
  - apply (Rmult_lt_reg_r (10 ^ length frac)); [apply P|]. unfold Rdiv. rewrite Rmult_assoc, Rinv_l, Rmult_1_r; [exact B2|]. apply Rgt_not_eq, P.
Qed.
Lemma small_900 n : (n <= 250)%nat -> 10 ^ n <= bpow radix2 900.
Proof.
  intros H. apply Rle_trans with (10 ^ 250); [apply Rle_pow; lra || lia|].
  rewrite <- (IZR_pow10 250), bpow_IZR by lia. apply IZR_le. change (10 ^ Z.of_nat 250 <= 2 ^ 900)%Z. apply Z.leb_le. vm_compute. reflexivity.
Qed.
Lemma scaled_rep whole frac : Forall digit whole -> Forall digit frac -> (length whole <= 250)%nat ->
  rep (scaled false (decimal (whole ++ frac)) (- Z.of_nat (length frac))) (rnd (printed_value whole frac)).
Proof.
  intros Dw Df L. pose proof (value_bound whole frac Dw Df) as [V1 V2]. pose proof (small_900 _ L) as S.
  pose proof (decimal_bound (whole ++ frac) ltac:(apply Forall_app; auto)) as [B1 _].
  assert (E : forall num den, (0 <= num)%Z -> (0 < den)%Z -> IZR num / IZR den = printed_value whole frac ->
    rep (float_of_ratio false num den) (rnd (printed_value whole frac))).
  { intros num den Hn Hd Q. pose proof (rep_ratio false num den Hn Hd ltac:(rewrite Q; lra)) as R. unfold signed_ratio in R. rewrite Rmult_1_l, Q in R. exact R. }
  unfold scaled. destruct (Z.leb_spec 0 (- Z.of_nat (length frac))) as [K|K].
  - assert (Lf : length frac = 0%nat) by lia. rewrite Lf. apply E; [cbn; lia|lia|]. unfold printed_value. rewrite Lf. f_equal. f_equal. cbn. lia.
  - rewrite Z.opp_involutive. apply E; [lia|apply Z.pow_pos_nonneg; lia|]. unfold printed_value. now rewrite IZR_pow10.
Qed.
Lemma rnd_nearest f r : rep f (rnd r) -> nearest_double f r.
Proof.
  intros H. destruct (rep_real _ _ H) as [E F]. split; [exact F|]. intros m e Hm He. rewrite E.
  pose proof (round_N_pt radix2 fexp64 (fun x => negb (Z.even x)) r) as [_ P]. apply P.
  apply generic_format_FLT. apply (FLT_spec radix2 (-1074) 53 _ (Float radix2 m e)); [|exact Hm|cbn; lia].
  unfold F2R. cbn [Fnum Fexp]. now rewrite bpow_powerRZ.
Qed.
(* the comparison with 6 volts *)
Lemma six_rep : rep (float_of_Z 6) 6.
Proof.
  split; [vm_compute; reflexivity|]. split; [vm_compute; reflexivity|]. vm_compute float_of_Z. unfold BinarySingleNaN.SF2R, F2R. cbn [Fnum Fexp cond_Zopp].
  change (bpow radix2 (-50)) with (/ IZR (2 ^ 50)). change (2 ^ 50)%Z with 1125899906842624%Z. lra.
Qed.

Lemma rep_lt f g a b : rep f a -> rep g b -> flt f g = Rlt_bool a b.
Proof.
  intros Hf Hg. destruct (rep_bf _ _ Hf) as (x & <- & Fx & <-). destruct (rep_bf _ _ Hg) as (y & <- & Fy & <-).
  unfold flt, SFltb. change (SFcompare (BinarySingleNaN.B2SF x) (BinarySingleNaN.B2SF y)) with (BinarySingleNaN.Bcompare x y).
  rewrite BinarySingleNaN.Bcompare_correct by assumption. unfold Rlt_bool.
  destruct (Rcompare (BinarySingleNaN.B2R x) (BinarySingleNaN.B2R y)); reflexivity.
Qed.
Lemma six_format : generic_format radix2 fexp64 6.
Proof. exact (rep_format _ _ six_rep). Qed.
Lemma below_format : generic_format radix2 fexp64 (6 - bpow radix2 (-50)).
Proof.
  apply generic_format_FLT. apply (FLT_spec radix2 (-1074) 53 _ (Float radix2 6755399441055743 (-50))); [|vm_compute; reflexivity|cbn; lia].
  unfold F2R. cbn [Fnum Fexp]. change (bpow radix2 (-50)) with (/ IZR (2 ^ 50)). change (2 ^ 50)%Z with 1125899906842624%Z. lra.
Qed.
Lemma below_six_iff whole frac f : Forall digit whole -> Forall digit frac -> (length frac <= 15)%nat ->
  rep f (rnd (printed_value whole frac)) -> (flt f (float_of_Z 6) = true <-> printed_value whole frac < 6).
Proof.
  intros Dw Df L H. rewrite (rep_lt _ _ _ _ H six_rep). set (v := printed_value whole frac) in *.
  assert (Q : v < 6 -> v <= 6 - bpow radix2 (-50)).
  { intros V. unfold v, printed_value in *. set (k := decimal (whole ++ frac)) in *. set (n := length frac) in *.
    assert (P : 0 < 10 ^ n) by (apply pow_lt; lra).
    assert (K : IZR k < 6 * 10 ^ n). { apply (Rmult_lt_compat_r (10 ^ n)) in V; [|exact P]. unfold Rdiv in V. rewrite Rmult_assoc, Rinv_l, Rmult_1_r in V; lra. }
    rewrite <- (IZR_pow10 n), <- (mult_IZR 6) in K. apply lt_IZR in K. assert (K' : (k <= 6 * 10 ^ Z.of_nat n - 1)%Z) by lia. apply IZR_le in K'.
    rewrite minus_IZR, mult_IZR, IZR_pow10 in K'.
    apply (Rmult_le_reg_r (10 ^ n)); [exact P|]. unfold Rdiv. rewrite Rmult_assoc, Rinv_l, Rmult_1_r by lra.
    assert (B : 10 ^ n * bpow radix2 (-50) <= 1).
    { apply Rle_trans with (10 ^ 15 * bpow radix2 (-50)); [apply Rmult_le_compat_r; [apply bpow_ge_0|apply Rle_pow; lra || lia]|].
      rewrite <- (IZR_pow10 15). change (10 ^ Z.of_nat 15)%Z with 1000000000000000%Z. change (bpow radix2 (-50)) with (/ IZR (2 ^ 50)). change (2 ^ 50)%Z with 1125899906842624%Z. lra. }
    lra. }
  destruct (Rlt_bool_spec (rnd v) 6) as [R|R]; split; intros E; try discriminate; try reflexivity.
  - destruct (Rlt_or_le v 6) as [V|V]; [exact V|]. exfalso. apply (Rlt_irrefl 6). eapply Rle_lt_trans; [|exact R].
    apply round_ge_generic; auto with typeclass_instances; exact six_format.
  - exfalso. apply (Rlt_irrefl 6). eapply Rle_lt_trans; [exact R|]. apply Rle_lt_trans with (6 - bpow radix2 (-50)).
    + apply round_le_generic; auto with typeclass_instances; exact below_format.
    + pose proof (bpow_gt_0 radix2 (-50)). lra.
Qed.
