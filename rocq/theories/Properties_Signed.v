(* Property C66, continued: a voltage printed with a sign. Uses the real numbers of the standard library (see DESIGN.md). *)
From Coq Require Import ZArith List Bool Lia String Reals Lra.
From Flocq Require Import Core.
From Verif Require Import Py Num Utils Protocol Decoders Command CommandTable Commands World Elm SpecWire SpecProto SpecCmd SpecElm SpecNum SpecVolt
  PyFacts WireFacts ProtocolThms ElmFacts FloatFacts FloatRatio VoltThms Properties_Protocol Properties_Decoders Properties_Elm Properties_Voltage.
Import ListNotations.
Open Scope string_scope. Open Scope list_scope. Open Scope Z_scope.

Definition is_sign (c : Z) : Prop := c = 43 \/ c = 45.
(* the number behind the sign c *)
Definition signed_value (c : Z) (whole frac : text) : R := (if c =? 45 then - printed_value whole frac else printed_value whole frac)%R.

Lemma py_float_signed c l whole frac : is_sign c -> Forall digit whole -> Forall digit frac -> whole ++ frac <> [] -> (frac = [] /\ l = whole \/ l = whole ++ 46 :: frac) ->
  py_float (c :: l) = Some (scaled (c =? 45) (decimal (whole ++ frac)) (- Z.of_nat (List.length frac))).
Proof.
  intros Sg Dw Df Ne H.
  assert (N : Forall numchar l).
  { apply (numchar_all l whole frac Dw Df). destruct H as [[E ->]| ->]; [left; rewrite E, app_nil_r; reflexivity|right; reflexivity]. }
  assert (S1 : uspace c = false) by (destruct Sg as [->| ->]; reflexivity). assert (S2 : to_ascii_digit c = c) by (destruct Sg as [->| ->]; vm_compute; reflexivity).
  unfold py_float. rewrite (strip_keep uspace (c :: l)) by (constructor; [exact S1|eapply Forall_impl; [|exact N]; apply keep_white]).
  rewrite (map_keep to_ascii_digit (c :: l)) by (constructor; [exact S2|eapply Forall_impl; [|exact N]; apply keep_ascii]).
  assert (underscores_ok false (c :: l) = true) as -> by (cbn [underscores_ok]; replace (c =? 95) with false by (destruct Sg as [->| ->]; reflexivity); apply no_underscore, N).
  assert (lower (remove_char 95 (c :: l)) = c :: l) as ->.
  { unfold remove_char. cbn [filter]. replace (c =? 95) with false by (destruct Sg as [->| ->]; reflexivity). cbn [negb]. fold (remove_char 95 l). rewrite (keep_remove 95 l) by (assumption || lia).
    unfold lower. cbn [map]. fold (lower l). rewrite (keep_lower l N). f_equal. destruct Sg as [->| ->]; reflexivity. }
  cbn [negb]. assert (take_sign (c :: l) = (c =? 45, l)) as -> by (destruct Sg as [->| ->]; reflexivity).
  cbv beta iota zeta. change (str "inf") with (105 :: [110; 102]). change (str "infinity") with (105 :: [110; 102; 105; 110; 105; 116; 121]). change (str "nan") with (110 :: [97; 110]).
  rewrite !not_word by (assumption || lia). cbn [orb].
  destruct H as [[-> ->]| ->].
  - rewrite app_nil_r in Ne. rewrite <- (app_nil_r whole) at 1. rewrite (take_digits_app whole []) by (assumption || exact Logic.I).
    rewrite !app_nil_r. destruct whole; [congruence|]. cbn [nonempty orb negb]. rewrite digits_value_decimal. reflexivity.
  - rewrite (take_digits_app whole (46 :: frac)) by (assumption || reflexivity). cbv iota beta. change (46 =? 46) with true. cbv iota.
    rewrite <- (app_nil_r frac) at 1. rewrite (take_digits_app frac []) by (assumption || exact Logic.I).
    assert (nonempty whole || nonempty frac = true) as -> by (destruct whole; [destruct frac; [contradiction (Ne eq_refl)|]|]; reflexivity).
    cbn [negb]. rewrite digits_value_decimal. reflexivity.
Qed.
Lemma py_float_signed_printed c l whole frac : is_sign c -> printed l whole frac ->
  py_float (remove_char 118 (lower (c :: l))) = Some (scaled (c =? 45) (decimal (whole ++ frac)) (- Z.of_nat (List.length frac))).
Proof.
  intros Sg (Dw & Df & Ne & u & U & H).
  assert (remove_char 118 (lower (c :: l)) = c :: remove_char 118 (lower l)) as -> by (destruct Sg as [->| ->]; reflexivity).
  apply py_float_signed; auto. destruct H as [[-> ->]| ->].
  - left. split; [reflexivity|]. apply lower_unit; [|exact U]. eapply Forall_impl; [|exact Dw]. unfold numchar. tauto.
  - right. change (whole ++ str "." ++ frac ++ u) with (whole ++ (46 :: frac) ++ u). rewrite app_assoc. apply lower_unit; [|exact U].
    apply (numchar_all _ whole frac Dw Df). right. reflexivity.
Qed.
Open Scope R_scope.
Lemma scaled_rep_signed s whole frac : Forall digit whole -> Forall digit frac -> (List.length whole <= 250)%nat ->
  rep (scaled s (decimal (whole ++ frac)) (- Z.of_nat (List.length frac))) (rnd (if s then - printed_value whole frac else printed_value whole frac)).
Proof.
  intros Dw Df L. pose proof (value_bound whole frac Dw Df) as [V1 V2]. pose proof (small_900 _ L) as S.
  pose proof (decimal_bound (whole ++ frac) ltac:(apply Forall_app; auto)) as [B1 _].
  assert (E : forall num den, (0 <= num)%Z -> (0 < den)%Z -> IZR num / IZR den = printed_value whole frac ->
    rep (float_of_ratio s num den) (rnd (if s then - printed_value whole frac else printed_value whole frac))).
  { intros num den Hn Hd Q. pose proof (rep_ratio s num den Hn Hd ltac:(rewrite Q; lra)) as R. unfold signed_ratio in R. rewrite Q in R.
    destruct s; [replace (- printed_value whole frac) with (-1 * printed_value whole frac) by ring|rewrite Rmult_1_l in R]; exact R. }
  unfold scaled. destruct (Z.leb_spec 0 (- Z.of_nat (List.length frac))) as [K|K].
  - assert (Lf : List.length frac = 0%nat) by lia. rewrite Lf. apply E; [cbn; lia|lia|]. unfold printed_value. rewrite Lf. f_equal. f_equal. cbn. lia.
  - rewrite Z.opp_involutive. apply E; [lia|apply Z.pow_pos_nonneg; lia|]. unfold printed_value. now rewrite IZR_pow10.
Qed.
Open Scope Z_scope.
Lemma signed_not_hex c l : is_sign c -> ~ hex_line (c :: l).
Proof. intros Sg X. refine (hex_chars _ c X (or_introl eq_refl) _ _); destruct Sg as [->| ->]; (discriminate || reflexivity). Qed.

(* a minus makes it the negative number, a plus changes nothing *)
Theorem C66_signed : forall c p sign l whole frac, named ["ELM_VOLTAGE"] c -> In (p_class p) protocol_classes \/ p_class p = UnknownProtocol ->
  is_sign sign -> printed l whole frac -> (List.length whole <= 250)%nat ->
  exists ms x, call p [sign :: l] = Ok ms /\ evaluates c ms (VQty (PyFloat x) (str "volt")) /\ nearest_double x (signed_value sign whole frac).
Proof.
  intros c p sign l whole frac N Hp Sg P L. eexists _, _. split; [apply (call_text p (sign :: l) Hp), signed_not_hex, Sg|].
  split; [pose proof (volt_eval c (sign :: l) N) as E; rewrite (py_float_signed_printed sign l whole frac Sg P) in E; exact E|].
  destruct P as (Dw & Df & _). apply rnd_nearest. unfold signed_value. apply (scaled_rep_signed (sign =? 45) whole frac Dw Df L).
Qed.
(* when connecting, a voltage with a minus is too low, one with a plus counts as without it *)
Theorem C66_signed_threshold : forall sign l whole frac, is_sign sign -> printed l whole frac -> (List.length whole <= 250)%nat -> (List.length frac <= 15)%nat ->
  exists v, voltage (sign :: l) = Some v /\ (below_six v <-> (signed_value sign whole frac < 6)%R).
Proof.
  intros sign l whole frac Sg P L1 L2. eexists. split; [exact (py_float_signed_printed sign l whole frac Sg P)|]. destruct P as (Dw & Df & _).
  pose proof (scaled_rep_signed (sign =? 45) whole frac Dw Df L1) as Rp. unfold signed_value. destruct (sign =? 45).
  - split; [intros _; pose proof (value_bound whole frac Dw Df); lra|]. intros _.
    change (flt (scaled true (decimal (whole ++ frac)) (- Z.of_nat (List.length frac))) (float_of_Z 6) = true). rewrite (rep_lt _ _ _ _ Rp six_rep).
    apply Rlt_bool_true. apply Rle_lt_trans with 0%R; [|lra]. apply round_le_generic; auto with typeclass_instances; [apply generic_format_0|]. pose proof (value_bound whole frac Dw Df). lra.
  - exact (below_six_iff whole frac _ Dw Df L2 Rp).
Qed.
Example C66_signed_example : printed (str "1.5V") (str "1") (str "5") /\ signed_value 45 (str "1") (str "5") = (- (15 / 10))%R /\ str "-1.5V" = 45 :: str "1.5V".
Proof.
  split; [|split; [|reflexivity]].
  - split; [digs|]. split; [digs|]. split; [discriminate|]. exists (str "V"). split; [cbn; auto|]. right. reflexivity.
  - unfold signed_value. change (45 =? 45) with true. cbv iota. unfold printed_value. change (decimal (str "1" ++ str "5")) with 15. change (List.length (str "5")) with 1%nat. rewrite pow_1. reflexivity.
Qed.
Print Assumptions C66_signed.
Print Assumptions C66_signed_threshold.
