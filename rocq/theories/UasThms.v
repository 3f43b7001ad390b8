(* units and scaling: the decoded value is raw*scale+offset up to rounding; order of decoded values *)
From Coq Require Import ZArith Reals Psatz Lia Bool Lra List.
From Flocq Require Import Core.
From Verif Require Import Py Utils Num UasTable Decoders SpecWire SpecBits SpecNum FloatFacts FloatRatio NumFacts UtilsThms.
Import ListNotations.
Open Scope R_scope.

Lemma big_endian_bound d : Forall is_byte d -> (0 <= big_endian d < 2 ^ (8 * Z.of_nat (length d)))%Z.
Proof.
  unfold big_endian.
  assert (G : forall d v, Forall is_byte d -> (0 <= v)%Z ->
    (0 <= fold_left (fun v b => 256 * v + b) d v < (v + 1) * 2 ^ (8 * Z.of_nat (length d)))%Z).
  { clear. intros d. induction d as [|b d IH]; intros v F V; cbn [fold_left length].
    - rewrite Z.mul_0_r, Z.pow_0_r. lia.
    - inversion F as [|? ? Hb F']; subst. unfold is_byte in Hb. specialize (IH (256 * v + b)%Z F' ltac:(lia)).
      replace (8 * Z.of_nat (S (length d)))%Z with (8 + 8 * Z.of_nat (length d))%Z by lia.
      rewrite Z.pow_add_r by lia. change (2 ^ 8)%Z with 256%Z.
      pose proof (Z.pow_pos_nonneg 2 (8 * Z.of_nat (length d)) ltac:(lia) ltac:(lia)). nia. }
  intros F. specialize (G d 0%Z F ltac:(lia)). lia.
Qed.

Lemma raw_bound s d : Forall is_byte d -> (1 <= length d)%nat ->
  (- 2 ^ (8 * Z.of_nat (length d)) <= raw_value s d < 2 ^ (8 * Z.of_nat (length d)))%Z.
Proof.
  intros F L. pose proof (big_endian_bound d F) as B. unfold raw_value.
  destruct (s && _)%bool; lia.
Qed.

Lemma twos_raw d : Forall is_byte d -> (1 <= length d)%nat ->
  twos_comp (bytes_to_int d) (zlen d * 8) = raw_value true d.
Proof.
  intros F L. rewrite bytes_to_int_eq. pose proof (big_endian_bound d F) as B.
  unfold zlen. replace (Z.of_nat (length d) * 8)%Z with (8 * Z.of_nat (length d))%Z by lia.
  set (n := (8 * Z.of_nat (length d))%Z) in *. assert (N : (1 <= n)%Z) by (unfold n; lia).
  destruct (twos_comp_spec n (big_endian d) N B) as [R M].
  unfold raw_value. fold n. cbn [andb].
  assert (P : (2 ^ n = 2 * 2 ^ (n - 1))%Z) by (replace n with (1 + (n - 1))%Z at 1 by lia; rewrite Z.pow_add_r by lia; lia).
  set (t := twos_comp (big_endian d) n) in *. set (v := big_endian d) in *.
  pose proof (Z.div_mod t (2 ^ n) ltac:(lia)) as D. rewrite M in D.
  set (q := (t / 2 ^ n)%Z) in *. set (h := (2 ^ (n - 1))%Z) in *. rewrite P in *.
  assert (q = 0 \/ q = -1)%Z by nia.
  destruct (Z.leb_spec h v); nia.
Qed.

(* literals that keep clear of overflow and underflow *)
Definition lit_ok (l : lit) : bool :=
  match l with
  | LInt z => Z.abs z <=? 2 ^ 20
  | LDec n d => (Z.abs n <=? 2 ^ 60) && (0 <? d) && (d <=? 2 ^ 60)
  end%Z.

Lemma lit_moderate l : lit_ok l = true -> lit_real l = 0 \/ bpow radix2 (-60) <= Rabs (lit_real l) <= bpow radix2 60.
Proof.
  destruct l as [z|n d]; cbn [lit_ok lit_real]; intros H.
  - apply Z.leb_le in H. destruct (Z.eq_dec z 0) as [->|N]; [now left|right]. split.
    + rewrite <- abs_IZR. apply Rle_trans with 1; [|apply (IZR_le 1); lia]. change 1 with (bpow radix2 0). apply bpow_le. lia.
    + eapply Rle_trans; [apply (int_bound z 20); [exact H|lia]|]. apply bpow_le. lia.
  - apply andb_true_iff in H. destruct H as [H H3]. apply andb_true_iff in H. destruct H as [H1 H2].
    apply Z.leb_le in H1, H3. apply Z.ltb_lt in H2.
    assert (D : 1 <= IZR d) by (apply (IZR_le 1); lia).
    destruct (Z.eq_dec n 0) as [->|N]; [left; unfold Rdiv; ring|right].
    unfold Rdiv. rewrite Rabs_mult, <- abs_IZR, (Rabs_pos_eq (/ IZR d)) by (left; apply Rinv_0_lt_compat; lra).
    assert (A : 1 <= IZR (Z.abs n)) by (apply (IZR_le 1); lia).
    assert (B : IZR (Z.abs n) <= bpow radix2 60) by (rewrite bpow_IZR by lia; now apply IZR_le).
    assert (C : IZR d <= bpow radix2 60) by (rewrite bpow_IZR by lia; now apply IZR_le).
    assert (I1 : / IZR d <= 1) by (rewrite <- Rinv_1; apply Rinv_le_contravar; lra).
    assert (I0 : 0 < / IZR d) by (apply Rinv_0_lt_compat; lra).
    assert (I2 : bpow radix2 (-60) <= / IZR d).
    { change (-60)%Z with (- (60))%Z. rewrite bpow_opp. apply Rinv_le_contravar; lra. }
    split; nra.
Qed.

Lemma near_lit l : lit_ok l = true -> near 1 (lit_num l) (lit_real l).
Proof.
  intros H. pose proof (lit_moderate l H) as M. destruct l as [z|n d]; cbn [lit_num lit_real].
  - apply (near_weaken 0); [lia|]. apply near_int. cbn [lit_ok] in H. apply Z.leb_le in H. lia.
  - cbn [lit_ok lit_real] in *. apply andb_true_iff in H. destruct H as [H H3]. apply andb_true_iff in H. destruct H as [H1 H2].
    apply Z.leb_le in H1, H3. apply Z.ltb_lt in H2.
    assert (D : 1 <= IZR d) by (apply (IZR_le 1); lia).
    assert (E : signed_ratio (n <? 0)%Z (Z.abs n) d = IZR n / IZR d).
    { unfold signed_ratio. destruct (Z.ltb_spec n 0).
      - rewrite Z.abs_neq, opp_IZR by lia. field. lra.
      - rewrite Z.abs_eq by lia. ring. }
    exists (rnd (IZR n / IZR d)). split.
    + cbn [nrep]. rewrite <- E. apply rep_ratio; [lia|lia|].
      apply Rle_trans with (bpow radix2 60); [|apply bpow_le; lia].
      destruct M as [M|M].
      * assert (n = 0)%Z. { apply eq_IZR. unfold Rdiv in M. apply Rmult_integral in M. destruct M as [M|M]; [exact M|].
          exfalso. revert M. apply Rinv_neq_0_compat. lra. }
        subst n. simpl. unfold Rdiv. rewrite Rmult_0_l. apply (bpow_ge_0 radix2 60).
      * unfold Rdiv in *. rewrite Rabs_mult, <- abs_IZR, (Rabs_pos_eq (/ IZR d)) in M by (left; apply Rinv_0_lt_compat; lra). tauto.
    + replace (grow 1) with u by (unfold grow; simpl; ring). apply rnd_err0. destruct M as [M|[M _]]; [now left|right].
      eapply Rle_trans; [|exact M]. apply bpow_le. lia.
Qed.

Definition uas_ok (x : uas) : bool := match x with UAS _ s _ o => lit_ok s && lit_ok o | UAS_any => true end.
Definition is_float_lit (l : lit) : bool := match l with LDec _ _ => true | LInt _ => false end.

(* raw*scale+offset for any raw number of up to 53 bits *)
Lemma scale_near v s o : lit_ok s = true -> lit_ok o = true -> is_float_lit o = true ->
  (Z.abs v < 2 ^ 53)%Z -> (match s with LInt z => Z.abs (v * z) < 2 ^ 53 | _ => True end)%Z ->
  sum_near 3 (num_add (num_mul (PyInt v) (lit_num s)) (lit_num o)) (IZR v * lit_real s) (lit_real o).
Proof.
  intros Hs Ho Fo B Bi.
  pose proof (lit_moderate s Hs) as Ms. pose proof (lit_moderate o Ho) as Mo.
  assert (Vb : v = 0%Z \/ 1 <= Rabs (IZR v)).
  { destruct (Z.eq_dec v 0); [now left|right]. rewrite <- abs_IZR. apply (IZR_le 1). lia. }
  assert (Vu : Rabs (IZR v) <= bpow radix2 53) by (apply int_bound; lia).
  assert (Ms' : Rabs (lit_real s) <= bpow radix2 60).
  { destruct Ms as [-> | [_ Ms]]; [rewrite Rabs_R0; apply bpow_ge_0|exact Ms]. }
  assert (Pu : Rabs (IZR v * lit_real s) <= bpow radix2 900).
  { rewrite Rabs_mult. apply Rle_trans with (bpow radix2 53 * bpow radix2 60).
    - apply Rmult_le_compat; auto using Rabs_pos.
    - rewrite <- bpow_plus. apply bpow_le. lia. }
  assert (N : near 2 (num_mul (PyInt v) (lit_num s)) (IZR v * lit_real s)).
  { destruct s as [z|n d].
    - apply (near_weaken 0); [lia|]. now apply near_mul_int.
    - apply (near_mul 0 1); [now apply near_int|now apply (near_lit (LDec n d))|lia| |exact Logic.I].
      destruct Vb as [-> | Vb]; [left; ring|]. destruct Ms as [-> | Ms]; [left; ring|right]. split; [|exact Pu].
      rewrite Rabs_mult. apply Rle_trans with (bpow radix2 (-60)); [apply bpow_le; lia|].
      pose proof (bpow_ge_0 radix2 (-60)). nra. }
  apply near_add; [exact N|apply (near_weaken 1); [lia|now apply near_lit]|lia|exact Pu| |].
  - destruct Mo as [-> | [_ Mo]]; [rewrite Rabs_R0; apply bpow_ge_0|]. eapply Rle_trans; [exact Mo|apply bpow_le; lia].
  - destruct o; [discriminate|]. cbn [lit_num]. destruct (num_mul _ _); exact Logic.I.
Qed.

Definition entry_ok (e : Z * uas) : bool :=
  match snd e with UAS _ s _ o => (lit_ok s && lit_ok o && is_float_lit o && match s with LInt z => Z.abs z <? 4096 | _ => true end)%bool%Z | UAS_any => true end.

Lemma table_ok : forallb entry_ok UAS_IDS = true.
Proof. vm_compute. reflexivity. Qed.

Lemma uas_value id s sc un off d : In (id, UAS s sc un off) UAS_IDS -> Forall is_byte d -> (1 <= length d <= 5)%nat ->
  exists x, uas_call (UAS s sc un off) d = Ok (TQty x un) /\
            sum_near 3 x (IZR (raw_value s d) * lit_real sc) (lit_real off).
Proof.
  intros I F L. pose proof table_ok as T. rewrite forallb_forall in T. specialize (T _ I). unfold entry_ok in T. cbn [snd] in T.
  apply andb_true_iff in T. destruct T as [T T4]. apply andb_true_iff in T. destruct T as [T T3].
  apply andb_true_iff in T. destruct T as [T1 T2].
  assert (Z5 : (2 ^ (8 * Z.of_nat (length d)) <= 2 ^ 40)%Z) by (apply Z.pow_le_mono_r; lia).
  assert (R : (Z.abs (raw_value s d) <= 2 ^ 40)%Z) by (pose proof (raw_bound s d F ltac:(lia)); lia).
  assert (C : uas_call (UAS s sc un off) d = Ok (TQty (num_add (num_mul (PyInt (raw_value s d)) (lit_num sc)) (lit_num off)) un)).
  { unfold uas_call. destruct s.
    - assert (zlen d * 8 <? 1 = false)%Z as -> by (apply Z.ltb_ge; unfold zlen; lia). rewrite (twos_raw d F ltac:(lia)). reflexivity.
    - rewrite bytes_to_int_eq. reflexivity. }
  exists (num_add (num_mul (PyInt (raw_value s d)) (lit_num sc)) (lit_num off)). split; [exact C|].
  apply scale_near; try assumption; [lia|].
  destruct sc as [z|]; [|exact Logic.I]. apply Z.ltb_lt in T4. rewrite Z.abs_mul. nia.
Qed.

Lemma sum_near_within x r s : sum_near 3 x r s -> within (powerRZ 2 (-51) * (Rabs r + Rabs s)) x (r + s).
Proof.
  intros (v & X & E). apply nrep_num in X. destruct X as [Fx <-]. split; [exact Fx|].
  eapply Rle_trans; [exact E|]. apply Rmult_le_compat_r; [|apply grow_3].
  pose proof (Rabs_pos r). pose proof (Rabs_pos s). lra.
Qed.

(* positive scales, offsets not much larger *)
Definition lit_q (l : lit) : Z * Z := match l with LInt z => (z, 1%Z) | LDec n d => (n, d) end.
Definition order_ok (e : Z * uas) : bool :=
  match snd e with
  | UAS _ s _ o => let (sn, sd) := lit_q s in let (on, od) := lit_q o in
      (0 <? sn) && (0 <? sd) && (0 <? od) && (Z.abs on * sd <=? 2 ^ 20 * sn * od)
  | UAS_any => true
  end%Z.
Lemma table_order : forallb order_ok UAS_IDS = true.
Proof. vm_compute. reflexivity. Qed.
Lemma order_real id s sc un off : In (id, UAS s sc un off) UAS_IDS ->
  0 < lit_real sc /\ Rabs (lit_real off) <= 2 ^ 20 * lit_real sc.
Proof.
  intros I. pose proof table_order as T. rewrite forallb_forall in T. specialize (T _ I). unfold order_ok in T. cbn [snd] in T.
  assert (Q : forall l, lit_real l = IZR (fst (lit_q l)) / IZR (snd (lit_q l))) by (intros [z|n d]; cbn; [field|reflexivity]).
  rewrite (Q sc), (Q off). destruct (lit_q sc) as [sn sd], (lit_q off) as [on od]. cbn [fst snd].
  rewrite !andb_true_iff, !Z.ltb_lt, Z.leb_le in T. destruct T as [[[T1 T2] T3] T4].
  apply IZR_lt in T1, T2, T3. apply IZR_le in T4. rewrite !mult_IZR in T4. rewrite abs_IZR in T4.
  assert (0 < / IZR sd) by now apply Rinv_0_lt_compat. assert (0 < / IZR od) by now apply Rinv_0_lt_compat.
  split; [unfold Rdiv; nra|]. unfold Rdiv. rewrite Rabs_mult, (Rabs_pos_eq (/ IZR od)) by lra.
  apply (Rmult_le_reg_r (IZR od)); [lra|]. rewrite Rmult_assoc, Rinv_l, Rmult_1_r by lra.
  apply (Rmult_le_reg_r (IZR sd)); [lra|].
  replace (2 ^ 20 * (IZR sn * / IZR sd) * IZR od * IZR sd) with (2 ^ 20 * IZR sn * IZR od) by (field; lra).
  replace (2 ^ 20) with (IZR (2 ^ 20)) by (symmetry; exact (pow_IZR 2 20)). exact T4.
Qed.

Lemma uas_order id s sc un off d1 d2 : In (id, UAS s sc un off) UAS_IDS -> Forall is_byte d1 -> Forall is_byte d2 ->
  length d1 = 2%nat -> length d2 = 2%nat ->
  exists x1 x2, uas_call (UAS s sc un off) d1 = Ok (TQty x1 un) /\ uas_call (UAS s sc un off) d2 = Ok (TQty x2 un)
    /\ (num_le x1 x2 = true <-> (raw_value s d1 <= raw_value s d2)%Z).
Proof.
  intros I F1 F2 L1 L2.
  destruct (uas_value id s sc un off d1 I F1 ltac:(lia)) as (x1 & C1 & v1 & X1 & E1).
  destruct (uas_value id s sc un off d2 I F2 ltac:(lia)) as (x2 & C2 & v2 & X2 & E2).
  destruct (order_real id s sc un off I) as [Ps Po].
  exists x1, x2. split; [exact C1|]. split; [exact C2|]. rewrite (nrep_le x1 x2 v1 v2 X1 X2).
  pose proof (raw_bound s d1 F1 ltac:(lia)) as B1. pose proof (raw_bound s d2 F2 ltac:(lia)) as B2. rewrite L1 in B1. rewrite L2 in B2.
  change (2 ^ (8 * Z.of_nat 2))%Z with 65536%Z in B1, B2.
  assert (R1 : Rabs (IZR (raw_value s d1)) <= 65536) by (rewrite <- abs_IZR; apply IZR_le; lia).
  assert (R2 : Rabs (IZR (raw_value s d2)) <= 65536) by (rewrite <- abs_IZR; apply IZR_le; lia).
  rewrite Rabs_mult, (Rabs_pos_eq (lit_real sc)) in E1, E2 by lra.
  assert (U : grow 3 <= / 2 ^ 40).
  { eapply Rle_trans; [apply grow_3|]. change 2 with (IZR radix2) at 1. rewrite <- bpow_powerRZ.
    replace (/ 2 ^ 40) with (bpow radix2 (-40)). apply bpow_le; lia.
    change (-40)%Z with (- (40))%Z. rewrite bpow_opp. f_equal. rewrite bpow_IZR by lia. symmetry; exact (pow_IZR 2 40). }
  pose proof (grow_pos 3) as G.
  set (g := grow 3) in *. set (c := lit_real sc) in *. set (o := lit_real off) in *.
  set (a := IZR (raw_value s d1)) in *. set (b := IZR (raw_value s d2)) in *.
  assert (K : g * (65536 * c + 2 ^ 20 * c) <= / 4 * c).
  { assert (g * (65536 + 2 ^ 20) <= / 4).
    { apply Rle_trans with (/ 2 ^ 40 * (65536 + 2 ^ 20)); [apply Rmult_le_compat_r; [simpl; lra|exact U]|]. simpl. lra. }
    replace (g * (65536 * c + 2 ^ 20 * c)) with (g * (65536 + 2 ^ 20) * c) by ring. apply Rmult_le_compat_r; lra. }
  assert (E1' : Rabs (v1 - (a * c + o)) <= / 4 * c).
  { eapply Rle_trans; [exact E1|]. eapply Rle_trans; [|exact K]. apply Rmult_le_compat_l; [exact G|]. nra. }
  assert (E2' : Rabs (v2 - (b * c + o)) <= / 4 * c).
  { eapply Rle_trans; [exact E2|]. eapply Rle_trans; [|exact K]. apply Rmult_le_compat_l; [exact G|]. nra. }
  apply Rabs_le_inv in E1', E2'.
  split; intros H.
  - apply Z.nlt_ge. intros N.
    assert (b + 1 <= a) by (unfold a, b; rewrite <- (plus_IZR _ 1); apply IZR_le; lia). nra.
  - apply Z.lt_eq_cases in H. destruct H as [H|H].
    + assert (a + 1 <= b) by (unfold a, b; rewrite <- (plus_IZR _ 1); apply IZR_le; lia). nra.
    + (* equal raw values give the same float *)
      assert (x1 = x2).
      { unfold uas_call in C1, C2.
        assert (T : forall d x, Forall is_byte d -> length d = 2%nat -> uas_call (UAS s sc un off) d = Ok (TQty x un) ->
          x = num_add (num_mul (PyInt (raw_value s d)) (lit_num sc)) (lit_num off)).
        { intros d x F L. unfold uas_call. destruct s.
          - assert (zlen d * 8 <? 1 = false)%Z as -> by (apply Z.ltb_ge; unfold zlen; lia). rewrite (twos_raw d F ltac:(lia)). cbv beta iota zeta. intros X. now inversion X.
          - rewrite bytes_to_int_eq. cbn. congruence. }
        rewrite (T d1 x1 F1 L1 C1), (T d2 x2 F2 L2 C2), H. reflexivity. }
      subst x2. apply nrep_num in X1, X2. destruct X1 as [_ <-], X2 as [_ <-]. lra.
Qed.
