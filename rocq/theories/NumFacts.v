(* error bounds for Python arithmetic on ints and floats *)
From Coq Require Import ZArith Reals Psatz Lia Bool Lra.
From Flocq Require Import Core Relative BinarySingleNaN.
From Verif Require Import Py Num SpecNum FloatFacts FloatRatio.
Open Scope R_scope.

(* the number x is well formed, its value is r *)
Definition nrep (x : num) (r : R) : Prop :=
  match x with PyInt z => (Z.abs z < 2 ^ 53)%Z /\ r = IZR z | PyFloat f => rep f r end.

Lemma rnd_int n : (Z.abs n < 2 ^ 53)%Z -> rnd (IZR n) = IZR n.
Proof.
  intros H. apply round_generic; auto with typeclass_instances.
  apply generic_format_FLT. exists (Float radix2 n 0); simpl; try lia.
  unfold F2R. simpl. ring.
Qed.
Lemma int_bound n k : (Z.abs n <= 2 ^ k)%Z -> (0 <= k)%Z -> Rabs (IZR n) <= bpow radix2 k.
Proof. intros H K. rewrite bpow_IZR, <- abs_IZR by exact K. now apply IZR_le. Qed.
Lemma rep_int n : (Z.abs n < 2 ^ 53)%Z -> rep (float_of_Z n) (IZR n).
Proof.
  intros H. rewrite <- (rnd_int n H). apply rep_of_Z. apply int_bound; [|lia].
  assert (2 ^ 53 <= 2 ^ 1000)%Z by (apply Z.pow_le_mono_r; lia). lia.
Qed.
Lemma nrep_float x r : nrep x r -> rep (to_float x) r.
Proof. destruct x as [z|f]; simpl; [intros [H ->]; now apply rep_int|auto]. Qed.
Lemma nrep_num x r : nrep x r -> num_finite x /\ num_real x = r.
Proof. destruct x as [z|f]; simpl; [intros [H ->]; auto|intros H; apply rep_real in H; tauto]. Qed.
Lemma nrep_le x y a b : nrep x a -> nrep y b -> num_le x y = true <-> a <= b.
Proof.
  intros X Y.
  assert (G : fle (to_float x) (to_float y) = true <-> a <= b).
  { rewrite (rep_le _ _ a b (nrep_float _ _ X) (nrep_float _ _ Y)). case Rle_bool_spec; intros; split; intros; try lra; congruence. }
  destruct x as [x|x], y as [y|y]; try exact G. destruct X as [_ ->], Y as [_ ->]. cbn [num_le].
  rewrite Z.leb_le. split; [apply IZR_le|apply le_IZR].
Qed.

Definition grow (n : nat) : R := (1 + u) ^ n - 1.
Lemma u_small : u <= / 1000000.
Proof.
  unfold u. apply Rle_trans with (bpow radix2 (-20)); [apply bpow_le; lia|].
  simpl. lra.
Qed.
Lemma grow_0 : grow 0 = 0. Proof. unfold grow. simpl. ring. Qed.
Lemma grow_S n : grow (S n) = grow n + u * (1 + u) ^ n.
Proof. unfold grow. simpl. ring. Qed.
Lemma pow_ge1 n : 1 <= (1 + u) ^ n. Proof. apply pow_R1_Rle. pose proof u_pos. lra. Qed.
Lemma grow_pos n : 0 <= grow n. Proof. unfold grow. pose proof (pow_ge1 n). lra. Qed.
Lemma grow_mono n m : (n <= m)%nat -> grow n <= grow m.
Proof. intros H. unfold grow. pose proof u_pos. assert ((1 + u) ^ n <= (1 + u) ^ m) by (apply Rle_pow; [lra|exact H]). lra. Qed.
Lemma grow_9 : grow 9 <= / 2.
Proof.
  unfold grow. pose proof u_pos. pose proof u_small.
  assert ((1 + u) ^ 9 <= (1 + / 1000000) ^ 9) by (apply pow_incr; lra).
  assert ((1 + / 1000000) ^ 9 <= 1 + / 2) by (simpl; lra). lra.
Qed.
Lemma grow_small n : (n <= 9)%nat -> grow n <= / 2.
Proof. intros H. eapply Rle_trans; [apply grow_mono, H|apply grow_9]. Qed.

(* the value of x is that of r after n roundings *)
Definition near (n : nat) (x : num) (r : R) : Prop := exists r', nrep x r' /\ Rabs (r' - r) <= grow n * Rabs r.

Definition moderate (r : R) : Prop := r = 0 \/ bpow radix2 (-900) <= Rabs r <= bpow radix2 900.

Lemma near_exact x r : nrep x r -> near 0 x r.
Proof. intros H. exists r. split; [exact H|]. rewrite grow_0, Rminus_diag_eq, Rabs_R0 by reflexivity. lra. Qed.
Lemma near_int z : (Z.abs z < 2 ^ 53)%Z -> near 0 (PyInt z) (IZR z).
Proof. intros H. apply near_exact. split; auto. Qed.
Lemma near_weaken n m x r : (n <= m)%nat -> near n x r -> near m x r.
Proof.
  intros L (r' & H & E). exists r'. split; [exact H|]. eapply Rle_trans; [exact E|].
  apply Rmult_le_compat_r; [apply Rabs_pos|now apply grow_mono].
Qed.

(* rounding a value already near *)
Lemma rnd_near n r r' : (n <= 8)%nat -> moderate r -> Rabs (r' - r) <= grow n * Rabs r ->
  Rabs r' <= bpow radix2 1000 /\ Rabs (rnd r' - r) <= grow (S n) * Rabs r.
Proof.
  intros L M E. pose proof (grow_small n ltac:(lia)) as G. pose proof u_pos.
  pose proof (Rabs_pos r) as Pr. pose proof (grow_pos n) as Gp.
  assert (B1 : Rabs r' <= (1 + u) ^ n * Rabs r).
  { replace r' with (r' - r + r) by ring. eapply Rle_trans; [apply Rabs_triang|]. unfold grow in E. lra. }
  assert (B2 : / 2 * Rabs r <= Rabs r').
  { pose proof (Rabs_triang_inv r (r - r')) as T. replace (r - (r - r')) with r' in T by ring.
    rewrite (Rabs_minus_sym r r') in T. nra. }
  assert (P : (1 + u) ^ n <= 2) by (unfold grow in G; lra).
  assert (M' : r' = 0 \/ bpow radix2 (-1022) <= Rabs r').
  { destruct M as [-> | [M _]].
    - left. rewrite Rabs_R0 in B1. rewrite Rmult_0_r in B1. destruct (Req_dec r' 0) as [|N]; [assumption|]. apply Rabs_pos_lt in N. lra.
    - right. apply Rle_trans with (/2 * bpow radix2 (-900)); [|lra].
      replace (/2) with (bpow radix2 (-1)) by (simpl; lra). rewrite <- bpow_plus. apply bpow_le. lia. }
  split.
  - destruct M as [-> | [_ M]].
    + rewrite Rabs_R0, Rmult_0_r in B1. eapply Rle_trans; [exact B1|apply bpow_ge_0].
    + apply Rle_trans with (2 * bpow radix2 900); [nra|]. change 2 with (bpow radix2 1). rewrite <- bpow_plus. apply bpow_le. lia.
  - pose proof (rnd_err0 r' M') as R1.
    replace (rnd r' - r) with (rnd r' - r' + (r' - r)) by ring. eapply Rle_trans; [apply Rabs_triang|].
    rewrite grow_S. nra.
Qed.

Lemma near_mul n m x y a b : near n x a -> near m y b -> (n + m <= 8)%nat -> moderate (a * b) ->
  (match x, y with PyInt _, PyInt _ => False | _, _ => True end) -> near (S (n + m)) (num_mul x y) (a * b).
Proof.
  intros (a' & X & Ea) (b' & Y & Eb) L M NI.
  assert (E : Rabs (a' * b' - a * b) <= grow (n + m) * Rabs (a * b)).
  { replace (a' * b' - a * b) with ((a' - a) * b' + a * (b' - b)) by ring.
    eapply Rle_trans; [apply Rabs_triang|]. rewrite !Rabs_mult.
    assert (B : Rabs b' <= (1 + u) ^ m * Rabs b).
    { replace b' with (b' - b + b) by ring. eapply Rle_trans; [apply Rabs_triang|]. unfold grow in Eb. lra. }
    pose proof (Rabs_pos a). pose proof (Rabs_pos b). pose proof (Rabs_pos (a' - a)). pose proof (Rabs_pos b').
    pose proof (grow_pos n). 
    apply Rle_trans with (grow n * Rabs a * ((1 + u) ^ m * Rabs b) + Rabs a * (grow m * Rabs b)).
    - apply Rplus_le_compat; [|apply Rmult_le_compat_l; assumption].
      apply Rmult_le_compat; assumption.
    - unfold grow. rewrite pow_add. right. ring. }
  destruct (rnd_near _ _ _ L M E) as [B R].
  exists (rnd (a' * b')). split; [|exact R].
  destruct x as [x|x], y as [y|y]; try contradiction; cbn [num_mul nrep]; apply rep_mul; try exact B; apply nrep_float; assumption.
Qed.
Lemma near_mul_int x y : (Z.abs (x * y) < 2 ^ 53)%Z -> near 0 (num_mul (PyInt x) (PyInt y)) (IZR x * IZR y).
Proof. intros H. cbn [num_mul]. rewrite <- mult_IZR. now apply near_int. Qed.
Lemma near_sub_int x y : (Z.abs (x - y) < 2 ^ 53)%Z -> near 0 (num_sub (PyInt x) (PyInt y)) (IZR x - IZR y).
Proof. intros H. cbn [num_sub]. rewrite <- minus_IZR. now apply near_int. Qed.
Lemma near_div n x y a b : near n x a -> nrep y b -> b <> 0 -> (n <= 8)%nat -> moderate (a / b) -> near (S n) (num_div x y) (a / b).
Proof.
  intros (a' & X & Ea) Y Nb L M.
  assert (E : Rabs (a' / b - a / b) <= grow n * Rabs (a / b)).
  { replace (a' / b - a / b) with ((a' - a) * / b) by (unfold Rdiv; ring). unfold Rdiv. rewrite !Rabs_mult, <- Rmult_assoc.
    apply Rmult_le_compat_r; [apply Rabs_pos|exact Ea]. }
  destruct (rnd_near _ _ _ L M E) as [B R].
  exists (rnd (a' / b)). split; [|exact R]. cbn [num_div nrep]. apply rep_div; try assumption; apply nrep_float; assumption.
Qed.

Lemma near_bounds n x r : near n x r -> (n <= 9)%nat -> exists r', nrep x r' /\ Rabs r' <= (1 + u) ^ n * Rabs r /\ Rabs (r' - r) <= grow n * Rabs r.
Proof.
  intros (r' & X & E) L. exists r'. split; [exact X|]. split; [|exact E].
  replace r' with (r' - r + r) by ring. eapply Rle_trans; [apply Rabs_triang|]. unfold grow in E. lra.
Qed.

Lemma add_bound n r s r' s' : (n <= 8)%nat ->
  Rabs r <= bpow radix2 900 -> Rabs s <= bpow radix2 900 ->
  Rabs (r' - r) <= grow n * Rabs r -> Rabs (s' - s) <= grow n * Rabs s ->
  Rabs (rnd (r' + s') - (r' + s')) <= u * Rabs (r' + s') ->
  Rabs (r' + s') <= bpow radix2 1000 /\ Rabs (rnd (r' + s') - (r + s)) <= grow (S n) * (Rabs r + Rabs s).
Proof.
  intros L Mr Ms Er Es R. pose proof u_pos. pose proof (grow_small n ltac:(lia)). pose proof (grow_pos n).
  pose proof (Rabs_pos r). pose proof (Rabs_pos s).
  assert (B : Rabs (r' + s') <= (1 + u) ^ n * (Rabs r + Rabs s)).
  { replace (r' + s') with ((r' - r) + (s' - s) + (r + s)) by ring.
    eapply Rle_trans; [apply Rabs_triang|]. pose proof (Rabs_triang (r' - r) (s' - s)). pose proof (Rabs_triang r s).
    unfold grow in *. lra. }
  split.
  - apply Rle_trans with (4 * bpow radix2 900); [unfold grow in *; nra|]. change 4 with (bpow radix2 2). rewrite <- bpow_plus. apply bpow_le. lia.
  - replace (rnd (r' + s') - (r + s)) with ((rnd (r' + s') - (r' + s')) + (r' - r) + (s' - s)) by ring.
    eapply Rle_trans; [apply Rabs_triang|]. pose proof (Rabs_triang (rnd (r' + s') - (r' + s')) (r' - r)).
    rewrite grow_S. unfold grow in *. nra.
Qed.

(* what is proved of a sum *)
Definition sum_near (n : nat) (x : num) (r s : R) : Prop :=
  exists v, nrep x v /\ Rabs (v - (r + s)) <= grow n * (Rabs r + Rabs s).

Lemma near_add n x y r s : near n x r -> near n y s -> (n <= 8)%nat -> Rabs r <= bpow radix2 900 -> Rabs s <= bpow radix2 900 ->
  (match x, y with PyInt _, PyInt _ => False | _, _ => True end) -> sum_near (S n) (num_add x y) r s.
Proof.
  intros (r' & X & Er) (s' & Y & Es) L Mr Ms NI.
  pose proof (rnd_err_add _ _ _ _ (nrep_float _ _ X) (nrep_float _ _ Y)) as R.
  destruct (add_bound n r s r' s' L Mr Ms Er Es R) as [B E].
  exists (rnd (r' + s')). split; [|exact E].
  destruct x as [x|x], y as [y|y]; try contradiction; cbn [num_add nrep]; apply rep_add; try exact B; apply nrep_float; assumption.
Qed.
Lemma rnd_err_sub f g a b : rep f a -> rep g b -> Rabs (rnd (a - b) - (a - b)) <= u * Rabs (a - b).
Proof.
  intros Hf Hg. apply rep_format in Hf, Hg. apply generic_format_opp in Hg.
  destruct (Plus_error.FLT_plus_error_N_ex radix2 (-1074) 53 (fun x => negb (Z.even x)) a (- b) Hf Hg) as (eps & He & E).
  fold (a - b) in E. rewrite E.
  replace ((a - b) * (1 + eps) - (a - b)) with (eps * (a - b)) by ring.
  rewrite Rabs_mult. apply Rmult_le_compat_r; [apply Rabs_pos|].
  eapply Rle_trans; [exact He|]. replace (u_ro radix2 53) with u by (symmetry; exact half_bpow).
  pose proof u_pos. apply (Rmult_le_reg_r (1 + u)); [lra|]. field_simplify; [nra|lra].
Qed.
Lemma near_sub n x y r s : near n x r -> near n y s -> (n <= 8)%nat -> Rabs r <= bpow radix2 900 -> Rabs s <= bpow radix2 900 ->
  (match x, y with PyInt _, PyInt _ => False | _, _ => True end) -> sum_near (S n) (num_sub x y) r (- s).
Proof.
  intros (r' & X & Er) (s' & Y & Es) L Mr Ms NI.
  pose proof (rnd_err_sub _ _ _ _ (nrep_float _ _ X) (nrep_float _ _ Y)) as R.
  destruct (add_bound n r (- s) r' (- s') L Mr) as [B E]; try assumption.
  - now rewrite Rabs_Ropp.
  - replace (- s' - - s) with (- (s' - s)) by ring. now rewrite !Rabs_Ropp.
  - exists (rnd (r' - s')). split; [|exact E].
    destruct x as [x|x], y as [y|y]; try contradiction; cbn [num_sub nrep]; apply rep_sub; try exact B; apply nrep_float; assumption.
Qed.

(* 3 roundings *)
Lemma grow_3 : grow 3 <= powerRZ 2 (-51).
Proof.
  assert (E : powerRZ 2 (-51) = 4 * u).
  { unfold u. change 2 with (IZR radix2). rewrite <- bpow_powerRZ. change 4 with (bpow radix2 2). rewrite <- bpow_plus. reflexivity. }
  rewrite E. unfold grow. pose proof u_pos. pose proof u_small. simpl. nra.
Qed.
