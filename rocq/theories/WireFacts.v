(* From printed lines to parsed frames *)
From Coq Require Import ZArith List Bool Lia Permutation Sorted.
From Coq Require Import ZifyBool ZifyNat.
From Verif Require Import Py Utils Protocol SpecWire PyFacts.
Import ListNotations.
Open Scope Z_scope.
Ltac Zify.zify_post_hook ::= Z.div_mod_to_equations.
Arguments Z.div : simpl never.
Arguments Z.modulo : simpl never.
Arguments Z.mul : simpl never.
Arguments Z.add : simpl never.
Arguments Z.land : simpl never.

(* finite sweeps over bytes and nibbles *)
Definition zrange (n : nat) : list Z := map Z.of_nat (seq 0 n).
Lemma zrange_In n x : 0 <= x < Z.of_nat n -> In x (zrange n).
Proof.
  intros H. unfold zrange. apply in_map_iff. exists (Z.to_nat x). split; [lia|]. apply in_seq; lia.
Qed.
Lemma byte_sweep (P : Z -> bool) : forallb P (zrange 256) = true -> forall b, is_byte b -> P b = true.
Proof.
  intros H b Hb. rewrite forallb_forall in H. apply H. apply zrange_In. unfold is_byte in Hb; lia.
Qed.
Lemma nibble_sweep2 (P : Z -> Z -> bool) :
  forallb (fun x => forallb (P x) (zrange 16)) (zrange 16) = true ->
  forall a b, is_nibble a -> is_nibble b -> P a b = true.
Proof.
  intros H a b Ha Hb. rewrite forallb_forall in H.
  assert (Ia : In a (zrange 16)) by (apply zrange_In; unfold is_nibble in Ha; lia).
  specialize (H a Ia). cbv beta in H. rewrite forallb_forall in H. apply H.
  apply zrange_In; unfold is_nibble in Hb; lia.
Qed.

Lemma digit_char_hexval d c : digit_char d c -> hexval c = Some d.
Proof.
  intros [[H ->]|[H [->| ->]]]; unfold hexval;
    repeat match goal with |- context [if ?b then _ else _] => destruct b eqn:? end;
    first [f_equal; lia | exfalso; lia].
Qed.
Lemma hexval_digit_char d c : hexval c = Some d -> digit_char d c.
Proof.
  unfold hexval, digit_char.
  destruct ((48 <=? c) && (c <=? 57)) eqn:E1; [intros H; injection H as <-; left; lia|].
  destruct ((65 <=? c) && (c <=? 70)) eqn:E2; [intros H; injection H as <-; right; lia|].
  destruct ((97 <=? c) && (c <=? 102)) eqn:E3; [intros H; injection H as <-; right; lia|]. congruence.
Qed.
Lemma digit_char_range d c : digit_char d c -> is_nibble d /\ c <> 32.
Proof. unfold digit_char, is_nibble; lia. Qed.
Lemma hexval_range c d : hexval c = Some d -> is_nibble d.
Proof. intros H; apply hexval_digit_char, digit_char_range in H; tauto. Qed.

(* s is the blank-free text of the digits ds *)
Definition digits_of (s : text) (ds : list Z) : Prop := Forall2 (fun c d => hexval c = Some d) s ds.

Lemma shows_no_spaces l ds : shows l ds -> digits_of (no_spaces l) ds.
Proof.
  unfold digits_of, no_spaces, remove_char.
  induction 1 as [|l ds H IH|c d l ds Hc H IH]; cbn; [constructor|exact IH|].
  destruct (digit_char_range d c Hc) as [_ Hne].
  destruct (Z.eqb_spec c 32); [contradiction|]. cbn. constructor; [apply digit_char_hexval; exact Hc|exact IH].
Qed.
Lemma digits_of_isHex s ds : digits_of s ds -> isHex s = true.
Proof. unfold isHex. induction 1 as [|c d s ds Hc H IH]; cbn; [reflexivity|]. rewrite Hc; exact IH. Qed.
Lemma isHex_digits_of s : isHex s = true -> exists ds, digits_of s ds.
Proof.
  unfold isHex. induction s as [|c s IH]; cbn; [exists []; constructor|].
  destruct (hexval c) eqn:E; cbn; [|congruence]. intros H. destruct (IH H) as [ds Hd].
  eexists; constructor; eassumption.
Qed.
Lemma no_spaces_shows l ds : digits_of (no_spaces l) ds -> shows l ds.
Proof.
  revert ds. induction l as [|c l IH]; intros ds; cbn.
  - intros H; inversion H; constructor.
  - destruct (Z.eqb_spec c 32) as [->|Hne]; cbn.
    + intros H; constructor; apply IH; exact H.
    + intros H; inversion H as [|? d ? ds' Hc Hd]; subst. constructor; [apply hexval_digit_char; exact Hc|apply IH; exact Hd].
Qed.
Lemma shows_digits_of l ds : shows l ds <-> digits_of (no_spaces l) ds.
Proof. split; [apply shows_no_spaces|apply no_spaces_shows]. Qed.
Lemma hex_line_isHex l : hex_line l <-> isHex (no_spaces l) = true.
Proof.
  split.
  - intros [ds H]. eapply digits_of_isHex, shows_no_spaces; exact H.
  - intros H. destruct (isHex_digits_of _ H) as [ds Hd]. exists ds. apply no_spaces_shows; exact Hd.
Qed.
Lemma digits_of_nibbles s ds : digits_of s ds -> Forall is_nibble ds.
Proof. induction 1; constructor; eauto using hexval_range. Qed.
Lemma digits_of_length s ds : digits_of s ds -> length s = length ds.
Proof. apply Forall2_length. Qed.
Lemma digits_of_fun s ds1 ds2 : digits_of s ds1 -> digits_of s ds2 -> ds1 = ds2.
Proof.
  intros H; revert ds2; induction H as [|c d s ds Hc H IH]; intros ds2 H2; inversion H2; subst; [reflexivity|].
  f_equal; [congruence|apply IH; assumption].
Qed.
Lemma shows_fun l ds1 ds2 : shows l ds1 -> shows l ds2 -> ds1 = ds2.
Proof. rewrite !shows_digits_of. apply digits_of_fun. Qed.
Lemma no_spaces_idem l : no_spaces (no_spaces l) = no_spaces l.
Proof.
  unfold no_spaces, remove_char. induction l as [|c l IH]; cbn; [reflexivity|].
  destruct (c =? 32) eqn:E; cbn; [exact IH|]. rewrite E; cbn; rewrite IH; reflexivity.
Qed.

Lemma nibbles_length bs : length (nibbles bs) = (2 * length bs)%nat.
Proof. unfold nibbles. induction bs as [|b bs IH]; [reflexivity|]. cbn [flat_map app length]. rewrite IH; lia. Qed.
Lemma nibbles_app a b : nibbles (a ++ b) = nibbles a ++ nibbles b.
Proof. apply flat_map_app. Qed.
Lemma nibbles_inj a b : nibbles a = nibbles b -> a = b.
Proof.
  revert b; induction a as [|x a IH]; destruct b as [|y b]; cbn; try congruence; intros E.
  injection E as E1 E2 E3. f_equal; [|apply IH; exact E3].
  rewrite (Z.div_mod x 16), (Z.div_mod y 16), E1, E2 by lia. reflexivity.
Qed.
Lemma pair_up ds : Forall is_nibble ds -> Nat.even (length ds) = true ->
  exists bs, ds = nibbles bs /\ Forall is_byte bs.
Proof.
  remember (length ds) as n eqn:En. revert ds En.
  induction n as [n IH] using lt_wf_ind; intros ds En F Ev.
  destruct ds as [|a [|b ds]]; cbn in En; subst n.
  - exists []; split; [reflexivity|constructor].
  - cbn in Ev; congruence.
  - inversion F as [|? ? Ha F']; subst. inversion F' as [|? ? Hb F'']; subst.
    destruct (IH (length ds) ltac:(lia) ds eq_refl F'') as (bs & -> & Fb); [exact Ev|].
    exists (16 * a + b :: bs). unfold is_nibble in *. split.
    + cbn. f_equal; [lia|]. f_equal; lia.
    + constructor; [unfold is_byte; lia|exact Fb].
Qed.
Lemma unhexlify_nibbles s bs : digits_of s (nibbles bs) -> unhexlify s = Ok bs.
Proof.
  revert s; induction bs as [|b bs IH]; intros s H; cbn in H; inversion H as [|c1 d1 s1 ds1 H1 H2]; subst; [reflexivity|].
  inversion H2 as [|c2 d2 s2 ds2 H3 H4]; subst. cbn. rewrite H1, H3. rewrite (IH _ H4). cbn.
  f_equal. f_equal. lia.
Qed.
Lemma zlen_even s ds : digits_of s ds -> (Z.land (zlen s) 1 =? 0) = Nat.even (length ds).
Proof.
  intros H. unfold zlen. rewrite (digits_of_length _ _ H).
  rewrite (Z.land_ones _ 1) by lia. change (2 ^ 1) with 2.
  destruct (Nat.even (length ds)) eqn:E.
  - apply Nat.even_spec in E. destruct E as [k Hk]. lia.
  - rewrite <- Nat.negb_odd in E. apply negb_false_iff, Nat.odd_spec in E. destruct E as [k Hk]. lia.
Qed.

(* ------------------------------------------------------------------ *)
(* CAN *)
Definition id_bytes (h : can_id) : bytes :=
  match h with Id11 a b c => [0; 0; a; 16 * b + c] | Id29 a b c d => [a; b; c; d] end.
Definition id_receiver (h : can_id) : Z :=
  match h with
  | Id11 _ b c => if b =? 13 then c else if 8 <=? c then 241 else c
  | Id29 _ _ c _ => c
  end.
Definition id_priority (h : can_id) : Z := match h with Id11 a _ _ => a | Id29 a _ _ _ => a end.
Definition id_mode (h : can_id) : Z := match h with Id11 _ b _ => 16 * b | Id29 _ b _ _ => b end.

(* the frame made of a line with this header and these data bytes, if any *)
Definition can_frame (h : can_id) (line : text) (data : bytes) : option frame :=
  let fr := mkFrame line data (Some (id_priority h)) (Some (id_mode h)) (Some (id_receiver h)) (Some (sender h)) in
  if (length data <? 2)%nat || (8 <? length data)%nat then None
  else match data with
       | pci :: d1 :: _ =>
           if pci / 16 =? 0 then if pci mod 16 =? 0 then None else Some (fr (Some 0) 0 (Some (pci mod 16)))
           else if pci / 16 =? 1 then
             let n := 256 * (pci mod 16) + d1 in if n =? 0 then None else Some (fr (Some 16) 0 (Some n))
           else if pci / 16 =? 2 then Some (fr (Some 32) (pci mod 16) None)
           else None
       | _ => None
       end.

Lemma land15 b : Z.land b 15 = b mod 16.
Proof. change 15 with (Z.ones 4). rewrite Z.land_ones by lia. reflexivity. Qed.
Lemma land240 b : is_byte b -> Z.land b 240 = 16 * (b / 16).
Proof.
  intros H. apply Z.eqb_eq. revert b H.
  apply (byte_sweep (fun b => Z.land b 240 =? 16 * (b / 16))). vm_compute; reflexivity.
Qed.

Lemma can_header_id h data : id_ok h ->
  can_header (id_width h) (id_bytes h ++ data) = Ok (id_priority h, id_mode h, id_receiver h, sender h).
Proof.
  destruct h as [a b c|a b c d]; cbn; intros H; [|reflexivity].
  destruct H as (Ha & Hb & Hc).
  set (x := 16 * b + c).
  assert (X : is_byte x) by (unfold is_byte, is_nibble, x in *; lia).
  rewrite (land15 a), (land240 x X).
  assert (L8 : (Z.land x 8 =? 0) = negb (8 <=? c)).
  { apply eqb_prop. revert b c Hb Hc x X. 
    cbv zeta. intros b c Hb Hc _. revert b c Hb Hc.
    apply (nibble_sweep2 (fun b c => Bool.eqb (Z.land (16 * b + c) 8 =? 0) (negb (8 <=? c)))). vm_compute; reflexivity. }
  assert (L7 : Z.land x 7 = c mod 8).
  { change 7 with (Z.ones 3). rewrite Z.land_ones by lia. change (2 ^ 3) with 8. unfold x, is_nibble in *; lia. }
  assert (L15 : Z.land x 15 = c) by (rewrite land15; unfold x, is_nibble in *; lia).
  assert (Q : x / 16 = b) by (unfold x, is_nibble in *; lia).
  rewrite Q, L8, L7, L15. assert (E : a mod 16 = a) by (unfold is_nibble in *; lia). rewrite E.
  destruct (Z.eqb_spec b 13) as [Eb|Nb].
  - rewrite Eb. reflexivity.
  - destruct (Z.eqb_spec (16 * b) 208); [lia|].
    rewrite negb_involutive. unfold is_nibble in *.
    destruct (Z.leb_spec 8 c); repeat f_equal; lia.
Qed.

Lemma unhexlify_can h s data : id_ok h -> Forall is_byte data -> digits_of s (id_digits h ++ nibbles data) ->
  unhexlify (if id_width h =? 11 then str "00000" ++ s else s) = Ok (id_bytes h ++ data).
Proof.
  intros Hh Hd H. destruct h as [a b c|a b c d]; cbn [id_width id_digits id_bytes] in *.
  - apply unhexlify_nibbles. change (11 =? 11) with true. cbv iota.
    rewrite nibbles_app.
    assert (E : nibbles [0; 0; a; 16 * b + c] = [0;0;0;0;0;a;b;c]).
    { cbn in Hh; unfold is_nibble in Hh. cbn [nibbles flat_map app]. repeat f_equal; lia. }
    rewrite E. cbn [app str Ascii.N_of_ascii]. repeat (constructor; [reflexivity|]). exact H.
  - change (29 =? 11) with false. cbv iota. apply unhexlify_nibbles. rewrite nibbles_app. exact H.
Qed.

Lemma can_parse_frame_eq h s data : id_ok h -> Forall is_byte data -> digits_of s (id_digits h ++ nibbles data) ->
  can_parse_frame (id_width h) s = Ok (can_frame h s data).
Proof.
  intros Hh Hd Hs. unfold can_parse_frame.
  assert (Ev : (Z.land (zlen (if id_width h =? 11 then str "00000" ++ s else s)) 1 =? 0) = true).
  { pose proof (digits_of_length _ _ Hs) as L. rewrite app_length, nibbles_length in L.
    rewrite Z.land_ones with (n := 1) by lia. change (2 ^ 1) with 2.
    destruct h; cbn [id_width id_digits] in *.
    - change (11 =? 11) with true. cbv iota. unfold zlen. rewrite app_length. cbn [length] in *. cbn [str length]. lia.
    - change (29 =? 11) with false. cbv iota. unfold zlen. rewrite nibbles_length in L. cbn [length] in *. lia. }
  rewrite Ev. cbn [negb]. match goal with |- context [unhexlify ?x] =>
    replace (unhexlify x) with (@Ok bytes (id_bytes h ++ data)) by (symmetry; exact (unhexlify_can h s data Hh Hd Hs)) end.
  cbn [rbind].
  assert (Z1 : zlen (id_bytes h ++ data) = 4 + zlen data) by (rewrite zlen_app; destruct h; reflexivity).
  rewrite Z1. unfold can_frame.
  destruct (Z.ltb_spec (4 + zlen data) 6) as [Hl|Hl].
  { assert (E : (length data <? 2)%nat = true) by (unfold zlen in *; apply Nat.ltb_lt; lia). rewrite E. reflexivity. }
  destruct (Z.ltb_spec 12 (4 + zlen data)) as [Hg|Hg].
  { assert (E : (8 <? length data)%nat = true) by (unfold zlen in *; apply Nat.ltb_lt; lia). rewrite E, orb_true_r. reflexivity. }
  assert (E1 : (length data <? 2)%nat || (8 <? length data)%nat = false).
  { unfold zlen in *. apply orb_false_iff; split; apply Nat.ltb_ge; lia. }
  rewrite E1.
  rewrite (can_header_id h data Hh). cbn [rbind].
  assert (E2 : from 4 (id_bytes h ++ data) = data) by (destruct h; reflexivity).
  rewrite E2. destruct data as [|pci [|d1 data]]; [unfold zlen in *; cbn in *; lia..|].
  cbn [get nth_error rbind]. inversion Hd as [|? ? Hp Hd']; subst. inversion Hd' as [|? ? Hd1 _]; subst.
  rewrite (land240 pci Hp), land15. unfold FRAME_TYPE_SF, FRAME_TYPE_FF, FRAME_TYPE_CF.
  assert (Sh : Z.shiftl (pci mod 16) 8 + d1 = 256 * (pci mod 16) + d1) by (rewrite Z.shiftl_mul_pow2 by lia; lia).
  rewrite Sh.
  destruct (Z.eqb_spec (pci / 16) 0) as [E|N0].
  { rewrite E. cbn [Z.mul Z.eqb]. destruct (pci mod 16 =? 0); reflexivity. }
  destruct (Z.eqb_spec (16 * (pci / 16)) 0); [lia|].
  destruct (Z.eqb_spec (pci / 16) 1) as [E|N1].
  { rewrite E. cbn [Z.mul Z.eqb]. change (16 * 1 =? 16) with true. cbv iota.
    destruct (256 * (pci mod 16) + d1 =? 0); reflexivity. }
  destruct (Z.eqb_spec (16 * (pci / 16)) 16); [lia|].
  destruct (Z.eqb_spec (pci / 16) 2) as [E|N2].
  { rewrite E. reflexivity. }
  destruct (Z.eqb_spec (16 * (pci / 16)) 32); [lia|]. reflexivity.
Qed.

(* every line of hex digits: too short or odd, or a header and data bytes *)
Lemma can_digits_cases w ds : w = 11 \/ w = 29 -> Forall is_nibble ds ->
  (exists h data, id_width h = w /\ id_ok h /\ Forall is_byte data /\ ds = id_digits h ++ nibbles data)
  \/ (forall s, digits_of s ds -> can_parse_frame w s = Ok None).
Proof.
  intros Hw F. destruct Hw as [-> | ->].
  - destruct ds as [|a [|b [|c ds]]].
    1-3: right; intros s H; unfold can_parse_frame; change (11 =? 11) with true; cbv iota.
    + inversion H; subst. reflexivity.
    + inversion H as [|x ? s' ? Hx H']; subst. inversion H'; subst.
      inversion F as [|? ? Ha _]; subst. unfold is_nibble in Ha.
      replace (unhexlify (str "00000" ++ [x])) with (@Ok bytes [0; 0; a]); [reflexivity|].
      symmetry. apply unhexlify_nibbles. cbn.
      repeat (constructor; [reflexivity|]). constructor; [|constructor; [|constructor]].
      * replace (a / 16) with 0 by lia. reflexivity.
      * replace (a mod 16) with a by lia. assumption.
    + inversion H as [|x ? s' ? Hx H']; subst. inversion H' as [|y ? s'' ? Hy H'']; subst. inversion H''; subst. reflexivity.
    + destruct (Nat.even (length ds)) eqn:Ev.
      * inversion F as [|? ? Ha F1]; subst. inversion F1 as [|? ? Hb F2]; subst. inversion F2 as [|? ? Hc F3]; subst.
        destruct (pair_up ds F3 Ev) as (bs & -> & Fb). left. exists (Id11 a b c), bs. cbn. tauto.
      * right. intros s H. unfold can_parse_frame. change (11 =? 11) with true; cbv iota.
        assert (H' : digits_of (str "00000" ++ s) ([0;0;0;0;0] ++ a :: b :: c :: ds)).
        { cbn [str app Ascii.N_of_ascii]. repeat (constructor; [reflexivity|]). exact H. }
        rewrite (zlen_even _ _ H'). cbn [app length Nat.even]. rewrite Ev. reflexivity.
  - destruct (Nat.even (length ds)) eqn:Ev.
    + destruct (pair_up ds F Ev) as (bs & -> & Fb). destruct bs as [|a [|b [|c [|d data]]]].
      5: { left. exists (Id29 a b c d), data. repeat match goal with H : Forall is_byte (_ :: _) |- _ => inversion H; clear H; subst end.
           cbn. tauto. }
      all: right; intros s H; unfold can_parse_frame; change (29 =? 11) with false; cbv iota;
           rewrite (zlen_even _ _ H), Ev; cbn [negb]; rewrite (unhexlify_nibbles _ _ H); reflexivity.
    + right. intros s H. unfold can_parse_frame. change (29 =? 11) with false; cbv iota.
      rewrite (zlen_even _ _ H), Ev. reflexivity.
Qed.

(* ------------------------------------------------------------------ *)
(* legacy *)
Definition legacy_frame (b1 b2 tx : Z) (line : text) (data : bytes) : frame :=
  mkFrame line data (Some b1) None (Some b2) (Some tx) None 0 None.
Lemma legacy_parse_frame_eq b1 b2 tx s data ck : 
  Forall is_byte ([b1; b2; tx] ++ data ++ [ck]) -> digits_of s (nibbles ([b1; b2; tx] ++ data ++ [ck])) ->
  legacy_parse_frame s =
  Ok (if (length data <? 2)%nat || (7 <? length data)%nat then None else Some (legacy_frame b1 b2 tx s data)).
Proof.
  intros F H. unfold legacy_parse_frame.
  rewrite (zlen_even _ _ H), nibbles_length.
  replace (Nat.even (2 * length ([b1; b2; tx] ++ data ++ [ck]))) with true
    by (symmetry; rewrite Nat.even_mul; reflexivity).
  cbn [negb]. rewrite (unhexlify_nibbles _ _ H). cbn [rbind].
  assert (Z1 : zlen ([b1; b2; tx] ++ data ++ [ck]) = 4 + zlen data).
  { rewrite !zlen_app. unfold zlen at 1 3. cbn [length]. lia. }
  rewrite Z1.
  destruct (Z.ltb_spec (4 + zlen data) 6) as [Hl|Hl].
  { assert (E : (length data <? 2)%nat = true) by (unfold zlen in *; apply Nat.ltb_lt; lia). rewrite E. reflexivity. }
  destruct (Z.ltb_spec 11 (4 + zlen data)) as [Hg|Hg].
  { assert (E : (7 <? length data)%nat = true) by (unfold zlen in *; apply Nat.ltb_lt; lia). rewrite E, orb_true_r. reflexivity. }
  assert (E1 : (length data <? 2)%nat || (7 <? length data)%nat = false).
  { unfold zlen in *. apply orb_false_iff; split; apply Nat.ltb_ge; lia. }
  rewrite E1. cbn [app get nth_error rbind].
  replace (slice 3 (length (b1 :: b2 :: tx :: data ++ [ck]) - 1) (b1 :: b2 :: tx :: data ++ [ck])) with data; [reflexivity|].
  unfold slice. cbn [length skipn]. rewrite app_length. cbn [length].
  replace (S (S (S (length data + 1))) - 1 - 3)%nat with (length data + 0)%nat by lia.
  rewrite firstn_app_2. cbn. rewrite app_nil_r; reflexivity.
Qed.
Lemma legacy_digits_cases ds : Forall is_nibble ds ->
  (exists b1 b2 tx data ck, Forall is_byte ([b1; b2; tx] ++ data ++ [ck]) /\ ds = nibbles ([b1; b2; tx] ++ data ++ [ck]))
  \/ (forall s, digits_of s ds -> legacy_parse_frame s = Ok None).
Proof.
  intros F. destruct (Nat.even (length ds)) eqn:Ev.
  - destruct (pair_up ds F Ev) as (bs & -> & Fb). destruct bs as [|a [|b [|c rest]]].
    4: { destruct rest as [|d rest]; [right; intros s H; unfold legacy_parse_frame;
           rewrite (zlen_even _ _ H), Ev; cbn [negb]; rewrite (unhexlify_nibbles _ _ H); reflexivity|].
         destruct (exists_last (l := d :: rest)) as (data & ck & E); [congruence|].
         rewrite E in *. left. exists a, b, c, data, ck. split; [exact Fb|reflexivity]. }
    all: right; intros s H; unfold legacy_parse_frame;
           rewrite (zlen_even _ _ H), Ev; cbn [negb]; rewrite (unhexlify_nibbles _ _ H); reflexivity.
  - right. intros s H. unfold legacy_parse_frame. rewrite (zlen_even _ _ H), Ev. reflexivity.
Qed.
