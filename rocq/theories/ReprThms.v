(* Reading back what repr() prints. *)
From Coq Require Import ZArith List Bool Lia.
From Verif Require Import Py Utils Protocol Decoders Command Obd Repr SpecRepr SpecObd ObdThms3.
Import ListNotations.
Open Scope Z_scope.
Ltac Zify.zify_post_hook ::= Z.div_mod_to_equations.
Local Arguments Z.eqb : simpl never.
Local Arguments Z.ltb : simpl never.
Local Arguments Z.leb : simpl never.
Local Arguments Z.mul : simpl never.
Local Arguments Z.div : simpl never.
Local Arguments Z.modulo : simpl never.

Lemma hexdig_digit d : 0 <= d < 16 -> hexdig (hexdigit d) = Some d.
Proof.
  intros B. unfold hexdigit, hexdig. destruct (Z.ltb_spec d 10).
  - replace ((48 <=? 48 + d) && (48 + d <=? 57)) with true by (symmetry; apply andb_true_intro; split; apply Z.leb_le; lia). f_equal. lia.
  - replace ((48 <=? 87 + d) && (87 + d <=? 57)) with false by (symmetry; apply andb_false_iff; right; apply Z.leb_gt; lia).
    replace ((97 <=? 87 + d) && (87 + d <=? 102)) with true by (symmetry; apply andb_true_intro; split; apply Z.leb_le; lia). f_equal. lia.
Qed.
Lemma hexnum_app a b acc : hexnum acc (a ++ b) = match hexnum acc a with Some v => hexnum v b | None => None end.
Proof. revert acc. induction a as [|d a IH]; intros acc; [reflexivity|]. cbn. destruct (hexdig d); [apply IH|reflexivity]. Qed.
Lemma hexnum_fixed n : forall c, 0 <= c < 16 ^ Z.of_nat n -> hexnum 0 (hex_fixed n c) = Some c.
Proof.
  induction n as [|n IH]; intros c B.
  - cbn in *. f_equal. lia.
  - replace (Z.of_nat (S n)) with (Z.of_nat n + 1) in B by lia. rewrite Z.pow_add_r in B by lia. change (16 ^ 1) with 16 in B.
    change (hex_fixed (S n) c) with (hex_fixed n (c / 16) ++ [hexdigit (c mod 16)]).
    rewrite hexnum_app, IH by lia. cbn. rewrite hexdig_digit by lia. f_equal. lia.
Qed.

Ltac zb := repeat match goal with
  | |- context [?a =? ?b] => (replace (a =? b) with false by (symmetry; apply Z.eqb_neq; lia)) || (replace (a =? b) with true by (symmetry; apply Z.eqb_eq; lia))
  | |- context [?a <? ?b] => (replace (a <? b) with false by (symmetry; apply Z.ltb_ge; lia)) || (replace (a <? b) with true by (symmetry; apply Z.ltb_lt; lia))
  | |- context [?a <=? ?b] => (replace (a <=? b) with false by (symmetry; apply Z.leb_gt; lia)) || (replace (a <=? b) with true by (symmetry; apply Z.leb_le; lia))
  end.

Lemma inside_120 b q r : inside b q (92 :: 120 :: r) = match r with a :: b' :: r => add (hexnum 0 [a; b']) (inside b q r) | _ => None end.
Proof. reflexivity. Qed.
Lemma inside_117 q r : inside false q (92 :: 117 :: r) = match r with a :: b :: c :: d :: r => add (hexnum 0 [a; b; c; d]) (inside false q r) | _ => None end.
Proof. reflexivity. Qed.
Lemma inside_85 q r : inside false q (92 :: 85 :: r) =
  match r with
  | a :: b :: c :: d :: a' :: b' :: c' :: d' :: r =>
      match hexnum 0 [a; b; c; d; a'; b'; c'; d'] with
      | Some v => if v <=? 1114111 then add (Some v) (inside false q r) else None
      | None => None
      end
  | _ => None
  end.
Proof. reflexivity. Qed.
Lemma inside_x b q c r : 0 <= c < 256 -> inside b q (str "\x" ++ hex_fixed 2 c ++ r) = add (Some c) (inside b q r).
Proof.
  intros B. pose proof (hexnum_fixed 2 c B) as Hx. change (str "\x" ++ hex_fixed 2 c ++ r) with (92 :: 120 :: (hex_fixed 2 c ++ r)).
  rewrite inside_120. cbn [hex_fixed app] in *. cbv beta iota. rewrite Hx. reflexivity.
Qed.
Lemma inside_u q c r : 0 <= c < 65536 -> inside false q (str "\u" ++ hex_fixed 4 c ++ r) = add (Some c) (inside false q r).
Proof.
  intros B. pose proof (hexnum_fixed 4 c B) as Hx. change (str "\u" ++ hex_fixed 4 c ++ r) with (92 :: 117 :: (hex_fixed 4 c ++ r)).
  rewrite inside_117. cbn [hex_fixed app] in *. cbv beta iota. rewrite Hx. reflexivity.
Qed.
Lemma inside_U q c r : 0 <= c <= 1114111 -> inside false q (str "\U" ++ hex_fixed 8 c ++ r) = add (Some c) (inside false q r).
Proof.
  intros B. assert (Hx : hexnum 0 (hex_fixed 8 c) = Some c) by (apply hexnum_fixed; change (16 ^ Z.of_nat 8) with 4294967296; lia).
  change (str "\U" ++ hex_fixed 8 c ++ r) with (92 :: 85 :: (hex_fixed 8 c ++ r)).
  rewrite inside_85. cbn [hex_fixed app] in *. cbv beta iota. rewrite Hx.
  replace (c <=? 1114111) with true by (symmetry; apply Z.leb_le; lia). reflexivity.
Qed.
Lemma inside_esc b q e c r : In (e, c) [(92, 92); (39, 39); (34, 34); (116, 9); (110, 10); (114, 13)] -> inside b q (92 :: e :: r) = add (Some c) (inside b q r).
Proof. intros H. cbn in H. repeat destruct H as [H|H]; try contradiction; injection H as <- <-; reflexivity. Qed.
Lemma inside_plain b q c r : c <> 92 -> c <> q -> c <> 0 -> c <> 10 -> c <> 13 -> surrogate c = false -> (b = true -> c <= 127) ->
  inside b q (c :: r) = add (Some c) (inside b q r).
Proof.
  intros H1 H2 H3 H4 H5 H6 H7. cbn [inside].
  replace (c =? 92) with false by (symmetry; apply Z.eqb_neq; assumption). replace (c =? q) with false by (symmetry; apply Z.eqb_neq; assumption).
  replace (c =? 0) with false by (symmetry; apply Z.eqb_neq; assumption). replace (c =? 10) with false by (symmetry; apply Z.eqb_neq; assumption).
  replace (c =? 13) with false by (symmetry; apply Z.eqb_neq; assumption). rewrite H6.
  replace (b && (127 <? c)) with false; [reflexivity|]. destruct b; [|reflexivity]. symmetry. cbn [andb]. apply Z.ltb_ge. apply H7. reflexivity.
Qed.

Lemma surrogate_small c : c < 55296 -> surrogate c = false.
Proof. intros H. unfold surrogate. apply andb_false_iff. left. apply Z.leb_gt. lia. Qed.

Lemma inside_char printable q c r : (forall x, surrogate x = true -> printable x = false) -> q = 39 \/ q = 34 -> 0 <= c <= 1114111 ->
  inside false q (repr_char printable q c ++ r) = add (Some c) (inside false q r).
Proof.
  intros Pr Q B. unfold repr_char.
  destruct (Z.eqb_spec c q) as [E|E]; [|destruct (Z.eqb_spec c 92) as [E2|E2]].
  - cbn [orb app]. apply inside_esc. cbn. destruct Q as [Q|Q]; subst; auto 10.
  - cbn [orb app]. subst. apply inside_esc. cbn. auto.
  - cbn [orb]. destruct (Z.eqb_spec c 9); [subst; apply inside_esc; cbn; auto 10|].
    destruct (Z.eqb_spec c 10); [subst; apply inside_esc; cbn; auto 10|].
    destruct (Z.eqb_spec c 13); [subst; apply inside_esc; cbn; auto 10|].
    destruct (Z.ltb_spec c 32); [cbn [orb]; rewrite <- app_assoc; apply inside_x; lia|].
    destruct (Z.eqb_spec c 127); [cbn [orb]; rewrite <- app_assoc; apply inside_x; lia|]. cbn [orb].
    destruct (Z.ltb_spec c 127).
    + cbn [app]. apply inside_plain; try lia. apply surrogate_small. lia.
    + destruct (printable c) eqn:P.
      * cbn [app]. apply inside_plain; try lia. destruct (surrogate c) eqn:S; [rewrite (Pr _ S) in P; discriminate|reflexivity].
      * destruct (Z.ltb_spec c 256); [rewrite <- app_assoc; apply inside_x; lia|].
        destruct (Z.ltb_spec c 65536); [rewrite <- app_assoc; apply inside_u; lia|].
        rewrite <- app_assoc; apply inside_U; lia.
Qed.
Lemma inside_byte q c r : q = 39 \/ q = 34 -> 0 <= c <= 255 -> inside true q (repr_byte q c ++ r) = add (Some c) (inside true q r).
Proof.
  intros Q B. unfold repr_byte.
  destruct (Z.eqb_spec c q) as [E|E]; [|destruct (Z.eqb_spec c 92) as [E2|E2]].
  - cbn [orb app]. apply inside_esc. cbn. destruct Q as [Q|Q]; subst; auto 10.
  - cbn [orb app]. subst. apply inside_esc. cbn. auto.
  - cbn [orb]. destruct (Z.eqb_spec c 9); [subst; apply inside_esc; cbn; auto 10|].
    destruct (Z.eqb_spec c 10); [subst; apply inside_esc; cbn; auto 10|].
    destruct (Z.eqb_spec c 13); [subst; apply inside_esc; cbn; auto 10|].
    destruct (Z.ltb_spec c 32); [cbn [orb]; rewrite <- app_assoc; apply inside_x; lia|]. cbn [orb].
    destruct (Z.leb_spec 127 c); [rewrite <- app_assoc; apply inside_x; lia|].
    cbn [app]. apply inside_plain; try lia. apply surrogate_small. lia.
Qed.
Lemma inside_all b q f t r : (forall c r, In c t -> inside b q (f c ++ r) = add (Some c) (inside b q r)) -> q = 39 \/ q = 34 ->
  inside b q (concat (map f t) ++ q :: r) = Some (t, r).
Proof.
  intros F Q. induction t as [|c t IH].
  - cbn. destruct Q; subst; reflexivity.
  - cbn [map concat]. rewrite <- app_assoc, F by (left; reflexivity). rewrite IH; [reflexivity|]. intros c' r' H. apply F. right. exact H.
Qed.

Lemma repr_quote_ok t : repr_quote t = 39 \/ repr_quote t = 34.
Proof. unfold repr_quote. destruct (_ && _); auto. Qed.

(* what may follow a literal *)
Definition no_quote (r : text) : Prop := match r with c :: _ => c <> 39 /\ c <> 34 | [] => True end.
Lemma quoted_all b f t r : (forall c r, In c t -> inside b (repr_quote t) (f c ++ r) = add (Some c) (inside b (repr_quote t) r)) -> no_quote r ->
  quoted b (repr_quote t :: (concat (map f t) ++ [repr_quote t]) ++ r) = Some (t, r).
Proof.
  intros F N. pose proof (repr_quote_ok t) as Q. unfold quoted.
  replace ((repr_quote t =? 39) || (repr_quote t =? 34)) with true by (symmetry; apply orb_true_iff; destruct Q as [E|E]; [left|right]; apply Z.eqb_eq; exact E).
  rewrite <- app_assoc. cbn [app]. rewrite (inside_all _ _ _ _ _ F Q). destruct t; [|reflexivity]. destruct r; [reflexivity|].
  destruct N as [N1 N2]. replace (z =? repr_quote []) with false; [reflexivity|]. symmetry. apply Z.eqb_neq. destruct Q as [E|E]; rewrite E; assumption.
Qed.
Lemma str_literal_repr printable t r : (forall x, surrogate x = true -> printable x = false) -> a_str t -> no_quote r ->
  str_literal (repr_text printable t ++ r) = Some (t, r).
Proof.
  intros Pr A N. unfold str_literal, repr_text. cbn [app]. apply (quoted_all false); [|exact N].
  intros c r' H. apply inside_char; [exact Pr|apply repr_quote_ok|]. unfold a_str in A. rewrite Forall_forall in A. apply A. exact H.
Qed.
Lemma bytes_literal_repr b r : a_bytes b -> no_quote r -> bytes_literal (repr_bytes b ++ r) = Some (b, r).
Proof.
  intros A N. unfold bytes_literal, repr_bytes. cbn [app]. change (98 =? 98) with true. cbv iota. apply (quoted_all true); [|exact N].
  intros c r' H. apply inside_byte; [apply repr_quote_ok|]. unfold a_bytes in A. rewrite Forall_forall in A. apply A. exact H.
Qed.

(* numbers *)
Definition no_digit (r : text) : Prop := match r with c :: _ => ~ 48 <= c <= 57 | [] => True end.
Lemma digits_all d r : Forall (fun d => 48 <= d <= 57) d -> no_digit r -> digits (d ++ r) = (d, r).
Proof.
  intros F N. induction F as [|c d H F IH].
  - destruct r as [|c r]; [reflexivity|]. cbn [app digits]. replace ((48 <=? c) && (c <=? 57)) with false; [reflexivity|]. cbn in N. symmetry.
    destruct (Z.leb_spec 48 c); [|reflexivity]. destruct (Z.leb_spec c 57); [exfalso; apply N; lia|reflexivity].
  - cbn [app digits]. rewrite IH. replace ((48 <=? c) && (c <=? 57)) with true; [reflexivity|]. symmetry. apply andb_true_intro. split; apply Z.leb_le; lia.
Qed.
Lemma natural_str n r : no_digit r -> natural (str_nat n ++ r) = Some (Z.of_nat n, r).
Proof.
  intros N. destruct (str_nat_decimal n) as (H1 & H2 & H3 & H4). unfold natural. rewrite (digits_all _ _ H2 N).
  destruct (str_nat n) as [|c d] eqn:E; [congruence|]. destruct (Z.eqb_spec c 48) as [->|Nc].
  - rewrite (H4 d eq_refl) in *. cbn [nonempty andb]. rewrite H3. reflexivity.
  - cbn [andb]. rewrite H3. reflexivity.
Qed.
Lemma integer_str n r : no_digit r -> integer (str_int n ++ r) = Some (n, r).
Proof.
  intros N. unfold str_int. destruct (Z.ltb_spec n 0).
  - cbn [app integer]. change (45 =? 45) with true. cbv iota. rewrite natural_str by exact N. do 2 f_equal. lia.
  - pose proof (natural_str (Z.to_nat n) r N) as E. destruct (str_nat_decimal (Z.to_nat n)) as (H1 & H2 & _).
    destruct (str_nat (Z.to_nat n)) as [|c d] eqn:Es; [congruence|]. cbn [app integer] in *. inversion H2; subst.
    replace (c =? 45) with false by (symmetry; apply Z.eqb_neq; lia). rewrite E. do 2 f_equal. lia.
Qed.

(* names *)
Lemma token_app t r : token t (t ++ r) = Some r.
Proof. induction t; [reflexivity|]. cbn. rewrite Z.eqb_refl. exact IHt. Qed.
Definition no_name (r : text) : Prop := match r with c :: _ => name_char c = false | [] => True end.
Lemma dotted_all n r : forallb name_char n = true -> no_name r -> dotted (n ++ r) = (n, r).
Proof.
  intros F N. induction n as [|c n IH].
  - destruct r as [|c r]; [reflexivity|]. cbn in N. cbn. rewrite N. reflexivity.
  - cbn [forallb] in F. apply andb_true_iff in F. destruct F as [F1 F2]. cbn [app dotted]. rewrite F1, (IH F2). reflexivity.
Qed.
Lemma comma_app r : match r with c :: _ => c <> 32 | [] => True end -> comma (str ", " ++ r) = Some r.
Proof.
  intros H. change (str ", ") with [44; 32]. cbn [app comma]. change (44 =? 44) with true. cbv iota. cbn [spaces]. change (32 =? 32) with true. cbv iota.
  destruct r as [|c r]; [reflexivity|]. cbn [spaces]. replace (c =? 32) with false by (symmetry; apply Z.eqb_neq; exact H). reflexivity.
Qed.

Lemma ecu_value_int s : match s with c :: _ => c <> 69 | [] => True end -> ecu_value s = integer s.
Proof.
  intros H. unfold ecu_value. destruct (dotted s) as [n r] eqn:D.
  assert (Hd : match n with c :: _ => c <> 69 | [] => True end).
  { destruct s as [|c s]; [injection D as <- <-; exact Logic.I|]. cbn [dotted] in D. destruct (name_char c); [|injection D as <- <-; exact Logic.I].
    destruct (dotted s) as [m x]. injection D as <- <-. exact H. }
  assert (T : forall t, text_eqb n (69 :: t) = false).
  { intros t. destruct n as [|c n]; [reflexivity|]. cbn [text_eqb]. replace (c =? 69) with false by (symmetry; apply Z.eqb_neq; exact Hd). reflexivity. }
  rewrite (T (str "CU.ALL") : text_eqb n (str "ECU.ALL") = false), (T (str "CU.ALL_KNOWN") : text_eqb n (str "ECU.ALL_KNOWN") = false),
    (T (str "CU.UNKNOWN") : text_eqb n (str "ECU.UNKNOWN") = false), (T (str "CU.ENGINE") : text_eqb n (str "ECU.ENGINE") = false),
    (T (str "CU.TRANSMISSION") : text_eqb n (str "ECU.TRANSMISSION") = false). reflexivity.
Qed.
Lemma str_int_head n r : match str_int n ++ r with c :: _ => c = 45 \/ 48 <= c <= 57 | [] => False end.
Proof.
  unfold str_int. destruct (n <? 0); [left; reflexivity|]. destruct (str_nat_decimal (Z.to_nat n)) as (H1 & H2 & _).
  destruct (str_nat (Z.to_nat n)) as [|c d]; [congruence|]. inversion H2; subst. right. assumption.
Qed.
Lemma ecu_value_repr e r : no_name r -> no_digit r -> ecu_value (repr_ecu e ++ r) = Some (e, r).
Proof.
  intros N D. unfold repr_ecu, ECU_TRANSMISSION, ECU_ENGINE, ECU_ALL.
  destruct (Z.eqb_spec e 4) as [->|]; [unfold ecu_value; rewrite dotted_all by (reflexivity || exact N); reflexivity|].
  destruct (Z.eqb_spec e 2) as [->|]; [unfold ecu_value; rewrite dotted_all by (reflexivity || exact N); reflexivity|].
  destruct (Z.eqb_spec e 255) as [->|]; [unfold ecu_value; rewrite dotted_all by (reflexivity || exact N); reflexivity|].
  rewrite ecu_value_int; [apply integer_str; exact D|]. pose proof (str_int_head e r) as H. destruct (str_int e ++ r); [contradiction|]. lia.
Qed.
Lemma bool_value_repr b r : no_name r -> bool_value (str_bool b ++ r) = Some (b, r).
Proof. intros N. unfold bool_value. destruct b; cbn [str_bool]; rewrite dotted_all by (reflexivity || exact N); reflexivity. Qed.

(* eval(repr(c)) *)
Definition with_raw_string (c : command) : command :=
  mkCommand (c_name c) (c_desc c) (c_command c) (c_bytes c) D_raw_string (c_ecu c) (c_fast c) (c_header c).
Lemma eval_repr printable c : (forall x, surrogate x = true -> printable x = false) ->
  a_str (c_name c) -> a_str (c_desc c) -> a_bytes (c_command c) -> a_bytes (c_header c) ->
  eval_command (cmd_repr printable c) = Some (with_raw_string c).
Proof.
  intros Pr H1 H2 H3 H4. unfold eval_command, cmd_repr.
  rewrite token_app.
  assert (Nq : forall x, no_quote (str ", " ++ x)) by (intros; cbn; split; discriminate).
  rewrite (str_literal_repr printable (c_name c)) by (assumption || apply Nq).
  assert (Hq : forall b : text, repr_quote b <> 32) by (intros b; destruct (repr_quote_ok b) as [E|E]; rewrite E; discriminate).
  rewrite comma_app by (unfold repr_text; cbn [app]; apply Hq).
  rewrite (str_literal_repr printable (c_desc c)) by (assumption || apply Nq).
  rewrite comma_app by (unfold repr_bytes; cbn [app]; discriminate).
  rewrite bytes_literal_repr by (assumption || apply Nq).
  rewrite comma_app by (match goal with |- context [str_int ?n ++ ?r] => pose proof (str_int_head n r) as Hh; destruct (str_int n ++ r); [contradiction|lia] end).
  change (str ", raw_string, ecu=") with (str ", " ++ str "raw_string" ++ str ", " ++ str "ecu=").
  change (str ", fast=") with (str ", " ++ str "fast="). rewrite <- ?app_assoc.
  rewrite integer_str by (cbn; lia).
  rewrite comma_app by (cbn; discriminate). rewrite token_app. rewrite comma_app by (cbn; discriminate). rewrite token_app.
  rewrite ecu_value_repr by (cbn; (reflexivity || lia)).
  rewrite comma_app by (cbn; discriminate). rewrite token_app.
  destruct (text_eqb (c_header c) ECU_HEADER_ENGINE) eqn:E.
  - apply ElmThms.text_eqb_iff in E. cbn [app]. rewrite bool_value_repr by reflexivity. change (text_eqb (str ")") (str ")")) with true. cbv iota.
    unfold with_raw_string. rewrite E. reflexivity.
  - change (str ", header=") with (str ", " ++ str "header="). rewrite <- ?app_assoc.
    rewrite bool_value_repr by reflexivity.
    replace (text_eqb (str ", " ++ _) (str ")")) with false by reflexivity. cbv iota.
    rewrite comma_app by (cbn; discriminate). rewrite token_app. rewrite bytes_literal_repr by (assumption || (cbn; split; discriminate)).
    change (text_eqb (str ")") (str ")")) with true. reflexivity.
Qed.
