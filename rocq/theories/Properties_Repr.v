(* C93, C94: what repr() and str() of a command, and print_commands(), tell the user.
   Model: Repr.v. Specification: SpecRepr.v (reading Python literals). Proofs: ReprThms.v. *)
From Coq Require Import ZArith List Bool Lia Permutation.
From Verif Require Import Py Utils Protocol Decoders Command CommandTable Commands Obd Repr SpecRepr ReprThms.
From Verif Require ElmThms.
Import ListNotations.
Open Scope Z_scope.

(* ---- C93: repr(command) is an expression that makes the command again *)
(* For every command (any name, description, request, length, filter, fast flag and header) and whatever characters the interpreter holds
   for printable: evaluating repr(c) gives a command with the same fields, but for the decoder, which is always raw_string. *)
Theorem C93_eval_repr printable c :
  (forall x, surrogate x = true -> printable x = false) ->
  a_str (c_name c) -> a_str (c_desc c) -> a_bytes (c_command c) -> a_bytes (c_header c) ->
  exists c', eval_command (cmd_repr printable c) = Some c' /\
    c_name c' = c_name c /\ c_desc c' = c_desc c /\ c_command c' = c_command c /\ c_bytes c' = c_bytes c /\
    c_ecu c' = c_ecu c /\ c_fast c' = c_fast c /\ c_header c' = c_header c /\ c_decode c' = D_raw_string.
Proof.
  intros Pr H1 H2 H3 H4. exists (with_raw_string c). split; [apply eval_repr; assumption|]. repeat split.
Qed.
(* so the two are == each other (either finds the other in supported_commands or among the watched commands) ... *)
Theorem C93_equal printable c :
  (forall x, surrogate x = true -> printable x = false) ->
  a_str (c_name c) -> a_str (c_desc c) -> a_bytes (c_command c) -> a_bytes (c_header c) ->
  exists c', eval_command (cmd_repr printable c) = Some c' /\ cmd_eqb c c' = true.
Proof.
  intros Pr H1 H2 H3 H4. exists (with_raw_string c). split; [apply eval_repr; assumption|].
  unfold cmd_eqb. cbn [with_raw_string c_command c_header]. apply andb_true_intro. split; apply ElmThms.text_eqb_iff; reflexivity.
Qed.
(* ... and commands that differ in anything but the decoder are printed differently *)
Theorem C93_distinct printable c1 c2 :
  (forall x, surrogate x = true -> printable x = false) ->
  a_str (c_name c1) -> a_str (c_desc c1) -> a_bytes (c_command c1) -> a_bytes (c_header c1) ->
  a_str (c_name c2) -> a_str (c_desc c2) -> a_bytes (c_command c2) -> a_bytes (c_header c2) ->
  cmd_repr printable c1 = cmd_repr printable c2 ->
  c_name c1 = c_name c2 /\ c_desc c1 = c_desc c2 /\ c_command c1 = c_command c2 /\ c_bytes c1 = c_bytes c2 /\
  c_ecu c1 = c_ecu c2 /\ c_fast c1 = c_fast c2 /\ c_header c1 = c_header c2.
Proof.
  intros Pr A1 A2 A3 A4 B1 B2 B3 B4 E.
  pose proof (eval_repr printable c1 Pr A1 A2 A3 A4) as X. rewrite E, (eval_repr printable c2 Pr B1 B2 B3 B4) in X.
  unfold with_raw_string in X. injection X as -> -> -> -> -> -> ->. repeat split.
Qed.

(* the shipped RPM command, and one with an apostrophe, a line break, an accented letter and a character outside the BMP in its texts, a
   byte outside ASCII in the request, and a header *)
Definition odd : command := mkCommand [79; 39; 10; 233; 128513] [34; 39; 92] [50; 255; 0; 39] (-1) D_noop 6 false (str "7E1").
Definition none_printable (_ : Z) := false.
Definition small_printable (c : Z) := c <? 1000.
Example C93_example :
  (exists c, nth_error mode1 12 = Some (Some c) /\
     cmd_repr none_printable c = str "OBDCommand('RPM', 'Engine RPM', b'010C', 4, raw_string, ecu=ECU.ENGINE, fast=True)" /\
     eval_command (str "OBDCommand('RPM', 'Engine RPM', b'010C', 4, raw_string, ecu=ECU.ENGINE, fast=True)") =
       Some (mkCommand (str "RPM") (str "Engine RPM") (str "010C") 4 D_raw_string 2 true (str "7E0"))) /\
  cmd_repr none_printable odd = str "OBDCommand(""O'\n\xe9\U0001f601"", '""\'\\', b""2\xff\x00'"", -1, raw_string, ecu=6, fast=False, header=b'7E1')" /\
  a_str (c_name odd) /\ a_str (c_desc odd) /\ a_bytes (c_command odd) /\ a_bytes (c_header odd) /\
  (forall x, surrogate x = true -> small_printable x = false) /\
  eval_command (cmd_repr small_printable odd) = Some (mkCommand (c_name odd) (c_desc odd) (c_command odd) (-1) D_raw_string 6 false (str "7E1")) /\
  (* and the reader does refuse what is no such expression *)
  eval_command (str "OBDCommand('RPM', 'Engine RPM', b'010C', 04, raw_string, ecu=ECU.ENGINE, fast=True)") = None /\
  eval_command (str "OBDCommand('RPM, 'Engine RPM', b'010C', 4, raw_string, ecu=ECU.ENGINE, fast=True)") = None.
Proof.
  split; [eexists; split; [reflexivity|]; split; vm_compute; reflexivity|].
  split; [vm_compute; reflexivity|].
  split; [repeat constructor; cbn; lia|]. split; [repeat constructor; cbn; lia|]. split; [repeat constructor; cbn; lia|].
  split; [repeat constructor; cbn; lia|].
  split; [intros x H; unfold surrogate in H; unfold small_printable; apply andb_true_iff in H as [H _]; apply Z.leb_le in H; apply Z.ltb_ge; lia|].
  split; [vm_compute; reflexivity|]. split; vm_compute; reflexivity.
Qed.

(* ---- C94: str(command) and print_commands() *)
(* str(c) is a bytes literal, ": " and the description; the literal is the request, after the header if it is not the default one *)
Theorem C94_shows c : a_bytes (c_command c) -> a_bytes (c_header c) ->
  (c_header c = str "7E0" -> bytes_literal (cmd_str c) = Some (c_command c, str ": " ++ c_desc c)) /\
  (c_header c <> str "7E0" -> bytes_literal (cmd_str c) = Some (c_header c ++ c_command c, str ": " ++ c_desc c)).
Proof.
  intros A B. unfold cmd_str. split; intros H.
  - replace (text_eqb (c_header c) ECU_HEADER_ENGINE) with true by (symmetry; apply ElmThms.text_eqb_iff; exact H). cbn [negb].
    apply bytes_literal_repr; [exact A|]. cbn. split; discriminate.
  - destruct (text_eqb (c_header c) ECU_HEADER_ENGINE) eqn:E; [apply ElmThms.text_eqb_iff in E; contradiction|]. cbn [negb].
    apply bytes_literal_repr; [apply Forall_app; split; assumption|]. cbn. split; discriminate.
Qed.
Lemma same_front {A} (a x b y : list A) : a ++ x = b ++ y -> length a = length b -> a = b.
Proof.
  revert b. induction a as [|c a IH]; intros [|d b] E L; try discriminate L; [reflexivity|]. cbn [app] in E. injection E as E1 E2. injection L as L.
  rewrite E1, (IH b E2 L). reflexivity.
Qed.
(* two commands that are shown alike are equal (==) and have the same description: if both have the default header, or both another one
   and these headers are equally long *)
Theorem C94_tells_partial c1 c2 :
  a_bytes (c_command c1) -> a_bytes (c_header c1) -> a_bytes (c_command c2) -> a_bytes (c_header c2) ->
  (c_header c1 = str "7E0" <-> c_header c2 = str "7E0") -> length (c_header c1) = length (c_header c2) ->
  cmd_str c1 = cmd_str c2 -> cmd_eqb c1 c2 = true /\ c_desc c1 = c_desc c2.
Proof.
  intros A1 B1 A2 B2 Hh L E. destruct (C94_shows c1 A1 B1) as [X1 Y1]. destruct (C94_shows c2 A2 B2) as [X2 Y2].
  assert (G : c_command c1 = c_command c2 /\ c_header c1 = c_header c2 /\ c_desc c1 = c_desc c2).
  { destruct (text_eqb (c_header c1) (str "7E0")) eqn:D.
    - apply ElmThms.text_eqb_iff in D. pose proof (proj1 Hh D) as D2. rewrite E, (X2 D2) in X1. specialize (X1 D).
      assert (Q : c_command c2 = c_command c1 /\ c_desc c2 = c_desc c1).
      { assert (P1 : c_command c2 = c_command c1) by congruence. split; [exact P1|].
        assert (P2 : str ": " ++ c_desc c2 = str ": " ++ c_desc c1) by congruence. apply app_inv_head in P2. exact P2. }
      destruct Q as [Q1 Q2]. rewrite D, D2, Q1, Q2. auto.
    - assert (N1 : c_header c1 <> str "7E0") by (intros N; apply ElmThms.text_eqb_iff in N; congruence).
      assert (N2 : c_header c2 <> str "7E0") by (intros N; apply N1; apply Hh; exact N).
      specialize (Y1 N1). rewrite E, (Y2 N2) in Y1.
      assert (P1 : c_header c2 ++ c_command c2 = c_header c1 ++ c_command c1) by congruence.
      assert (P2 : str ": " ++ c_desc c2 = str ": " ++ c_desc c1) by congruence. apply app_inv_head in P2.
      assert (P3 : c_header c2 = c_header c1) by (apply (same_front _ _ _ _ P1); symmetry; exact L).
      rewrite P3 in P1. apply app_inv_head in P1. auto. }
  destruct G as (G1 & G2 & G3). split; [|exact G3]. unfold cmd_eqb. rewrite G1, G2. apply andb_true_intro. split; apply ElmThms.text_eqb_iff; reflexivity.
Qed.
(* not in general: a command sent to 7E0 and one sent with another header are shown alike *)
Theorem C94_tells_refuted : exists c1 c2, a_bytes (c_command c1) /\ a_bytes (c_header c1) /\ a_bytes (c_command c2) /\ a_bytes (c_header c2) /\
  cmd_str c1 = cmd_str c2 /\ cmd_eqb c1 c2 = false /\ cmd_eqb c2 c1 = false.
Proof.
  exists (mkCommand (str "A") (str "Odometer") (str "2210E01") 0 D_noop 255 false (str "7E0")),
         (mkCommand (str "B") (str "Odometer") (str "0E01") 0 D_noop 255 false (str "221")).
  repeat split; try (repeat constructor; cbn; lia).
Qed.
(* the built-in commands are all told apart *)
Theorem C94_builtin c1 c2 : In c1 all_commands -> In c2 all_commands -> cmd_str c1 = cmd_str c2 -> cmd_eqb c1 c2 = true.
Proof.
  assert (A : forallb (fun c => text_eqb (c_header c) (str "7E0") && forallb (fun x => (0 <=? x) && (x <=? 255)) (c_command c)) all_commands = true) by (vm_compute; reflexivity).
  rewrite forallb_forall in A. intros I1 I2 E. pose proof (A _ I1) as X1. pose proof (A _ I2) as X2. apply andb_true_iff in X1 as [H1 F1]. apply andb_true_iff in X2 as [H2 F2].
  apply ElmThms.text_eqb_iff in H1, H2.
  assert (By : forall b, forallb (fun x => (0 <=? x) && (x <=? 255)) b = true -> a_bytes b).
  { intros b F. rewrite forallb_forall in F. apply Forall_forall. intros x Hx. apply F in Hx. apply andb_true_iff in Hx as [Hx Hy]. apply Z.leb_le in Hx, Hy. lia. }
  apply (C94_tells_partial c1 c2); try (rewrite H1, H2; tauto); try (rewrite H1, H2; reflexivity); try (apply By; assumption); try exact E;
    (rewrite H1 || rewrite H2); (repeat constructor; cbn; lia).
Qed.

(* the lines of a text that ends with a line break *)
Fixpoint lines_of (cur : text) (t : text) : list text :=
  match t with
  | [] => match cur with [] => [] | _ => [cur] end
  | c :: t => if c =? 10 then cur :: lines_of [] t else lines_of (cur ++ [c]) t
  end.
Lemma lines_of_line l cur t : ~ In 10 l -> lines_of cur (l ++ 10 :: t) = (cur ++ l) :: lines_of [] t.
Proof.
  revert cur. induction l as [|c l IH]; intros cur N.
  - cbn [app lines_of]. change (10 =? 10) with true. cbv iota. rewrite app_nil_r. reflexivity.
  - cbn [app lines_of]. replace (c =? 10) with false by (symmetry; apply Z.eqb_neq; intros ->; apply N; left; reflexivity).
    rewrite IH; [rewrite <- app_assoc; reflexivity|]. intros H. apply N. right. exact H.
Qed.
Lemma hexdigit_10 d : 0 <= d -> hexdigit d <> 10.
Proof. intros H. unfold hexdigit. destruct (d <? 10); lia. Qed.
Lemma repr_byte_10 q c : q <> 10 -> ~ In 10 (repr_byte q c).
Proof.
  intros Q. unfold repr_byte. destruct (Z.eqb_spec c q); [subst; cbn; lia|]. destruct (Z.eqb_spec c 92); [subst; cbn; lia|]. cbn [orb].
  destruct (c =? 9); [cbn; lia|]. destruct (Z.eqb_spec c 10); [cbn; lia|]. destruct (c =? 13); [cbn; lia|].
  destruct (_ || _); [|cbn; lia]. cbn [hex_fixed app]. change (str "\x") with [92; 120]. cbn [app In].
  pose proof (hexdigit_10 (c mod 16) ltac:(apply Z.mod_pos_bound; lia)). pose proof (hexdigit_10 (c / 16 mod 16) ltac:(apply Z.mod_pos_bound; lia)). lia.
Qed.
Lemma repr_bytes_10 b : ~ In 10 (repr_bytes b).
Proof.
  unfold repr_bytes. destruct (repr_quote_ok b) as [->| ->]; cbn [In app]; rewrite in_app_iff; intros [H|[H|[H|H]]]; try discriminate H; cbn in H; try lia;
    apply in_concat in H as (x & Hx & H); apply in_map_iff in Hx as (y & <- & _); revert H; apply repr_byte_10; discriminate.
Qed.
Lemma cmd_str_10 c : ~ In 10 (c_desc c) -> ~ In 10 (cmd_str c).
Proof.
  intros D. unfold cmd_str. destruct (negb _); rewrite !in_app_iff; intros [H|[H|H]]; try contradiction; try (exact (repr_bytes_10 _ H)); cbn in H; lia.
Qed.
(* print_commands() prints one line per supported command, str() of it, whatever the requests and headers are; descriptions must not contain
   line breaks *)
Theorem C94_print_commands o order : Permutation order (o_supported o) -> (forall c, In c (o_supported o) -> ~ In 10 (c_desc c)) ->
  lines_of [] (print_commands order) = map cmd_str order /\ Permutation (lines_of [] (print_commands order)) (map cmd_str (o_supported o)).
Proof.
  intros P D.
  assert (E : lines_of [] (print_commands order) = map cmd_str order).
  { assert (Do : forall c, In c order -> ~ In 10 (c_desc c)) by (intros c H; apply D; apply (Permutation_in c P H)). clear P D.
    induction order as [|c order IH]; [reflexivity|]. unfold print_commands. cbn [map concat]. rewrite <- app_assoc. cbn [app].
    rewrite lines_of_line by (apply cmd_str_10; apply Do; left; reflexivity). cbn [app]. f_equal. apply IH. intros c' H. apply Do. right. exact H. }
  split; [exact E|]. rewrite E. apply Permutation_map. exact P.
Qed.
(* the descriptions of the built-in commands are such *)
Theorem C94_builtin_lines c : In c all_commands -> ~ In 10 (c_desc c).
Proof.
  assert (A : forallb (fun c => forallb (fun x => negb (x =? 10)) (c_desc c)) all_commands = true) by (vm_compute; reflexivity).
  rewrite forallb_forall in A. intros H. apply A in H. rewrite forallb_forall in H. intros I. apply H in I. discriminate I.
Qed.
Example C94_example : exists c, nth_error mode1 12 = Some (Some c) /\ In c all_commands /\ cmd_str c = str "b'010C': Engine RPM" /\
  cmd_str (mkCommand (str "X") (str "Gear") (str "2101") 0 D_noop 255 false (str "7E1")) = str "b'7E12101': Gear" /\
  lines_of [] (print_commands [c; c]) = [str "b'010C': Engine RPM"; str "b'010C': Engine RPM"].
Proof.
  eexists. split; [reflexivity|]. split; [|split; [vm_compute; reflexivity|split; vm_compute; reflexivity]].
  unfold all_commands. apply in_or_app. left. vm_compute. do 12 right. left. reflexivity.
Qed.
