(* Property C111: the calibration verification numbers of CVN. *)
From Coq Require Import ZArith List Bool Lia String.
From Verif Require Import Py Num Utils Protocol Codes UasTable Decoders Command CommandTable Commands World Elm Obd SpecWire SpecBits SpecProto SpecCmd SpecElm SpecObd
  SpecE2E PyFacts UtilsThms CommandThms DecoderThms DecoderThms2 DecoderThms3 E2EThms4 Examples
  Properties_Protocol Properties_Utils Properties_Decoders Properties_Elm Properties_Commands Properties_Obd Properties_EndToEnd Properties_Readings.
Import ListNotations.
Open Scope string_scope. Open Scope list_scope. Open Scope Z_scope.

(* bytes as text, two lower-case hexadecimal digits each *)
Definition hex_text (d : bytes) : text := flat_map (fun b => [lower_digit (b / 16); lower_digit (b mod 16)]) d.
(* the bytes the decoder may take off the ends: control bytes 0-2, the characters 0 1 2 x and backslash, and white space *)
Definition cut_off (x : Z) : Prop := SpecCmd.white x \/ In x [0; 1; 2; 92; 120; 48; 49; 50].

(* what is shown is a stretch of the bytes, in hexadecimal, and only such bytes are missing around it *)
Lemma cvn_strip c ms d : named ["CVN"] c -> answered c ms d -> Forall is_byte d ->
  evaluates c ms (VText (hex_text (strip_by string_padding (strip_by bspace d)))).
Proof.
  intros Hn A F.
  pose proof (named_check _ (fun c => match c_decode c with D_cvn => c_bytes c =? 10 | _ => false end) c Hn ltac:(vm_compute; reflexivity)) as K.
  cbv beta in K. destruct (c_decode c) eqn:D; try discriminate K. apply Z.eqb_eq in K. destruct Hn as [I _].
  assert (L : zlen d = 8). { destruct A as (m & h1 & h2 & _ & R & _). destruct (R ltac:(lia)) as [R1 _]. unfold zlen. cbn [List.length] in R1. lia. }
  apply (eval_first c ms _ (Ok _) I A). intros m rest h1 h2 E. rewrite D. cbn [run_decoder]. unfold dec_cvn, decode_encoded_string.
  rewrite (body_cons m rest h1 h2 _ E). cbn [rbind]. replace (zlen d <? 4) with false by lia. cbn [rbind]. f_equal. f_equal. unfold hex_text. rewrite C33_bytes_to_hex; [reflexivity|].
  destruct (strip_ex bspace d) as (w1 & w2 & E1 & _). destruct (strip_ex string_padding (strip_by bspace d)) as (p1 & p2 & E2 & _).
  rewrite E1 in F. apply Forall_app in F as [_ F]. apply Forall_app in F as [F _]. rewrite E2 in F. apply Forall_app in F as [_ F]. apply Forall_app in F as [F _]. exact F.
Qed.
Theorem C111_removed_partial : forall c ms d, named ["CVN"] c -> answered c ms d -> Forall is_byte d ->
  exists l s r, d = l ++ s ++ r /\ evaluates c ms (VText (hex_text s)) /\ Forall cut_off l /\ Forall cut_off r.
Proof.
  intros c ms d N A F. destruct (strip_ex bspace d) as (w1 & w2 & E1 & F1 & F2 & _). destruct (strip_ex string_padding (strip_by bspace d)) as (p1 & p2 & E2 & F3 & F4 & _).
  exists (w1 ++ p1), (strip_by string_padding (strip_by bspace d)), (p2 ++ w2). split; [|split; [exact (cvn_strip c ms d N A F)|]].
  - rewrite E1 at 1. rewrite E2 at 1. rewrite <- !app_assoc. reflexivity.
  - split; apply Forall_app; split; (eapply Forall_impl; [|eassumption]); intros a Ha; first [left; apply white_iff; exact Ha|right; apply strip_set_iff; exact Ha].
Qed.
(* from the wire: the count of numbers (or nothing, on the older protocols if there are two) and the numbers *)
Theorem C111_cvn_partial : forall c p lines q front cvn, named ["CVN"] c -> reading c p lines q -> speaks p (c_ecu c) lines (73 :: 6 :: front ++ cvn) ->
  front = [] \/ front = [1] \/ front = [2] -> (List.length (front ++ cvn) <= 8)%nat ->
  (exists x t, cvn = x :: t /\ ~ cut_off x) -> (exists t x, cvn = t ++ [x] /\ ~ cut_off x) -> r_value q = VText (hex_text cvn).
Proof.
  intros c p lines q front cvn N R S Hf L (x & t & Ex & Nx) (t' & x' & Ex' & Nx'). pose proof (length_of _ 10 _ N ltac:(vm_compute; reflexivity)) as Lc.
  destruct (C67_payload c p lines q _ R S ltac:(congruence)) as (ms & m & _ & W & E & V).
  set (pad := repeat 0 (8 - List.length (front ++ cvn))). assert (Fp : Forall (eq 0) pad) by (apply Forall_forall; intros y Y; apply repeat_spec in Y; auto).
  assert (A : answered c ms (front ++ cvn ++ pad)).
  { exists m, 73, 6. split; [exact W|]. rewrite Lc, E. split; [intros _|lia]. split.
    - cbn [List.length]. rewrite app_assoc, app_length. unfold pad. rewrite repeat_length. lia.
    - right. exists pad. split; [cbn [app]; rewrite app_assoc; reflexivity|exact Fp]. }
  assert (Fb : Forall is_byte (front ++ cvn ++ pad)).
  { pose proof (speaks_bytes _ _ _ _ S) as B. pose proof (Forall_inv_tail (Forall_inv_tail B)) as B2. clear B. rewrite app_assoc. apply Forall_app. split; [exact B2|]. eapply Forall_impl; [|exact Fp]. intros y <-. unfold is_byte. lia. }
  destruct (cvn_strip c ms _ N A Fb) as (r & V' & Er). assert (q = r) as -> by congruence. rewrite Er. f_equal. f_equal.
  pose proof (padded_text [] front cvn pad [] ltac:(constructor)) as P. cbn [app] in P. rewrite app_nil_r in P. apply P; clear P.
  - destruct Hf as [-> |[-> | ->]]; repeat constructor; unfold pad_byte; lia.
  - eapply Forall_impl; [|exact Fp]. intros y <-. unfold pad_byte. lia.
  - constructor.
  - exists x, t. unfold cut_off in Nx. tauto.
  - exists t', x'. unfold cut_off in Nx'. tauto.
Qed.
(* a number that begins with zero bytes is shown without them, like a shorter one, and like the one that ends with them *)
Theorem C111_zeros_refuted : evaluates (cmd "CVN") [engine_message [73; 6; 1; 0; 0; 171; 205]] (VText (str "abcd"))
  /\ evaluates (cmd "CVN") [engine_message [73; 6; 1; 171; 205; 0; 0]] (VText (str "abcd")).
Proof. split; eexists; split; vm_compute; reflexivity. Qed.
(* two numbers on CAN: the answer is a byte longer than the command expects, and the last byte is never shown, whatever it is *)
Theorem C111_two_refuted : forall c p lines q d y, named ["CVN"] c -> reading c p lines q -> speaks p (c_ecu c) lines (73 :: 6 :: 2 :: d ++ [y]) -> List.length d = 7%nat ->
  (exists x t, d = x :: t /\ ~ cut_off x) -> (exists t x, d = t ++ [x] /\ ~ cut_off x) -> r_value q = VText (hex_text d).
Proof.
  intros c p lines q d y N R S L (x & t & Ex & Nx) (t' & x' & Ex' & Nx'). pose proof (length_of _ 10 _ N ltac:(vm_compute; reflexivity)) as Lc.
  destruct (C67_payload c p lines q _ R S ltac:(congruence)) as (ms & m & _ & W & E & V).
  assert (A : answered c ms (2 :: d)).
  { exists m, 73, 6. split; [exact W|]. rewrite Lc, E. split; [intros _|lia]. split; [cbn [List.length]; lia|]. left. exists [y]. reflexivity. }
  assert (Fb : Forall is_byte (2 :: d)).
  { pose proof (speaks_bytes _ _ _ _ S) as B. pose proof (Forall_inv_tail (Forall_inv_tail B)) as B2. clear B. change (2 :: d ++ [y]) with ((2 :: d) ++ [y]) in B2. apply Forall_app in B2. apply B2. }
  destruct (cvn_strip c ms _ N A Fb) as (r & V' & Er). assert (q = r) as -> by congruence. rewrite Er. f_equal. f_equal.
  pose proof (padded_text [] [2] d [] [] ltac:(constructor)) as P. cbn [app] in P. rewrite app_nil_r in P. apply P; clear P.
  - repeat constructor; unfold pad_byte; lia.
  - constructor.
  - constructor.
  - exists x, t. unfold cut_off in Nx. tauto.
  - exists t', x'. unfold cut_off in Nx'. tauto.
Qed.
Example C111_example : exists p lines q, named ["CVN"] (cmd "CVN") /\ reading (cmd "CVN") p lines q /\ speaks p (c_ecu (cmd "CVN")) lines (73 :: 6 :: [1] ++ [23; 145; 188; 130]) /\ r_value q = VText (str "1791bc82").
Proof.
  get_demo (cmd "CVN") can11 (str "7E8 07 49 06 01 17 91 BC 82") [str "7E8 07 49 06 01 17 91 BC 82"].
  assert (N : named ["CVN"] (cmd "CVN")) by (apply cmd_named; vm_compute; congruence).
  exists can11, [str "7E8 07 49 06 01 17 91 BC 82"], q. split; [exact N|]. split; [exact Rd|]. split; [|exact V].
  apply (can11_speaks _ _ _ 7); [right; vm_compute; reflexivity|show|bytes_ok|discriminate|cbn; lia|lia|reflexivity|lia].
Qed.
(* ------------------------------------------------------------------ C30: the calibration id, from the wire *)
(* Full statement: the 16 characters sent are returned, without the count in front (CAN) and the zeros that fill up a shorter one.
   False of every 16-character id on CAN (C30_calibration_cut_refuted: the last character is not shown). Proved: of what follows 49 04, the
   first 16 bytes count, and they are returned whole if none of the characters the code strips stands at their ends. *)
Theorem C30_calibration_reading_partial : forall c p lines q front cal pad rest, named ["CALIBRATION_ID"] c -> reading c p lines q ->
  speaks p (c_ecu c) lines (73 :: 4 :: front ++ cal ++ pad ++ rest) -> List.length (front ++ cal ++ pad) = 16%nat ->
  Forall (fun b => In b [0; 1; 2]) (front ++ pad) ->
  (exists x t, cal = x :: t /\ ~ cut_off x) -> (exists t x, cal = t ++ [x] /\ ~ cut_off x) -> r_value q = VBytes cal.
Proof.
  intros c p lines q front cal pad rest N R S L Fp (x & t & Ex & Nx) (t' & x' & Ex' & Nx'). pose proof (length_of _ 18 _ N ltac:(vm_compute; reflexivity)) as Lc.
  destruct (C67_payload c p lines q _ R S ltac:(congruence)) as (ms & m & _ & W & E & V).
  assert (A : answered c ms (front ++ cal ++ pad)).
  { exists m, 73, 4. split; [exact W|]. rewrite Lc, E. split; [intros _|lia]. split; [cbn [List.length]; lia|].
    left. exists rest. cbn [app]. rewrite <- !app_assoc. reflexivity. }
  assert (Fq : Forall pad_byte front /\ Forall pad_byte pad).
  { apply Forall_app. eapply Forall_impl; [|exact Fp]. intros b Hb. cbn in Hb. unfold pad_byte. lia. } destruct Fq as [F1 F2].
  destruct (C30_text_partial c ms (front ++ cal ++ pad) [] front cal pad []) as (r & V' & Er).
  - apply (named_more _ _ _ N). reflexivity.
  - exact A.
  - rewrite app_nil_r. reflexivity.
  - constructor.
  - exact F1.
  - exact F2.
  - constructor.
  - exists x, t. unfold cut_off in Nx. tauto.
  - exists t', x'. unfold cut_off in Nx'. tauto.
  - congruence.
Qed.
(* on CAN a count stands before the id: of 16 characters the last is lost, whatever it is; of several ids only the first 15 characters are shown *)
Theorem C30_calibration_cut_refuted : forall c p lines q n cal y rest, named ["CALIBRATION_ID"] c -> reading c p lines q ->
  speaks p (c_ecu c) lines (73 :: 4 :: n :: cal ++ y :: rest) -> n = 1 \/ n = 2 -> List.length cal = 15%nat ->
  (exists x t, cal = x :: t /\ ~ cut_off x) -> (exists t x, cal = t ++ [x] /\ ~ cut_off x) -> r_value q = VBytes cal.
Proof.
  intros c p lines q n cal y rest N R S Hn L H1 H2. apply (C30_calibration_reading_partial c p lines q [n] cal [] (y :: rest) N R); try assumption.
  - rewrite app_nil_r, app_length, L. reflexivity.
  - rewrite app_nil_r. constructor; [cbn; lia|constructor].
Qed.
Definition cal_answer : list text := [str "7E8 10 13 49 04 01 4A 4D 42"; str "7E8 21 2A 33 36 37 36 31 35"; str "7E8 22 30 30 41 42 43 44 AA"].
Example C30_calibration_reading_example : exists p q, reading (cmd "CALIBRATION_ID") p cal_answer q
  /\ speaks p (c_ecu (cmd "CALIBRATION_ID")) cal_answer (73 :: 4 :: 1 :: str "JMB*36761500ABC" ++ str "D") /\ r_value q = VBytes (str "JMB*36761500ABC").
Proof.
  get_demo (cmd "CALIBRATION_ID") can11 (nth 0 cal_answer [] ++ [13] ++ nth 1 cal_answer [] ++ [13] ++ nth 2 cal_answer []) cal_answer.
  exists can11, q. split; [exact Rd|]. split; [|exact V].
  set (frames := [[16; 19; 73; 4; 1; 74; 77; 66]; [33; 42; 51; 54; 55; 54; 49; 53]; [34; 48; 48; 65; 66; 67; 68; 170]]).
  assert (P : Forall2 (can_line engine11) cal_answer frames) by (repeat (apply Forall2_cons; [show|]); apply Forall2_nil).
  assert (Fr : forall l d, In (l, d) (combine cal_answer frames) -> is_from (FCan 11) 0 l).
  { assert (K : Forall2 (fun l d => can_line engine11 l d -> is_from (FCan 11) 0 l) cal_answer frames).
    { repeat (apply Forall2_cons; [intros X; eapply (can_from 7 14 8); [unfold is_nibble; lia|unfold is_nibble; lia|unfold is_nibble; lia| |exact X|]; [bytes_ok|split; cbn; lia]|]). apply Forall2_nil. }
    intros l d H. cbn in H. destruct H as [H|[H|[H|[]]]]; apply pair_equal_spec in H as [<- <-]; inversion K as [|? ? ? ? K1 K']; subst; inversion K' as [|? ? ? ? K2 K'']; subst; inversion K'' as [|? ? ? ? K3 _]; subst;
      inversion P as [|? ? ? ? P1 P']; subst; inversion P' as [|? ? ? ? P2 P'']; subst; inversion P'' as [|? ? ? ? P3 _]; subst; auto. }
  exists 0, cal_answer. change (pc_family (p_class can11)) with (FCan 11). split; [|split; [|split]].
  - constructor 2; [eapply Fr; left; reflexivity|]. constructor 2; [eapply Fr; right; left; reflexivity|]. constructor 2; [eapply Fr; right; right; left; reflexivity|]. constructor.
  - apply (delivers_can_multi engine11 cal_answer _ frames); [cbn; unfold is_nibble; lia| |vm_compute; discriminate|repeat constructor; unfold is_byte; lia|exact P].
    apply (segmented_intro [73; 4; 1; 74; 77; 66] [42; 51; 54; 55; 54; 49; 53; 48; 48; 65; 66; 67; 68]); [reflexivity|].
    apply (consecutive_more 1 [42; 51; 54; 55; 54; 49; 53] [48; 48; 65; 66; 67; 68]); [reflexivity|discriminate|].
    apply (consecutive_last 2 [48; 48; 65; 66; 67; 68] [170]); [discriminate|cbn; lia].
  - apply C67_engine; [reflexivity|right; vm_compute; reflexivity].
  - intros u' Lu _ l' H. cbn in H. destruct H as [<-|[<-|[<-|[]]]];
      [apply (not_from_other 11 u' (Id11 7 14 8) _ (nth 0 frames []))|apply (not_from_other 11 u' (Id11 7 14 8) _ (nth 1 frames []))|apply (not_from_other 11 u' (Id11 7 14 8) _ (nth 2 frames []))];
      first [reflexivity|show|bytes_ok|cbn; unfold is_nibble; lia|cbn; lia].
Qed.
Print Assumptions C111_removed_partial.
Print Assumptions C111_cvn_partial.
Print Assumptions C111_zeros_refuted.
Print Assumptions C111_two_refuted.
Print Assumptions C30_calibration_reading_partial.
Print Assumptions C30_calibration_cut_refuted.
