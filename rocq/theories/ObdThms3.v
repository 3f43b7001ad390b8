(* What queries write, and consequences. *)
From Coq Require Import ZArith List Bool Lia DecimalNat.
From Verif Require Import Py Num Utils Protocol Decoders Command CommandTable Commands World Elm Obd SpecElm SpecObd PyFacts CommandThms ElmFacts ElmThms ObdFacts ObdThms ObdThms2.
Import ListNotations.
Open Scope Z_scope.
Ltac Zify.zify_post_hook ::= Z.div_mod_to_equations.

Lemma writes_cut a cmd t : cut_short a cmd t -> exists k, writes t = firstn k (wake_lines a ++ [line cmd]).
Proof. intros (_ & _ & H). exact H. Qed.
Lemma header_lines_same o c : c_header c = o_last_header o -> header_lines o c = [].
Proof. intros H. unfold header_lines. apply text_eqb_iff in H. rewrite H. reflexivity. Qed.
Lemma header_lines_other o c : c_header c <> o_last_header o -> header_lines o c = [header_line (c_header c)].
Proof. intros H. unfold header_lines. destruct (text_eqb _ _) eqn:E; [apply text_eqb_iff in E; contradiction|reflexivity]. Qed.

(* the header phase writes what it should, and leaves the adapter awake unless it wrote nothing *)
Lemma header_run_writes o e p c t x o1 : o_interface o = Some e -> header_run o e p (c_header c) t x o1 ->
  (exists e1, o_interface o1 = Some e1 /\ (e_status e1 <> NOT_CONNECTED -> e_status e <> NOT_CONNECTED /\ ~ io_error t /\ writes t ++ wake_lines (e_low_power e1) = wake_lines (e_low_power e) ++ header_lines o c
      /\ (t <> [] -> e_low_power e1 = false))
    /\ (e_status e <> NOT_CONNECTED -> e_status e1 = NOT_CONNECTED -> io_error t /\ closing t /\ e_port e1 = None /\ x = None
          /\ c_header c <> o_last_header o /\ (exists k, writes t = firstn k (wake_lines (e_low_power e) ++ header_lines o c)))).
Proof.
  intros Hi H. destruct H as [E|t l ms N A C K|t l ms N A C K|t l x N A C|t N A].
  - exists e. split; [exact Hi|]. split; [|congruence]. intros Hs. split; [exact Hs|]. split; [intros [[]|[]]|]. split; [rewrite (header_lines_same _ _ E), app_nil_r; reflexivity|congruence].
  - exists (awake e). split; [reflexivity|]. split; [|cbn; congruence]. intros Hs. split; [exact Hs|]. split; [apply (sends_no_error _ _ _ _ A)|]. split; [|reflexivity].
    rewrite (writes_sends _ _ _ _ A), (header_lines_other _ _ N), app_nil_r. reflexivity.
  - exists (awake e). split; [reflexivity|]. split; [|cbn; congruence]. intros Hs. split; [exact Hs|]. split; [apply (sends_no_error _ _ _ _ A)|]. split; [|reflexivity].
    rewrite (writes_sends _ _ _ _ A), (header_lines_other _ _ N), app_nil_r. reflexivity.
  - exists (awake e). split; [reflexivity|]. split; [|cbn; congruence]. intros Hs. split; [exact Hs|]. split; [apply (sends_no_error _ _ _ _ A)|]. split; [|reflexivity].
    rewrite (writes_sends _ _ _ _ A), (header_lines_other _ _ N), app_nil_r. reflexivity.
  - exists (dead (awake e)). split; [reflexivity|]. split; [intros D; exfalso; apply D; reflexivity|]. intros Hs _.
    destruct A as (A1 & A2 & k & A3). repeat split; try assumption. exists k. rewrite (header_lines_other _ _ N). exact A3.
Qed.

Lemma firstn_app_more {A} k (a b : list A) : exists k', firstn k a = firstn k' (a ++ b).
Proof.
  exists (Nat.min k (length a)). rewrite firstn_app. replace (Nat.min k (length a) - length a)%nat with 0%nat by lia. cbn. rewrite app_nil_r.
  destruct (Nat.le_gt_cases k (length a)).
  - rewrite Nat.min_l by lia. reflexivity.
  - rewrite Nat.min_r by lia. rewrite !firstn_all2 by lia. reflexivity.
Qed.
Lemma firstn_app_pre {A} k (a b : list A) : exists k', a ++ firstn k b = firstn k' (a ++ b).
Proof. exists (length a + k)%nat. rewrite firstn_app. replace (length a + k - length a)%nat with k by lia. rewrite (firstn_all2 a) by lia. reflexivity. Qed.

(* everything a query writes *)
Lemma query_writes o c force t r o' : oinv o -> query_run o c force t r o' ->
  (t = [] /\ r = Ok empty_response /\ o' = o /\ (obd_status o = NOT_CONNECTED \/ ~ may_send o c force))
  \/ (obd_status o <> NOT_CONNECTED /\ may_send o c force /\ asleep o' = false /\
      ((io_error t /\ closing t /\ obd_status o' = NOT_CONNECTED /\ (exists e', o_interface o' = Some e' /\ e_port e' = None)
          /\ (exists k, writes t = firstn k (request o c (build_command_string o c)))
          /\ (r = Ok empty_response \/ r = Raise TypeError /\ unrecorded o c /\ c_header c <> o_last_header o))
       \/ (~ io_error t /\ obd_status o' = obd_status o
           /\ (writes t = request o c (build_command_string o c)
               \/ (writes t = wake_lines (asleep o) ++ header_lines o c /\ c_header c <> o_last_header o /\ exists x, r = Raise x))))).
Proof.
  intros OI H. unfold oinv in OI. destruct H as [H|H1 H2|e p t x o1 Hi Hs P M HR|e p t o1 Hi Hs P M HR Hn|e p t1 o1 e1 t2 Hi Hs P M HR Hi1 Hs1 A|e p t1 o1 e1 t2 l x Hi Hs P M HR Hi1 Hs1 A C|e p t1 o1 e1 t2 l ms Hi Hs P M HR Hi1 Hs1 A C];
    [left; auto|left; auto| | | | |]; right; rewrite Hi in OI;
    assert (Hst : obd_status o <> NOT_CONNECTED) by (unfold obd_status; rewrite Hi; exact Hs);
    assert (Hst' : obd_status o = e_status e) by (unfold obd_status; rewrite Hi; reflexivity);
    assert (Has : asleep o = e_low_power e) by (unfold asleep; rewrite Hi; reflexivity);
    destruct (header_run_writes _ _ _ _ _ _ _ Hi HR) as (e' & Hi' & W1 & W2);
    destruct (header_run_inv _ _ _ _ _ _ _ Hi OI P HR) as (e'' & Hi'' & I' & _ & Q1 & Q2 & Q3 & Q4 & Q5 & Q6); rewrite Hi' in Hi''; injection Hi'' as <-;
    (split; [exact Hst|]); (split; [exact M|]).
  - (* the answer to the header change made the parser raise *)
    assert (Al : e' = awake e /\ c_header c <> o_last_header o /\ t <> []).
    { inversion HR; subst. cbn in Hi'. injection Hi' as <-. split; [reflexivity|]. split; [assumption|]. intros ->.
      match goal with A : sends _ _ [] _ |- _ => apply writes_sends in A; cbn in A; destruct (e_low_power e); discriminate A end. }
    destruct Al as (-> & N & T). split; [unfold asleep; rewrite Hi'; reflexivity|]. right.
    destruct (W1 Hs) as (_ & E & Wr & _). split; [exact E|]. split; [unfold obd_status; rewrite Hi', Hi; reflexivity|]. right. cbn in Wr. rewrite app_nil_r in Wr. rewrite Has.
    split; [exact Wr|]. split; [exact N|eauto].
  - (* cut during the header change *)
    assert (S' : e_status e' = NOT_CONNECTED) by (unfold obd_status in Hn; rewrite Hi' in Hn; exact Hn).
    destruct (W2 Hs S') as (E & Cl & Pn & _ & N & k & Wr).
    assert (Al : asleep (with_command (build_command_string o c) o1) = false).
    { unfold asleep. cbn [with_command o_interface]. rewrite Hi'. destruct Q6 as [(-> & ->)|[->| ->]]; [destruct E as [[]|[]]|reflexivity|reflexivity]. }
    split; [exact Al|]. left. split; [exact E|]. split; [exact Cl|]. split; [exact Hn|]. split; [exists e'; auto|]. split.
    + unfold request. rewrite Has. destruct (firstn_app_more k (wake_lines (e_low_power e) ++ header_lines o c) [line (build_command_string o c)]) as [k' K].
      exists k'. rewrite app_assoc, <- K. exact Wr.
    + unfold unrecorded, dict_mem. destruct (dict_get cmd_eqb (o_frame_counts o) c); auto.
  - (* cut during the request *)
    rewrite Hi1 in Hi'. injection Hi' as <-. destruct (W1 Hs1) as (_ & E & Wr & _). split; [reflexivity|]. left.
    destruct A as (A1 & A2 & k & A3).
    split; [apply io_app_r; exact A1|]. split; [apply closing_app; exact A2|]. split; [reflexivity|]. split; [eexists; split; reflexivity|]. split; [|left; reflexivity].
    unfold request. rewrite Has, writes_app, A3, app_assoc, <- Wr, <- app_assoc. apply firstn_app_pre.
  - rewrite Hi1 in Hi'. injection Hi' as <-. destruct (W1 Hs1) as (_ & E & Wr & _). split; [reflexivity|]. right.
    split; [intros X; apply io_error_app in X as [X|X]; [exact (E X)|exact (sends_no_error _ _ _ _ A X)]|]. split.
    { unfold obd_status. cbn [with_elm o_interface awake e_status]. rewrite Hi. destruct Q6 as [(-> & _)|[->| ->]]; try reflexivity. exfalso. apply Hs1. reflexivity. }
    left. unfold request. rewrite Has, writes_app, (writes_sends _ _ _ _ A), app_assoc, Wr, <- app_assoc. reflexivity.
  - rewrite Hi1 in Hi'. injection Hi' as <-. destruct (W1 Hs1) as (_ & E & Wr & _). split; [reflexivity|]. right.
    split; [intros X; apply io_error_app in X as [X|X]; [exact (E X)|exact (sends_no_error _ _ _ _ A X)]|]. split.
    { unfold obd_status. cbn [with_elm o_interface awake e_status with_count with_command]. rewrite Hi. destruct Q6 as [(-> & _)|[->| ->]]; try reflexivity. exfalso. apply Hs1. reflexivity. }
    left. unfold request. rewrite Has, writes_app, (writes_sends _ _ _ _ A), app_assoc, Wr, <- app_assoc. reflexivity.
Qed.

(* ---- fast strings ---- *)
Lemma uint_text_spec u : Forall (fun d => 48 <= d <= 57) (uint_text u)
  /\ forall v, fold_left (fun v d => 10 * v + (d - 48)) (uint_text u) v = Z.of_nat (Nat.of_uint_acc u (Z.to_nat v)) \/ v < 0.
Proof.
  induction u as [|u [F IH]|u [F IH]|u [F IH]|u [F IH]|u [F IH]|u [F IH]|u [F IH]|u [F IH]|u [F IH]|u [F IH]];
    (split; [cbn; first [apply Forall_nil|apply Forall_cons; [lia|exact F]]|]); intros v;
    (destruct (Z.ltb_spec v 0); [right; assumption|]); left; cbn [uint_text fold_left Nat.of_uint_acc];
    try (cbn; lia); match goal with |- fold_left _ _ ?v' = _ => destruct (IH v') as [E|E]; [|lia] end; rewrite E; f_equal; f_equal;
    rewrite Nat.tail_mul_spec; lia.
Qed.
Lemma nzhead_not_D0 u : forall v, Decimal.nzhead u <> Decimal.D0 v.
Proof. induction u; intros v; cbn; try discriminate. apply IHu. Qed.
Lemma str_nat_decimal n : decimal n (str_nat n).
Proof.
  unfold str_nat. destruct (uint_text_spec (Nat.to_uint n)) as [F V].
  assert (Nz : Decimal.unorm (Nat.to_uint n) = Nat.to_uint n).
  { rewrite <- (DecimalNat.Unsigned.to_of (Nat.to_uint n)). rewrite DecimalNat.Unsigned.of_to. reflexivity. }
  split; [|split; [exact F|split]].
  - intros E. destruct (Nat.to_uint n); cbn in E; try discriminate E. discriminate Nz.
  - destruct (V 0) as [E|E]; [|lia]. rewrite E. cbn. f_equal. change (Nat.of_uint_acc (Nat.to_uint n) 0) with (Nat.of_uint (Nat.to_uint n)). apply DecimalNat.Unsigned.of_to.
  - intros r E. destruct (Nat.to_uint n) as [|u|u|u|u|u|u|u|u|u|u] eqn:U; cbn in E; try discriminate E. injection E as <-.
    unfold Decimal.unorm in Nz. change (Decimal.nzhead (Decimal.D0 u)) with (Decimal.nzhead u) in Nz. pose proof (nzhead_not_D0 u) as K. destruct (Decimal.nzhead u) eqn:Z; try discriminate Nz; [injection Nz as <-; reflexivity|].
    exfalso. eapply K. reflexivity.
Qed.
