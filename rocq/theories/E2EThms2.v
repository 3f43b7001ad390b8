(* From lines to the messages of single ECUs, in whole answers. *)
From Coq Require Import ZArith List Bool Lia Permutation Sorted.
From Verif Require Import Py Num Utils Protocol Decoders Command CommandTable Commands World Elm Obd SpecWire SpecProto SpecCmd SpecElm SpecObd SpecE2E
  PyFacts WireFacts ProtocolFacts CommandThms ProtocolThms CanThms LegacyThms EcuMapThms Properties_Protocol.
Import ListNotations.
Open Scope Z_scope.

Lemma dtc_cut_other payload : (forall r, payload <> 67 :: r) -> dtc_cut payload = payload.
Proof.
  intros N. unfold dtc_cut. destruct payload as [|a l]; [reflexivity|]. destruct (Z.eq_dec a 67) as [->|Na]; [exfalso; eapply N; reflexivity|].
  destruct a as [|q|q]; auto. repeat (destruct q as [q|q|]; auto; try congruence).
Qed.
Lemma sel_self {A} (P : A -> Prop) l ls : selects P l ls -> selects P ls ls.
Proof. induction 1; [constructor|constructor; assumption|assumption]. Qed.
Lemma sel_none {A} (P : A -> Prop) l : (forall x, In x l -> ~ P x) -> selects P l [].
Proof. induction l as [|x l IH]; intros H; constructor; [apply H; left; reflexivity|apply IH; intros y Y; apply H; right; exact Y]. Qed.

(* the message of one ECU *)
Lemma delivered p f u ls payload : pc_family (p_class p) = f -> delivers f u ls payload -> (f <> FLegacy -> payload <> [67]) -> (f = FLegacy -> forall r, payload <> 67 :: r) ->
  exists m, call p ls = Ok [m] /\ m_data m = dtc_cut payload /\ m_tx_id m = Some u.
Proof.
  intros Ec D N1 N2. destruct D as [h l payload padding Hh Fp Fd Ne L C|h ls payload frames Hh S L F C|u l payload H|u ls mode pid parts datas L P F].
  - destruct (single_frame_round_trip p h payload padding l Ec Hh Fp Fd Ne L ltac:(apply N1; discriminate) C) as (m & A & B & E & _). eauto.
  - destruct (round_trip p h payload frames ls Ec Hh S L F C) as (m & A & B & E & _). eauto.
  - specialize (N2 eq_refl). rewrite (dtc_cut_other payload N2). destruct payload as [|a d].
    + exfalso. destruct H as (b1 & b2 & ck & _ & _ & L). cbn in L. lia.
    + apply (legacy_single p u l a d Ec H). intros ->. exact (N2 d eq_refl).
  - specialize (N2 eq_refl). rewrite (dtc_cut_other _ N2).
    destruct (C10_legacy_round_trip p u mode pid parts ls datas Ec ltac:(intros ->; exact (N2 _ eq_refl)) L P F) as (m & A & B & E & _). eauto.
Qed.
(* in a whole answer *)
Lemma heard_message p f u lines ls ms m : In (p_class p) protocol_classes -> pc_family (p_class p) = f -> heard_from f u lines ls ->
  call p lines = Ok ms -> call p ls = Ok [m] -> m_tx_id m = Some u -> filter (fun m => oz_eqb (m_tx_id m) (Some u)) ms = [m].
Proof.
  intros Hc Ec H C1 C2 T. subst f.
  rewrite (C06_own_lines_only p lines ls ls ms [m] u Hc H (sel_self _ _ _ H) C1 C2). cbn [filter]. rewrite T.
  replace (oz_eqb (Some u) (Some u)) with true; [reflexivity|]. symmetry. cbn. apply Z.eqb_refl.
Qed.
Lemma call_nil p : call p [] = Ok [].
Proof. destruct p as [c m]. unfold call, protocol_call. reflexivity. Qed.
Lemma silent_message p f u lines ms : In (p_class p) protocol_classes -> pc_family (p_class p) = f -> silent f u lines ->
  call p lines = Ok ms -> filter (fun m => oz_eqb (m_tx_id m) (Some u)) ms = [].
Proof.
  intros Hc Ec H C. subst f. exact (C06_own_lines_only p lines [] [] ms [] u Hc (sel_none _ _ H) (selects_nil _) C (call_nil p)).
Qed.
Lemma filter_sorted ts : forall obd u, map m_tx_id obd = map Some ts -> StronglySorted Z.lt ts ->
  (In u ts <-> filter (fun m => oz_eqb (m_tx_id m) (Some u)) obd <> []).
Proof.
  intros obd u E _. revert obd E. induction ts as [|t ts IH]; intros [|m obd] E; try discriminate E.
  - cbn. split; [intros []|congruence].
  - cbn [map] in E. injection E as Em E. specialize (IH obd E). cbn [filter In]. rewrite Em. cbn [oz_eqb]. destruct (Z.eqb_spec t u) as [->|N].
    + split; [discriminate|auto].
    + rewrite <- IH. intuition congruence.
Qed.
Lemma texts_tx u lines texts : Forall (fun m => exists l, In l lines /\ ~ hex_line l /\ m = mkMessage [new_frame l] ECU_UNKNOWN []) texts ->
  filter (fun m => oz_eqb (m_tx_id m) (Some u)) texts = [].
Proof. induction 1 as [|m texts (l & _ & _ & ->) _ IH]; [reflexivity|]. cbn [filter]. exact IH. Qed.

Lemma heeds_iff mask p u : heeds mask p u <-> common_bit mask (match dict_get oz_eqb (p_map p) (Some u) with Some e => e | None => ECU_UNKNOWN end).
Proof.
  unfold heeds, marked. split.
  - intros (k & B & [E|[N ->]]); [rewrite E; exact B|]. destruct (dict_get _ _ _) as [k|] eqn:K; [|exact B]. exfalso. exact (N k eq_refl).
  - intros B. destruct (dict_get _ _ _) as [k|] eqn:K; eexists; (split; [exact B|]); [left; reflexivity|right]. split; [intros k'; congruence|reflexivity].
Qed.
Lemma sorted_app_lt l1 : forall (x : Z) l2, StronglySorted Z.lt (l1 ++ x :: l2) -> Forall (fun y => y < x) l1.
Proof.
  induction l1 as [|y l1 IH]; intros x l2 S; [constructor|]. cbn in S. inversion S as [|? ? S' F]; subst.
  constructor; [|exact (IH x l2 S')]. rewrite Forall_forall in F. apply F, in_or_app. right. left. reflexivity.
Qed.
(* the first message for a command *)
Lemma first_heard mask p f u lines ls ms m : In (p_class p) protocol_classes -> pc_family (p_class p) = f -> call p lines = Ok ms ->
  heard_from f u lines ls -> call p ls = Ok [m] -> m_tx_id m = Some u -> heeds mask p u ->
  (forall u', u' < u -> heeds mask p u' -> silent f u' lines) ->
  first_with (fun m => common_bit mask (m_ecu m)) ms m.
Proof.
  intros Hc Ec C H C1 T M Q.
  pose proof (heard_message p f u lines ls ms m Hc Ec H C C1 T) as F.
  destruct (C14_one_message_per_ecu p lines ms Hc C) as (obd & ts & texts & E & Et & S & Fe & Ft).
  assert (Im : In m obd).
  { rewrite E, filter_app, (texts_tx u lines texts Ft), app_nil_r in F. assert (I : In m [m]) by (left; reflexivity). rewrite <- F in I. apply filter_In in I. apply I. }
  apply in_split in Im as (b & a & ->). exists b, (a ++ texts).
  split; [rewrite E, <- app_assoc; reflexivity|]. 
  apply Forall_app in Fe as [Fb Fm]. inversion Fm as [|? ? Em _]; subst. 
  split; [rewrite Em, T; apply heeds_iff, M|].
  rewrite map_app in Et. cbn [map] in Et.
  assert (Lt : Forall (fun m' => exists t, m_tx_id m' = Some t /\ t < u) b).
  { clear -Et S T. symmetry in Et. assert (G : forall b ts, map Some ts = map m_tx_id b ++ m_tx_id m :: map m_tx_id a -> exists t1 t2, ts = t1 ++ u :: t2 /\ map Some t1 = map m_tx_id b).
    { clear -T. induction b as [|x b IH]; intros [|t ts] E; try discriminate E.
      - cbn in E. rewrite T in E. injection E as -> _. exists [], ts. auto.
      - cbn in E. injection E as E1 E. destruct (IH ts E) as (t1 & t2 & -> & E2). exists (t :: t1), t2. split; [reflexivity|]. cbn [map]. rewrite E1, E2. reflexivity. }
    destruct (G b ts Et) as (t1 & t2 & -> & E1). apply sorted_app_lt in S. clear -S E1. revert t1 E1 S. induction b as [|x b IH]; intros [|t t1] E S; try discriminate E; constructor.
    - cbn in E. injection E as E _. inversion S; subst. eauto.
    - cbn in E. injection E as _ E. inversion S; subst. apply (IH t1); assumption. }
  rewrite Forall_forall in Lt, Fb |- *. intros m' I B. destruct (Lt m' I) as (t & Tt & L). rewrite (Fb m' I), Tt in B. apply heeds_iff in B.
  pose proof (silent_message p _ t lines _ Hc eq_refl (Q t L B) C) as Z0. rewrite <- app_assoc, filter_app in Z0. apply app_eq_nil in Z0 as [Z0 _].
  assert (I' : In m' (filter (fun m => oz_eqb (m_tx_id m) (Some t)) b)) by (apply filter_In; split; [exact I|]; rewrite Tt; cbn; apply Z.eqb_refl).
  rewrite Z0 in I'. exact I'.
Qed.
