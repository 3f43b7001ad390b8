(* What a command makes of an answer that was cut short (SpecSlow.cut_of). *)
From Coq Require Import ZArith List Bool Lia Sorted.
From Verif Require Import Py Num Utils Protocol Decoders Command CommandTable Commands World Elm Obd SpecWire SpecProto SpecCan SpecCmd SpecElm SpecObd SpecE2E SpecSlow
  PyFacts WireFacts ProtocolFacts CommandThms ProtocolThms CanThms LegacyThms EcuMapThms DecoderThms3 ObdFacts ObdThms Properties_Protocol Properties_Decoders E2EThms E2EThms2 E2EThms4 E2EThms6 CutThms.
Import ListNotations.
Open Scope Z_scope.

Lemma shows_app a b ds : shows (a ++ b) ds -> exists d1 d2, ds = d1 ++ d2 /\ shows a d1 /\ shows b d2.
Proof.
  revert ds. induction a as [|c a IH]; intros ds H; cbn [app] in H.
  - exists [], ds. repeat split; [constructor|exact H].
  - inversion H as [|l ds' H'|c' d l ds' Hc H']; subst.
    + destruct (IH _ H') as (d1 & d2 & -> & S1 & S2). exists d1, d2. repeat split; [constructor; exact S1|exact S2].
    + destruct (IH _ H') as (d1 & d2 & -> & S1 & S2). exists (d :: d1), d2. repeat split; [constructor; assumption|exact S2].
Qed.
Lemma nibbles_prefix a : forall b r, nibbles b = nibbles a ++ r -> exists c, b = a ++ c.
Proof.
  induction a as [|x a IH]; intros b r E; [exists b; reflexivity|]. destruct b as [|y b]; [discriminate E|].
  cbn [nibbles flat_map app] in E. injection E as E1 E2 E. destruct (IH b r E) as (c & ->). exists c. cbn. f_equal.
  rewrite (Z.div_mod y 16), (Z.div_mod x 16) by lia. congruence.
Qed.
Lemma id_prefix h h' a b r : id_width h = id_width h' -> id_digits h ++ nibbles a = id_digits h' ++ nibbles b ++ r -> h = h' /\ nibbles a = nibbles b ++ r.
Proof.
  destruct h as [x y z|x y z u], h' as [x' y' z'|x' y' z' u']; cbn [id_width]; try congruence; intros _.
  - cbn. intros E. injection E as -> -> -> E. auto.
  - cbn [id_digits]. rewrite !app_assoc, <- !nibbles_app. intros E. destruct (nibbles_prefix _ _ _ E) as (c & Ec). rewrite <- app_assoc in Ec. cbn [app] in Ec. injection Ec as -> -> -> -> ->. split; [reflexivity|].
    rewrite !nibbles_app, <- !app_assoc in E. apply app_inv_head in E. rewrite !nibbles_app. exact E.
Qed.
Lemma frame_prefix w t l data t' l' data' rest : frame_from w t l data -> frame_from w t' l' data' -> l = l' ++ rest -> t' = t /\ exists r, data = data' ++ r.
Proof.
  intros (h & W & Oh & St & F & C & _) (h' & W' & Oh' & St' & F' & C' & _) ->. unfold can_line in *.
  destruct (shows_app _ _ _ C) as (d1 & d2 & E & S1 & _). rewrite (shows_fun _ _ _ S1 C') in E. rewrite <- app_assoc in E.
  destruct (id_prefix h h' data data' d2 ltac:(congruence) E) as (-> & E2).
  split; [congruence|]. exact (nibbles_prefix _ _ _ E2).
Qed.
Lemma legacy_prefix t l data t' l' data' rest : legacy_from t l data -> legacy_from t' l' data' -> l = l' ++ rest -> t' = t /\ exists r, data = data' ++ r.
Proof.
  intros (b1 & b2 & ck & F & C & L) (c1 & c2 & ck' & F' & C' & L') ->. unfold legacy_line in *.
  destruct (shows_app _ _ _ C) as (d1 & d2 & E & S1 & _). rewrite (shows_fun _ _ _ S1 C') in E. destruct (nibbles_prefix _ _ _ E) as (c & E2).
  cbn [app] in E2. injection E2 as _ _ -> E2. split; [reflexivity|]. rewrite <- app_assoc in E2. cbn [app] in E2.
  destruct c as [|x c _] using rev_ind.
  - apply app_inj_tail in E2. destruct E2 as [-> _]. exists []. rewrite app_nil_r. reflexivity.
  - change (data' ++ ck' :: c ++ [x]) with (data' ++ (ck' :: c) ++ [x]) in E2. rewrite app_assoc in E2. apply app_inj_tail in E2. destruct E2 as [-> _]. exists (ck' :: c). reflexivity.
Qed.
Lemma sent_prefix f t l data t' l' data' rest : sent_by f t l data -> sent_by f t' l' data' -> l = l' ++ rest -> t' = t /\ exists r, data = data' ++ r.
Proof. destruct f as [| |w]; cbn [sent_by]; [intros []|apply legacy_prefix|apply frame_prefix]. Qed.

(* first_heard with the message given by its place in the whole answer *)
Lemma first_heard' mask p f u lines ms m : In (p_class p) protocol_classes -> pc_family (p_class p) = f -> call p lines = Ok ms ->
  filter (fun m => oz_eqb (m_tx_id m) (Some u)) ms = [m] -> heeds mask p u ->
  (forall u', u' < u -> heeds mask p u' -> silent f u' lines) ->
  first_with (fun m => common_bit mask (m_ecu m)) ms m.
Proof.
  intros Hc Ec C F M Q.
  assert (T : m_tx_id m = Some u).
  { assert (I : In m (filter (fun m => oz_eqb (m_tx_id m) (Some u)) ms)) by (rewrite F; left; reflexivity). apply filter_In in I. destruct I as [_ I].
    destruct (m_tx_id m) as [v|]; cbn in I; [apply Z.eqb_eq in I; congruence|discriminate I]. }
  destruct (C14_one_message_per_ecu p lines ms Hc C) as (obd & ts & texts & E & Et & S & Fe & Ft).
  assert (Im : In m obd).
  { rewrite E, filter_app, (texts_tx u lines texts Ft), app_nil_r in F. assert (I : In m [m]) by (left; reflexivity). rewrite <- F in I. apply filter_In in I. apply I. }
  apply in_split in Im as (b & a & ->). exists b, (a ++ texts).
  split; [rewrite E, <- app_assoc; reflexivity|].
  apply Forall_app in Fe as [Fb Fm]. inversion Fm as [|? ? Em _]; subst.
  split; [rewrite Em, T; apply heeds_iff, M|].
  rewrite map_app in Et. cbn [map] in Et.
  assert (Lt : Forall (fun m' => exists t, m_tx_id m' = Some t /\ t < u) b).
  { clear -Et S T. symmetry in Et. assert (G : forall b ts, map Some ts = map m_tx_id b ++ m_tx_id m :: map m_tx_id a -> exists t1 t2, ts = t1 ++ u :: t2 /\ map Some t1 = map m_tx_id b).
    { clear -T. induction b as [|x b IH]; intros [|t ts] E; try discriminate E.
      - cbn in E. rewrite T in E. injection E as -> _. exists [], ts. auto.
      - cbn in E. injection E as E1 E. destruct (IH ts E) as (t1 & t2 & -> & E2). exists (t :: t1), t2. split; [reflexivity|]. cbn [map]. rewrite E1, E2. reflexivity. }
    destruct (G b ts Et) as (t1 & t2 & -> & E1). apply sorted_app_lt in S. clear -S E1. revert t1 E1 S. induction b as [|x b IH]; intros [|t t1] E S; try discriminate E; constructor.
    - cbn in E. injection E as E _. inversion S; subst. eauto.
    - cbn in E. injection E as _ E. inversion S; subst. apply (IH t1); assumption. }
  rewrite Forall_forall in Lt, Fb |- *. intros m' I B. destruct (Lt m' I) as (t & Tt & L). rewrite (Fb m' I), Tt in B. apply heeds_iff in B.
  pose proof (silent_message p _ t lines _ Hc eq_refl (Q t L B) C) as Z0. rewrite <- app_assoc, filter_app in Z0. apply app_eq_nil in Z0 as [Z0 _].
  assert (I' : In m' (filter (fun m => oz_eqb (m_tx_id m) (Some t)) b)) by (apply filter_In; split; [exact I|]; rewrite Tt; cbn; apply Z.eqb_refl).
  rewrite Z0 in I'. exact I'.
Qed.

Lemma firstn_pos {A} (l : list A) n : l <> [] -> (1 <= n)%nat -> firstn n l <> [].
Proof. destruct l, n; cbn; try congruence; lia. Qed.
(* the message of an ECU of which only a part of its one line was read *)
Lemma cut_message p u lines ms l' data' l rest payload : In (p_class p) protocol_classes -> call p lines = Ok ms ->
  delivers (pc_family (p_class p)) u [l] payload -> l = l' ++ rest -> sent_by (pc_family (p_class p)) u l' data' ->
  heard_from (pc_family (p_class p)) u lines [l'] -> (forall r, payload <> 67 :: r) ->
  exists m j, filter (fun m => oz_eqb (m_tx_id m) (Some u)) ms = [m] /\ (1 <= j <= length payload)%nat /\ m_data m = firstn j payload.
Proof.
  intros Hc C D El Sb H N.
  remember (pc_family (p_class p)) as f eqn:Ef. remember [l] as ls eqn:Els. 
  destruct D as [h l0 payload padding Hh Fp Fd Ne L Cl|h ls payload frames Hh S L F Cl|u l0 payload Hl|u ls mode pid parts datas L P F].
  - injection Els as ->. cbn [sent_by] in Sb. 
    assert (Sl : frame_from (id_width h) (sender h) l (single_frame payload padding)).
    { exists h. repeat (split; [first [reflexivity|assumption]|]). split.
      - unfold single_frame. apply Forall_app. split; [|exact Fd]. constructor; [|exact Fp]. split; [lia|]. destruct padding; rewrite ?app_length in L; cbn in L; lia.
      - split; [exact Cl|]. unfold acceptable, single_frame. rewrite app_length. cbn [length]. destruct payload as [|a pl]; [congruence|]. cbn [length app] in *. split; [lia|]. left.
        replace (Z.of_nat (S (length pl))) with (Z.of_nat (length pl) + 1) by lia. split; [apply Z.div_small; lia|rewrite Z.mod_small by lia; lia]. }
    destruct (frame_prefix _ _ _ _ _ _ _ _ Sl Sb El) as (_ & r & Er).
    assert (W : id_width h = 11 \/ id_width h = 29) by (destruct h; cbn; auto).
    destruct (C03_can_exact p (id_width h) lines (sender h) [l'] [data'] ms W (eq_sym Ef) H (Forall2_cons _ _ Sb (Forall2_nil _)) C) as (U & _).
    destruct Sb as (h' & _ & _ & _ & _ & _ & (Ld & _)).
    destruct data' as [|n d]; [cbn in Ld; lia|]. unfold single_frame in Er. cbn [app] in Er. injection Er as <- Er. cbn [length] in Ld.
    assert (Bn : 0 <= Z.of_nat (length payload) < 16) by lia.
    destruct (U _ (understood_single (Z.of_nat (length payload)) d Bn)) as (m & Fm & _ & Dm). rewrite Nat2Z.id in Dm.
    assert (Ed : firstn (length payload) d = firstn (Nat.min (length payload) (length d)) payload).
    { pose proof (f_equal (firstn (Nat.min (length payload) (length d))) Er) as X. rewrite !firstn_app in X.
      replace (Nat.min (length payload) (length d) - length payload)%nat with O in X by lia. replace (Nat.min (length payload) (length d) - length d)%nat with O in X by lia.
      cbn [firstn] in X. rewrite !app_nil_r in X. rewrite X. destruct (Nat.le_ge_cases (length payload) (length d)); [rewrite Nat.min_l by assumption; reflexivity|].
      rewrite Nat.min_r by assumption. rewrite !firstn_all2 by lia. reflexivity. }
    exists m, (Nat.min (length payload) (length d)). split; [exact Fm|]. split; [destruct payload; [congruence|]; cbn [length] in *; lia|].
    rewrite Dm, Ed. apply dtc_cut_other. destruct payload as [|a pl]; [congruence|]. intros r0 X. apply (N pl). f_equal.
    destruct (Nat.min (length (a :: pl)) (length d)) eqn:M; [cbn [length] in M; lia|]. cbn [firstn] in X. congruence.
  - exfalso. subst ls. destruct S as [a rest0 frames La Co]. inversion Cl as [|? ? ? ? _ Cl']; subst. inversion Cl'; subst. inversion Co.
  - injection Els as ->. cbn [sent_by] in Sb. destruct (legacy_prefix _ _ _ _ _ _ _ Hl Sb El) as (_ & r & Er).
    assert (N' : forall r0, data' <> 67 :: r0) by (intros r0 ->; apply (N (r0 ++ r)); exact Er).
    destruct data' as [|a d]; [destruct Sb as (b1 & b2 & ck & _ & _ & L0); cbn in L0; lia|].
    destruct (legacy_single p u l' a d (eq_sym Ef) Sb ltac:(intros ->; exact (N' d eq_refl))) as (m & Cm & Dm & Tm). assert (Hf : pc_family (p_class p) = FLegacy) by auto.
    exists m, (length (a :: d)). split; [apply (heard_message p FLegacy u lines [l'] ms m Hc Hf H C Cm Tm)|]. split; [rewrite Er, app_length; cbn; lia|].
    rewrite Dm, Er, firstn_app, Nat.sub_diag, firstn_all. cbn [firstn]. rewrite app_nil_r. reflexivity.
  - exfalso. subst ls. apply Permutation.Permutation_length in P. rewrite map_length, combine_length, seq_length, Nat.min_id in P. apply Forall2_length in F. cbn in F. lia.
Qed.

Lemma sel_app {A} (P : A -> Prop) a sa b sb : selects P a sa -> selects P b sb -> selects P (a ++ b) (sa ++ sb).
Proof. induction 1; intros H2; cbn; [exact H2|constructor; auto|constructor 3; auto]. Qed.
Lemma sel_split {A} (P : A -> Prop) a : forall b s, selects P (a ++ b) s -> exists s1 s2, s = s1 ++ s2 /\ selects P a s1 /\ selects P b s2.
Proof.
  induction a as [|x a IH]; intros b s H; cbn in H; [exists [], s; repeat split; [constructor|exact H]|].
  inversion H as [|? ? ls Px H'|? ? ls Nx H']; subst; destruct (IH _ _ H') as (s1 & s2 & -> & S1 & S2); [exists (x :: s1), s2|exists s1, s2]; repeat split; auto; constructor; assumption.
Qed.
Lemma sel_empty {A} (P : A -> Prop) l s : selects P l s -> s = [] -> forall x, In x l -> ~ P x.
Proof. intros H. induction H as [|x l ls Px H IH|x l ls Nx H IH]; intros E y I; [destruct I|discriminate E|]. destruct I as [<-|I]; [exact Nx|exact (IH E y I)]. Qed.
Lemma sel_in {A} (P : A -> Prop) l s : selects P l s -> forall x, In x l -> P x -> In x s.
Proof. intros H. induction H as [|x l ls Px H IH|x l ls Nx H IH]; intros y I Py; [destruct I| |]; destruct I as [<-|I]; [left; reflexivity|right; auto|contradiction|auto]. Qed.

(* evaluation depends only on the data of the first message for the command *)
Lemma eval_data c ms m q : 0 <= c_ecu c -> first_only (c_decode c) = true -> first_with (for_it c) ms m -> cmd_call c ms = Ok q ->
  forall m', for_it c m' -> m_data m' = m_data m -> evaluates c [m'] (r_value q).
Proof.
  intros Hc F W V m' Fm E. destruct (constrain_resized (c_bytes c) m) as (_ & _ & Rs).
  destruct (first_prepared c ms m _ Hc W Rs) as (x1 & t1 & P1 & E1).
  assert (W' : first_with (for_it c) [m'] m') by (exists [], []; repeat split; [exact Fm|constructor]).
  destruct (first_prepared c [m'] m' (m_data (constrain (c_bytes c) m)) Hc W' ltac:(rewrite E; exact Rs)) as (x2 & t2 & P2 & E2).
  unfold evaluates. rewrite (cmd_call_prepared c ms _ Hc P1) in V. rewrite (cmd_call_prepared c _ _ Hc P2).
  rewrite (run_decoder_first (c_decode c) x1 t1 x2 t2 F ltac:(congruence)) in V.
  destruct (run_decoder (c_decode c) (x2 :: t2)) as [v|]; [|discriminate]. injection V as <-. eexists. split; reflexivity.
Qed.

Lemma sel_all {A} (P : A -> Prop) l s : selects P l s -> forall x, In x s -> P x.
Proof. induction 1 as [|x l ls Px H IH|x l ls Nx H IH]; intros y I; [destruct I| |auto]. destruct I as [<-|I]; auto. Qed.
Lemma is_from_dec p u l : In (p_class p) protocol_classes -> pc_family (p_class p) <> FUnknown -> is_from (pc_family (p_class p)) u l \/ ~ is_from (pc_family (p_class p)) u l.
Proof.
  intros Hc Hu. destruct (ecu_lines (p_class p) u [l] (proj1 (classes_ok _ Hc)) Hu) as (ls & S & _). inversion S; auto.
Qed.
(* which of the lines of an ECU that answers in one line are left *)
Lemma cut_heard p u full lines l : In (p_class p) protocol_classes -> pc_family (p_class p) <> FUnknown -> cut_of full lines -> heard_from (pc_family (p_class p)) u full [l] ->
  (forall l2, In l2 full -> exists t, is_from (pc_family (p_class p)) t l2) ->
  silent (pc_family (p_class p)) u lines \/ exists l' rest, l = l' ++ rest /\ is_from (pc_family (p_class p)) u l' /\ heard_from (pc_family (p_class p)) u lines [l'].
Proof.
  intros Hc Hu (k & C) H A. set (f := pc_family (p_class p)) in *.
  assert (Hs : selects (is_from f u) (firstn k full ++ skipn k full) [l]) by (rewrite firstn_skipn; exact H).
  apply sel_split in Hs as (s1 & s2 & E & S1 & S2). destruct C as [->|(l' & rest & N & ->)].
  - destruct s1 as [|x s1].
    + left. intros y I. exact (sel_empty _ _ _ S1 eq_refl y I).
    + injection E as <- E. symmetry in E. apply app_eq_nil in E as [-> ->]. right. exists l, []. rewrite app_nil_r. split; [reflexivity|]. split; [|exact S1].
      apply (sel_all _ _ _ S1). left. reflexivity.
  - assert (Sk : skipn k full = (l' ++ rest) :: skipn (S k) full).
    { clear - N. revert full N. induction k as [|k IH]; intros [|y full] N; try discriminate N; [injection N as ->; reflexivity|]. exact (IH full N). }
    rewrite Sk in S2.
    assert (Pf : is_from f u l' -> is_from f u (l' ++ rest)).
    { intros (d' & Sd). destruct (A (l' ++ rest) (nth_error_In _ _ N)) as (t & d & Sd2). destruct (sent_prefix _ _ _ _ _ _ _ _ Sd2 Sd eq_refl) as (-> & _). exists d. exact Sd2. }
    destruct (is_from_dec p u l' Hc Hu) as [Y|Y]; fold f in Y.
    + right. inversion S2 as [|? ? ls Px S3|? ? ls Nx S3]; subst; [|destruct (Nx (Pf Y))]. destruct s1 as [|x s1]; [|injection E as _ E; destruct s1; discriminate E].
      injection E as -> _. exists l', rest. split; [reflexivity|]. split; [exact Y|]. apply (sel_app _ _ [] _ [l'] S1). constructor; [exact Y|constructor].
    + destruct s1 as [|x s1].
      * left. intros y I. apply in_app_or in I as [I|[<-|[]]]; [exact (sel_empty _ _ _ S1 eq_refl y I)|exact Y].
      * injection E as <- E. symmetry in E. apply app_eq_nil in E as [-> ->]. right. exists l, []. rewrite app_nil_r. split; [reflexivity|]. split; [apply (sel_all _ _ _ S1); left; reflexivity|].
        apply (sel_app _ _ [l] _ [] S1). constructor 3; [exact Y|constructor].
Qed.
Lemma cut_value c p full lines q u l payload : 0 <= c_ecu c -> ~ common_bit (c_ecu c) ECU_UNKNOWN -> first_only (c_decode c) = true -> reading c p lines q -> cut_of full lines ->
  heeds (c_ecu c) p u -> (forall u', heeds (c_ecu c) p u' -> u' = u) ->
  heard_from (pc_family (p_class p)) u full [l] -> delivers (pc_family (p_class p)) u [l] payload -> (forall r, payload <> 67 :: r) ->
  (forall l2, In l2 full -> exists t, is_from (pc_family (p_class p)) t l2) ->
  is_null q = true /\ r_value q = VNone \/ exists j, (1 <= j <= length payload)%nat /\ forall m, for_it c m -> m_data m = firstn j payload -> evaluates c [m] (r_value q).
Proof.
  intros He Nu Fo R C Hu Ho H D Np A. destruct (reading_call _ _ _ _ R) as ([Hc|Hc] & ms & Cl & V); [|destruct (delivers_known p _ u [l] payload eq_refl D Hc)].
  assert (Fu : pc_family (p_class p) <> FUnknown) by (intros X; rewrite X in D; inversion D).
  destruct (cut_heard p u full lines l Hc Fu C H A) as [Si|(l' & rest & El & (d & Sd) & H')].
  - left. apply (no_value c p lines q R He Nu). intros u' X. rewrite (Ho u' X). exact Si.
  - right. destruct (cut_message p u lines ms l' d l rest payload Hc Cl D El Sd H' Np) as (m & j & Fm & J & Dm). exists j. split; [exact J|].
    assert (W : first_with (for_it c) ms m) by (apply (first_heard' (c_ecu c) p _ u lines ms m Hc eq_refl Cl Fm Hu); intros u' L X; rewrite (Ho u' X) in L; lia).
    intros m' F' E'. apply (eval_data c ms m q He Fo W); [|exact F'|congruence]. destruct V as [[-> _]|[_ V]]; [|exact V]. destruct W as (b & a & X & _). destruct b; discriminate X.
Qed.
