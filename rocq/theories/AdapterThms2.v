(* Proofs about SpecAdapter: the settings in force, through start-up and queries. *)
From Coq Require Import ZArith List Bool Lia String.
From Verif Require Import Py Num Utils Protocol Decoders Command CommandTable Commands World Elm Obd SpecElm SpecObd SpecE2E SpecAdapter
  PyFacts ElmFacts ElmThms ObdFacts ObdThms ObdThms2 ObdThms4 ObdThms5 Properties_Elm AdapterThms.
Import ListNotations.
Open Scope string_scope. Open Scope list_scope. Open Scope Z_scope.

Definition ENGINE : bytes := str "7E0".
(* echo off, headers on *)
Definition tuned (a : adapter) : Prop := ad_echo a = false /\ ad_headers a = true.
(* lines that leave the settings alone *)
Definition leaves (k : kind) : Prop := match k with KHarmless | KRequest _ | KCounted _ _ => True | _ => False end.
(* what a query makes of the lines of an answer *)
Definition decoded (p : protocol) (c : command) (lines : list text) : res response :=
  match call p lines with Raise x => Raise x | Ok [] => Ok empty_response | Ok ms => cmd_call c ms end.
Lemma plain_app a b : plain (a ++ b) = plain a ++ plain b.
Proof. unfold plain. rewrite filter_app, map_app. reflexivity. Qed.
Lemma understand_attp x : understand (str "ATTP" ++ x) = KHarmless.
Proof. unfold understand. rewrite plain_app. change (plain (str "ATTP")) with (str "ATTP"). generalize (plain x). intros s. cbn. destruct s; reflexivity. Qed.
Lemma understand_header h : header_ok (plain h) = true -> understand (str "AT SH " ++ h ++ str " ") = KHeader (plain h).
Proof.
  intros H. unfold understand. rewrite !plain_app. change (plain (str "AT SH ")) with (str "ATSH"). change (plain (str " ")) with (@nil Z). rewrite app_nil_r. remember (plain h) as s. cbn. rewrite H. reflexivity.
Qed.
Lemma understand_bell : understand [127; 127] = KOther. Proof. reflexivity. Qed.
Lemma leaves_bell l : leaves (understand l) -> l <> [127; 127].
Proof. intros H ->. exact H. Qed.

Lemma nb_ATZ : str "ATZ" <> [127; 127]. Proof. discriminate. Qed.
Lemma nb_ATE0 : str "ATE0" <> [127; 127]. Proof. discriminate. Qed.
Lemma nb_ATH1 : str "ATH1" <> [127; 127]. Proof. discriminate. Qed.
Lemma nb_ATL0 : str "ATL0" <> [127; 127]. Proof. discriminate. Qed.

Section Car.
  Context {Car : Type} (ask : Car -> option text -> text -> list text -> Car -> Prop).
  Notation follows := (follows ask). Notation obeys := (obeys ask). Notation moves := (moves ask). Notation does := (does ask).

  Lemma obeys_leaves a s l shown a' s' : leaves (understand l) -> obeys a s l shown a' s' -> a' = remember_line l a.
  Proof.
    unfold obeys, SpecAdapter.obeys, SpecAdapter.does. destruct (understand l); intros L H; try contradiction; try (destruct H as (? & ? & ? & H); exact H). exact (proj1 H).
  Qed.
  Lemma asked_leaves n cmd t lines a s pend a' s' p' : leaves (understand cmd) -> ad_echo a = false -> asks n cmd t lines -> follows (a, s, pend) t (a', s', p') ->
    obeys a s cmd lines a' s' /\ a' = remember_line cmd a /\ p' = [].
  Proof.
    intros L E A F. destruct (asked ask _ _ _ _ _ _ _ _ _ _ (leaves_bell _ L) A F) as (shown & echo & O & -> & Q & P). rewrite (Q E). cbn [app]. split; [exact O|]. split; [exact (obeys_leaves _ _ _ _ _ _ L O)|exact P].
  Qed.
  Definition same_settings (a a' : adapter) : Prop := ad_echo a' = ad_echo a /\ ad_headers a' = ad_headers a /\ ad_header a' = ad_header a.
  Lemma same_refl a : same_settings a a. Proof. repeat split. Qed.
  Lemma same_trans a b c : same_settings a b -> same_settings b c -> same_settings a c.
  Proof. intros (A & B & C) (D & E & F). repeat split; congruence. Qed.
  Lemma same_remember l a : same_settings a (remember_line l a). Proof. repeat split. Qed.
  Lemma asked_same n cmd t lines a s pend y : leaves (understand cmd) -> ad_echo a = false -> asks n cmd t lines -> follows (a, s, pend) t y ->
    exists a' s', y = (a', s', []) /\ same_settings a a'.
  Proof.
    intros L E A F. destruct y as [[a' s'] p']. destruct (asked_leaves _ _ _ _ _ _ _ _ _ _ L E A F) as (_ & -> & ->). eauto using same_remember.
  Qed.

  (* ---- start-up ---- *)
  Lemma ready_follows t a s pend y : ready t -> follows (a, s, pend) t y -> exists s', y = (mkAdapter false true None (str "ATL0"), s', []).
  Proof.
    intros (tz & te & th & tl & lz & le & -> & Az & Ae & _ & Ah & Al) F.
    apply follows_app in F. destruct F as ([[a1 s1] p1] & F1 & F). apply follows_app in F. destruct F as ([[a2 s2] p2] & F2 & F). apply follows_app in F. destruct F as ([[a3 s3] p3] & F3 & F).
    destruct y as [[a4 s4] p4].
    destruct (asked ask _ _ _ _ _ _ _ _ _ _ (nb_ATZ) Az F1) as (? & ? & O & _). cbv [SpecAdapter.obeys] in O. change (understand (str "ATZ")) with KReset in O. cbv [SpecAdapter.does] in O. change (understand (str "ATZ")) with KReset in O. destruct O as [-> ->]. clear F1 Az.
    destruct (asked ask _ _ _ _ _ _ _ _ _ _ (nb_ATE0) Ae F2) as (? & ? & O & _). cbv [SpecAdapter.obeys] in O. change (understand (str "ATE0")) with KEcho0 in O. cbv [SpecAdapter.does] in O. change (understand (str "ATE0")) with KEcho0 in O. destruct O as (_ & -> & ->). clear F2 Ae.
    destruct (asked ask _ _ _ _ _ _ _ _ _ _ (nb_ATH1) Ah F3) as (? & ? & O & _). cbv [SpecAdapter.obeys] in O. change (understand (str "ATH1")) with KHeaders1 in O. cbv [SpecAdapter.does] in O. change (understand (str "ATH1")) with KHeaders1 in O. destruct O as (_ & -> & ->). clear F3 Ah.
    destruct (asked ask _ _ _ _ _ _ _ _ _ _ (nb_ATL0) Al F) as (? & ? & O & _ & _ & ->). cbv [SpecAdapter.obeys] in O. change (understand (str "ATL0")) with KLinefeeds0 in O. cbv [SpecAdapter.does] in O. change (understand (str "ATL0")) with KLinefeeds0 in O. destruct O as (_ & -> & ->).
    eexists. reflexivity.
  Qed.
  Lemma power_follows check t r a s y : ad_echo a = false -> power check t r -> follows (a, s, []) t y -> exists a' s', y = (a', s', []) /\ same_settings a a'.
  Proof.
    intros E P F. destruct P as [|t l v A _ _|t l v A _ _|t r A _]; [inversion F; subst; eauto using same_refl| | |]; apply (asked_same _ _ _ _ _ _ _ _) with (2 := E) (3 := A) (4 := F); exact Logic.I.
  Qed.
  Lemma probes_follows id t r a s y : ad_echo a = false -> probes id t r -> follows (a, s, []) t y -> exists a' s', y = (a', s', []) /\ same_settings a a'.
  Proof.
    intros E (t1 & l1 & t2 & -> & A1 & A2) F. apply follows_app in F. destruct F as (y1 & F1 & F2).
    assert (L : leaves (understand (str "ATTP" ++ id))) by (rewrite understand_attp; exact Logic.I).
    destruct (asked_same _ _ _ _ _ _ _ _ L E A1 F1) as (a1 & s1 & -> & S1).
    destruct (asked_same _ _ _ _ a1 _ _ _ (Logic.I : leaves (understand (str "0100"))) (eq_trans (proj1 S1) E) A2 F2) as (a2 & s2 & -> & S2). eauto using same_trans.
  Qed.
  Lemma tries_follows ids t r : tries_in_turn ids t r -> forall a s y, ad_echo a = false -> follows (a, s, []) t y -> exists a' s', y = (a', s', []) /\ same_settings a a'.
  Proof.
    intros T. induction T as [|id ids t r P U|id ids t r t' res P U T IH]; intros a s y E F.
    - inversion F; subst. eauto using same_refl.
    - exact (probes_follows _ _ _ _ _ _ E P F).
    - apply follows_app in F. destruct F as (y1 & F1 & F2). destruct (probes_follows _ _ _ _ _ _ E P F1) as (a1 & s1 & -> & S1).
      destruct (IH _ _ _ (eq_trans (proj1 S1) E) F2) as (a2 & s2 & -> & S2). eauto using same_trans.
  Qed.
  Lemma selection_follows proto t r a s y : ad_echo a = false -> selection proto t r -> follows (a, s, []) t y -> exists a' s', y = (a', s', []) /\ same_settings a a'.
  Proof.
    intros E S F.
    assert (K : forall n1 n2 t1 t2 l1 l2 y1, asks n1 (str "ATSP0") t1 l1 -> asks n2 (str "0100") t2 l2 -> follows (a, s, []) (t1 ++ t2) y1 -> exists a' s', y1 = (a', s', []) /\ same_settings a a').
    { intros n1 n2 t1 t2 l1 l2 y1 A1 A2 G. apply follows_app in G. destruct G as (y2 & F1 & F2).
      destruct (asked_same _ _ _ _ _ _ _ _ (Logic.I : leaves (understand (str "ATSP0"))) E A1 F1) as (a1 & s1 & -> & S1).
      destruct (asked_same _ _ _ _ a1 _ _ _ (Logic.I : leaves (understand (str "0100"))) (eq_trans (proj1 S1) E) A2 F2) as (a2 & s2 & -> & S2). eauto using same_trans. }
    assert (K3 : forall n1 n2 n3 t1 t2 t3 l1 l2 l3 y1, asks n1 (str "ATSP0") t1 l1 -> asks n2 (str "0100") t2 l2 -> asks n3 (str "ATDPN") t3 l3 -> follows (a, s, []) (t1 ++ t2 ++ t3) y1 -> exists a' s', y1 = (a', s', []) /\ same_settings a a').
    { intros n1 n2 n3 t1 t2 t3 l1 l2 l3 y1 A1 A2 A3 G. rewrite app_assoc in G. apply follows_app in G. destruct G as (y2 & F1 & F2). destruct (K _ _ _ _ _ _ _ A1 A2 F1) as (a1 & s1 & -> & S1).
      destruct (asked_same _ _ _ _ a1 _ _ _ (Logic.I : leaves (understand (str "ATDPN"))) (eq_trans (proj1 S1) E) A3 F2) as (a2 & s2 & -> & S2). eauto using same_trans. }
    destruct S as [id N|id t r N P U|id t r N P U|t1 t2 l1 r A1 A2 U|t1 t2 t3 l1 r p id A1 A2 U A3 R|t1 t2 t3 t4 l1 r p res A1 A2 U A3 R T|t1 t2 t3 l1 r l3 A1 A2 U A3 R].
    - inversion F; subst. eauto using same_refl.
    - exact (probes_follows _ _ _ _ _ _ E P F).
    - exact (probes_follows _ _ _ _ _ _ E P F).
    - exact (K _ _ _ _ _ _ _ A1 A2 F).
    - exact (K3 _ _ _ _ _ _ _ _ _ _ A1 A2 A3 F).
    - rewrite !app_assoc in F. apply follows_app in F. destruct F as (y2 & F1 & F2). rewrite <- app_assoc in F1. destruct (K3 _ _ _ _ _ _ _ _ _ _ A1 A2 A3 F1) as (a1 & s1 & -> & S1).
      destruct (tries_follows _ _ _ T _ _ _ (eq_trans (proj1 S1) E) F2) as (a2 & s2 & -> & S2). eauto using same_trans.
    - exact (K3 _ _ _ _ _ _ _ _ _ _ A1 A2 A3 F).
  Qed.
  Lemma startup_follows name baud proto timeout check slp t st sel b x y : startup name baud proto timeout check slp t st sel b -> st <> NOT_CONNECTED -> follows x t y ->
    exists a s, y = (a, s, []) /\ tuned a /\ ad_header a = None.
  Proof.
    intros S N F.
    assert (K : forall t1 t2 t3 y1, ready t2 -> (exists r, power check t3 r) -> follows x ((EvOpen name true :: wake slp ++ t1) ++ t2 ++ t3) y1 -> exists a s, y1 = (a, s, []) /\ tuned a /\ ad_header a = None).
    { intros t1 t2 t3 y1 R (r & P) G. apply follows_app in G. destruct G as ([[a1 s1] p1] & _ & G). apply follows_app in G. destruct G as (y2 & F2 & F3).
      destruct (ready_follows _ _ _ _ _ R F2) as (s2 & ->). destruct (power_follows _ _ _ (mkAdapter false true None (str "ATL0")) _ _ eq_refl P F3) as (a' & s' & -> & S1 & S2 & S3).
      exists a', s'. split; [reflexivity|]. split; [split; assumption|exact S3]. }
    assert (K4 : forall t1 t2 t3 t4 res, ready t2 -> (exists r, power check t3 r) -> selection proto t4 res -> follows x (EvOpen name true :: wake slp ++ t1 ++ t2 ++ t3 ++ t4) y -> exists a s, y = (a, s, []) /\ tuned a /\ ad_header a = None).
    { intros t1 t2 t3 t4 res R P Sel G. replace (EvOpen name true :: wake slp ++ t1 ++ t2 ++ t3 ++ t4) with (((EvOpen name true :: wake slp ++ t1) ++ t2 ++ t3) ++ t4) in G by (cbn [app]; rewrite <- !app_assoc; reflexivity).
      apply follows_app in G. destruct G as (y1 & G1 & G2). destruct (K _ _ _ _ R P G1) as (a & s & -> & (T1 & T2) & T3).
      destruct (selection_follows _ _ _ _ _ _ T1 Sel G2) as (a' & s' & -> & S1 & S2 & S3). exists a', s'. split; [reflexivity|]. unfold tuned. repeat split; congruence. }
    destruct S; try congruence.
    - apply (K t1 t2 t3); eauto. cbn [app]. rewrite <- !app_assoc. exact F.
    - eapply K4; eauto.
    - eapply K4; eauto.
  Qed.
End Car.
