(* Proofs about SpecSleep: queries, start-up and histories. *)
From Coq Require Import ZArith List Bool Lia String.
From Verif Require Import Py Num Utils Protocol Decoders Command CommandTable Commands World Elm Obd SpecElm SpecObd SpecE2E SpecAdapter SpecAdapter2 SpecSleep
  PyFacts ElmFacts ElmThms ObdFacts ObdThms ObdThms2 ObdThms3 ObdThms4 ObdThms5 Properties_Elm AdapterThms AdapterThms2 AdapterThms3 AdapterThms4 AdapterThms5 SleepThms.
Import ListNotations.
Open Scope string_scope. Open Scope list_scope. Open Scope Z_scope.

(* ---- a query of a sleeping object is a wake-up and the same query of the object awake ---- *)
Lemma io_l t1 t2 : io_error t1 -> io_error (t1 ++ t2). Proof. intros [I|I]; [left|right]; apply in_or_app; auto. Qed.
Lemma io_r t1 t2 : io_error t2 -> io_error (t1 ++ t2). Proof. intros [I|I]; [left|right]; apply in_or_app; auto. Qed.
Lemma split_sends cmd t lines : sends true cmd t lines -> exists t1 t2 l, t = t1 ++ t2 /\ asks 12 (str " ") t1 l /\ sends false cmd t2 lines.
Proof. intros (t1 & t2 & -> & (l & A) & B). exists t1, t2, l. split; [reflexivity|]. split; [exact A|]. exists [], t2. auto. Qed.
Lemma header_split o e p h t x o' : o_interface o = Some e -> e_low_power e = true -> header_run o e p h t x o' -> ~ io_error t ->
  h = o_last_header o /\ t = [] /\ x = None /\ o' = o
  \/ exists t1 t2 l, t = t1 ++ t2 /\ asks 12 (str " ") t1 l /\ header_run (with_elm (awake e) o) (awake e) p h t2 x o' /\ exists e', o_interface o' = Some e' /\ e_low_power e' = false.
Proof.
  intros Hi Lp HR Io. destruct HR as [Hh|t lines ms Hh S C K|t lines ms Hh S C K|t lines x Hh S C|t Hh S]; [left; auto|right|right|right|exfalso; apply Io, S]; rewrite Lp in S; destruct (split_sends _ _ _ S) as (t1 & t2 & l & -> & A & B); exists t1, t2, l;
    (split; [reflexivity|]); (split; [exact A|]); (split; [|exists (awake e); split; reflexivity]).
  - apply (h_ack (with_elm (awake e) o) (awake e) p h t2 lines ms); assumption.
  - apply (h_nak (with_elm (awake e) o) (awake e) p h t2 lines ms); assumption.
  - apply (h_raise (with_elm (awake e) o) (awake e) p h t2 lines x); assumption.
Qed.
Lemma protocol_awake e o : o_interface o = Some e -> obd_protocol_id (with_elm (awake e) o) = obd_protocol_id o.
Proof. intros Hi. unfold obd_protocol_id. cbn [with_elm o_interface]. rewrite Hi. reflexivity. Qed.
Lemma may_send_awake e o c f : o_interface o = Some e -> may_send o c f -> may_send (with_elm (awake e) o) c f.
Proof. intros Hi. unfold may_send. rewrite (protocol_awake e o Hi). cbn [with_elm o_supported]. auto. Qed.
Lemma build_awake e o c : build_command_string (with_elm e o) c = build_command_string o c. Proof. reflexivity. Qed.
Lemma query_split o e c f t r o' : o_interface o = Some e -> e_low_power e = true -> query_run o c f t r o' -> obd_status o <> NOT_CONNECTED -> may_send o c f -> ~ io_error t ->
  exists t1 t2 l, t = t1 ++ t2 /\ asks 12 (str " ") t1 l /\ query_run (with_elm (awake e) o) c f t2 r o'.
Proof.
  intros Hi Lp Q Con Ms Io. pose proof (may_send_awake e o c f Hi Ms) as Ms'. assert (Hs' : e_status (awake e) <> NOT_CONNECTED) by (unfold obd_status in Con; rewrite Hi in Con; exact Con).
  assert (U : forall e0, o_interface o = Some e0 -> e0 = e) by (intros e0 X; congruence).
  destruct Q as [H|H1 H2|e0 p t x o1 Hi0 Hs P M HR|e0 p t o1 Hi0 Hs P M HR Hn|e0 p t1 o1 e1 t2 Hi0 Hs P M HR Hi1 Hs1 A|e0 p t1 o1 e1 t2 lines x Hi0 Hs P M HR Hi1 Hs1 A C|e0 p t1 o1 e1 t2 lines ms Hi0 Hs P M HR Hi1 Hs1 A C]; try contradiction;
    pose proof (U _ Hi0) as ->; clear U Hi0.
  - destruct (header_split _ _ _ _ _ _ _ Hi Lp HR Io) as [(_ & _ & D & _)|(u1 & u2 & l & -> & B & HR' & _)]; [discriminate D|]. exists u1, u2, l. split; [reflexivity|]. split; [exact B|]. eapply (q_header_raise (with_elm (awake e) o)); eauto. reflexivity.
  - destruct (header_split _ _ _ _ _ _ _ Hi Lp HR Io) as [(_ & _ & _ & ->)|(u1 & u2 & l & -> & B & HR' & _)]; [contradiction|]. exists u1, u2, l. split; [reflexivity|]. split; [exact B|].
    exact (q_header_cut (with_elm (awake e) o) c f (awake e) p u2 o1 eq_refl Hs P Ms' HR' Hn).
  - exfalso. apply Io, io_r, A.
  - assert (Io1 : ~ io_error t1) by (intros X; apply Io, io_l, X).
    destruct (header_split _ _ _ _ _ _ _ Hi Lp HR Io1) as [(Hh & -> & _ & ->)|(u1 & u2 & l & -> & B & HR' & e' & Hi' & Lp')].
    + assert (e1 = e) by congruence. subst e1. rewrite Lp in A. destruct (split_sends _ _ _ A) as (v1 & v2 & l & -> & B & D). exists v1, v2, l. split; [reflexivity|]. split; [exact B|].
      exact (q_parse_raise (with_elm (awake e) o) c f (awake e) p [] (with_elm (awake e) o) (awake e) v2 lines x eq_refl Hs P Ms' (h_same (with_elm (awake e) o) (awake e) p (c_header c) Hh) eq_refl Hs D C).
    + exists u1, (u2 ++ t2), l. split; [symmetry; apply app_assoc|]. split; [exact B|]. exact (q_parse_raise (with_elm (awake e) o) c f (awake e) p u2 o1 e1 t2 lines x eq_refl Hs P Ms' HR' Hi1 Hs1 A C).
  - assert (Io1 : ~ io_error t1) by (intros X; apply Io, io_l, X).
    destruct (header_split _ _ _ _ _ _ _ Hi Lp HR Io1) as [(Hh & -> & _ & ->)|(u1 & u2 & l & -> & B & HR' & e' & Hi' & Lp')].
    + assert (e1 = e) by congruence. subst e1. rewrite Lp in A. destruct (split_sends _ _ _ A) as (v1 & v2 & l & -> & B & D). exists v1, v2, l. split; [reflexivity|]. split; [exact B|].
      exact (q_done (with_elm (awake e) o) c f (awake e) p [] (with_elm (awake e) o) (awake e) v2 lines ms eq_refl Hs P Ms' (h_same (with_elm (awake e) o) (awake e) p (c_header c) Hh) eq_refl Hs D C).
    + exists u1, (u2 ++ t2), l. split; [symmetry; apply app_assoc|]. split; [exact B|]. exact (q_done (with_elm (awake e) o) c f (awake e) p u2 o1 e1 t2 lines ms eq_refl Hs P Ms' HR' Hi1 Hs1 A C).
Qed.

(* ---- what a query writes, awake ---- *)
Lemma sends_lively cmd t lines : plain cmd <> sleep_line -> plain cmd <> [] -> sends false cmd t lines -> lively t.
Proof. intros A B (t1 & t2 & -> & -> & D). exact (lively_asks _ _ _ _ A B D). Qed.
Lemma header_lively_run o e p h t x o' : o_interface o = Some e -> e_low_power e = false -> header_run o e p h t x o' -> ~ io_error t -> lively t /\ exists e', o_interface o' = Some e' /\ e_low_power e' = false.
Proof.
  intros Hi Lp HR Io. destruct (header_lively h) as (A & B).
  destruct HR as [Hh|t lines ms Hh S C K|t lines ms Hh S C K|t lines x Hh S C|t Hh S]; [split; [apply lively_nil|eauto]| | | |exfalso; apply Io, S]; rewrite Lp in S; (split; [exact (sends_lively _ _ _ A B S)|exists (awake e); split; reflexivity]).
Qed.
Lemma query_lively o c f t r o' : obd_status o <> NOT_CONNECTED -> asleep o = false -> proper c -> o_fast o = false -> query_run o c f t r o' -> ~ io_error t -> lively t.
Proof.
  intros Con Sl Pr Fa Q Io. assert (L : plain (build_command_string o c) <> sleep_line /\ plain (build_command_string o c) <> []).
  { rewrite build_full, Fa. cbn [andb]. apply leaves_lively, full_leaves, Pr. }
  assert (LP : forall e, o_interface o = Some e -> e_low_power e = false) by (intros e Hi; unfold asleep in Sl; rewrite Hi in Sl; exact Sl).
  destruct Q as [H|H1 H2|e p t x o1 Hi Hs P M HR|e p t o1 Hi Hs P M HR Hn|e p t1 o1 e1 t2 Hi Hs P M HR Hi1 Hs1 A|e p t1 o1 e1 t2 lines x Hi Hs P M HR Hi1 Hs1 A C|e p t1 o1 e1 t2 lines ms Hi Hs P M HR Hi1 Hs1 A C]; try apply lively_nil.
  - exact (proj1 (header_lively_run _ _ _ _ _ _ _ Hi (LP _ Hi) HR Io)).
  - exact (proj1 (header_lively_run _ _ _ _ _ _ _ Hi (LP _ Hi) HR Io)).
  - exfalso. apply Io, io_r, A.
  - assert (Io1 : ~ io_error t1) by (intros X; apply Io, io_l, X). destruct (header_lively_run _ _ _ _ _ _ _ Hi (LP _ Hi) HR Io1) as (L1 & e' & Hi' & Lp'). assert (e' = e1) by congruence. subst e'.
    rewrite Lp' in A. apply lively_app; [exact L1|]. exact (sends_lively _ _ _ (proj1 L) (proj2 L) A).
  - assert (Io1 : ~ io_error t1) by (intros X; apply Io, io_l, X). destruct (header_lively_run _ _ _ _ _ _ _ Hi (LP _ Hi) HR Io1) as (L1 & e' & Hi' & Lp'). assert (e' = e1) by congruence. subst e'.
    rewrite Lp' in A. apply lively_app; [exact L1|]. exact (sends_lively _ _ _ (proj1 L) (proj2 L) A).
Qed.

Section Car.
  Context {Car : Type} (ask : Car -> option text -> text -> list text -> Car -> Prop) (woken : adapter -> adapter -> Prop).
  Notation follows := (follows ask). Notation zfollows := (zfollows ask woken).
  Definition zusable (o : obd) (b : bool) (a : adapter) (sw : bool) : Prop := obd_status o <> NOT_CONNECTED -> asleep o = b /\ tuned a /\ header_inv sw o a.

  Lemma zquery_step o c force t r o' b a s pend y sw : oinv o -> zusable o b a sw -> query_run o c force t r o' -> proper c -> zfollows (b, (a, s, pend)) t y -> (b = true -> settings_kept woken) ->
    o_fast o = false -> obd_status o <> NOT_CONNECTED -> may_send o c force ->
    exists p a1 lines a' s', y = (false, (a', s', [])) /\ uses o p /\ r = decoded p c lines /\ last_answer t lines
      /\ tuned a1 /\ header_inv (sw || switches c t) (with_header (c_header c) o) a1
      /\ does ask a1 s (c_command c) lines a' s' /\ obd_status o' = obd_status o /\ zusable o' false a' (sw || switches c t) /\ t <> [].
  Proof.
    intros OI U Q Pr F Sk Fa Con Ms. destruct (U Con) as (Sl & Tu & Hi). pose proof (zno_io ask woken _ _ _ F) as Io.
    assert (Main : forall o1 t1 t2 a1 p1, t = t1 ++ t2 -> oinv o1 -> obd_status o1 = obd_status o -> asleep o1 = false -> o_fast o1 = false -> may_send o1 c force -> (forall p, uses o1 p -> uses o p)
      -> o_last_header o1 = o_last_header o -> query_run o1 c force t2 r o' -> tuned a1 -> header_inv sw o a1 -> zfollows (false, (a1, s, p1)) t2 y ->
      exists p a1 lines a' s', y = (false, (a', s', [])) /\ uses o p /\ r = decoded p c lines /\ last_answer t lines
      /\ tuned a1 /\ header_inv (sw || switches c t) (with_header (c_header c) o) a1
      /\ does ask a1 s (c_command c) lines a' s' /\ obd_status o' = obd_status o /\ zusable o' false a' (sw || switches c t) /\ t <> []).
    { intros o1 t1 t2 a1 p1 Et OI1 St1 Sl1 Fa1 Ms1 Us1 Lh Q1 Tu1 Hi1 F1. assert (Con1 : obd_status o1 <> NOT_CONNECTED) by congruence.
      assert (Io2 : ~ io_error t2) by (intros X; apply Io; rewrite Et; apply io_r, X).
      destruct (zfollows_lively ask woken _ _ _ F1 (query_lively _ _ _ _ _ _ Con1 Sl1 Pr Fa1 Q1 Io2)) as (B & F2). destruct y as [b' y]. cbn [fst snd] in B, F2. subst b'.
      assert (U1 : usable o1 a1 sw false).
      { intros _. split; [exact Sl1|]. split; [exact Tu1|]. split; [|discriminate]. unfold header_inv in *. rewrite Lh. exact Hi1. }
      destruct (query_step ask o1 c force t2 r o' a1 s p1 y sw false OI1 U1 Q1 Pr F2) as (p & a2 & lines & a' & s' & Y & Us & _ & Rr & La & Tu2 & Hi2 & D & St & U2); auto; [discriminate|].
      assert (Ne : t2 <> []). { destruct La as (u1 & u2 & cc & -> & (n & rs & -> & _)). intros X. apply app_eq_nil in X as [_ X]. discriminate X. }
      assert (Nt : t <> []) by (intros X; rewrite X in Et; symmetry in Et; apply app_eq_nil in Et as [_ Et]; contradiction).
      assert (Sw : switches c t = switches c t2) by (unfold switches; destruct t, t2; congruence).
      exists p, a2, lines, a', s'. rewrite Sw. split; [rewrite Y; reflexivity|]. split; [exact (Us1 _ Us)|]. split; [exact Rr|]. split; [destruct La as (u1 & u2 & cc & -> & A); exists (t1 ++ u1), u2, cc; split; [rewrite Et; apply app_assoc|exact A]|]. split; [exact Tu2|].
      split; [exact Hi2|]. split; [unfold full_string in D; rewrite Fa1 in D; exact D|]. split; [congruence|]. split; [|exact Nt]. intros X. destruct (U2 X) as (X1 & X2 & X3 & _). auto. }
    destruct b.
    - assert (E : exists e, o_interface o = Some e /\ e_low_power e = true) by (unfold asleep in Sl; destruct (o_interface o) as [e|]; [eauto|discriminate Sl]). destruct E as (e & He & Lp).
      destruct (query_split _ _ _ _ _ _ _ He Lp Q Con Ms Io) as (t1 & t2 & l & Et & A & Q2). rewrite Et in F. apply zfollows_app in F. destruct F as (y1 & F1 & F2).
      destruct (wake_step ask woken _ _ _ _ _ _ _ _ A F1) as (a1 & p1 & W & ->). destruct (Sk eq_refl _ _ W) as (K1 & K2 & K3).
      apply (Main (with_elm (awake e) o) t1 t2 a1 p1); auto.
      + unfold oinv in *. rewrite He in OI. exact OI.
      + unfold obd_status. rewrite He. reflexivity.
      + apply may_send_awake; assumption.
      + intros p (e' & X & Y). injection X as <-. exists e. auto.
      + unfold tuned in *. rewrite K1, K2. exact Tu.
      + unfold header_inv in *. rewrite K3. exact Hi.
    - apply (Main o [] t a pend); auto.
  Qed.
End Car.
