(* Proofs about SpecAdapter: histories. *)
From Coq Require Import ZArith List Bool Lia String.
From Verif Require Import Py Num Utils Protocol Decoders Command CommandTable Commands World Elm Obd SpecElm SpecObd SpecE2E SpecAdapter SpecAdapter2
  PyFacts ElmFacts ElmThms ObdFacts ObdThms ObdThms2 ObdThms3 ObdThms4 ObdThms5 Properties_Elm AdapterThms AdapterThms2 AdapterThms3 AdapterThms4.
Import ListNotations.
Open Scope string_scope. Open Scope list_scope. Open Scope Z_scope.

Definition step_switches (x : step) : bool := match st_op x with OpQuery c _ => switches c (st_events x) | _ => false end.
Lemma switched_iff h : switched h <-> existsb step_switches h = true.
Proof.
  rewrite existsb_exists. split.
  - intros (x & c & f & I & E & N & Ev). exists x. split; [exact I|]. unfold step_switches, switches. rewrite E. destruct (text_eqb (c_header c) engine_header) eqn:X; [apply text_eqb_iff in X; contradiction|].
    destruct (st_events x); [contradiction|reflexivity].
  - intros (x & I & E). unfold step_switches, switches in E. destruct (st_op x) as [c f| | | |] eqn:Op; try discriminate E. exists x, c, f. split; [exact I|]. split; [exact Op|].
    apply andb_true_iff in E as [E1 E2]. split; [intros X; rewrite X in E1; discriminate E1|]. intros X. rewrite X in E2. discriminate E2.
Qed.
Lemma may_send_dec o c force : oinv o -> obd_status o <> NOT_CONNECTED -> may_send o c force \/ ~ may_send o c force.
Proof.
  intros OI Con. destruct force; [left; left; reflexivity|].
  destruct (o_interface o) as [e2|] eqn:Hi; [|contradiction Con; unfold obd_status; rewrite Hi; reflexivity]. unfold oinv in OI. rewrite Hi in OI.
  destruct (test_cmd_spec o c e2 Hi OI) as (b & _ & B); [unfold obd_status in Con; rewrite Hi in Con; exact Con|]. destruct b; [left; apply B; reflexivity|right; intros X; apply B in X; discriminate X].
Qed.
Section Car.
  Context {Car : Type} (ask : Car -> option text -> text -> list text -> Car -> Prop).
  Notation follows := (follows ask). Notation obeys := (obeys ask). Notation moves := (moves ask). Notation does := (does ask).

  Lemma history_usable strict o0 w0 h s : oinv o0 -> history (o0, w0) h s -> Forall ordinary h -> (strict = true -> Forall plainly h) -> (strict = false -> o_fast o0 = false) ->
    forall a0 s0 p0 a1 s1 p1, usable o0 a0 false true -> follows (a0, s0, p0) (concat (map st_events h)) (a1, s1, p1) ->
    oinv (fst s) /\ o_fast (fst s) = o_fast o0 /\ usable (fst s) a1 (existsb step_switches h) strict /\ obd_status (fst s) = obd_status o0.
  Proof.
    intros OI H. induction H as [|h s1 op r s2 t H IH R T]; intros G1 G2 G3 a0 c0 p0 a1 c1 p1 U F.
    - cbn in F. inversion F; subst. split; [exact OI|]. split; [reflexivity|]. split; [|reflexivity]. cbn [existsb fst]. intros X. destruct (U X) as (A & B & C & D). auto.
    - apply Forall_app in G1 as [G1 G1']. inversion G1' as [|? ? Od _]; subst. clear G1'.
      assert (G2a : strict = true -> Forall plainly h) by (intros X; apply G2, Forall_app in X; tauto).
      assert (G2b : strict = true -> plainly (mkStep op t r)) by (intros X; apply G2, Forall_app in X; destruct X as [_ X]; inversion X; assumption).
      rewrite map_app, concat_app in F. cbn [map concat st_events] in F. rewrite app_nil_r in F. apply follows_app in F. destruct F as ([[a2 c2] p2] & F1 & F2).
      destruct (IH G1 G2a G3 _ _ _ _ _ _ U F1) as (I1 & Fa & U1 & St). destruct s1 as [o1 w1], s2 as [o2 w2]. cbn [fst snd] in *.
      destruct (run_op_spec _ _ _ _ _ _ I1 R) as (t' & T' & Q). rewrite T in T'. apply app_inv_head in T'. subst t'. destruct (op_run_inv _ _ _ _ _ I1 Q) as (I2 & Fa2 & _).
      split; [exact I2|]. split; [congruence|]. rewrite existsb_app. cbn [existsb]. rewrite orb_false_r. unfold step_switches at 2. cbn [st_op st_events]. clear T R H.
      destruct Q as [c f t r o' Q|t o' Q|t o' Q|t r o' Q|c]; try (exfalso; exact Od).
      2:{ inversion F2; subst. rewrite orb_false_r. split; [exact U1|exact St]. }
      change (proper c) in Od.
      assert (Un : obd_status o1 = NOT_CONNECTED \/ ~ may_send o1 c f -> usable o' a1 (existsb step_switches h || switches c t) strict /\ obd_status o' = obd_status o0).
      { intros N. destruct (query_not_sent _ _ _ _ _ _ Q N) as (-> & -> & _). inversion F2; subst. unfold switches. rewrite andb_false_r, orb_false_r. auto. }
      destruct (status_eqb (obd_status o1) NOT_CONNECTED) eqn:E; [apply status_eqb_eq in E; auto|].
      assert (Con : obd_status o1 <> NOT_CONNECTED) by (intros X; apply status_eqb_eq in X; congruence).
      destruct (may_send_dec o1 c f I1 Con) as [Ms|Ns]; [|auto]. clear Un.
      assert (Hh : strict = true -> c_header c = engine_header /\ (exists q, r = Ok q) /\ existsb step_switches h = false).
      { intros X. destruct (G2b X) as (_ & Y & q & Z). cbn [st_result st_op] in *. split; [exact Y|]. split; [destruct r as [q'|x]; [eauto|discriminate Z]|].
        destruct (existsb step_switches h) eqn:Ex; [|reflexivity]. apply existsb_exists in Ex. destruct Ex as (x & I & Ex). specialize (G2a X). rewrite Forall_forall in G2a. specialize (G2a x I). destruct G2a as (_ & G2a).
        unfold step_switches, switches in Ex. destruct (st_op x); try discriminate Ex. destruct G2a as (G2a & _). rewrite G2a in Ex. discriminate Ex. }
      destruct (query_step ask o1 c f t r o' a2 c2 p2 (a1, c1, p1) (existsb step_switches h) strict I1 U1 Q Od F2) as (p & aa & lines & a' & s' & Y & _ & _ & Rr & _ & _ & _ & _ & St2 & U2); auto.
      + intros X. destruct (Hh X) as (Hc & _ & Ex). destruct (U1 Con) as (_ & _ & Hi & _). rewrite Ex in Hi. destruct Hi as [_ Hi]. congruence.
      + intros X. rewrite Fa. auto.
      + split; [|congruence]. injection Y as -> -> ->. destruct strict; [|exact U2]. destruct (Hh eq_refl) as (_ & (q & X) & _). subst r. unfold decoded in X. destruct (call p lines); [exact U2|discriminate X].
  Qed.
  Lemma session_usable strict cf name scan w t0 h o w1 x a s p : session cf (Some name) scan w t0 h (o, w1) -> Forall ordinary h -> (strict = true -> Forall plainly h) -> (strict = false -> cf_fast cf = false) ->
    follows x (t0 ++ concat (map st_events h)) (a, s, p) -> oinv o /\ o_fast o = cf_fast cf /\ usable o a (existsb step_switches h) strict.
  Proof.
    intros ([o0 w0] & N & T & H) G1 G2 G3 F. destruct (new_obd_settled ask _ _ _ _ _ _ x N) as (I0 & Fa & t & T' & S). cbn [snd] in T. rewrite T in T'. apply app_inv_head in T'. subst t.
    apply follows_app in F. destruct F as ([[a0 s0] p0] & F1 & F2).
    destruct (history_usable strict o0 w0 h (o, w1) I0 H G1 G2) with (2 := S _ _ _ F1) (3 := F2) as (A & B & C & _); [intros X; rewrite Fa; auto|]. cbn [fst] in *. split; [exact A|]. split; [congruence|exact C].
  Qed.
  Lemma session_status cf name scan w t0 h o w1 x y : session cf (Some name) scan w t0 h (o, w1) -> Forall ordinary h -> cf_fast cf = false ->
    follows x (t0 ++ concat (map st_events h)) y -> exists o0 w0, new_obd cf (Some name) scan w = (Ok tt, (o0, w0)) /\ obd_status o = obd_status o0.
  Proof.
    intros ([o0 w0] & N & T & H) G1 G3 F. destruct (new_obd_settled ask _ _ _ _ _ _ x N) as (I0 & Fa & t & T' & S). cbn [snd] in T. rewrite T in T'. apply app_inv_head in T'. subst t.
    apply follows_app in F. destruct F as ([[a0 s0] p0] & F1 & F2). destruct y as [[a1 s1] p1]. exists o0, w0. split; [exact N|].
    destruct (history_usable false o0 w0 h (o, w1) I0 H G1) with (3 := S _ _ _ F1) (4 := F2) as (_ & _ & _ & D); [discriminate|intros _; congruence|exact D].
  Qed.
End Car.
