(* Async objects with a slow adapter and a car. *)
From Coq Require Import ZArith List Bool Lia.
From Verif Require Import Py Num Utils Protocol Decoders Command CommandTable Commands World Elm Obd Async SpecElm SpecObd SpecAsync SpecE2E SpecAdapter SpecAdapter2 SpecSlow SpecAsyncCar SpecAsyncFast SpecAsyncSlow
  PyFacts ElmFacts ElmThms ObdFacts ObdThms ObdThms2 ObdThms3 ObdThms4 ObdThms5 Properties_Elm Properties_Obd AsyncFacts AsyncThms AsyncHistory AdapterThms AdapterThms2 AdapterThms3 AdapterThms4 AdapterThms5
  CutThms CutThms2 SlowThms AsyncCar.
Import ListNotations.
Open Scope Z_scope.
Local Opaque query obd_close watch_table unwatch_table.

Section Car.
  Context {Car : Type} (ask : Car -> option text -> text -> list text -> Car -> Prop) (b : bool).
  Notation follows := (slow_follows ask b).

  Lemma slow_reset l x y : slowly ask b x (EvWrite (l ++ [CR])) y -> understand l = KReset -> car_of y = car_of x.
  Proof.
    intros M U. remember (EvWrite (l ++ [CR])) as ev eqn:Ev. destruct M; try discriminate Ev; try reflexivity.
    assert (L : l0 ++ [CR] = l ++ [CR]) by congruence. apply app_inj_tail in L as [-> _]. cbv [obeys does] in H. rewrite U in H. destruct H as (_ & ->). reflexivity.
  Qed.
  Lemma slow_close o t r o' a s pend y : susable o a -> close_run o t r o' -> follows (a, s, pend) t y -> (exists a' p', y = (a', s, p')) /\ obd_status o' = NOT_CONNECTED /\ got t = [].
  Proof.
    intros U Q F.
    assert (HD : forall e p t1 x o1, o_interface o = Some e -> e_status e <> NOT_CONNECTED -> header_run (emptied o) e p ECU_HEADER_ENGINE t1 x o1 -> t1 = [] /\ x = None /\ o1 = emptied o).
    { intros e p t1 x o1 Hi Hs HR. assert (Con : obd_status o <> NOT_CONNECTED) by (unfold obd_status; rewrite Hi; exact Hs). destruct (U Con) as (_ & _ & _ & Lh).
      assert (Le : ECU_HEADER_ENGINE = o_last_header (emptied o)) by (cbn [emptied with_supported o_last_header]; rewrite Lh; reflexivity).
      destruct HR; try contradiction. auto. }
    destruct Q as [H|e Hi Hs|e p t x o1 Hi Hs P HR|e p t o1 Hi Hs P HR Hn|e p t o1 Hi Hs P HR Hn|e p t o1 t2 e2 Hi Hs P HR Hn A1 A2 A3].
    - inversion F; subst y. split; [eauto|]. split; [|reflexivity]. unfold obd_status. cbn. rewrite H. reflexivity.
    - inversion F; subst y. split; [eauto|]. split; reflexivity.
    - destruct (HD _ _ _ _ _ Hi Hs HR) as (_ & D & _). discriminate D.
    - destruct (HD _ _ _ _ _ Hi Hs HR) as (-> & _ & ->). inversion F; subst y. split; [eauto|]. split; reflexivity.
    - destruct (HD _ _ _ _ _ Hi Hs HR) as (-> & _ & ->). cbn [app] in F |- *. split; [|split; reflexivity].
      inversion F as [|x1 ev y1 t3 z1 M1 F3]; subst. inversion F3 as [|x2 ev y2 t4 z2 M2 F4]; subst. inversion F4; subst.
      assert (X : exists a1' p1', y1 = (a1', s, p1')) by (apply (slow_reset (str "ATZ")) in M1; [|reflexivity]; destruct y1 as [[a1' s1'] p1']; cbn in M1; subst s1'; eauto).
      destruct X as (a1' & p1' & ->). inversion M2; subst. eauto.
    - apply sfollows_app in F. destruct F as (y1 & _ & F2). destruct (slow_no_io_error ask _ _ _ _ F2 A1).
  Qed.

  (* ---- the invariant ---- *)
  Definition good (c : command) : Prop := proper c /\ c_header c = engine_header.
  Section Run.
    Variables (cf : config) (name : text) (scan : list text) (w w1 : world) (o : obd) (prog : list aop) (x y : conf (Car := Car)) (t0 : list event).
    Hypothesis New : new_obd cf (Some name) scan w = (Ok tt, (o, w1)).
    Hypothesis Slow : cf_fast cf = false.
    Hypothesis T0 : w_trace w1 = w_trace w ++ t0.
    Hypothesis F0 : follows x t0 y.
    Hypothesis Pr : watches_proper prog.
    Hypothesis En : watches_engine prog.
    Definition sstart : astate := new_async o w1 prog.
    Record slowinv (s : astate) (t : list event) (z : conf (Car := Car)) : Prop := {
      S_usable : susable (a_obd s) (fst (fst z));
      S_fast : o_fast (a_obd s) = false;
      S_served : forall pr, (obd_status o <> NOT_CONNECTED -> uses o pr) -> served_slowly ask b pr (car_of y) (got t) (asked_for (a_events s)) (car_of z);
      S_uses : obd_status (a_obd s) <> NOT_CONNECTED -> obd_status o <> NOT_CONNECTED /\ forall pr, uses o pr -> uses (a_obd s) pr;
      S_status : In AClose prog \/ obd_status (a_obd s) = obd_status o }.
    Lemma slowinv_start : slowinv sstart [] y.
    Proof using New Slow T0 F0.
      destruct (new_obd_slow ask b _ _ _ _ _ _ x New Slow) as (I0 & Fa & S). destruct (S Fa) as (t & T' & S'). rewrite T0 in T'. apply app_inv_head in T'. subst t.
      assert (U : susable o (fst (fst y))) by (apply (S' _ (snd (fst y)) (snd y)); rewrite <- !surjective_pairing; exact F0).
      constructor; cbn [sstart new_async a_obd a_events asked_for flat_map]; auto.
      intros pr _. apply ss_nil.
    Qed.
    Lemma slowinv_step ch s t z t1 z1 : ainv s -> from good sstart s -> planned prog s -> w_trace (a_world s) = w_trace w1 ++ t -> w_trace (a_world (astep ch s)) = w_trace w1 ++ t ++ t1 ->
      follows z t1 z1 -> slowinv s t z -> slowinv (astep ch s) (t ++ t1) z1.
    Proof using New T0.
      intros V Fr Pl T T1 F C. assert (Tr : w_trace (a_world (astep ch s)) = w_trace (a_world s) ++ t1) by (rewrite T, T1, app_assoc; reflexivity). destruct z as [[a cs] p].
      pose proof (I_oinv _ V) as OI.
      destruct (step_kinds ch s) as [new E1 E2 E3 E4|i c it r o1 w2 N Q E1 E2 E3|r o1 w2 op out P Q E1 E2 E3].
      - rewrite E2 in Tr. rewrite <- app_nil_r in Tr at 1. apply app_inv_head in Tr. subst t1. inversion F; subst z1. apply asked_quiet in E4.
        destruct C as [A B D E G]. rewrite app_nil_r. constructor; rewrite ?E1, ?E3, ?asked_app, ?E4, ?app_nil_r; auto.
      - (* a query *)
        destruct (F_tpc _ _ _ Fr _ _ N) as ((Pc & Hc) & _). destruct (I_ok _ V _ _ N) as (_ & _ & Co). unfold async_connected, is_connected in Co. apply status_eqb_eq in Co.
        assert (Con : obd_status (a_obd s) <> NOT_CONNECTED) by (rewrite Co; discriminate).
        destruct (query_spec _ _ _ _ _ _ _ OI Q) as (t' & T' & Qr). rewrite E2, T' in Tr. apply app_inv_head in Tr. subst t'.
        destruct C as [A B D E G]. cbn [fst] in A. pose proof (A Con) as (_ & Tu & Hn & _).
        destruct (slow_query ask b _ _ _ _ _ _ _ cs p z1 OI B A Qr Pc Hc F Con (or_introl eq_refl)) as (pr & shown & lines & a' & s' & p' & -> & Us & Us' & Rr & La & St & Do & So & U').
        assert (Rd : forall q, made_of pr c lines = Ok q -> reading c pr lines q).
        { intros q Hq. rewrite Hq in Rr. rewrite Rr in Q. destruct (F_hist _ _ _ Fr) as (h & Hh & _). exists cf, (Some name), scan, w, t0, h, (a_obd s), (a_world s), true, o1, w2, t1.
          split; [exists (o, w1); split; [exact New|split; [exact T0|exact Hh]]|]. split; [exact Q|]. split; [exact T'|]. split; [exact La|exact Us]. }
        assert (Ex : asked_for (a_events (astep ch s)) = asked_for (a_events s) ++ [(c, r)]) by (rewrite E3, asked_app; reflexivity).
        destruct (E Con) as (Con0 & Eu).
        constructor; rewrite ?E1, ?Ex; cbn [fst car_of snd].
        + exact U'.
        + rewrite <- B. destruct (query_run_inv _ _ _ _ _ _ OI Qr) as (_ & X & _). exact X.
        + intros pr' Hp. assert (pr' = pr) by (destruct (Eu _ (Hp Con0)) as (e1 & X1 & X2); destruct Us as (e2 & Y1 & Y2); congruence). subst pr'.
          specialize (D pr Hp). cbn [car_of fst snd] in D. rewrite Rr, got_app. destruct Pc as (Hk & Pc). unfold does in Do. destruct Pc as [(req & Pc)|(Pc & _)]; rewrite Pc in Do.
          * destruct Do as (full & Ak & X & _). rewrite (X (proj2 Tu)) in *. rewrite Hn in Ak. eapply ss_request; [exact D|exact Pc|exact Ak| |exact Rd].
            intros Hb. specialize (St Hb). split; [exists (got t1); exact St|]. intros As. exact (stretch_cut _ _ _ St As).
          * destruct Do as (_ & ->). apply ss_adapter; assumption.
        + intros _. split; [exact Con0|]. intros pr' X. apply Eu in X. assert (pr' = pr) by (destruct X as (e1 & X1 & X2); destruct Us as (e2 & Y1 & Y2); congruence). subst pr'. exact Us'.
        + destruct G as [G|G]; [auto|]. right. congruence.
      - (* close() *)
        destruct (obd_close_spec _ _ _ _ _ OI Q) as (t' & T' & Qr). rewrite E2, T' in Tr. apply app_inv_head in Tr. subst t'. destruct C as [A B D E G]. cbn [fst] in A.
        destruct (slow_close _ _ _ _ _ _ _ _ A Qr F) as ((a' & p' & ->) & Nc & Gt). assert (Ea : asked_for (a_events (astep ch s)) = asked_for (a_events s)) by (rewrite E3, asked_app; apply app_nil_r).
        constructor; rewrite ?E1, ?Ea, ?got_app, ?Gt, ?app_nil_r.
        + intros X. contradiction.
        + rewrite <- B. destruct (close_run_inv _ _ _ _ OI Qr) as (_ & X & _). exact X.
        + exact D.
        + intros X. contradiction.
        + left. apply Pl. rewrite P. reflexivity.
    Qed.
    Lemma slowinv_run sched : let s := arun sched sstart in (ainv s /\ from good sstart s /\ planned prog s) /\ exists t, w_trace (a_world s) = w_trace w1 ++ t /\ forall z, follows y t z -> slowinv s t z.
    Proof using New Slow T0 F0 Pr En.
      cbv zeta. induction sched as [|ch l IH] using rev_ind.
      - split; [split; [|split]|].
        + apply new_async_inv. destruct (new_obd_slow ask b _ _ _ _ _ _ x New Slow) as (I0 & _). exact I0.
        + apply from_new. intros c cb f X. split; [exact (Pr _ _ _ X)|exact (En _ _ _ X)].
        + split; [apply incl_refl|discriminate].
        + exists []. cbn [arun fold_left sstart new_async a_world]. rewrite app_nil_r. split; [reflexivity|]. intros z F. inversion F; subst z. apply slowinv_start.
      - destruct IH as ((V & Fr & Pl) & t & T & G). unfold arun in *. rewrite fold_left_app. cbn [fold_left]. set (s := fold_left _ l sstart) in *. split; [split; [|split]|].
        + exact (arun_inv [ch] s V).
        + apply from_step; [apply I_oinv, V|exact Fr].
        + apply planned_step. exact Pl.
        + assert (E : exists t1, w_trace (a_world (astep ch s)) = w_trace (a_world s) ++ t1).
          { destruct (step_kinds ch s) as [new E1 E2 E3 E4|i c it r o1 w2 N Q E1 E2 E3|r o1 w2 op out P Q E1 E2 E3]; rewrite E2; [exists []; symmetry; apply app_nil_r| |].
            - destruct (query_spec _ _ _ _ _ _ _ (I_oinv _ V) Q) as (t' & T' & _). eauto.
            - destruct (obd_close_spec _ _ _ _ _ (I_oinv _ V) Q) as (t' & T' & _). eauto. }
          destruct E as (t1 & E). exists (t ++ t1). rewrite E, T, app_assoc. split; [reflexivity|]. intros z F. apply sfollows_app in F. destruct F as (z0 & F1 & F2).
          eapply (slowinv_step ch s t z0 t1 z); eauto. rewrite E, T, app_assoc. reflexivity.
    Qed.
  End Run.
  Lemma async_slow_facts cf name scan w prog sched o s x y z rd : async_slow_with ask b cf name scan w prog sched o s x y z rd -> cf_fast cf = false -> watches_proper prog -> watches_engine prog ->
    exists w1 t, from good (new_async o w1 prog) s /\ rd = got t /\ slowinv o prog y s t z.
  Proof.
    intros (w1 & t0 & t & N & -> & T0 & T & F0 & F & ->) Sl Pr En. exists w1, t.
    destruct (slowinv_run cf name scan w w1 o prog x y t0 N Sl T0 F0 Pr En sched) as ((_ & Fr & _) & t' & T' & G). split; [exact Fr|]. split; [reflexivity|].
    change (sstart w1 o prog) with (new_async o w1 prog) in T'. rewrite T in T'. apply app_inv_head in T'. subst t'. apply G. exact F.
  Qed.
End Car.
