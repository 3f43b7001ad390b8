(* Async objects with an adapter and a car. *)
From Coq Require Import ZArith List Bool Lia.
From Verif Require Import Py Num Utils Protocol Decoders Command CommandTable Commands World Elm Obd Async SpecElm SpecObd SpecAsync SpecE2E SpecAdapter SpecAdapter2 SpecAsyncCar
  PyFacts ElmFacts ElmThms ObdFacts ObdThms ObdThms2 ObdThms3 ObdThms4 ObdThms5 Properties_Elm Properties_Obd AsyncFacts AsyncThms AsyncHistory AdapterThms AdapterThms2 AdapterThms3 AdapterThms4 AdapterThms5.
Import ListNotations.
Open Scope Z_scope.
Local Opaque query obd_close watch_table unwatch_table.

Lemma asked_by l : map fst (by_update l) = map fst (asked_for l).
Proof. induction l as [|e l IH]; [reflexivity|]. destruct e; try exact IH. cbn [by_update asked_for flat_map app map fst]. f_equal. exact IH. Qed.
Lemma asked_quiet l : by_update l = [] -> asked_for l = [].
Proof. intros H. pose proof (asked_by l) as E. rewrite H in E. destruct (asked_for l); [reflexivity|discriminate E]. Qed.
Lemma asked_app a b : asked_for (a ++ b) = asked_for a ++ asked_for b.
Proof. apply flat_map_app. Qed.
Definition other_header (q : command * res response) : bool := negb (text_eqb (c_header (fst q)) engine_header).
Lemma engine_only_iff l : engine_only l <-> existsb other_header l = false.
Proof.
  unfold engine_only. induction l as [|q l IH]; [split; [reflexivity|constructor]|]. cbn [existsb]. rewrite orb_false_iff, <- IH. unfold other_header at 1. rewrite negb_false_iff, text_eqb_iff.
  split; [intros H; inversion H; auto|intros [A B]; constructor; auto].
Qed.

(* ---- calls of close() ---- *)
Definition to_close (p : mpc) : bool := match p with M_stop1 K_close | M_stop2 K_close | M_stop3 K_close | M_stop4 _ K_close | M_stop5 K_close | M_close2 => true | _ => false end.
Definition planned (prog : list aop) (s : astate) : Prop := incl (a_prog s) prog /\ (to_close (a_pc s) = true -> In AClose prog).
Lemma planned_step prog ch s : planned prog s -> planned prog (astep ch s).
Proof.
  intros [A B]. unfold astep. destruct ch as [|i b].
  - destruct (main_step s) as [s1|] eqn:H; [|split; assumption]. unfold main_step in H. destruct (a_pc s) eqn:P.
    1:{ destruct (a_prog s) as [|o rest] eqn:Pr; [discriminate|]. injection H as <-.
        assert (A' : incl rest prog) by (intros y Y; apply A; right; exact Y). assert (O : In o prog) by (apply A; left; reflexivity).
        destruct o; cbn [a_running upd_prog]; try destruct (a_running s); (split; [exact A'|cbn; try discriminate; auto]). }
    15:{ destruct (obd_close (a_obd s, a_world s)) as [r [o w]]. injection H as <-. split; [exact A|discriminate]. }
    all: try (destruct (ended id s); [|discriminate H]); injection H as <-; split;
      repeat match goal with |- context [if ?b then _ else _] => destruct b | |- context [match ?x with _ => _ end] => destruct x end; try exact A; try discriminate; try (exact B).
  - assert (E : forall s1, thread_step i b s = Some s1 -> a_prog s1 = a_prog s /\ a_pc s1 = a_pc s).
    { intros s1 H. unfold thread_step in H. destruct (nth_error (a_threads s) i) as [p|]; [|discriminate]. destruct p as [| | | |it|c it| | | |c it|c r it|c r it|c r [|f fs] it| | | |]; try discriminate H;
        try (destruct (query c true (a_obd s, a_world s)) as [r ow]); try (destruct (_ && _); [|destruct (it_keys it)]); injection H as <-; split; reflexivity. }
    destruct (thread_step i b s) as [s1|]; [|split; assumption]. destruct (E s1 eq_refl) as [E1 E2]. unfold planned. rewrite E1, E2. split; assumption.
Qed.
Section Car.
  Context {Car : Type} (ask : Car -> option text -> text -> list text -> Car -> Prop).
  Notation follows := (follows ask).

  Lemma reset_car l x y : SpecAdapter.moves ask x (EvWrite (l ++ [CR])) y -> understand l = KReset -> car_of y = car_of x.
  Proof.
    intros M U. remember (EvWrite (l ++ [CR])) as ev eqn:Ev. destruct M; try discriminate Ev; try reflexivity.
    assert (L : l0 ++ [CR] = l ++ [CR]) by congruence. apply app_inj_tail in L as [-> _]. cbv [obeys does] in H. rewrite U in H. destruct H as (_ & ->). reflexivity.
  Qed.
  Lemma close_follows o t r o' a s pend y sw strict : oinv o -> usable o a sw strict -> close_run o t r o' -> follows (a, s, pend) t y -> (exists a' p', y = (a', s, p')) /\ obd_status o' = NOT_CONNECTED.
  Proof.
    intros OI U Q F.
    assert (HD : forall e p t1 x o1 y, o_interface o = Some e -> e_status e <> NOT_CONNECTED -> e_protocol e = Some p -> header_run (emptied o) e p ECU_HEADER_ENGINE t1 x o1 -> follows (a, s, pend) t1 y ->
       x = None /\ (exists a1 p1, y = (a1, s, p1)) /\ obd_status o1 <> NOT_CONNECTED).
    { intros e p t1 x o1 z Hi Hs P HR G. assert (Con : obd_status o <> NOT_CONNECTED) by (unfold obd_status; rewrite Hi; exact Hs). destruct (U Con) as (Sl & Tu & _). unfold asleep in Sl. rewrite Hi in Sl.
      assert (Hk : header_ok (plain ECU_HEADER_ENGINE) = true) by reflexivity.
      destruct HR as [Hh|t1 lines ms Hh S C K|t1 lines ms Hh S C K|t1 lines x Hh S C|t1 Hh S].
      - inversion G; subst z. split; [reflexivity|]. split; [eauto|]. exact Con.
      - rewrite Sl in S. destruct S as (u1 & u2 & -> & -> & A). cbn [app] in G. destruct (header_ack ask _ _ _ _ _ _ _ (proj1 Tu) Hk A G) as (_ & l & ->). split; [reflexivity|]. split; [eauto|]. exact Hs.
      - exfalso. rewrite Sl in S. destruct S as (u1 & u2 & -> & -> & A). cbn [app] in G. destruct (header_ack ask _ _ _ _ _ _ _ (proj1 Tu) Hk A G) as (-> & _). destruct (ok_parsed p) as (ms' & C' & K'). rewrite C in C'. injection C' as <-. contradiction.
      - exfalso. rewrite Sl in S. destruct S as (u1 & u2 & -> & -> & A). cbn [app] in G. destruct (header_ack ask _ _ _ _ _ _ _ (proj1 Tu) Hk A G) as (-> & _). destruct (ok_parsed p) as (ms' & C' & K'). rewrite C in C'. discriminate C'.
      - exfalso. exact (cut_follows ask _ _ _ _ _ S G). }
    destruct Q as [H|e Hi Hs|e p t x o1 Hi Hs P HR|e p t o1 Hi Hs P HR Hn|e p t o1 Hi Hs P HR Hn|e p t o1 t2 e2 Hi Hs P HR Hn A1 A2 A3].
    - inversion F; subst y. split; [eauto|]. unfold obd_status. cbn. rewrite H. reflexivity.
    - inversion F; subst y. split; [eauto|]. reflexivity.
    - destruct (HD _ _ _ _ _ _ Hi Hs P HR F) as (D & _). discriminate D.
    - destruct (HD _ _ _ _ _ _ Hi Hs P HR F) as (_ & _ & D). contradiction.
    - apply follows_app in F. destruct F as (y1 & F1 & F2). destruct (HD _ _ _ _ _ _ Hi Hs P HR F1) as (_ & (a1 & p1 & ->) & _). split; [|reflexivity].
      inversion F2 as [|x1 ev y1 t3 z1 M1 F3]; subst. inversion F3 as [|x2 ev y2 t4 z2 M2 F4]; subst. inversion F4; subst.
      assert (X : exists a1' p1', y1 = (a1', s, p1')) by (apply (reset_car (str "ATZ")) in M1; [|reflexivity]; destruct y1 as [[a1' s1'] p1']; cbn in M1; subst s1'; eauto).
      destruct X as (a1' & p1' & ->). inversion M2; subst. eauto.
    - apply follows_app in F. destruct F as (y1 & _ & F2). destruct (no_io_error ask _ _ _ F2 A1).
  Qed.

  (* ---- the invariant ---- *)
  Section Run.
    Variables (cf : config) (name : text) (scan : list text) (w w1 : world) (o : obd) (prog : list aop) (x y : @conf Car) (t0 : list event).
    Hypothesis New : new_obd cf (Some name) scan w = (Ok tt, (o, w1)).
    Hypothesis Slow : cf_fast cf = false.
    Hypothesis T0 : w_trace w1 = w_trace w ++ t0.
    Hypothesis F0 : follows x t0 y.
    Hypothesis Pr : watches_proper prog.
    Definition start : astate := new_async o w1 prog.
    Record carinv (s : astate) (z : @conf Car) : Prop := {
      V_usable : usable (a_obd s) (fst (fst z)) (existsb other_header (asked_for (a_events s))) false;
      V_fast : o_fast (a_obd s) = false;
      V_served : forall pr, (obd_status o <> NOT_CONNECTED -> uses o pr) -> served ask pr (car_of y) (asked_for (a_events s)) (car_of z);
      V_uses : obd_status (a_obd s) <> NOT_CONNECTED -> obd_status o <> NOT_CONNECTED /\ forall pr, uses o pr -> uses (a_obd s) pr;
      V_status : In AClose prog \/ obd_status (a_obd s) = obd_status o }.
    Lemma carinv_start : carinv start y.
    Proof using New Slow T0 F0.
      destruct (new_obd_settled ask _ _ _ _ _ _ x New) as (I0 & Fa & t & T' & S). rewrite T0 in T'. apply app_inv_head in T'. subst t. assert (U : usable o (fst (fst y)) false true) by (apply (S _ (snd (fst y)) (snd y)); rewrite <- !surjective_pairing; exact F0).
      constructor; cbn [start new_async a_obd a_events asked_for flat_map existsb].
      - intros C. destruct (U C) as (A & B & D & E). auto.
      - congruence.
      - intros pr _. apply sv_nil.
      - intros C. auto.
      - auto.
    Qed.
    Lemma carinv_step ch s t z t1 z1 : ainv s -> from proper start s -> planned prog s -> w_trace (a_world s) = w_trace w1 ++ t -> w_trace (a_world (astep ch s)) = w_trace w1 ++ t ++ t1 ->
      follows z t1 z1 -> carinv s z -> carinv (astep ch s) z1.
    Proof using New T0.
      intros V Fr Pl T T1 F C. assert (Tr : w_trace (a_world (astep ch s)) = w_trace (a_world s) ++ t1) by (rewrite T, T1, app_assoc; reflexivity). destruct z as [[a cs] p].
      pose proof (I_oinv _ V) as OI.
      destruct (step_kinds ch s) as [new E1 E2 E3 E4|i c it r o1 w2 N Q E1 E2 E3|r o1 w2 op out P Q E1 E2 E3].
      - rewrite E2 in Tr. rewrite <- app_nil_r in Tr at 1. apply app_inv_head in Tr. subst t1. inversion F; subst z1. apply asked_quiet in E4.
        destruct C as [A B D E G]. constructor; rewrite ?E1, ?E3, ?asked_app, ?E4, ?app_nil_r; auto.
      - (* a query *)
        destruct (F_tpc _ _ _ Fr _ _ N) as (Pc & _). destruct (I_ok _ V _ _ N) as (_ & _ & Co). unfold async_connected, is_connected in Co. apply status_eqb_eq in Co.
        assert (Con : obd_status (a_obd s) <> NOT_CONNECTED) by (rewrite Co; discriminate).
        destruct (query_spec _ _ _ _ _ _ _ OI Q) as (t' & T' & Qr). rewrite E2, T' in Tr. apply app_inv_head in Tr. subst t'.
        destruct C as [A B D E G]. cbn [fst] in A.
        destruct (query_step ask _ _ _ _ _ _ _ cs p z1 _ false OI A Qr Pc F ltac:(discriminate) ltac:(auto) Con (or_introl eq_refl)) as (pr & a1 & lines & a' & s' & -> & Us & Us' & Rr & La & Tu & Hi & Do & St & U').
        assert (Rd : forall q, made_of pr c lines = Ok q -> reading c pr lines q).
        { intros q Hq. change (r = made_of pr c lines) in Rr. rewrite Hq in Rr. rewrite Rr in Q. destruct (F_hist _ _ _ Fr) as (h & Hh & _). exists cf, (Some name), scan, w, t0, h, (a_obd s), (a_world s), true, o1, w2, t1.
          split; [exists (o, w1); split; [exact New|split; [exact T0|exact Hh]]|]. split; [exact Q|]. split; [exact T'|]. split; [exact La|exact Us]. }
        assert (Sw : switches c t1 = other_header (c, r)).
        { unfold switches, other_header. cbn [fst]. destruct t1; [|apply andb_true_r]. exfalso. destruct La as (u1 & u2 & cmd & X & Y). symmetry in X. apply app_eq_nil in X as [_ ->]. destruct Y as (n & rs & X & _). discriminate X. }
        rewrite Sw in Hi, U'. assert (Ex : asked_for (a_events (astep ch s)) = asked_for (a_events s) ++ [(c, r)]) by (rewrite E3, asked_app; reflexivity).
        assert (Exb : existsb other_header (asked_for (a_events s)) || other_header (c, r) = existsb other_header (asked_for (a_events s) ++ [(c, r)])) by (rewrite existsb_app; cbn [existsb]; rewrite orb_false_r; reflexivity).
        rewrite Exb in Hi, U'. destruct (E Con) as (Con0 & Eu).
        constructor; rewrite ?E1, ?Ex; cbn [fst car_of snd].
        + exact U'.
        + rewrite <- B. destruct (query_run_inv _ _ _ _ _ _ OI Qr) as (_ & X & _). exact X.
        + intros pr' Hp. assert (pr' = pr) by (destruct (Eu _ (Hp Con0)) as (e1 & X1 & X2); destruct Us as (e2 & Y1 & Y2); congruence). subst pr'.
          specialize (D pr Hp). cbn [car_of fst snd] in D. unfold full_string in Do. rewrite B in Do. cbn [andb] in Do. change (r = made_of pr c lines) in Rr. rewrite Rr. destruct Pc as (Hk & Pc). unfold does in Do. destruct Pc as [(req & Pc)|(Pc & _)]; rewrite Pc in Do.
          * destruct Do as (full & Ak & X & _). rewrite (X (proj2 Tu)) in *. eapply sv_request; [exact D|exact Pc| | |exact Ak|exact Rd]; intros X1; rewrite engine_only_iff, <- Rr in X1; unfold header_inv in Hi.
            -- rewrite X1 in Hi. apply Hi.
            -- destruct (existsb other_header (asked_for (a_events s) ++ [(c, r)])); [exact Hi|destruct (X1 eq_refl)].
          * destruct Do as (_ & ->). apply sv_adapter; assumption.
        + intros _. split; [exact Con0|]. intros pr' X. apply Eu in X. assert (pr' = pr) by (destruct X as (e1 & X1 & X2); destruct Us as (e2 & Y1 & Y2); congruence). subst pr'. exact Us'.
        + destruct G as [G|G]; [auto|]. right. congruence.
      - (* close() *)
        destruct (obd_close_spec _ _ _ _ _ OI Q) as (t' & T' & Qr). rewrite E2, T' in Tr. apply app_inv_head in Tr. subst t'. destruct C as [A B D E G]. cbn [fst] in A.
        destruct (close_follows _ _ _ _ _ _ _ _ _ _ OI A Qr F) as ((a' & p' & ->) & Nc). assert (Ea : asked_for (a_events (astep ch s)) = asked_for (a_events s)) by (rewrite E3, asked_app; apply app_nil_r).
        constructor; rewrite ?E1, ?Ea.
        + intros X. contradiction.
        + rewrite <- B. destruct (close_run_inv _ _ _ _ OI Qr) as (_ & X & _). exact X.
        + exact D.
        + intros X. contradiction.
        + left. apply Pl. rewrite P. reflexivity.
    Qed.
    Lemma carinv_run sched : let s := arun sched start in (ainv s /\ from proper start s /\ planned prog s) /\ exists t, w_trace (a_world s) = w_trace w1 ++ t /\ forall z, follows y t z -> carinv s z.
    Proof using New Slow T0 F0 Pr.
      cbv zeta. induction sched as [|ch l IH] using rev_ind.
      - split; [split; [|split]|].
        + apply new_async_inv. destruct (new_obd_settled ask _ _ _ _ _ _ x New) as (I0 & _). exact I0.
        + apply from_new. exact Pr.
        + split; [apply incl_refl|discriminate].
        + exists []. cbn [arun fold_left start new_async a_world]. rewrite app_nil_r. split; [reflexivity|]. intros z F. inversion F; subst z. apply carinv_start.
      - destruct IH as ((V & Fr & Pl) & t & T & G). unfold arun in *. rewrite fold_left_app. cbn [fold_left]. set (s := fold_left _ l start) in *. split; [split; [|split]|].
        + exact (arun_inv [ch] s V).
        + apply from_step; [apply I_oinv, V|exact Fr].
        + apply planned_step. exact Pl.
        + assert (E : exists t1, w_trace (a_world (astep ch s)) = w_trace (a_world s) ++ t1).
          { destruct (step_kinds ch s) as [new E1 E2 E3 E4|i c it r o1 w2 N Q E1 E2 E3|r o1 w2 op out P Q E1 E2 E3]; rewrite E2; [exists []; symmetry; apply app_nil_r| |].
            - destruct (query_spec _ _ _ _ _ _ _ (I_oinv _ V) Q) as (t' & T' & _). eauto.
            - destruct (obd_close_spec _ _ _ _ _ (I_oinv _ V) Q) as (t' & T' & _). eauto. }
          destruct E as (t1 & E). exists (t ++ t1). rewrite E, T, app_assoc. split; [reflexivity|]. intros z F. apply follows_app in F. destruct F as (z0 & F1 & F2).
          eapply (carinv_step ch s t z0 t1 z); eauto. rewrite E, T, app_assoc. reflexivity.
    Qed.
  End Run.
  Lemma async_facts cf name scan w prog sched o s x y z : async_with ask cf name scan w prog sched o s x y z -> cf_fast cf = false -> watches_proper prog ->
    exists w1, from proper (new_async o w1 prog) s /\ carinv o prog y s z.
  Proof.
    intros (w1 & t0 & t & N & -> & T0 & T & F0 & F) Sl Pr. exists w1.
    destruct (carinv_run cf name scan w w1 o prog x y t0 N Sl T0 F0 Pr sched) as ((_ & Fr & _) & t' & T' & G). split; [exact Fr|]. apply G. change (start w1 o prog) with (new_async o w1 prog) in T'. rewrite T in T'. apply app_inv_head in T'. subst t'. exact F.
  Qed.
End Car.
