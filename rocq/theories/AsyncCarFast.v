(* Async objects made with fast=True, with an adapter and a car. *)
From Coq Require Import ZArith List Bool Lia.
From Verif Require Import Py Num Utils Protocol Decoders Command CommandTable Commands World Elm Obd Async SpecElm SpecObd SpecAsync SpecE2E SpecAdapter SpecAdapter2 SpecAsyncCar SpecAsyncFast
  PyFacts ElmFacts ElmThms ObdFacts ObdThms ObdThms2 ObdThms3 ObdThms4 ObdThms5 Properties_Elm Properties_Obd AsyncFacts AsyncThms AsyncHistory AdapterThms AdapterThms2 AdapterThms3 AdapterThms4 AdapterThms5 AsyncCar.
Import ListNotations.
Open Scope Z_scope.
Local Opaque query obd_close watch_table unwatch_table.

Definition engine_proper (c : command) : Prop := proper c /\ c_header c = engine_header.
Definition notes_of (o : obd) : notes := fun c => dict_get cmd_eqb (o_frame_counts o) c.
Lemma frames_counted pr lines ms : call pr lines = Ok ms -> frames_in pr lines = count_frames ms.
Proof. intros H. unfold frames_in, count_frames. rewrite H. clear H. induction ms as [|m ms IH]; [reflexivity|]. cbn [map fold_right]. rewrite IH. reflexivity. Qed.
Lemma full_line o c : o_fast o = true -> line_of (notes_of o) c (full_string o c).
Proof.
  intros F. unfold full_string. rewrite F. cbn [andb]. destruct (c_fast c) eqn:E; [|apply ln_plain; auto]. destruct (dict_get cmd_eqb (o_frame_counts o) c) as [n|] eqn:D; [|apply ln_plain; right; exact D].
  eapply ln_counted; [exact E|exact D|apply str_nat_decimal].
Qed.
Lemma line_ext k k' c l : (forall x, k x = k' x) -> line_of k c l -> line_of k' c l.
Proof. intros E [H|n d A B D]; [apply ln_plain; rewrite <- E; exact H|eapply ln_counted; eauto; rewrite <- E; exact B]. Qed.
Lemma noted_count o c n o' : o_frame_counts o' = o_frame_counts (with_count c n o) -> noted (notes_of o) c n (notes_of o').
Proof.
  intros E c'. unfold notes_of. rewrite E, with_count_get. destruct (dict_get cmd_eqb (o_frame_counts o) c') as [m|]; [reflexivity|]. unfold same_command.
  destruct (cmd_eqb c c') eqn:B; [apply cmd_eqb_same in B|]; split; intros H; try reflexivity; try contradiction. apply cmd_eqb_same in H. congruence.
Qed.
Section Car.
  Context {Car : Type} (ask : Car -> option text -> text -> list text -> Car -> Prop).
  Notation follows := (follows ask).
  Lemma does_gives a s l lines a' s' : tuned a -> ad_header a = None -> leaves (understand l) -> does ask a s l lines a' s' -> adapter_gives ask s (understand l) lines s'.
  Proof.
    intros T H L D. unfold does in D. unfold adapter_gives. destruct (understand l); try contradiction L; rewrite ?H in D.
    - apply D.
    - destruct D as (full & A & X & _). rewrite (X (proj2 T)). exact A.
    - destruct D as (full & A & X & _). exists full. split; [exact A|]. intros P. exact (X (proj2 T) P).
  Qed.
  Section Run.
    Variables (cf : config) (name : text) (scan : list text) (w w1 : world) (o : obd) (prog : list aop) (x y : @conf Car) (t0 : list event).
    Hypothesis New : new_obd cf (Some name) scan w = (Ok tt, (o, w1)).
    Hypothesis Fast : cf_fast cf = true.
    Hypothesis T0 : w_trace w1 = w_trace w ++ t0.
    Hypothesis F0 : follows x t0 y.
    Hypothesis Pr : watches_proper prog.
    Hypothesis En : watches_engine prog.
    Record fastinv (s : astate) (z : @conf Car) : Prop := {
      W_usable : usable (a_obd s) (fst (fst z)) false true;
      W_fast : o_fast (a_obd s) = true;
      W_served : forall pr, (obd_status o <> NOT_CONNECTED -> uses o pr) -> exists k, (obd_status (a_obd s) <> NOT_CONNECTED -> forall c, k c = notes_of (a_obd s) c) /\ served_fast ask pr (notes_of o) (car_of y) (asked_for (a_events s)) (car_of z) k;
      W_uses : obd_status (a_obd s) <> NOT_CONNECTED -> obd_status o <> NOT_CONNECTED /\ forall pr, uses o pr -> uses (a_obd s) pr;
      W_status : In AClose prog \/ obd_status (a_obd s) = obd_status o }.
    Lemma fastinv_start : fastinv (new_async o w1 prog) y.
    Proof using New Fast T0 F0.
      destruct (new_obd_settled ask _ _ _ _ _ _ x New) as (I0 & Fa & t & T' & S). rewrite T0 in T'. apply app_inv_head in T'. subst t. assert (U : usable o (fst (fst y)) false true) by (apply (S _ (snd (fst y)) (snd y)); rewrite <- !surjective_pairing; exact F0).
      constructor; cbn [new_async a_obd a_events asked_for flat_map].
      - exact U.
      - congruence.
      - intros pr _. exists (notes_of o). split; [reflexivity|]. apply sf_nil. reflexivity.
      - intros C. auto.
      - auto.
    Qed.
    Lemma fastinv_step ch s t z t1 z1 : ainv s -> from engine_proper (new_async o w1 prog) s -> planned prog s -> w_trace (a_world s) = w_trace w1 ++ t -> w_trace (a_world (astep ch s)) = w_trace w1 ++ t ++ t1 ->
      none_raised (astep ch s) -> follows z t1 z1 -> fastinv s z -> fastinv (astep ch s) z1.
    Proof using New T0.
      intros V Fr Pl T T1 Nr F C. assert (Tr : w_trace (a_world (astep ch s)) = w_trace (a_world s) ++ t1) by (rewrite T, T1, app_assoc; reflexivity). destruct z as [[a cs] p].
      pose proof (I_oinv _ V) as OI.
      destruct (step_kinds ch s) as [new E1 E2 E3 E4|i c it r o1 w2 N Q E1 E2 E3|r o1 w2 op out P Q E1 E2 E3].
      - rewrite E2 in Tr. rewrite <- app_nil_r in Tr at 1. apply app_inv_head in Tr. subst t1. inversion F; subst z1. apply asked_quiet in E4.
        destruct C as [A B D E G]. constructor; rewrite ?E1, ?E3, ?asked_app, ?E4, ?app_nil_r; auto.
      - (* a query *)
        destruct (F_tpc _ _ _ Fr _ _ N) as (Pc & _). destruct Pc as (Pc & He). destruct (I_ok _ V _ _ N) as (_ & _ & Co). unfold async_connected, is_connected in Co. apply status_eqb_eq in Co.
        assert (Con : obd_status (a_obd s) <> NOT_CONNECTED) by (rewrite Co; discriminate).
        destruct (query_spec _ _ _ _ _ _ _ OI Q) as (t' & T' & Qr). rewrite E2, T' in Tr. apply app_inv_head in Tr. subst t'.
        destruct C as [A B D E G]. cbn [fst] in A.
        assert (Lh : c_header c = o_last_header (a_obd s)) by (destruct (A Con) as (_ & _ & (_ & X) & _); congruence).
        assert (Ex : asked_for (a_events (astep ch s)) = asked_for (a_events s) ++ [(c, r)]) by (rewrite E3, asked_app; reflexivity).
        destruct (query_step_full ask _ _ _ _ _ _ _ cs p z1 _ true OI A Qr Pc F ltac:(auto) ltac:(discriminate) Con (or_introl eq_refl)) as (pr & a1 & lines & a' & s' & -> & Us & Us' & Rr & La & Tu & Hi & Do & St & Ct & U').
        assert (Rd : forall q, made_of pr c lines = Ok q -> reading c pr lines q).
        { intros q Hq. change (r = made_of pr c lines) in Rr. rewrite Hq in Rr. rewrite Rr in Q. destruct (F_hist _ _ _ Fr) as (h & Hh & _). exists cf, (Some name), scan, w, t0, h, (a_obd s), (a_world s), true, o1, w2, t1.
          split; [exists (o, w1); split; [exact New|split; [exact T0|exact Hh]]|]. split; [exact Q|]. split; [exact T'|]. split; [exact La|exact Us]. }
        assert (Sw : switches c t1 = false) by (unfold switches; rewrite He; reflexivity). rewrite Sw in Hi, U'. cbn [orb] in Hi, U'.
        assert (Cl : exists ms, call pr lines = Ok ms).
        { unfold decoded in Rr. destruct (call pr lines) as [ms|e] eqn:X; [eauto|]. exfalso. apply (Nr c e). rewrite Ex. apply in_or_app. right. left. congruence. }
        destruct Cl as (ms & Cl). rewrite Cl in U'. cbn [andb] in U'. destruct (E Con) as (Con0 & Eu).
        constructor; rewrite ?E1, ?Ex; cbn [fst car_of snd].
        + exact U'.
        + rewrite <- B. destruct (query_run_inv _ _ _ _ _ _ OI Qr) as (_ & X & _). exact X.
        + intros pr' Hp. assert (pr' = pr) by (destruct (Eu _ (Hp Con0)) as (e1 & X1 & X2); destruct Us as (e2 & Y1 & Y2); congruence). subst pr'.
          destruct (D pr Hp) as (k & K & Sv). cbn [car_of fst snd] in Sv. specialize (K Con). exists (notes_of o1). split; [reflexivity|].
          change (r = made_of pr c lines) in Rr. rewrite Rr. eapply sf_more; [exact Sv|eapply line_ext; [intros c'; symmetry; apply K|apply full_line; exact B]| | |exact Rd].
          * destruct Hi as [Hn _]. eapply does_gives; [exact Tu|exact Hn|apply full_leaves; exact Pc|exact Do].
          * intros c'. rewrite K. rewrite (frames_counted _ _ _ Cl). exact (noted_count _ _ _ _ (Ct ms Cl) c').
        + intros _. split; [exact Con0|]. intros pr' X. apply Eu in X. assert (pr' = pr) by (destruct X as (e1 & X1 & X2); destruct Us as (e2 & Y1 & Y2); congruence). subst pr'. exact Us'.
        + destruct G as [G|G]; [auto|]. right. congruence.
      - (* close() *)
        destruct (obd_close_spec _ _ _ _ _ OI Q) as (t' & T' & Qr). rewrite E2, T' in Tr. apply app_inv_head in Tr. subst t'. destruct C as [A B D E G]. cbn [fst] in A.
        destruct (close_follows ask _ _ _ _ _ _ _ _ _ _ OI A Qr F) as ((a' & p' & ->) & Nc). assert (Ea : asked_for (a_events (astep ch s)) = asked_for (a_events s)) by (rewrite E3, asked_app; apply app_nil_r).
        constructor; rewrite ?E1, ?Ea.
        + intros X. contradiction.
        + rewrite <- B. destruct (close_run_inv _ _ _ _ OI Qr) as (_ & X & _). exact X.
        + intros pr Hp. destruct (D pr Hp) as (k & _ & Sv). exists k. split; [intros X; contradiction|exact Sv].
        + intros X. contradiction.
        + left. apply Pl. rewrite P. reflexivity.
    Qed.
    Lemma events_grow ch s : exists new, a_events (astep ch s) = a_events s ++ new.
    Proof. destruct (step_kinds ch s) as [new E1 E2 E3 E4|i c it r o1 w2 N Q E1 E2 E3|r o1 w2 op out P Q E1 E2 E3]; eauto. Qed.
    Lemma fastinv_run sched : let s := arun sched (new_async o w1 prog) in (ainv s /\ from engine_proper (new_async o w1 prog) s /\ planned prog s)
      /\ exists t, w_trace (a_world s) = w_trace w1 ++ t /\ (none_raised s -> forall z, follows y t z -> fastinv s z).
    Proof using New Fast T0 F0 Pr En.
      cbv zeta. induction sched as [|ch l IH] using rev_ind.
      - split; [split; [|split]|].
        + apply new_async_inv. destruct (new_obd_settled ask _ _ _ _ _ _ x New) as (I0 & _). exact I0.
        + apply from_new. intros c cb f X. split; [exact (Pr _ _ _ X)|exact (En _ _ _ X)].
        + split; [apply incl_refl|discriminate].
        + exists []. cbn [arun fold_left new_async a_world]. rewrite app_nil_r. split; [reflexivity|]. intros _ z F. inversion F; subst z. apply fastinv_start.
      - destruct IH as ((V & Fr & Pl) & t & T & G). unfold arun in *. rewrite fold_left_app. cbn [fold_left]. set (s := fold_left _ l (new_async o w1 prog)) in *. split; [split; [|split]|].
        + exact (arun_inv [ch] s V).
        + apply from_step; [apply I_oinv, V|exact Fr].
        + apply planned_step. exact Pl.
        + assert (E : exists t1, w_trace (a_world (astep ch s)) = w_trace (a_world s) ++ t1).
          { destruct (step_kinds ch s) as [new E1 E2 E3 E4|i c it r o1 w2 N Q E1 E2 E3|r o1 w2 op out P Q E1 E2 E3]; rewrite E2; [exists []; symmetry; apply app_nil_r| |].
            - destruct (query_spec _ _ _ _ _ _ _ (I_oinv _ V) Q) as (t' & T' & _). eauto.
            - destruct (obd_close_spec _ _ _ _ _ (I_oinv _ V) Q) as (t' & T' & _). eauto. }
          destruct E as (t1 & E). exists (t ++ t1). rewrite E, T, app_assoc. split; [reflexivity|]. intros Nr z F. apply follows_app in F. destruct F as (z0 & F1 & F2).
          assert (Nr0 : none_raised s). { intros c e X. apply (Nr c e). destruct (events_grow ch s) as (new & ->). rewrite asked_app. apply in_or_app. left. exact X. }
          eapply (fastinv_step ch s t z0 t1 z); eauto. rewrite E, T, app_assoc. reflexivity.
    Qed.
  End Run.
  Lemma async_fast_facts cf name scan w prog sched o s x y z : async_with ask cf name scan w prog sched o s x y z -> cf_fast cf = true -> watches_proper prog -> watches_engine prog ->
    exists w1, from engine_proper (new_async o w1 prog) s /\ (none_raised s -> fastinv o prog y s z).
  Proof.
    intros (w1 & t0 & t & N & -> & T0 & T & F0 & F) Sl Pr En. exists w1.
    destruct (fastinv_run cf name scan w w1 o prog x y t0 N Sl T0 F0 Pr En sched) as ((_ & Fr & _) & t' & T' & G). split; [exact Fr|]. intros Nr. rewrite T in T'. apply app_inv_head in T'. subst t'. apply G; assumption.
  Qed.
End Car.
