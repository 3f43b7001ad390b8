(* The constructor, and invariants of sessions. *)
From Coq Require Import ZArith List Bool Lia.
From Verif Require Import Py Num Utils Protocol Decoders Command CommandTable Commands World Elm Obd SpecElm SpecObd ElmFacts ElmThms ObdFacts ObdThms.
Import ListNotations.
Open Scope Z_scope.
Ltac Zify.zify_post_hook ::= Z.div_mod_to_equations.

Lemma new_protocol_class c r p : new_protocol c r = Ok p -> p_class p = c.
Proof.
  unfold new_protocol. cbv zeta. destruct (protocol_call c (initial_map c) r) as [ms|]; cbn [rbind]; [|discriminate].
  destruct (log_map _); cbn [rbind]; [|discriminate]. intros H. injection H as <-. reflexivity.
Qed.
Lemma new_elm_einv name baud proto timeout check slp w e w' : new_elm name baud proto timeout check slp w = (Ok e, w') -> einv e /\ (e_status e <> NOT_CONNECTED -> e_low_power e = false).
Proof.
  intros H. destruct (new_elm_spec _ _ _ _ _ _ _ _ _ H) as (t & _ & [(e' & st & sel & b & R & _ & S & A & B & C)|[(_ & _ & A & _)|(c & r0 & x & _ & R)]]); [| |discriminate R].
  - injection R as <-. rewrite <- S in *. split; [split|].
    + split; [exact A|]. intros N. destruct (status_eqb (e_status e) NOT_CONNECTED) eqn:X; [apply status_eqb_eq, X|].
      assert (N' : e_status e <> NOT_CONNECTED) by (intros Y; apply status_eqb_eq in Y; congruence). destruct (B N') as (b' & _ & P & _). congruence.
    + intros N. specialize (C N). destruct sel as [[id a]|].
      * destruct C as (c & p & L & P & Q). exists p. split; [exact Q|]. right. exists id. rewrite (new_protocol_class _ _ _ P). exact L.
      * exists unknown_protocol. split; [exact C|]. left. reflexivity.
    + intros N. destruct (B N) as (b' & _ & _ & L & _). exact L.
  - destruct (A e eq_refl) as (S & P & _). split; [split|].
    + split; intros _; assumption.
    + intros N. contradiction.
    + intros N. contradiction.
Qed.

(* the object after the connection phase *)
Definition connected_obd (cf : config) (i : option elm) (l : list command) : obd := mkObd i l (cf_fast cf) (cf_timeout cf) [] ECU_HEADER_ENGINE [].
Definition base_set : list command := fold_left (fun l c => set_add c l) base_commands [].
Definition fresh_elm (i : option elm) : Prop := match i with Some e => einv e /\ (e_status e <> NOT_CONNECTED -> e_low_power e = false) | None => True end.
Lemma connect_port_spec cf name i l w r o' w' : connect_port cf name (connected_obd cf i l, w) = (r, (o', w')) ->
  (exists e, r = Ok tt /\ o' = connected_obd cf (Some e) l /\ new_elm name (cf_baudrate cf) (cf_protocol cf) (cf_timeout cf) (cf_check_voltage cf) (cf_start_low_power cf) w = (Ok e, w'))
  \/ exists x, r = Raise x /\ o' = connected_obd cf i l /\ new_elm name (cf_baudrate cf) (cf_protocol cf) (cf_timeout cf) (cf_check_voltage cf) (cf_start_low_power cf) w = (Raise x, w').
Proof.
  unfold connect_port. change (o_timeout (connected_obd cf i l)) with (cf_timeout cf).
  destruct (new_elm _ _ _ _ _ _ w) as [[e|x] w1] eqn:N; intros H; injection H as <- <- <-; [left; exists e|right; exists x]; repeat split; assumption || reflexivity.
Qed.
Lemma connect_scan_spec cf ports l : forall i w r o' w', fresh_elm i -> connect_scan cf ports (connected_obd cf i l, w) = (r, (o', w')) ->
  exists i', o' = connected_obd cf i' l /\ fresh_elm i' /\ (exists t, w_trace w' = w_trace w ++ t).
Proof.
  induction ports as [|p ports IH]; intros i w r o' w' F H; cbn [connect_scan] in H.
  - injection H as <- <- <-. exists i. split; [reflexivity|]. split; [exact F|]. exists []. rewrite app_nil_r. reflexivity.
  - apply bind_inv in H. destruct H as [(a & [o1 w1] & H1 & H)|(x & H1 & ->)]; destruct (connect_port_spec _ _ _ _ _ _ _ _ H1) as [(e & R & -> & N)|(y & R & -> & N)]; try discriminate R;
      destruct (new_elm_spec _ _ _ _ _ _ _ _ _ N) as (t & T & _).
    + unfold bind in H. unfold obd_of, gets in H. cbv beta iota in H.
      assert (F1 : fresh_elm (Some e)) by (exact (new_elm_einv _ _ _ _ _ _ _ _ _ N)).
      destruct (text_leb _ _).
      * injection H as <- <- <-. exists (Some e). split; [reflexivity|]. split; [exact F1|]. eauto.
      * destruct (IH _ _ _ _ _ F1 H) as (i' & A & B & t2 & T2). exists i'. split; [exact A|]. split; [exact B|]. exists (t ++ t2). rewrite T2, T, app_assoc. reflexivity.
    + exists i. eauto.
Qed.
Lemma fresh_oinv cf i l : fresh_elm i -> oinv (connected_obd cf i l).
Proof. unfold oinv. cbn. destruct i; [intros [H _]; exact H|trivial]. Qed.
Lemma close_if_failed_spec cf i l w r o' w' : fresh_elm i -> close_if_failed (connected_obd cf i l, w) = (r, (o', w')) ->
  r = Ok tt /\ w' = w /\ ((obd_status (connected_obd cf i l) = NOT_CONNECTED /\ o' = connected_obd cf None []) \/ (obd_status (connected_obd cf i l) <> NOT_CONNECTED /\ o' = connected_obd cf i l)).
Proof.
  intros F H. unfold close_if_failed in H. unfold bind in H. unfold obd_of, gets in H. cbn [fst] in H.
  destruct (status_eqb (obd_status (connected_obd cf i l)) NOT_CONNECTED) eqn:S.
  - apply status_eqb_eq in S. unfold obd_close, bind in H. cbn [set_supported obd_of gets fst] in H.
    change (obd_status (connected_obd cf i l)) with (match i with None => NOT_CONNECTED | Some e => e_status e end) in S.
    cbn [connected_obd o_interface] in H. destruct i as [e|].
    + erewrite set_header_nc in H; [|reflexivity|exact S]. unfold on_interface in H. cbn [o_interface] in H. rewrite elm_close_none in H by (apply F; exact S).
      injection H as <- <- <-. split; [reflexivity|]. split; [reflexivity|]. left. split; [exact S|reflexivity].
    + injection H as <- <- <-. split; [reflexivity|]. split; [reflexivity|]. left. split; [exact S|reflexivity].
  - assert (N : obd_status (connected_obd cf i l) <> NOT_CONNECTED) by (intros X; apply status_eqb_eq in X; congruence).
    injection H as <- <- <-. auto.
Qed.
Lemma connect_spec_set cf port scan w r o' w' : connect cf port scan (initial_obd cf, w) = (r, (o', w')) ->
  exists i l, o' = connected_obd cf i l /\ fresh_elm i /\ (exists t, w_trace w' = w_trace w ++ t) /\ (l = base_set \/ l = []).
Proof.
  change (initial_obd cf) with (connected_obd cf None base_set). intros H. unfold connect in H.
  assert (K : forall (m : MO unit), (forall r o1 w1, m (connected_obd cf None base_set, w) = (r, (o1, w1)) -> exists i', o1 = connected_obd cf i' base_set /\ fresh_elm i' /\ (exists t, w_trace w1 = w_trace w ++ t)) ->
    bind m (fun _ => close_if_failed) (connected_obd cf None base_set, w) = (r, (o', w')) -> exists i l, o' = connected_obd cf i l /\ fresh_elm i /\ (exists t, w_trace w' = w_trace w ++ t) /\ (l = base_set \/ l = [])).
  { intros m M X. apply bind_inv in X. destruct X as [(a & [o1 w1] & H1 & X)|(x & H1 & ->)]; destruct (M _ _ _ H1) as (i' & -> & F & T).
    - destruct (close_if_failed_spec _ _ _ _ _ _ _ F X) as (_ & -> & [(_ & ->)|(_ & ->)]); [exists None, []|exists i', base_set]; (split; [reflexivity|]); (split; [try exact I; assumption|]); (split; [assumption|auto]).
    - exists i', base_set. auto. }
  destruct port as [p|].
  - apply (K (connect_port cf p)); [|exact H]. intros r1 o1 w1 H1.
    destruct (connect_port_spec _ _ _ _ _ _ _ _ H1) as [(e & _ & -> & N)|(y & _ & -> & N)]; destruct (new_elm_spec _ _ _ _ _ _ _ _ _ N) as (t & T & _).
    + exists (Some e). split; [reflexivity|]. split; [exact (new_elm_einv _ _ _ _ _ _ _ _ _ N)|eauto].
    + exists None. split; [reflexivity|]. split; [exact Logic.I|eauto].
  - destruct scan as [|p scan].
    + injection H as <- <- <-. exists None, base_set. split; [reflexivity|]. split; [exact Logic.I|]. split; [exists []; rewrite app_nil_r; reflexivity|auto].
    + apply (K (connect_scan cf (p :: scan))); [|exact H]. intros r1 o1 w1 H1. exact (connect_scan_spec cf _ _ None _ _ _ _ Logic.I H1).
Qed.
Lemma connect_spec cf port scan w r o' w' : connect cf port scan (initial_obd cf, w) = (r, (o', w')) ->
  exists i l, o' = connected_obd cf i l /\ fresh_elm i /\ (exists t, w_trace w' = w_trace w ++ t).
Proof. intros H. destruct (connect_spec_set _ _ _ _ _ _ _ H) as (i & l & A & B & C & _). eauto. Qed.

(* loading the supported commands *)
Section Load.
  Context (P : obd -> list event -> Prop).
  Context (Psup : forall o l t, P o t -> P (with_supported l o) t).
  Context (Pq : forall o c t0 t r o', In c pid_getters -> oinv o -> P o t0 -> query_run o c false t (Ok r) o' -> P o' (t0 ++ t)).
  Lemma load_one_inv g o w o' w' : In g pid_getters -> oinv o -> P o (w_trace w) -> load_one g (o, w) = (Ok tt, (o', w')) ->
    oinv o' /\ P o' (w_trace w') /\ o_fast o' = o_fast o /\ exists t, w_trace w' = w_trace w ++ t.
  Proof.
    intros G OI HP H. unfold load_one in H. unfold bind at 1 in H. cbn [fst] in H. destruct (test_cmd o g) as [b|]; [|discriminate].
    destruct b; cbn [negb] in H.
    2:{ injection H as <- <-. split; [exact OI|]. split; [exact HP|]. split; [reflexivity|]. exists []. rewrite app_nil_r. reflexivity. }
    apply bind_inv in H. destruct H as [(rsp & [o1 w1] & H1 & H)|(x & _ & D)]; [|discriminate D].
    destruct (query_spec _ _ _ _ _ _ _ OI H1) as (t & T & Q). destruct (query_run_inv _ _ _ _ _ _ OI Q) as (I1 & F1 & _).
    assert (P1 : P o1 (w_trace w1)) by (rewrite T; exact (Pq _ _ _ _ _ _ G OI HP Q)).
    destruct (is_null rsp). { injection H as <- <-. eauto. }
    destruct (r_value rsp); try discriminate H. destruct (c_mode g); [|discriminate H]. destruct (c_pid g); [|discriminate H].
    cbn in H. injection H as <- <-. split; [exact I1|]. split; [apply (Psup o1), P1|]. split; [exact F1|eauto].
  Qed.
  Lemma load_all_inv gs : incl gs pid_getters -> forall o w o' w', oinv o -> P o (w_trace w) -> load_all gs (o, w) = (Ok tt, (o', w')) ->
    oinv o' /\ P o' (w_trace w') /\ o_fast o' = o_fast o /\ exists t, w_trace w' = w_trace w ++ t.
  Proof.
    induction gs as [|g gs IH]; intros Inc o w o' w' OI HP H; cbn [load_all] in H.
    - injection H as <- <-. split; [exact OI|]. split; [exact HP|]. split; [reflexivity|]. exists []. rewrite app_nil_r. reflexivity.
    - apply bind_inv in H. destruct H as [([] & [o1 w1] & H1 & H)|(x & _ & D)]; [|discriminate D].
      destruct (load_one_inv g o w o1 w1 (Inc g (or_introl eq_refl)) OI HP H1) as (I1 & P1 & F1 & t1 & T1).
      destruct (IH (fun x X => Inc x (or_intror X)) o1 w1 o' w' I1 P1 H) as (I2 & P2 & F2 & t2 & T2).
      split; [exact I2|]. split; [exact P2|]. split; [congruence|]. exists (t1 ++ t2). rewrite T2, T1, app_assoc. reflexivity.
  Qed.
End Load.

(* invariants of sessions *)
Section Session.
  Context (P : obd -> list event -> Prop) (good : step -> Prop).
  Context (Pinit : forall cf i l t, fresh_elm i -> P (connected_obd cf i l) t).
  Context (Psup : forall o l t, P o t -> P (with_supported l o) t).
  Context (Pq : forall o c t0 t r o', In c pid_getters -> oinv o -> P o t0 -> query_run o c false t (Ok r) o' -> P o' (t0 ++ t)).
  Context (Pop : forall o p t0 t r o', oinv o -> P o t0 -> op_run o p t r o' -> good (mkStep p t r) -> P o' (t0 ++ t)).
  Lemma new_obd_inv cf port scan w o w' : new_obd cf port scan w = (Ok tt, (o, w')) ->
    oinv o /\ P o (w_trace w') /\ o_fast o = cf_fast cf /\ exists t, w_trace w' = w_trace w ++ t.
  Proof.
    intros H. unfold new_obd in H. apply bind_inv in H. destruct H as [([] & [o1 w1] & H1 & H)|(x & _ & D)]; [|discriminate D].
    destruct (connect_spec _ _ _ _ _ _ _ H1) as (i & l & -> & F & t & T). pose proof (Pinit cf i l (w_trace w1) F) as P1. pose proof (fresh_oinv cf i l F) as I1.
    unfold load_commands in H. unfold bind at 1 in H. unfold obd_of at 1, gets at 1 in H. cbv beta iota in H.
    destruct (negb _).
    - injection H as <- <-. eauto 10.
    - destruct (load_all_inv P Psup Pq pid_getters (fun x X => X) _ _ _ _ I1 P1 H) as (I2 & P2 & F2 & t2 & T2).
      split; [exact I2|]. split; [exact P2|]. split; [exact F2|]. exists (t ++ t2). rewrite T2, T, app_assoc. reflexivity.
  Qed.
  Lemma history_inv o0 w0 h s : history (o0, w0) h s -> oinv o0 -> P o0 (w_trace w0) -> Forall good h ->
    oinv (fst s) /\ P (fst s) (w_trace (snd s)) /\ o_fast (fst s) = o_fast o0 /\ w_trace (snd s) = w_trace w0 ++ concat (map st_events h).
  Proof.
    intros H OI P0. induction H as [|h s1 p r s2 t H IH R T]; intros G.
    - cbn. rewrite app_nil_r. auto.
    - apply Forall_app in G. destruct G as [G1 G2]. inversion G2 as [|? ? G3 _]; subst. destruct (IH G1) as (I1 & P1 & F1 & T1).
      destruct s1 as [o1 w1], s2 as [o2 w2]. cbn [fst snd] in *. destruct (run_op_spec _ _ _ _ _ _ I1 R) as (t' & T' & Q).
      rewrite T in T'. apply app_inv_head in T'. subst t'. destruct (op_run_inv _ _ _ _ _ I1 Q) as (I2 & F2 & _).
      split; [exact I2|]. split; [rewrite T; exact (Pop _ _ _ _ _ _ I1 P1 Q G3)|]. split; [congruence|].
      rewrite T, T1, map_app, concat_app, <- app_assoc. cbn. rewrite app_nil_r. reflexivity.
  Qed.
  Lemma session_inv cf port scan w t0 h o w' : session cf port scan w t0 h (o, w') -> Forall good h ->
    oinv o /\ P o (w_trace w') /\ o_fast o = cf_fast cf /\ w_trace w' = w_trace w ++ t0 ++ concat (map st_events h).
  Proof.
    intros ([o0 w0] & N & T & H) G. destruct (new_obd_inv _ _ _ _ _ _ N) as (I0 & P0 & F0 & _). cbn [snd] in T.
    destruct (history_inv _ _ _ _ H I0 P0 G) as (I1 & P1 & F1 & T1). cbn [fst snd] in *.
    split; [exact I1|]. split; [exact P1|]. split; [congruence|]. rewrite T1, T, <- app_assoc. reflexivity.
  Qed.
End Session.
Lemma session_oinv cf port scan w t0 h o w' : session cf port scan w t0 h (o, w') ->
  oinv o /\ o_fast o = cf_fast cf /\ w_trace w' = w_trace w ++ t0 ++ concat (map st_events h).
Proof.
  intros H. destruct (session_inv (fun _ _ => True) (fun _ => True) (fun _ _ _ _ _ => Logic.I) (fun _ _ _ _ => Logic.I) (fun _ _ _ _ _ _ _ _ _ _ => Logic.I) (fun _ _ _ _ _ _ _ _ _ _ => Logic.I) _ _ _ _ _ _ _ _ H) as (A & _ & B & C); [|auto].
  apply Forall_forall. trivial.
Qed.
