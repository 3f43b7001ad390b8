(* What stays the same during a connection, and where the protocol object of a connection comes from. *)
From Coq Require Import ZArith List Bool Lia.
From Verif Require Import Py Num Utils Protocol Decoders Command CommandTable Commands World Elm Obd SpecElm SpecObd ElmFacts ElmThms ObdFacts ObdThms ObdThms2.
Import ListNotations.
Open Scope Z_scope.

(* the interface afterwards, given the interface before: gone; or as before, up to the sleep flag; or dead; or what a failed close leaves *)
Inductive after (e : elm) : option elm -> Prop :=
| after_gone : after e None
| after_same e' : e_status e' = e_status e -> e_port e' = e_port e -> e_protocol e' = e_protocol e -> after e (Some e')
| after_dead e' : e_status e' = NOT_CONNECTED -> e_port e' = None -> e_protocol e' = e_protocol e -> after e (Some e')
| after_closed e' : closed_elm e' -> after e (Some e').
Definition steady (o o' : obd) : Prop := match o_interface o with None => o_interface o' = None | Some e => after e (o_interface o') end.
Lemma steady_refl o : steady o o.
Proof. unfold steady. destruct (o_interface o); [apply after_same; reflexivity|reflexivity]. Qed.
Lemma after_header o e p h t x o' : header_run o e p h t x o' -> o_interface o = Some e -> exists e', o_interface o' = Some e' /\ (e' = e \/ e' = awake e \/ e' = dead (awake e)).
Proof. intros H Hi. destruct H; cbn; eauto 6. Qed.
Lemma after_awake e e1 e2 : (e1 = e \/ e1 = awake e \/ e1 = dead (awake e)) -> (e2 = e1 \/ e2 = awake e1 \/ e2 = dead (awake e1)) -> after e (Some e2).
Proof. intros [-> |[-> | ->]] [-> |[-> | ->]]; try (apply after_same; reflexivity); apply after_dead; reflexivity. Qed.
Lemma query_steady o c force t r o' : query_run o c force t r o' -> steady o o'.
Proof.
  intros H. destruct H as [H|H1 H2|e p t x o1 Hi Hs P M HR|e p t o1 Hi Hs P M HR Hn|e p t1 o1 e1 t2 Hi Hs P M HR Hi1 Hs1 A|e p t1 o1 e1 t2 l x Hi Hs P M HR Hi1 Hs1 A C|e p t1 o1 e1 t2 l ms Hi Hs P M HR Hi1 Hs1 A C];
    try apply steady_refl; destruct (after_header _ _ _ _ _ _ _ HR Hi) as (e' & Hi' & E); unfold steady; rewrite Hi; cbn [o_interface with_count with_command with_elm]; try rewrite Hi';
    try (apply (after_awake e e' e' E); auto); rewrite Hi1 in Hi'; injection Hi' as <-; apply (after_awake e e1 _ E); auto.
Qed.
Lemma op_steady o p t r o' : op_run o p t r o' -> steady o o'.
Proof.
  intros H. destruct H as [c f t r o' Q|t o' Q|t o' Q|t r o' Q|c]; [| | | |exact (steady_refl o)].
  - exact (query_steady _ _ _ _ _ _ Q).
  - destruct Q as [H|e t lines Hi Hs A|e t Hi Hs A]; [apply steady_refl| |]; unfold steady; rewrite Hi; cbn; [destruct (existsb _ _); apply after_same; reflexivity|apply after_dead; reflexivity].
  - destruct Q as [H|e t lines Hi Hs A|e t Hi Hs A]; [apply steady_refl| |]; unfold steady; rewrite Hi; cbn; [apply after_same; reflexivity|apply after_dead; reflexivity].
  - destruct Q as [H|e Hi Hs|e p t x o1 Hi Hs P HR|e p t o1 Hi Hs P HR Hn|e p t o1 Hi Hs P HR Hn|e p t o1 t2 e2 Hi Hs P HR Hn A1 A2 A3]; unfold steady; rewrite ?H, ?Hi; cbn; try (apply after_gone).
    + exact H.
    + destruct (after_header _ _ _ _ _ _ _ HR Hi) as (e' & -> & E). apply (after_awake e e' e' E); auto.
    + apply after_closed, A3.
Qed.
Lemma after_trans e e1 i : after e (Some e1) -> after e1 i -> (e_status e1 = NOT_CONNECTED -> e_port e1 = None) -> after e i.
Proof.
  intros A B N. inversion A as [|? A1 A2 A3|? A1 A2 A3|? A1]; subst; (inversion B as [|e' B1 B2 B3|e' B1 B2 B3|e' B1]; subst; [apply after_gone| | |apply after_closed, B1]).
  - apply after_same; congruence.
  - apply after_dead; congruence.
  - apply after_dead; congruence.
  - apply after_dead; congruence.
  - destruct A1 as (A1 & A2 & A3). apply after_closed. split; [congruence|]. split; congruence.
  - destruct A1 as (A1 & A2 & A3). apply after_closed. split; [exact B1|]. split; congruence.
Qed.
Lemma steady_trans o o1 o2 : oinv o1 -> steady o o1 -> steady o1 o2 -> steady o o2.
Proof.
  unfold steady, oinv. intros OI A B. destruct (o_interface o) as [e|]; [|rewrite A in B; exact B].
  destruct (o_interface o1) as [e1|] eqn:E1; [|rewrite B; apply after_gone]. apply (after_trans e e1); auto. apply (proj1 OI).
Qed.
Lemma history_steady o0 w0 h s : history (o0, w0) h s -> oinv o0 -> steady o0 (fst s) /\ oinv (fst s).
Proof.
  intros H OI. induction H as [|h s1 p r s2 t H IH R T]; [split; [apply steady_refl|exact OI]|].
  destruct IH as [S1 I1]. destruct s1 as [o1 w1], s2 as [o2 w2]. cbn [fst snd] in *. destruct (run_op_spec _ _ _ _ _ _ I1 R) as (t' & T' & Q).
  destruct (op_run_inv _ _ _ _ _ I1 Q) as (I2 & _). split; [|exact I2]. exact (steady_trans _ _ _ I1 S1 (op_steady _ _ _ _ _ Q)).
Qed.

(* ---- origins ---- *)
Definition came_from (p : protocol) : Prop := p = unknown_protocol \/ exists id c lines, lookup id = Some c /\ new_protocol c lines = Ok p.
Definition origin (o : obd) : Prop := match o_interface o with None => True | Some e => e_status e <> NOT_CONNECTED -> exists p, e_protocol e = Some p /\ came_from p end.
Lemma new_elm_origin name baud proto timeout check slp w e w' : new_elm name baud proto timeout check slp w = (Ok e, w') ->
  e_status e <> NOT_CONNECTED -> exists p, e_protocol e = Some p /\ came_from p.
Proof.
  intros H N. destruct (new_elm_spec _ _ _ _ _ _ _ _ _ H) as (t & _ & [(e' & st & sel & b & R & _ & S & A & B & C)|[(_ & _ & A & _)|(c & r0 & x & _ & R)]]); [| |discriminate R].
  - injection R as <-. rewrite <- S in *. specialize (C N). destruct sel as [[id a]|].
    + destruct C as (c & p & L & P & Q). exists p. split; [exact Q|]. right. eauto.
    + exists unknown_protocol. split; [exact C|]. left. reflexivity.
  - destruct (A e eq_refl) as (S & _). contradiction.
Qed.
Lemma connect_port_origin cf name o w r o' w' : origin o -> connect_port cf name (o, w) = (r, (o', w')) -> origin o'.
Proof.
  intros O. unfold connect_port. destruct (new_elm _ _ _ _ _ _ w) as [[e|x] w1] eqn:N; intros H; injection H as <- <- <-; [|exact O].
  unfold origin. cbn. exact (new_elm_origin _ _ _ _ _ _ _ _ _ N).
Qed.
Lemma connect_scan_origin cf ports : forall o w r o' w', origin o -> connect_scan cf ports (o, w) = (r, (o', w')) -> origin o'.
Proof.
  induction ports as [|p ports IH]; intros o w r o' w' O H; cbn [connect_scan] in H; [injection H as <- <- <-; exact O|].
  apply bind_inv in H. destruct H as [(a & [o1 w1] & H1 & H)|(x & H1 & ->)]; [|exact (connect_port_origin _ _ _ _ _ _ _ O H1)].
  pose proof (connect_port_origin _ _ _ _ _ _ _ O H1) as O1. unfold bind in H. unfold obd_of, gets in H. cbv beta iota in H.
  destruct (text_leb _ _); [injection H as <- <- <-; exact O1|]. exact (IH _ _ _ _ _ O1 H).
Qed.
Lemma connect_origin cf port scan w r o' w' : connect cf port scan (initial_obd cf, w) = (r, (o', w')) -> origin o'.
Proof.
  intros H. assert (O : origin (initial_obd cf)) by exact Logic.I. unfold connect in H.
  assert (K : forall (m : MO unit), (forall r o1 w1, m (initial_obd cf, w) = (r, (o1, w1)) -> origin o1 /\ exists i l, o1 = connected_obd cf i l /\ fresh_elm i) ->
    bind m (fun _ => close_if_failed) (initial_obd cf, w) = (r, (o', w')) -> origin o').
  { intros m M X. apply bind_inv in X. destruct X as [(a & [o1 w1] & H1 & X)|(x & H1 & ->)]; destruct (M _ _ _ H1) as (O1 & i & l & -> & F); [|exact O1].
    destruct (close_if_failed_spec _ _ _ _ _ _ _ F X) as (_ & -> & [(_ & ->)|(_ & ->)]); [exact Logic.I|exact O1]. }
  destruct port as [p|].
  - apply (K (connect_port cf p)); [|exact H]. intros r1 o1 w1 H1. split; [exact (connect_port_origin _ _ _ _ _ _ _ O H1)|].
    change (initial_obd cf) with (connected_obd cf None base_set) in H1.
    destruct (connect_port_spec _ _ _ _ _ _ _ _ H1) as [(e & _ & -> & N)|(y & _ & -> & N)].
    + exists (Some e), base_set. split; [reflexivity|]. exact (new_elm_einv _ _ _ _ _ _ _ _ _ N).
    + exists None, base_set. split; [reflexivity|]. exact Logic.I.
  - destruct scan as [|p scan].
    + injection H as <- <- <-. exact O.
    + apply (K (connect_scan cf (p :: scan))); [|exact H]. intros r1 o1 w1 H1. split; [exact (connect_scan_origin _ _ _ _ _ _ _ O H1)|].
      change (initial_obd cf) with (connected_obd cf None base_set) in H1.
      destruct (connect_scan_spec cf _ _ None _ _ _ _ Logic.I H1) as (i & -> & F & _). eauto.
Qed.
Lemma steady_origin o o' : origin o -> oinv o -> steady o o' -> origin o'.
Proof.
  unfold origin, steady. intros O OI S. destruct (o_interface o) as [e|]; [|rewrite S; exact Logic.I].
  inversion S as [|? A1 A2 A3|? A1 A2 A3|? A1]; subst; [exact Logic.I| | |].
  - rewrite A1, A3. exact O.
  - intros N. contradiction.
  - intros N. destruct A1 as [A1 _]. contradiction.
Qed.
Lemma session_origin cf port scan w t0 h o w' : session cf port scan w t0 h (o, w') -> origin o.
Proof.
  intros ([o0 w0] & N & T & H). assert (O0 : origin o0 /\ oinv o0).
  { unfold new_obd in N. apply bind_inv in N. destruct N as [([] & [o1 w1] & H1 & N)|(x & _ & D)]; [|discriminate D].
    pose proof (connect_origin _ _ _ _ _ _ _ H1) as O1. destruct (connect_spec _ _ _ _ _ _ _ H1) as (i & l & -> & F & t & _). pose proof (fresh_oinv cf i l F) as I1.
    unfold load_commands in N. unfold bind at 1 in N. unfold obd_of at 1, gets at 1 in N. cbv beta iota in N.
    destruct (negb _); [injection N as <- <-; auto|].
    destruct (load_all_inv (fun o _ => origin o) (fun o l t O => O)
      (fun _ _ _ _ _ _ _ OI O Q => steady_origin _ _ O OI (query_steady _ _ _ _ _ _ Q)) pid_getters (fun x X => X) _ _ _ _ I1 O1 N) as (I2 & P2 & _). auto. }
  destruct O0 as [O0 I0]. destruct (history_steady _ _ _ _ H I0) as [S _]. exact (steady_origin _ _ O0 I0 S).
Qed.

(* a protocol object is there until a close() fails *)
Definition has_protocol (o : obd) : Prop := match o_interface o with Some e => e_protocol e <> None | None => True end.
Lemma after_protocol e i : after e i -> e_protocol e <> None -> match i with Some e' => e_protocol e' <> None \/ closed_elm e' | None => True end.
Proof. intros [|e' A B C|e' A B C|e' A] N; try (left; congruence); auto. Qed.
Lemma header_protocol o e p h t x o' : header_run o e p h t x o' -> o_interface o = Some e -> e_protocol e = Some p -> has_protocol o'.
Proof. intros H Hi P. unfold has_protocol. destruct (after_header _ _ _ _ _ _ _ H Hi) as (e' & -> & [-> |[-> | ->]]); cbn; congruence. Qed.
Lemma query_protocol o c force t r o' : has_protocol o -> query_run o c force t r o' -> has_protocol o'.
Proof.
  intros HP H. destruct H as [H|H1 H2|e p t x o1 Hi Hs P M HR|e p t o1 Hi Hs P M HR Hn|e p t1 o1 e1 t2 Hi Hs P M HR Hi1 Hs1 A|e p t1 o1 e1 t2 l x Hi Hs P M HR Hi1 Hs1 A C|e p t1 o1 e1 t2 l ms Hi Hs P M HR Hi1 Hs1 A C];
    try exact HP; pose proof (header_protocol _ _ _ _ _ _ _ HR Hi P) as HP1; unfold has_protocol in *; cbn; try exact HP1; rewrite Hi1 in HP1; cbn; exact HP1.
Qed.
Lemma op_protocol o p t r o' : has_protocol o -> op_run o p t r o' -> (p = OpClose -> r = Ok None) -> has_protocol o'.
Proof.
  intros HP H G. destruct H as [c f t r o' Q|t o' Q|t o' Q|t r o' Q|c]; [| | | |exact HP].
  - exact (query_protocol _ _ _ _ _ _ HP Q).
  - unfold has_protocol in *. destruct Q as [H|e t lines Hi Hs A|e t Hi Hs A]; [exact HP| |]; rewrite Hi in HP; cbn; [destruct (existsb _ _); exact HP|exact HP].
  - unfold has_protocol in *. destruct Q as [H|e t lines Hi Hs A|e t Hi Hs A]; [exact HP| |]; rewrite Hi in HP; cbn; exact HP.
  - specialize (G eq_refl). destruct Q as [H|e Hi Hs|e p t x o1 Hi Hs P HR|e p t o1 Hi Hs P HR Hn|e p t o1 Hi Hs P HR Hn|e p t o1 t2 e2 Hi Hs P HR Hn A1 A2 A3]; try discriminate G; try exact Logic.I.
    unfold has_protocol. cbn. rewrite H. exact Logic.I.
Qed.
(* a failed connection leaves no interface *)
Lemma connect_status cf port scan w o' w' : connect cf port scan (initial_obd cf, w) = (Ok tt, (o', w')) -> forall e, o_interface o' = Some e -> e_status e <> NOT_CONNECTED.
Proof.
  intros H e Hi. unfold connect in H.
  assert (K : forall (m : MO unit), (forall r o1 w1, m (initial_obd cf, w) = (r, (o1, w1)) -> exists i l, o1 = connected_obd cf i l /\ fresh_elm i) ->
    bind m (fun _ => close_if_failed) (initial_obd cf, w) = (Ok tt, (o', w')) -> e_status e <> NOT_CONNECTED).
  { intros m M X. apply bind_inv in X. destruct X as [(a & [o1 w1] & H1 & X)|(x & H1 & D)]; [|discriminate D]. destruct (M _ _ _ H1) as (i & l & -> & F).
    destruct (close_if_failed_spec _ _ _ _ _ _ _ F X) as (_ & -> & [(_ & ->)|(N & ->)]); [discriminate Hi|]. unfold obd_status in N. rewrite Hi in N. exact N. }
  destruct port as [p|].
  - apply (K (connect_port cf p)); [|exact H]. intros r1 o1 w1 H1. change (initial_obd cf) with (connected_obd cf None base_set) in H1.
    destruct (connect_port_spec _ _ _ _ _ _ _ _ H1) as [(e1 & _ & -> & N)|(y & _ & -> & N)].
    + exists (Some e1), base_set. split; [reflexivity|]. exact (new_elm_einv _ _ _ _ _ _ _ _ _ N).
    + exists None, base_set. split; [reflexivity|]. exact Logic.I.
  - destruct scan as [|p scan].
    + injection H as <- <-. discriminate Hi.
    + apply (K (connect_scan cf (p :: scan))); [|exact H]. intros r1 o1 w1 H1. change (initial_obd cf) with (connected_obd cf None base_set) in H1.
      destruct (connect_scan_spec cf _ _ None _ _ _ _ Logic.I H1) as (i & -> & F & _). eauto.
Qed.
Lemma session_protocol cf port scan w t0 h o w' : session cf port scan w t0 h (o, w') -> Forall (fun x => st_op x = OpClose -> st_result x = Ok None) h -> has_protocol o.
Proof.
  intros ([o0 w0] & N & T & H) G. assert (O0 : has_protocol o0 /\ oinv o0).
  { unfold new_obd in N. apply bind_inv in N. destruct N as [([] & [o1 w1] & H1 & N)|(x & _ & D)]; [|discriminate D].
    pose proof (connect_origin _ _ _ _ _ _ _ H1) as O1. pose proof (connect_spec _ _ _ _ _ _ _ H1) as (i & l & -> & F & t & _). pose proof (fresh_oinv cf i l F) as I1.
    assert (P1 : has_protocol (connected_obd cf i l)).
    { unfold has_protocol. cbn. destruct i as [e|]; [|exact Logic.I]. destruct (status_eqb (e_status e) NOT_CONNECTED) eqn:S.
      - exfalso. apply status_eqb_eq in S. exact (connect_status _ _ _ _ _ _ H1 e eq_refl S).
      - unfold origin in O1. cbn in O1. destruct O1 as (p & -> & _); [|discriminate]. intros X. apply status_eqb_eq in X. congruence. }
    unfold load_commands in N. unfold bind at 1 in N. unfold obd_of at 1, gets at 1 in N. cbv beta iota in N.
    destruct (negb _); [injection N as <- <-; auto|].
    destruct (load_all_inv (fun o _ => has_protocol o) (fun o l t O => O)
      (fun _ _ _ _ _ _ _ OI O Q => query_protocol _ _ _ _ _ _ O Q) pid_getters (fun x X => X) _ _ _ _ I1 P1 N) as (I2 & P2 & _). auto. }
  destruct O0 as [O0 I0]. 
  exact (proj1 (proj2 (history_inv (fun o _ => has_protocol o) (fun x => st_op x = OpClose -> st_result x = Ok None) (fun o p t0 t r o' _ HP R Gd => op_protocol o p t r o' HP R Gd) _ _ _ _ H I0 O0 G))).
Qed.
