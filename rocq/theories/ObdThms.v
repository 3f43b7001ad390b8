(* Invariants of connections, and what the other operations do. *)
From Coq Require Import ZArith List Bool Lia.
From Verif Require Import Py Num Utils Protocol Decoders Command CommandTable Commands World Elm Obd SpecElm SpecObd ElmFacts ElmThms ObdFacts.
Import ListNotations.
Open Scope Z_scope.
Ltac Zify.zify_post_hook ::= Z.div_mod_to_equations.

(* ---- low power ---- *)
Definition asleep_elm (e : elm) : elm := mkElm (e_status e) (e_port e) (e_protocol e) true (e_timeout e).
Lemma low_power_spec e w p r e' w' : e_status e <> NOT_CONNECTED -> e_port e = Some p -> elm_low_power (e, w) = (r, (e', w')) ->
  exists t, w_trace w' = w_trace w ++ t /\
  ((exists lines, exchange (str "OK") 1 (str "ATLP") t lines /\ r = Ok (Some lines) /\ e' = (if existsb (text_eqb (str "OK")) lines then asleep_elm e else e))
   \/ (failed_exchange (str "OK") 1 (str "ATLP") t /\ r = Ok (Some []) /\ e' = dead e)).
Proof.
  intros Hs Hp H. unfold elm_low_power in H. unfold bind at 1 in H. unfold elm_of, gets in H. cbn [fst] in H. rewrite (status_nc e Hs) in H.
  apply bind_inv in H.
  destruct H as [(lines & [e1 w1] & H1 & H)|(x & H1 & ->)];
    destruct (elm_send_gen_spec (str "OK") _ _ e w p _ _ _ ltac:(discriminate) Hp H1) as (t & T & [(l & E & -> & A)|(E & -> & F)]); try discriminate E; injection E as ->; rewrite ?tries_true in *; exists t.
  - unfold bind in H. destruct (existsb (text_eqb (str "OK")) l) eqn:X; cbn in H; injection H as <- <- <-; (split; [exact T|]); left; exists l; rewrite X; auto.
  - cbn in H. injection H as <- <- <-. split; [exact T|]. right. auto.
Qed.
Lemma obd_low_nc o w : obd_status o = NOT_CONNECTED -> obd_low_power (o, w) = (Ok tt, (o, w)).
Proof.
  intros H. unfold obd_low_power, bind, obd_of, gets. cbn [fst]. unfold obd_status in H. destruct (o_interface o) as [e|] eqn:Hi; [|reflexivity].
  unfold on_interface. rewrite Hi, (low_power_nc _ _ H), <- Hi. destruct o; reflexivity.
Qed.
Lemma obd_normal_nc o w : obd_status o = NOT_CONNECTED -> obd_normal_power (o, w) = (Ok tt, (o, w)).
Proof.
  intros H. unfold obd_normal_power, bind, obd_of, gets. cbn [fst]. unfold obd_status in H. destruct (o_interface o) as [e|] eqn:Hi; [|reflexivity].
  unfold on_interface. rewrite Hi, (normal_power_nc _ _ H), <- Hi. destruct o; reflexivity.
Qed.
Inductive low_run (o : obd) : list event -> obd -> Prop :=
| l_unconnected : obd_status o = NOT_CONNECTED -> low_run o [] o
| l_done e t lines : o_interface o = Some e -> e_status e <> NOT_CONNECTED -> exchange (str "OK") 1 (str "ATLP") t lines ->
    low_run o t (with_elm (if existsb (text_eqb (str "OK")) lines then asleep_elm e else e) o)
| l_cut e t : o_interface o = Some e -> e_status e <> NOT_CONNECTED -> failed_exchange (str "OK") 1 (str "ATLP") t -> low_run o t (with_elm (dead e) o).
Inductive normal_run (o : obd) : list event -> obd -> Prop :=
| n_unconnected : obd_status o = NOT_CONNECTED -> normal_run o [] o
| n_done e t lines : o_interface o = Some e -> e_status e <> NOT_CONNECTED -> asks 12 (str " ") t lines -> normal_run o t (with_elm (awake e) o)
| n_cut e t : o_interface o = Some e -> e_status e <> NOT_CONNECTED -> failed_exchange [PROMPT] 12 (str " ") t -> normal_run o t (with_elm (awake (dead e)) o).
Lemma connected_port e : einv e -> e_status e <> NOT_CONNECTED -> exists p, e_port e = Some p.
Proof. intros [I _] H. destruct (e_port e) as [p|]; [eauto|]. exfalso. apply H, I. reflexivity. Qed.
Lemma obd_low_spec o w r o' w' : oinv o -> obd_low_power (o, w) = (r, (o', w')) ->
  r = Ok tt /\ exists t, w_trace w' = w_trace w ++ t /\ low_run o t o'.
Proof.
  intros OI H. destruct (status_eqb (obd_status o) NOT_CONNECTED) eqn:S.
  - apply status_eqb_eq in S. rewrite (obd_low_nc _ _ S) in H. injection H as <- <- <-. split; [reflexivity|]. exists []. rewrite app_nil_r. split; [reflexivity|]. constructor. exact S.
  - assert (Hn : obd_status o <> NOT_CONNECTED) by (intros X; apply status_eqb_eq in X; congruence).
    unfold obd_status in Hn. unfold oinv in OI. unfold obd_low_power, bind, obd_of, gets in H. cbn [fst] in H. destruct (o_interface o) as [e|] eqn:Hi; [|contradiction].
    destruct (connected_port e OI Hn) as [p Hp].
    unfold on_interface in H. rewrite Hi in H. destruct (elm_low_power (e, w)) as [r1 [e1 w1]] eqn:L.
    destruct (low_power_spec _ _ _ _ _ _ Hn Hp L) as (t & T & [(lines & A & -> & ->)|(F & -> & ->)]); injection H as <- <- <-; (split; [reflexivity|]); exists t; (split; [exact T|]).
    + exact (l_done o e t lines Hi Hn A).
    + exact (l_cut o e t Hi Hn F).
Qed.
Lemma obd_normal_spec o w r o' w' : oinv o -> obd_normal_power (o, w) = (r, (o', w')) ->
  r = Ok tt /\ exists t, w_trace w' = w_trace w ++ t /\ normal_run o t o'.
Proof.
  intros OI H. destruct (status_eqb (obd_status o) NOT_CONNECTED) eqn:S.
  - apply status_eqb_eq in S. rewrite (obd_normal_nc _ _ S) in H. injection H as <- <- <-. split; [reflexivity|]. exists []. rewrite app_nil_r. split; [reflexivity|]. constructor. exact S.
  - assert (Hn : obd_status o <> NOT_CONNECTED) by (intros X; apply status_eqb_eq in X; congruence).
    unfold obd_status in Hn. unfold oinv in OI. unfold obd_normal_power, bind, obd_of, gets in H. cbn [fst] in H. destruct (o_interface o) as [e|] eqn:Hi; [|contradiction].
    destruct (connected_port e OI Hn) as [p Hp].
    unfold on_interface in H. rewrite Hi in H. destruct (elm_normal_power (e, w)) as [r1 [e1 w1]] eqn:L.
    destruct (normal_power_spec _ _ _ _ _ _ Hn Hp L) as (t & T & [(lines & A & -> & ->)|(F & -> & ->)]); injection H as <- <- <-; (split; [reflexivity|]); exists t; (split; [exact T|]).
    + exact (n_done o e t lines Hi Hn A).
    + exact (n_cut o e t Hi Hn F).
Qed.

(* ---- closing ---- *)
Definition emptied (o : obd) : obd := mkObd (o_interface o) [] (o_fast o) (o_timeout o) (o_last_command o) (o_last_header o) (o_frame_counts o).
Definition detached (o : obd) : obd := mkObd None (o_supported o) (o_fast o) (o_timeout o) (o_last_command o) (o_last_header o) (o_frame_counts o).
Definition closed_elm (e : elm) : Prop := e_status e = NOT_CONNECTED /\ e_port e = None /\ e_protocol e = None.
Inductive close_run (o : obd) : list event -> res unit -> obd -> Prop :=
| c_none : o_interface o = None -> close_run o [] (Ok tt) (emptied o)
| c_unconnected e : o_interface o = Some e -> e_status e = NOT_CONNECTED -> close_run o [] (Ok tt) (detached (emptied o))
| c_header_raise e p t x o1 : o_interface o = Some e -> e_status e <> NOT_CONNECTED -> e_protocol e = Some p ->
    header_run (emptied o) e p ECU_HEADER_ENGINE t (Some x) o1 -> close_run o t (Raise x) o1
| c_header_cut e p t o1 : o_interface o = Some e -> e_status e <> NOT_CONNECTED -> e_protocol e = Some p ->
    header_run (emptied o) e p ECU_HEADER_ENGINE t None o1 -> obd_status o1 = NOT_CONNECTED -> close_run o t (Ok tt) (detached o1)
| c_done e p t o1 : o_interface o = Some e -> e_status e <> NOT_CONNECTED -> e_protocol e = Some p ->
    header_run (emptied o) e p ECU_HEADER_ENGINE t None o1 -> obd_status o1 <> NOT_CONNECTED -> close_run o (t ++ good_bye) (Ok tt) (detached o1)
| c_raise e p t o1 t2 e2 : o_interface o = Some e -> e_status e <> NOT_CONNECTED -> e_protocol e = Some p ->
    header_run (emptied o) e p ECU_HEADER_ENGINE t None o1 -> obd_status o1 <> NOT_CONNECTED -> io_error t2 -> closing t2 -> closed_elm e2 ->
    close_run o (t ++ t2) (Raise AttributeError) (with_elm e2 o1).
Lemma set_header_nc h o e w : o_interface o = Some e -> e_status e = NOT_CONNECTED -> set_header h (o, w) = (Ok tt, (o, w)).
Proof.
  intros Hi Hs. unfold set_header. unfold bind at 1. unfold obd_of, gets. cbn [fst]. destruct (text_eqb h (o_last_header o)); [reflexivity|].
  unfold bind. rewrite (on_sap_nc _ _ _ _ Hi Hs). reflexivity.
Qed.
Lemma obd_close_spec o w r o' w' : oinv o -> obd_close (o, w) = (r, (o', w')) -> exists t, w_trace w' = w_trace w ++ t /\ close_run o t r o'.
Proof.
  intros OI H. unfold obd_close in H. unfold bind at 1 in H. change (set_supported [] (o, w)) with (@Ok unit tt, (emptied o, w)) in H. cbv beta iota in H.
  unfold bind at 1 in H. unfold obd_of at 1, gets at 1 in H. cbn [fst] in H. change (o_interface (emptied o)) with (o_interface o) in H.
  unfold oinv in OI. destruct (o_interface o) as [e|] eqn:Hi.
  2:{ injection H as <- <- <-. exists []. rewrite app_nil_r. split; [reflexivity|]. constructor. exact Hi. }
  assert (Hi' : o_interface (emptied o) = Some e) by exact Hi.
  destruct (status_eqb (e_status e) NOT_CONNECTED) eqn:S.
  - apply status_eqb_eq in S. unfold bind at 1 in H. rewrite (set_header_nc _ _ _ _ Hi' S) in H.
    unfold bind at 1 in H. unfold on_interface in H. rewrite Hi' in H. rewrite elm_close_none in H by (apply OI; exact S). injection H as <- <- <-.
    exists []. rewrite app_nil_r. split; [reflexivity|]. exact (c_unconnected o e Hi S).
  - assert (Hn : e_status e <> NOT_CONNECTED) by (intros X; apply status_eqb_eq in X; congruence).
    apply bind_inv in H. destruct H as [([] & [o1 w1] & H1 & H)|(x & H1 & ->)];
      destruct (set_header_spec _ _ _ _ _ _ _ Hi' OI Hn H1) as (p & t1 & P & T1 & HR & _).
    2:{ exists t1. split; [exact T1|]. eapply c_header_raise; eassumption. }
    destruct (header_run_inv _ _ _ _ _ _ _ Hi' OI P HR) as (e1 & Hi1 & I1 & _).
    unfold bind at 1 in H. unfold on_interface in H. rewrite Hi1 in H.
    destruct (e_port e1) as [q|] eqn:Hq.
    + assert (Hs : obd_status o1 <> NOT_CONNECTED).
      { unfold obd_status. rewrite Hi1. intros X. apply I1 in X. congruence. }
      destruct (elm_close (e1, w1)) as [r2 [e2 w2]] eqn:C. destruct (elm_close_spec _ _ _ _ _ _ Hq C) as (t2 & T2 & A1 & A2 & A3 & [(-> & ->)|(-> & B1 & B2)]);
        injection H as <- <- <-; rewrite T1, <- app_assoc in T2.
      * exists (t1 ++ good_bye). split; [exact T2|]. exact (c_done o e p t1 o1 Hi Hn P HR Hs).
      * exists (t1 ++ t2). split; [exact T2|]. apply (c_raise o e p t1 o1 t2 e2); try assumption. split; auto.
    + rewrite elm_close_none in H by exact Hq. injection H as <- <- <-. exists t1. split; [exact T1|].
      refine (c_header_cut o e p t1 o1 Hi Hn P HR _). unfold obd_status. rewrite Hi1. apply I1, Hq.
Qed.

(* ---- the invariant is kept ---- *)
Lemma query_run_inv o c force t r o' : oinv o -> query_run o c force t r o' ->
  oinv o' /\ o_fast o' = o_fast o /\ o_timeout o' = o_timeout o /\ o_supported o' = o_supported o.
Proof.
  intros OI H. unfold oinv in OI. destruct H as [H|H1 H2|e p t x o1 Hi Hs P M HR|e p t o1 Hi Hs P M HR Hn|e p t1 o1 e1 t2 Hi Hs P M HR Hi1 Hs1 A|e p t1 o1 e1 t2 l x Hi Hs P M HR Hi1 Hs1 A C|e p t1 o1 e1 t2 l ms Hi Hs P M HR Hi1 Hs1 A C];
    [repeat split; exact OI|repeat split; exact OI| | | | |]; rewrite Hi in OI;
    destruct (header_run_inv _ _ _ _ _ _ _ Hi OI P HR) as (e' & Hi' & I' & _ & Q1 & Q2 & Q3 & _).
  - unfold oinv. rewrite Hi'. repeat split; assumption || apply I'.
  - unfold oinv. cbn. rewrite Hi'. repeat split; assumption || apply I'.
  - unfold oinv. cbn. split; [apply einv_dead|]. auto.
  - rewrite Hi1 in Hi'. injection Hi' as <-. unfold oinv. cbn. split; [apply einv_awake, I'|]. auto.
  - rewrite Hi1 in Hi'. injection Hi' as <-. unfold oinv. cbn. split; [apply einv_awake, I'|]. auto.
Qed.
Lemma low_run_inv o t o' : oinv o -> low_run o t o' -> oinv o' /\ o_fast o' = o_fast o /\ o_timeout o' = o_timeout o /\ o_supported o' = o_supported o.
Proof.
  intros OI H. unfold oinv in OI. destruct H as [H|e t lines Hi Hs A|e t Hi Hs A]; [repeat split; exact OI| |]; rewrite Hi in OI; (split; [|repeat split; reflexivity]); unfold oinv; cbn.
  - match goal with |- context [if ?b then _ else _] => destruct b end; exact OI.
  - apply einv_dead.
Qed.
Lemma normal_run_inv o t o' : oinv o -> normal_run o t o' -> oinv o' /\ o_fast o' = o_fast o /\ o_timeout o' = o_timeout o /\ o_supported o' = o_supported o.
Proof.
  intros OI H. unfold oinv in OI. destruct H as [H|e t lines Hi Hs A|e t Hi Hs A]; [repeat split; exact OI| |]; rewrite Hi in OI; (split; [|repeat split; reflexivity]); unfold oinv; cbn.
  - exact OI.
  - apply einv_awake, einv_dead.
Qed.
Lemma close_run_inv o t r o' : oinv o -> close_run o t r o' -> oinv o' /\ o_fast o' = o_fast o /\ o_timeout o' = o_timeout o /\ o_supported o' = [].
Proof.
  intros OI H. unfold oinv in OI. destruct H as [H|e Hi Hs|e p t x o1 Hi Hs P HR|e p t o1 Hi Hs P HR Hn|e p t o1 Hi Hs P HR Hn|e p t o1 t2 e2 Hi Hs P HR Hn A1 A2 (A3 & A4 & A5)];
    [repeat split; unfold oinv; cbn; rewrite H; trivial|repeat split| | | |]; rewrite Hi in OI; assert (Hi0 : o_interface (emptied o) = Some e) by exact Hi;
    destruct (header_run_inv _ _ _ _ _ _ _ Hi0 OI P HR) as (e' & Hi' & I' & _ & Q1 & Q2 & Q3 & _).
  - unfold oinv. rewrite Hi'. repeat split; assumption || apply I'.
  - repeat split; assumption.
  - repeat split; assumption.
  - unfold oinv. cbn. repeat split; try assumption; rewrite ?A3, ?A4; try reflexivity. intros X. contradiction.
Qed.

(* any sequence of operations *)
Definition with_supported (l : list command) (o : obd) : obd := mkObd (o_interface o) l (o_fast o) (o_timeout o) (o_last_command o) (o_last_header o) (o_frame_counts o).
Inductive op_run (o : obd) : op -> list event -> res (option response) -> obd -> Prop :=
| run_query c force t r o' : query_run o c force t r o' -> op_run o (OpQuery c force) t (match r with Ok x => Ok (Some x) | Raise x => Raise x end) o'
| run_low t o' : low_run o t o' -> op_run o OpLowPower t (Ok None) o'
| run_normal t o' : normal_run o t o' -> op_run o OpNormalPower t (Ok None) o'
| run_close t r o' : close_run o t r o' -> op_run o OpClose t (match r with Ok _ => Ok None | Raise x => Raise x end) o'
| run_add c : op_run o (OpAdd c) [] (Ok None) (with_supported (set_add c (o_supported o)) o).
Lemma run_op_spec p o w r o' w' : oinv o -> run_op p (o, w) = (r, (o', w')) -> exists t, w_trace w' = w_trace w ++ t /\ op_run o p t r o'.
Proof.
  intros OI H. destruct p as [c force| | | |c]; cbn [run_op] in H; [| | | |injection H as <- <- <-; exists []; rewrite app_nil_r; split; [reflexivity|apply run_add]]; apply bind_inv in H; destruct H as [(a & [o1 w1] & H1 & H)|(x & H1 & ->)].
  - injection H as <- <- <-. destruct (query_spec _ _ _ _ _ _ _ OI H1) as (t & T & Q). exists t. split; [exact T|]. exact (run_query _ _ _ _ _ _ Q).
  - destruct (query_spec _ _ _ _ _ _ _ OI H1) as (t & T & Q). exists t. split; [exact T|]. exact (run_query _ _ _ _ _ _ Q).
  - injection H as <- <- <-. destruct (obd_low_spec _ _ _ _ _ OI H1) as (_ & t & T & Q). exists t. split; [exact T|]. constructor. exact Q.
  - destruct (obd_low_spec _ _ _ _ _ OI H1) as (D & _). discriminate D.
  - injection H as <- <- <-. destruct (obd_normal_spec _ _ _ _ _ OI H1) as (_ & t & T & Q). exists t. split; [exact T|]. constructor. exact Q.
  - destruct (obd_normal_spec _ _ _ _ _ OI H1) as (D & _). discriminate D.
  - injection H as <- <- <-. destruct (obd_close_spec _ _ _ _ _ OI H1) as (t & T & Q). exists t. split; [exact T|]. exact (run_close _ _ _ _ Q).
  - destruct (obd_close_spec _ _ _ _ _ OI H1) as (t & T & Q). exists t. split; [exact T|]. exact (run_close _ _ _ _ Q).
Qed.
Lemma op_run_inv o p t r o' : oinv o -> op_run o p t r o' -> oinv o' /\ o_fast o' = o_fast o /\ o_timeout o' = o_timeout o.
Proof.
  intros OI H. destruct H as [c f t r o' Q|t o' Q|t o' Q|t r o' Q|c]; [| | | |split; [exact OI|split; reflexivity]].
  - destruct (query_run_inv _ _ _ _ _ _ OI Q) as (A & B & C & _). auto.
  - destruct (low_run_inv _ _ _ OI Q) as (A & B & C & _). auto.
  - destruct (normal_run_inv _ _ _ OI Q) as (A & B & C & _). auto.
  - destruct (close_run_inv _ _ _ _ OI Q) as (A & B & C & _). auto.
Qed.
(* an invariant of object and past *)
Lemma run_ops_inv (P : obd -> list event -> Prop) (good : op -> res (option response) -> Prop) :
  (forall o p t0 t r o', oinv o -> P o t0 -> op_run o p t r o' -> good p r -> P o' (t0 ++ t)) ->
  forall ops o w rs o' w', oinv o -> P o (w_trace w) -> run_ops ops (o, w) = (rs, (o', w')) -> Forall2 good ops rs ->
  oinv o' /\ o_fast o' = o_fast o /\ P o' (w_trace w').
Proof.
  intros Step. induction ops as [|p ops IH]; intros o w rs o' w' OI HP H G; cbn [run_ops] in H.
  - injection H as <- <- <-. auto.
  - destruct (run_op p (o, w)) as [r [o1 w1]] eqn:R. destruct (run_ops ops (o1, w1)) as [rs1 [o2 w2]] eqn:RS. injection H as <- <- <-.
    inversion G as [|? ? ? ? G1 G2]; subst. destruct (run_op_spec _ _ _ _ _ _ OI R) as (t & T & Q). destruct (op_run_inv _ _ _ _ _ OI Q) as (I1 & F1 & _).
    destruct (IH o1 w1 rs1 o2 w2 I1) as (A & B & C); try assumption; [rewrite T; exact (Step _ _ _ _ _ _ OI HP Q G1)|]. split; [exact A|]. split; [congruence|exact C].
Qed.
