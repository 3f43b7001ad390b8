(* Looking at a connection in use: what can be seen. *)
From Coq Require Import ZArith List Bool Lia.
From Verif Require Import Py Num Utils Protocol Decoders Command CommandTable Commands World Elm Obd Async Fine SpecObd SpecAsync SpecFine Look SpecLook
  ObdFacts ObdThms AsyncFacts AsyncThms AsyncThms3 AsyncThms4 FineThms FineAsync FineAsync2 FineAsync3.
Import ListNotations.
Open Scope nat_scope.

(* what one access of a query may do to what is seen *)
Definition dims (s s' : conn) : Prop :=
  o_supported (fst s') = o_supported (fst s) /\
  match o_interface (fst s), o_interface (fst s') with
  | None, None => True
  | Some e, Some e' => (e_status e' = e_status e \/ e_status e' = NOT_CONNECTED) /\ (e_port e' = e_port e \/ e_port e' = None) /\ e_protocol e' = e_protocol e
  | _, _ => False
  end.
Lemma dims_refl s : dims s s. Proof. split; [reflexivity|]. destruct (o_interface (fst s)); auto. Qed.
Lemma dims_trans a b c : dims a b -> dims b c -> dims a c.
Proof.
  intros [A1 A2] [B1 B2]. split; [congruence|]. destruct (o_interface (fst a)) as [ea|], (o_interface (fst b)) as [eb|], (o_interface (fst c)) as [ec|]; try contradiction; auto.
  destruct A2 as (A2 & A3 & A4), B2 as (B2 & B3 & B4). rewrite B4, A4. split; [|split; [|reflexivity]].
  - destruct B2 as [B2|B2]; [rewrite B2; exact A2|auto].
  - destruct B3 as [B3|B3]; [rewrite B3; exact A3|auto].
Qed.
Inductive dim {A} : code A -> Prop :=
| dim_done r : dim (Done r)
| dim_act g k : (forall s, dims s (g s)) -> (forall s, dim (k s)) -> dim (Act g k).
Lemma dim_then {A B} (p : code A) (k : A -> code B) : dim p -> (forall a, dim (k a)) -> dim (and_then p k).
Proof. intros P K. induction P as [r|g n G N IH]; cbn [and_then]; [destruct r; [apply K|constructor]|constructor; [exact G|exact IH]]. Qed.
Lemma dim_obj {A} (m : MO A) : (forall s, dims s (snd (m s))) -> dim (obj m).
Proof. intros H. constructor; [exact H|intros s; constructor]. Qed.
Definition edims (s s' : elm * world) : Prop := (e_status (fst s') = e_status (fst s) \/ e_status (fst s') = NOT_CONNECTED) /\ (e_port (fst s') = e_port (fst s) \/ e_port (fst s') = None) /\ e_protocol (fst s') = e_protocol (fst s).
Lemma dim_elm {A} (m : ME A) : (forall s, edims s (snd (m s))) -> dim (elm_ m).
Proof.
  intros H. apply dim_obj. intros [o w]. unfold on_interface. destruct (o_interface o) as [e|] eqn:Hi; [|apply dims_refl].
  specialize (H (e, w)). destruct (m (e, w)) as [r [e' w']]. cbn [snd fst] in *. unfold dims. cbn [fst]. rewrite Hi. cbn. split; [reflexivity|]. exact H.
Qed.
Lemma edims_refl s : edims s s. Proof. unfold edims. auto. Qed.
Lemma dim_pure {A} (a : A) : dim (pure a). Proof. constructor. Qed.
Ltac look1 := first [apply dim_pure | constructor; fail | apply dim_then; [|intros] | apply dim_elm; intros [e w]; first [apply edims_refl | unfold edims; cbn; auto; fail] | apply dim_obj; intros [o w]; first [apply dims_refl | split; [reflexivity|cbn; destruct (o_interface o); auto]; fail]].
Lemma dim_failure : dim f_io_failure. Proof. unfold f_io_failure. repeat look1. Qed.
Lemma dim_write bs : dim (f_write bs).
Proof.
  unfold f_write. look1; [look1|]. destruct a; [|look1]. look1.
  - apply dim_elm. intros [e w]. unfold do_write. destruct (port_write true _ w). unfold edims; cbn; auto.
  - destruct a; [look1|apply dim_failure].
Qed.
Lemma dim_loop marker : forall fuel buffer, dim (f_loop fuel marker buffer).
Proof.
  induction fuel as [|n IH]; intros buffer; cbn [f_loop]; [look1|]. look1.
  - apply dim_elm. intros [e w]. unfold do_read. destruct (port_read w). unfold edims; cbn; auto.
  - destruct a as [[|x l]|]; [look1| |look1]. destruct (contains marker (buffer ++ x :: l)); [look1|apply IH].
Qed.
Lemma dim_read marker : dim (f_read marker).
Proof.
  unfold f_read. look1; [look1|]. destruct a; [|look1]. look1; [look1|]. look1; [apply dim_loop|]. destruct a0; [look1|]. look1; [apply dim_failure|look1].
Qed.
Lemma dim_again marker : forall n r, dim (f_read_again n marker r).
Proof. induction n as [|n IH]; intros r; cbn [f_read_again]; [look1|]. destruct (nonempty r); [look1|]. look1; [apply dim_read|apply IH]. Qed.
Lemma dim_send cmd d m : dim (f_send_gen cmd d m).
Proof. unfold f_send_gen. look1; [apply dim_write|]. look1; [apply dim_read|apply dim_again]. Qed.
Lemma dim_normal : dim f_elm_normal_power.
Proof. unfold f_elm_normal_power. look1; [look1|]. destruct (status_eqb a NOT_CONNECTED); [look1|]. look1; [apply dim_send|]. repeat look1. Qed.
Lemma dim_parse cmd : dim (f_send_and_parse cmd).
Proof.
  unfold f_send_and_parse. look1; [look1|]. destruct (status_eqb a NOT_CONNECTED); [look1|]. look1; [look1|]. look1; [destruct a0; [look1; [apply dim_normal|look1]|look1]|].
  look1; [apply dim_send|]. look1; [look1|]. destruct a3; [|constructor]. look1; [constructor|look1].
Qed.
Lemma dim_header h : dim (f_set_header h).
Proof. unfold f_set_header. look1; [look1|]. destruct (text_eqb h a); [look1|]. look1; [apply dim_parse|]. destruct a0 as [[|m ms]|]; try look1. destruct (negb _); look1. Qed.
Lemma dim_query c force : dim (f_query c force).
Proof.
  unfold f_query. look1; [look1|]. destruct (status_eqb a NOT_CONNECTED); [look1|]. look1; [destruct force; [look1|]; apply dim_obj; intros s; apply dims_refl|].
  destruct (negb a0); [look1|]. look1; [apply dim_header|]. look1; [look1|]. look1; [apply dim_parse|]. look1; [destruct (nonempty a2); look1|]. look1; [look1|].
  look1; [destruct (dict_mem cmd_eqb a5 c); [look1|destruct a3; [look1|constructor]]|]. destruct a3 as [[|m ms]|]; [look1|constructor|look1].
Qed.
Lemma dim_run {A} (p : code A) : dim p -> forall s, dims s (snd (run p s)).
Proof. induction 1 as [r|g k G K IH]; intros s; cbn [run]; [apply dims_refl|]. exact (dims_trans _ _ _ (G s) (IH _ _)). Qed.

(* ---- before or after ---- *)
Lemma show_kept k a b : dims a b -> (forall e, o_interface (fst b) = Some e -> (e_status e <> NOT_CONNECTED) /\ e_port e <> None) -> show k (fst b) = show k (fst a).
Proof.
  intros [A1 A2] N. unfold show, obd_status, is_connected, obd_status, obd_port_name, obd_protocol_id, obd_protocol_name, elm_port_name, elm_protocol_id, elm_protocol_name, supports. rewrite A1.
  destruct (o_interface (fst a)) as [ea|], (o_interface (fst b)) as [eb|]; try contradiction; [|reflexivity]. destruct (N _ eq_refl) as (N1 & N2). destruct A2 as (A2 & A3 & A4). rewrite A4.
  destruct A2 as [A2|A2]; [rewrite A2|congruence]. destruct A3 as [A3|A3]; [rewrite A3|congruence]. reflexivity.
Qed.
Lemma show_mid k a b c : dims a b -> dims b c -> show k (fst b) = show k (fst a) \/ show k (fst b) = show k (fst c).
Proof.
  intros [A1 A2] [B1 B2]. unfold show, is_connected, obd_status, obd_port_name, obd_protocol_id, obd_protocol_name, elm_port_name, elm_protocol_id, elm_protocol_name, supports. rewrite B1, A1.
  destruct (o_interface (fst a)) as [ea|], (o_interface (fst b)) as [eb|], (o_interface (fst c)) as [ec|]; try contradiction; [|auto]. destruct A2 as (A2 & A3 & A4), B2 as (B2 & B3 & B4). rewrite B4, A4. destruct k; try (left; reflexivity).
  - destruct A2 as [A2|A2]; [left; rewrite A2; reflexivity|right]. destruct B2 as [B2|B2]; rewrite B2, ?A2; reflexivity.
  - destruct A2 as [A2|A2]; [left; rewrite A2; reflexivity|right]. destruct B2 as [B2|B2]; rewrite B2, ?A2; reflexivity.
  - destruct A3 as [A3|A3]; [left; rewrite A3; reflexivity|right]. destruct B3 as [B3|B3]; rewrite B3, ?A3; reflexivity.
Qed.
Lemma thread_events i b s s' : thread_step i b s = Some s' -> exists new, a_events s' = a_events s ++ new.
Proof.
  unfold thread_step. intros H. destruct (nth_error (a_threads s) i) as [q|]; [|discriminate H]. 
  destruct q; repeat match type of H with
   | context [match ?x with _ => _ end] => destruct x
   end; try discriminate H; injection H as <-; cbn; eauto using app_nil_r; try (exists []; rewrite app_nil_r; reflexivity).
Qed.
Lemma main_events s s' : main_step s = Some s' -> exists new, a_events s' = a_events s ++ new.
Proof.
  unfold main_step. intros H. destruct (a_pc s);
  repeat match type of H with
   | context [match ?x with _ => _ end] => destruct x
   end; try discriminate H; injection H as <-; cbn; first [eexists; reflexivity | exists []; rewrite app_nil_r; reflexivity | eexists; rewrite <- app_assoc; reflexivity].
Qed.
