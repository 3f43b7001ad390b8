(* The start-up of the adapter: proofs for C37-C40. *)
From Coq Require Import ZArith List Bool Lia.
From Verif Require Import Py Num Utils Protocol World Elm SpecElm ElmFacts.
Import ListNotations.
Open Scope Z_scope.
Ltac Zify.zify_post_hook ::= Z.div_mod_to_equations.

Lemma bind_inv {S A B} (m : M S A) (k : A -> M S B) s r s' : bind m k s = (r, s') ->
  (exists a s1, m s = (Ok a, s1) /\ k a s1 = (r, s')) \/ (exists x, m s = (Raise x, s') /\ r = Raise x).
Proof. unfold bind. destruct (m s) as [[a|x] s1]; intros H; [left; eauto|right; injection H as <- <-; eauto]. Qed.

Lemma elm_send_spec cmd d e w p r e' w' : e_port e = Some p -> elm_send cmd d (e, w) = (r, (e', w')) ->
  exists t, w_trace w' = w_trace w ++ t /\
  ((exists lines, r = Ok lines /\ e' = e /\ asks (tries d) cmd t lines)
   \/ (r = Ok [] /\ e' = dead e /\ failed_exchange [PROMPT] (tries d) cmd t)).
Proof. intros Hp H. apply (elm_send_gen_spec [62] cmd d e w p r e' w'); [discriminate|exact Hp|exact H]. Qed.
Lemma elm_send_none cmd d e w : e_port e = None -> elm_send cmd d (e, w) = (Ok [], (e, w)).
Proof. apply elm_send_gen_none. Qed.
Definition closing (t : list event) : Prop := exists t', t = t' ++ [EvClose].
Lemma closing_app a b : closing b -> closing (a ++ b).
Proof. intros [t ->]. exists (a ++ t). rewrite app_assoc. reflexivity. Qed.
Lemma failed_closing m n cmd t : failed_exchange m n cmd t -> closing t.
Proof.
  intros H. destruct H.
  - exists [EvFail]. reflexivity.
  - exists [EvWrite (cmd ++ [CR]); EvFail]. reflexivity.
  - eexists (_ :: _). reflexivity.
  - eexists (_ :: _). reflexivity.
Qed.
Lemma failed_io m n cmd t : failed_exchange m n cmd t -> io_error t.
Proof.
  assert (B : forall m rs, broken m rs -> In (EvRead None) (map EvRead rs)).
  { intros m' rs []. rewrite map_app. apply in_or_app. right. left. reflexivity. }
  intros H. unfold io_error. destruct H as [| |rs H|n' rs0 rs H1 H2 H].
  - left. left. reflexivity.
  - left. right. left. reflexivity.
  - right. right. apply in_or_app. left. eapply B, H.
  - right. right. apply in_or_app. left. rewrite map_app. apply in_or_app. right. eapply B, H.
Qed.
Lemma io_app_l a b : io_error a -> io_error (a ++ b).
Proof. intros [H|H]; [left|right]; apply in_or_app; auto. Qed.
Lemma io_app_r a b : io_error b -> io_error (a ++ b).
Proof. intros [H|H]; [left|right]; apply in_or_app; auto. Qed.

(* the port died: the object after any number of further attempts *)
Definition died (e : elm) (t : list event) : Prop := e_status e = NOT_CONNECTED /\ e_port e = None /\ closing t /\ io_error t.
Lemma died_dead m n cmd e t : failed_exchange m n cmd t -> died (dead e) t.
Proof. intros H. repeat split; [eapply failed_closing|eapply failed_io]; exact H. Qed.
Lemma died_app e a b : died e b -> died e (a ++ b).
Proof. intros (H1 & H2 & H3 & H4). repeat split; auto using closing_app, io_app_r. Qed.

Lemma text_eqb_iff a : forall b, text_eqb a b = true <-> a = b.
Proof.
  induction a as [|x a IH]; destruct b as [|y b]; cbn; try (split; congruence).
  rewrite andb_true_iff, Z.eqb_eq, IH. split; [intros [-> ->]; reflexivity|intros H; injection H; auto].
Qed.
Lemma has_message_iff lines s : has_message lines s = true <-> exists l, In l lines /\ holds s l.
Proof. unfold has_message. rewrite existsb_exists. split; intros (l & H1 & H2); exists l; split; auto; apply contains_iff; exact H2. Qed.
Lemma unable_iff lines : has_message lines UNABLE = true <-> unable lines.
Proof. apply has_message_iff. Qed.
Lemma unable_false lines : has_message lines UNABLE = false <-> ~ unable lines.
Proof. rewrite <- unable_iff. destruct (has_message lines UNABLE); split; congruence. Qed.

Definition lookup (id : text) : option pclass := dict_get text_eqb supported_protocols id.
Lemma lookup_known id c : lookup id = Some c -> In id known_ids /\ pc_id c = id /\ c <> UnknownProtocol.
Proof.
  unfold lookup, supported_protocols. cbn [dict_get].
  repeat match goal with |- (if text_eqb ?a id then _ else _) = _ -> _ =>
    destruct (text_eqb a id) eqn:E;
    [apply text_eqb_iff in E; subst id; intros H; injection H as <-; clear; split; [vm_compute; tauto|split; [reflexivity|discriminate]]
    |clear E] end.
  discriminate.
Qed.
Lemma known_lookup id : In id known_ids -> exists c, lookup id = Some c.
Proof.
  intros H. cbn [known_ids In] in H.
  repeat (destruct H as [<-|H]; [eexists; vm_compute; reflexivity|]). destruct H.
Qed.
Lemma mem_known id : dict_mem text_eqb supported_protocols id = true <-> In id known_ids.
Proof.
  unfold dict_mem. fold (lookup id). destruct (lookup id) eqn:E.
  - split; [intros _; apply (lookup_known id p E)|reflexivity].
  - split; [discriminate|]. intros H. apply known_lookup in H as [c H]. congruence.
Qed.
Lemma mem_known_false id : dict_mem text_eqb supported_protocols id = false <-> ~ In id known_ids.
Proof. rewrite <- mem_known. destruct (dict_mem text_eqb supported_protocols id); split; congruence. Qed.

(* the result of the protocol constructor *)
Definition built (id : text) (r0100 : list text) (e e' : elm) : Prop :=
  exists c p, lookup id = Some c /\ new_protocol c r0100 = Ok p
    /\ e' = mkElm (e_status e) (e_port e) (Some p) (e_low_power e) (e_timeout e).
Lemma instantiate_spec id r0100 e w r s' : In id known_ids -> instantiate id r0100 (e, w) = (r, s') ->
  snd s' = w /\ ((r = Ok tt /\ built id r0100 e (fst s')) \/ (exists c x, lookup id = Some c /\ new_protocol c r0100 = Raise x /\ r = Raise x /\ fst s' = e)).
Proof.
  intros K H. apply known_lookup in K as [c K]. unfold instantiate in H. unfold lookup in K. rewrite K in H.
  unfold bind, of_res in H. destruct (new_protocol c r0100) as [p|x] eqn:E; cbn in H; injection H as <- <-; cbn; split; auto.
  - left. split; [reflexivity|]. exists c, p. auto.
  - right. exists c, x. auto.
Qed.

(* what choosing a protocol comes to *)
Definition chosen_or_dead (sel : list event -> option (text * list text) -> Prop) (e : elm) (t : list event) (r : res bool) (e' : elm) : Prop :=
  (r = Ok false /\ e' = e /\ sel t None)
  \/ (exists id r0, r = Ok true /\ sel t (Some (id, r0)) /\ built id r0 e e')
  \/ (exists id r0 c x, r = Raise x /\ sel t (Some (id, r0)) /\ e' = e /\ lookup id = Some c /\ new_protocol c r0 = Raise x)
  \/ (died e' t /\ ((exists b, r = Ok b) \/ exists c x r0, r = Raise x /\ new_protocol c r0 = Raise x)).

(* once the port is dead, nothing happens on it *)
Definition inert {A} (m : ME A) : Prop := forall e w r e' w', e_port e = None -> m (e, w) = (r, (e', w')) ->
  w' = w /\ e_port e' = None /\ e_status e' = e_status e.

Lemma send_step {B} cmd d (k : list text -> ME B) e w p r s' : e_port e = Some p -> bind (elm_send cmd d) k (e, w) = (r, s') ->
  exists t w1, w_trace w1 = w_trace w ++ t /\
  ((exists lines, asks (tries d) cmd t lines /\ k lines (e, w1) = (r, s'))
   \/ (died (dead e) t /\ k [] (dead e, w1) = (r, s'))).
Proof.
  intros Hp H. apply bind_inv in H. destruct H as [(lines & [e1 w1] & H1 & H2)|(x & H1 & ->)].
  - destruct (elm_send_spec cmd d e w p _ _ _ Hp H1) as (t & T & [(l & El & -> & A)|(El & -> & F)]); injection El as <-.
    + exists t, w1. split; [exact T|]. left. exists lines. auto.
    + exists t, w1. split; [exact T|]. right. split; [eapply died_dead, F|exact H2].
  - destruct s' as [e1 w1]. destruct (elm_send_spec cmd d e w p _ _ _ Hp H1) as (t & T & [(l & El & _)|(El & _)]); discriminate El.
Qed.
Lemma send_dead {B} cmd d (k : list text -> ME B) e w : e_port e = None -> bind (elm_send cmd d) k (e, w) = k [] (e, w).
Proof. intros H. unfold bind. rewrite elm_send_none by exact H. reflexivity. Qed.

Definition no_port_result (r : res bool) : Prop := (exists b, r = Ok b) \/ exists c x r0, r = Raise x /\ new_protocol c r0 = Raise x.

Lemma instantiate_dead id r0100 e w r e' w' : In id known_ids -> e_port e = None ->
  (do! instantiate id r0100; ret true) (e, w) = (r, (e', w')) ->
  w' = w /\ e_port e' = None /\ e_status e' = e_status e /\ no_port_result r.
Proof.
  intros K Hp H. apply bind_inv in H. destruct H as [([] & [e1 w1] & H1 & H2)|(x & H1 & ->)].
  - apply instantiate_spec in H1; [|exact K]. cbn in H2. injection H2 as <- <- <-. destruct H1 as (E1 & [(_ & c & q & _ & _ & E2)|(c & x & _ & _ & D & _)]); [|discriminate D].
    cbn in E1, E2. subst. cbn. repeat split; auto. left. eauto.
  - apply instantiate_spec in H1; [|exact K]. cbn in H1. destruct H1 as (E1 & [(D & _)|(c & y & _ & E2 & E3 & E4)]); [discriminate D|].
    injection E3 as <-. subst. repeat split; auto. right. exists c, x, r0100. auto.
Qed.
Lemma try_protocols_dead ids : Forall (fun id => In id known_ids) ids -> forall e w r e' w', e_port e = None -> try_protocols ids (e, w) = (r, (e', w')) ->
  w' = w /\ e_port e' = None /\ e_status e' = e_status e /\ no_port_result r.
Proof.
  intros F e w r e' w' Hp H. destruct ids as [|id ids]; cbn [try_protocols] in H.
  - injection H as <- <- <-. repeat split; auto. left. eauto.
  - rewrite !send_dead in H by exact Hp. cbn [has_message existsb negb] in H. inversion F; subst. eapply instantiate_dead; eauto.
Qed.
Lemma manual_dead id : In id known_ids -> forall e w r e' w', e_port e = None -> manual_protocol id (e, w) = (r, (e', w')) ->
  w' = w /\ e_port e' = None /\ e_status e' = e_status e /\ no_port_result r.
Proof.
  intros K e w r e' w' Hp H. unfold manual_protocol in H. rewrite !send_dead in H by exact Hp. cbn [has_message existsb negb] in H.
  eapply instantiate_dead; eauto.
Qed.
Lemma auto_dead e w r e' w' : e_port e = None -> auto_protocol (e, w) = (r, (e', w')) ->
  w' = w /\ e_port e' = None /\ e_status e' = e_status e /\ no_port_result r.
Proof.
  intros Hp H. unfold auto_protocol in H. rewrite !send_dead in H by exact Hp. cbn [has_message existsb] in H. rewrite send_dead in H by exact Hp.
  injection H as <- <- <-. repeat split; auto. left. eauto.
Qed.

(* one probe *)
Lemma probe_step {B} id (k : list text -> ME B) e w p r s' : e_port e = Some p ->
  (do! elm_send (str "ATTP" ++ id) false; do r0100 <- elm_send (str "0100") false; k r0100) (e, w) = (r, s') ->
  exists t w1, w_trace w1 = w_trace w ++ t /\
  ((exists lines, probes id t lines /\ k lines (e, w1) = (r, s'))
   \/ (died (dead e) t /\ k [] (dead e, w1) = (r, s'))).
Proof.
  intros Hp H. apply (send_step _ _ _ e w p r s' Hp) in H. destruct H as (t1 & w1 & T1 & [(l1 & A1 & H)|(D & H)]).
  - cbn beta in H. apply (send_step _ _ _ e w1 p r s' Hp) in H. destruct H as (t2 & w2 & T2 & [(l2 & A2 & H)|(D & H)]).
    + exists (t1 ++ t2), w2. rewrite T2, T1, app_assoc. split; [reflexivity|]. left. exists l2. split; [|exact H].
      exists t1, l1, t2. rewrite tries_false in *. auto.
    + exists (t1 ++ t2), w2. rewrite T2, T1, app_assoc. split; [reflexivity|]. right. split; [apply died_app, D|exact H].
  - rewrite send_dead in H by reflexivity. exists t1, w1. auto.
Qed.
Lemma instantiate_alive id r0100 e w r e' w' : In id known_ids ->
  (do! instantiate id r0100; ret true) (e, w) = (r, (e', w')) ->
  w' = w /\ ((r = Ok true /\ built id r0100 e e') \/ (exists c x, r = Raise x /\ e' = e /\ lookup id = Some c /\ new_protocol c r0100 = Raise x)).
Proof.
  intros K H. apply bind_inv in H. destruct H as [([] & [e1 w1] & H1 & H2)|(x & H1 & ->)].
  - apply instantiate_spec in H1; [|exact K]. cbn in H2. injection H2 as <- <- <-. cbn in H1. destruct H1 as (E1 & [(_ & E2)|(c & x & _ & _ & D & _)]); [|discriminate D].
    auto.
  - apply instantiate_spec in H1; [|exact K]. cbn in H1. destruct H1 as (E1 & [(D & _)|(c & y & E0 & E2 & E3 & E4)]); [discriminate D|].
    injection E3 as <-. split; [exact E1|]. right. exists c, x. auto.
Qed.

Lemma try_protocols_spec ids : Forall (fun id => In id known_ids) ids -> forall e w p r e' w', e_port e = Some p ->
  try_protocols ids (e, w) = (r, (e', w')) ->
  exists t, w_trace w' = w_trace w ++ t /\ chosen_or_dead (tries_in_turn ids) e t r e'.
Proof.
  intros F. induction F as [|id ids K F IH]; intros e w p r e' w' Hp H.
  - cbn in H. injection H as <- <- <-. exists []. rewrite app_nil_r. split; [reflexivity|]. left. repeat split. constructor.
  - cbn [try_protocols] in H. apply (probe_step id _ e w p r (e', w') Hp) in H. destruct H as (t & w1 & T & [(l & P & H)|(D & H)]).
    + destruct (has_message l UNABLE) eqn:U; cbn [negb] in H.
      * apply unable_iff in U. apply (IH e w1 p r e' w' Hp) in H. destruct H as (t' & T' & C).
        exists (t ++ t'). rewrite T', T, app_assoc. split; [reflexivity|].
        destruct C as [(-> & -> & C)|[(id' & r0 & -> & C & Bu)|[(id' & r0 & c & x & -> & C & Bu)|(D & C)]]].
        -- left. repeat split. eapply turn_miss; eassumption.
        -- right. left. exists id', r0. repeat split; auto. eapply turn_miss; eassumption.
        -- right. right. left. exists id', r0, c, x. repeat split; try apply Bu. eapply turn_miss; eassumption.
        -- right. right. right. split; [apply died_app, D|exact C].
      * apply unable_false in U. apply instantiate_alive in H; [|exact K]. destruct H as (-> & H). exists t. split; [exact T|].
        destruct H as [(-> & Bu)|(c & x & -> & -> & Bu)].
        -- right. left. exists id, l. repeat split; auto. apply turn_hit; assumption.
        -- right. right. left. exists id, l, c, x. repeat split; try apply Bu. apply turn_hit; assumption.
    + cbn [has_message existsb negb] in H. apply instantiate_dead in H; [|exact K|reflexivity]. destruct H as (-> & P1 & P2 & N).
      exists t. split; [exact T|]. right. right. right. split; [|exact N]. destruct D as (_ & _ & D1 & D2). repeat split; auto.
Qed.

Lemma order_known : Forall (fun id => In id known_ids) try_protocol_order.
Proof. rewrite Forall_forall. intros id H. apply mem_known. revert id H. apply Forall_forall. repeat (constructor; [vm_compute; reflexivity|]). constructor. Qed.
Lemma strip_auto_spec p : (In (strip_auto p) known_ids -> reports p (strip_auto p)) /\ (~ In (strip_auto p) known_ids -> forall id, ~ reports p id).
Proof.
  assert (L : forall id, In id known_ids -> exists c, id = [c]).
  { intros id H. cbn [known_ids In] in H. repeat (destruct H as [<-|H]; [eexists; vm_compute; reflexivity|]). destruct H. }
  unfold strip_auto, reports.
  destruct ((1 <? zlen p) && startswith (str "A") p) eqn:E.
  - apply andb_true_iff in E as [E1 E2]. apply startswith_iff in E2 as [b Eb]. change (str "A") with [65] in Eb. subst p. cbn [app from skipn] in *.
    unfold from. cbn [skipn]. split.
    + intros H. auto.
    + intros H id [K [R|R]].
      * destruct (L id K) as [c ->]. injection R as _ ->. unfold zlen in E1. cbn in E1. discriminate E1.
      * injection R as <-. auto.
  - split; [auto|]. intros H id [K [R|R]]; [subst; auto|].
    subst p. destruct (L id K) as [c ->]. unfold zlen in E. cbn in E. discriminate E.
Qed.
Lemma auto_protocol_spec e w p r e' w' : e_port e = Some p -> auto_protocol (e, w) = (r, (e', w')) ->
  exists t, w_trace w' = w_trace w ++ t /\ chosen_or_dead (selection None) e t r e'.
Proof.
  intros Hp H. unfold auto_protocol in H.
  apply (send_step _ _ _ e w p _ _ Hp) in H. destruct H as (t1 & w1 & T1 & [(l1 & A1 & H)|(D & H)]).
  2: { rewrite send_dead in H by reflexivity. cbn [has_message existsb] in H. rewrite send_dead in H by reflexivity. injection H as <- <- <-.
       exists t1. split; [exact T1|]. right. right. right. split; [exact D|]. left. eauto. }
  cbn beta in H. apply (send_step _ _ _ e w1 p _ _ Hp) in H. destruct H as (t2 & w2 & T2 & [(l2 & A2 & H)|(D & H)]).
  2: { cbn [has_message existsb] in H. rewrite send_dead in H by reflexivity. injection H as <- <- <-.
       exists (t1 ++ t2). rewrite T2, T1, app_assoc. split; [reflexivity|]. right. right. right. split; [apply died_app, D|]. left. eauto. }
  rewrite tries_true in *. cbn beta in H.
  destruct (has_message l2 UNABLE) eqn:U.
  { injection H as <- <- <-. exists (t1 ++ t2). rewrite T2, T1, app_assoc. split; [reflexivity|]. left. repeat split.
    eapply sel_unable; [exact A1|exact A2|]. apply unable_iff, U. }
  apply unable_false in U.
  apply (send_step _ _ _ e w2 p _ _ Hp) in H. destruct H as (t3 & w3 & T3 & [(l3 & A3 & H)|(D & H)]).
  2: { injection H as <- <- <-. exists (t1 ++ t2 ++ t3). rewrite T3, T2, T1, !app_assoc. split; [reflexivity|].
       right. right. right. split; [|left; eauto]. rewrite <- app_assoc. apply died_app, died_app, D. }
  rewrite tries_false in *. cbn beta in H.
  assert (Conf : length l3 <> 1%nat -> ret false (e, w3) = (r, (e', w')) ->
     exists t, w_trace w' = w_trace w ++ t /\ chosen_or_dead (selection None) e t r e').
  { intros N E. injection E as <- <- <-. exists (t1 ++ t2 ++ t3). rewrite T3, T2, T1, !app_assoc. split; [reflexivity|].
    left. repeat split. rewrite <- app_assoc. eapply sel_confused; eassumption. }
  destruct l3 as [|pp [|q l3]]; [apply Conf; [discriminate|exact H]| |apply Conf; [discriminate|exact H]].
  clear Conf. cbn zeta in H. destruct (strip_auto_spec pp) as [S1 S2].
  destruct (dict_mem text_eqb supported_protocols (strip_auto pp)) eqn:K.
  - apply mem_known in K. apply instantiate_alive in H; [|exact K]. destruct H as (-> & H).
    exists (t1 ++ t2 ++ t3). rewrite T3, T2, T1, <- !app_assoc. split; [reflexivity|].
    assert (Sel : selection None (t1 ++ t2 ++ t3) (Some (strip_auto pp, l2))) by (eapply sel_auto; eauto).
    destruct H as [(-> & Bu)|(c & x & -> & -> & Bu)].
    + right. left. exists (strip_auto pp), l2. auto.
    + right. right. left. exists (strip_auto pp), l2, c, x. repeat split; auto; apply Bu.
  - apply mem_known_false in K. apply (try_protocols_spec _ order_known e w3 p r e' w' Hp) in H. destruct H as (t4 & T4 & C).
    exists (t1 ++ t2 ++ t3 ++ t4). rewrite T4, T3, T2, T1, <- !app_assoc. split; [reflexivity|].
    assert (Sel : forall res, tries_in_turn attempt_order t4 res -> selection None (t1 ++ t2 ++ t3 ++ t4) res) by (intros; eapply sel_tried; eauto).
    destruct C as [(-> & -> & C)|[(id' & r0 & -> & C & Bu)|[(id' & r0 & c & x & -> & C & Bu)|(D & C)]]].
    + left. auto.
    + right. left. exists id', r0. auto.
    + right. right. left. exists id', r0, c, x. repeat split; auto; apply Bu.
    + right. right. right. split; [|exact C]. apply died_app, died_app, died_app, D.
Qed.
Lemma set_protocol_spec proto e w p r e' w' : e_port e = Some p -> set_protocol proto (e, w) = (r, (e', w')) ->
  exists t, w_trace w' = w_trace w ++ t /\ chosen_or_dead (selection proto) e t r e'.
Proof.
  intros Hp H. destruct proto as [id|]; cbn [set_protocol] in H; [|eapply auto_protocol_spec; eassumption].
  destruct (dict_mem text_eqb supported_protocols id) eqn:K; cbn [negb] in H.
  - apply mem_known in K. unfold manual_protocol in H. apply (probe_step id _ e w p r (e', w') Hp) in H.
    destruct H as (t & w1 & T & [(l & P & H)|(D & H)]).
    + destruct (has_message l UNABLE) eqn:U; cbn [negb] in H.
      * apply unable_iff in U. injection H as <- <- <-. exists t. split; [exact T|]. left. repeat split. eapply sel_manual_unable; eassumption.
      * apply unable_false in U. apply instantiate_alive in H; [|exact K]. destruct H as (-> & H). exists t. split; [exact T|].
        destruct H as [(-> & Bu)|(c & x & -> & -> & Bu)].
        -- right. left. exists id, l. repeat split; auto. apply sel_manual; assumption.
        -- right. right. left. exists id, l, c, x. repeat split; try apply Bu. apply sel_manual; assumption.
    + cbn [has_message existsb negb] in H. apply instantiate_dead in H; [|exact K|reflexivity]. destruct H as (-> & P1 & P2 & N).
      exists t. split; [exact T|]. right. right. right. split; [|exact N]. destruct D as (_ & _ & D1 & D2). repeat split; auto.
  - apply mem_known_false in K. injection H as <- <- <-. exists []. rewrite app_nil_r. split; [reflexivity|]. left. repeat split. apply sel_refused, K.
Qed.

(* ---------------------------------------------------------------- baud rates *)
Definition with_port (e : elm) (p : port) : elm := mkElm (e_status e) (Some p) (e_protocol e) (e_low_power e) (e_timeout e).
Lemma endswith1_iff c l : endswith1 c l = true <-> exists l', l = l' ++ [c].
Proof.
  unfold endswith1. split.
  - destruct (rev l) as [|x r] eqn:E; [discriminate|]. intros H. apply Z.eqb_eq in H. subst x. exists (rev r).
    rewrite <- (rev_involutive l), E. reflexivity.
  - intros [l' ->]. rewrite rev_app_distr. cbn. apply Z.eqb_refl.
Qed.
Lemma last_default x l (d d' : Z) : last (x :: l) d = last (x :: l) d'.
Proof. revert x. induction l as [|y l IH]; intros x; [reflexivity|]. change (last (y :: l) d = last (y :: l) d'). apply IH. Qed.
Lemma last_shift b l (d : Z) : last (b :: l) d = last l b.
Proof. destruct l as [|x l]; [reflexivity|]. change (last (x :: l) d = last (x :: l) b). apply last_default. Qed.
Definition rate (def : Z) (bauds : list Z) (res : option Z) : Z := match res with Some b => b | None => last bauds def end.
Lemma try_each_baud_spec old bauds : forall e w p r e' w', e_port e = Some p -> try_each_baud old bauds (e, w) = (r, (e', w')) ->
  exists t, w_trace w' = w_trace w ++ t /\
  ((exists td res, t = td ++ [EvTimeout old] /\ detects bauds td res /\ r = Ok (match res with Some _ => true | None => false end)
      /\ e' = with_port e (mkPort (pt_name p) (rate (pt_baud p) bauds res) old))
   \/ (r = Raise SerialError /\ io_error t)).
Proof.
  induction bauds as [|b bauds IH]; intros e w p r e' w' Hp H; cbn [try_each_baud] in H.
  - unfold bind, set_timeout in H. rewrite Hp in H. injection H as <- <- <-. exists [EvTimeout old]. split; [reflexivity|].
    left. exists [], None. repeat split. constructor.
  - apply bind_inv in H. destruct H as [([] & [e1 w1] & H1 & H)|(x & H1 & ->)]; unfold set_baud, port_baud in H1; rewrite Hp in H1;
      destruct (match w_confs w with x :: _ => x | [] => true end); try discriminate H1.
    2: { injection H1 as <- <- <-. eexists. split; [reflexivity|]. right. split; [reflexivity|]. left. left. reflexivity. }
    injection H1 as <- <-. cbn [emit w_trace] in *.
    apply bind_inv in H. set (w1 := emit _ _) in *. assert (T1 : w_trace w1 = w_trace w ++ [EvBaud b]) by reflexivity. clearbody w1.
    set (e1 := mkElm _ _ _ _ _) in *. assert (E1 : e1 = with_port e (mkPort (pt_name p) b (pt_timeout p))) by reflexivity. clearbody e1.
    destruct H as [(bs & [e2 w2] & H1 & H)|(x & H1 & ->)]; unfold baud_probe in H1.
    + destruct (port_write true [127; 127; 13] w1) as [ok w2'] eqn:PW. destruct ok; [|discriminate H1].
      assert (T2 : w_trace w2' = w_trace w1 ++ [EvWrite [127; 127; CR]]).
      { revert PW. unfold port_write. destruct (match w_writes w1 with o :: _ => o | [] => WOk end); intros X; injection X; try discriminate. intros <-. reflexivity. }
      destruct (port_read w2') as [rr w3] eqn:PR. destruct rr as [bs'|]; [|discriminate H1]. injection H1 as -> <- <-.
      assert (T3 : w_trace w3 = w_trace w2' ++ [EvRead (Some bs)]).
      { revert PR. unfold port_read. intros X. injection X as X1 <-. cbn. rewrite X1. reflexivity. }
      destruct (endswith1 62 bs) eqn:E.
      * apply endswith1_iff in E as [bs' ->]. unfold bind, set_timeout in H. rewrite E1 in H. cbn [with_port e_port] in H. injection H as <- <- <-.
        cbn [emit w_trace]. exists ([EvBaud b; EvWrite [127; 127; CR]; EvRead (Some (bs' ++ [PROMPT]))] ++ [EvTimeout old]).
        rewrite T3, T2, T1, <- !app_assoc. split; [reflexivity|].
        left. eexists _, (Some b). split; [reflexivity|]. split; [constructor|]. split; reflexivity.
      * apply (IH e1 w3 (mkPort (pt_name p) b (pt_timeout p))) in H; [|rewrite E1; reflexivity].
        destruct H as (t & T & C). exists ([EvBaud b; EvWrite [127; 127; CR]; EvRead (Some bs)] ++ t).
        rewrite T, T3, T2, T1, <- !app_assoc. split; [reflexivity|].
        destruct C as [(td & res & -> & D & -> & ->)|(-> & D)].
        -- left. exists ([EvBaud b; EvWrite [127; 127; CR]; EvRead (Some bs)] ++ td), res. split; [rewrite <- app_assoc; reflexivity|].
           split; [|split; [reflexivity|]].
           ++ apply detect_miss; [|exact D]. intros bs' ->. assert (endswith1 62 (bs' ++ [PROMPT]) = true) by (apply endswith1_iff; eauto). congruence.
           ++ rewrite E1. unfold with_port. cbn [e_status e_protocol e_low_power e_timeout pt_name pt_baud]. destruct res; [reflexivity|]. cbn [rate].
              do 3 f_equal. symmetry. apply last_shift.
        -- right. split; [reflexivity|]. apply io_app_r, D.
    + destruct (port_write true [127; 127; 13] w1) as [ok w2'] eqn:PW. destruct ok.
      * assert (T2 : w_trace w2' = w_trace w1 ++ [EvWrite [127; 127; CR]]).
        { revert PW. unfold port_write. destruct (match w_writes w1 with o :: _ => o | [] => WOk end); intros X; injection X; try discriminate. intros <-. reflexivity. }
        destruct (port_read w2') as [rr w3] eqn:PR. destruct rr as [bs'|]; [discriminate H1|]. injection H1 as <- <- <-.
        assert (T3 : w_trace w3 = w_trace w2' ++ [EvRead None]).
        { revert PR. unfold port_read. intros X. injection X as X1 <-. cbn. rewrite X1. reflexivity. }
        exists [EvBaud b; EvWrite [127; 127; CR]; EvRead None]. rewrite T3, T2, T1, <- !app_assoc. split; [reflexivity|].
        right. split; [reflexivity|]. right. cbn. auto.
      * injection H1 as <- <- <-. revert PW. unfold port_write.
        destruct (match w_writes w1 with o :: _ => o | [] => WOk end); intros X; injection X; try discriminate; intros <-; cbn [emit w_trace];
          rewrite T1, <- !app_assoc; (eexists; split; [reflexivity|]); right; (split; [reflexivity|]); left; cbn; auto.
Qed.
Lemma set_baudrate_spec baud e w p r e' w' : e_port e = Some p -> pt_timeout p = 10000 -> pt_baud p = 9600 ->
  set_baudrate baud (e, w) = (r, (e', w')) ->
  exists t, w_trace w' = w_trace w ++ t /\
  ((exists res, opening (pt_name p) (e_timeout e) baud t res /\ r = Ok (match res with Some _ => true | None => false end)
     /\ e' = with_port e (mkPort (pt_name p) (match res with Some b => b | None => last baud_rates 9600 end) 10000))
   \/ (r = Raise SerialError /\ io_error t)).
Proof.
  intros Hp Ht Hb H. destruct baud as [b|]; cbn [set_baudrate] in H.
  - unfold bind, set_baud, port_baud in H. rewrite Hp in H. destruct (match w_confs w with x :: _ => x | [] => true end); injection H as <- <- <-.
    + exists [EvBaud b]. split; [reflexivity|]. left. exists (Some b). repeat split; [constructor|]. unfold with_port. rewrite Ht. reflexivity.
    + eexists. split; [reflexivity|]. right. split; [reflexivity|]. left. left. reflexivity.
  - unfold bind in H. cbn [elm_of gets fst] in H. unfold elm_port_name in H. rewrite Hp in H.
    destruct (startswith (str "/dev/pts") (pt_name p)) eqn:E.
    + injection H as <- <- <-. exists []. rewrite app_nil_r. split; [reflexivity|]. left. exists (Some 9600).
      split; [apply opening_pts, startswith_iff, E|]. split; [reflexivity|]. destruct e, p; cbn in *; subst. reflexivity.
    + unfold auto_baudrate in H. unfold bind in H. cbn [elm_of gets fst] in H. rewrite Hp in H. unfold set_timeout in H. rewrite Hp in H.
      apply (try_each_baud_spec _ _ _ _ (mkPort (pt_name p) (pt_baud p) (e_timeout e))) in H; [|reflexivity].
      destruct H as (t & T & C). exists (EvTimeout (e_timeout e) :: t). rewrite T. cbn [emit w_trace]. rewrite <- app_assoc. split; [reflexivity|].
      destruct C as [(td & res & -> & D & -> & ->)|(-> & D)].
      * left. exists res. rewrite Ht. split; [|split; [reflexivity|]].
        -- apply opening_auto; [|exact D]. intros X. apply startswith_iff in X. congruence.
        -- unfold with_port. cbn. rewrite Hb. reflexivity.
      * right. split; [reflexivity|]. apply (io_app_r [_]), D.
Qed.

(* ---------------------------------------------------------------- closing *)
Lemma elm_close_spec e w p r e' w' : e_port e = Some p -> elm_close (e, w) = (r, (e', w')) ->
  exists t, w_trace w' = w_trace w ++ t /\ e_status e' = NOT_CONNECTED /\ e_port e' = None /\ e_protocol e' = None /\
  ((r = Ok tt /\ t = good_bye) \/ (r = Raise AttributeError /\ io_error t /\ closing t)).
Proof.
  intros Hp H. unfold elm_close in H. unfold bind at 1 in H. cbn [set_status] in H. unfold bind at 1 in H. cbn [set_protocol_obj] in H.
  unfold bind at 1 in H. cbn [elm_of gets fst e_port] in H. rewrite Hp in H. set (e1 := mkElm _ _ _ _ _) in H.
  apply bind_inv in H. destruct H as [([] & [e2 w2] & H1 & H)|(x & H1 & ->)].
  - assert (Hp1 : e_port e1 = Some p) by reflexivity.
    destruct (elm_write_spec _ e1 w p _ _ _ Hp1 H1) as (_ & _ & [(-> & T)|(-> & T)]).
    + unfold bind, elm_of, gets in H. cbn [fst] in H. rewrite Hp1 in H. cbn in H. injection H as <- <- <-.
      exists good_bye. cbn. rewrite T, <- app_assoc. cbn. auto 10.
    + unfold bind, elm_of, gets in H. cbn in H. injection H as <- <- <-.
      destruct T as [T|T]; rewrite T; eexists; (split; [reflexivity|]); repeat split; right; (split; [reflexivity|]); split.
      * left. left. reflexivity.
      * exists [EvFail]. reflexivity.
      * left. right. left. reflexivity.
      * eexists [_; _]. reflexivity.
  - assert (Hp1 : e_port e1 = Some p) by reflexivity.
    destruct (elm_write_spec _ e1 w p _ _ _ Hp1 H1) as (D & _). discriminate D.
Qed.
Lemma elm_close_none e w : e_port e = None ->
  elm_close (e, w) = (Ok tt, (mkElm NOT_CONNECTED None None (e_low_power e) (e_timeout e), w)).
Proof. intros H. unfold elm_close, bind. cbn. rewrite H. reflexivity. Qed.

(* ---------------------------------------------------------------- the constructor *)
Lemma isok_echo lines : isok lines true = true <-> exists l, In l lines /\ holds (str "OK") l.
Proof.
  unfold isok. destruct lines as [|l ls]; cbn [nonempty negb].
  - split; [discriminate|intros (l & [] & _)].
  - apply has_message_iff.
Qed.
Lemma isok_plain lines : isok lines false = true <-> lines = [str "OK"].
Proof.
  unfold isok. destruct lines as [|l [|l2 ls]]; cbn [nonempty negb].
  - split; discriminate.
  - rewrite text_eqb_iff. split; [intros ->; reflexivity|intros H; injection H; auto].
  - split; discriminate.
Qed.
Lemma volts_voltage l : volts l = voltage l. Proof. reflexivity. Qed.

(* the state of the object at the end, apart from the trace *)
Definition final (e1 : elm) (st : status) (sel : option (text * list text)) (e : elm) : Prop :=
  e_status e = st /\
  match st with
  | NOT_CONNECTED => e_port e = None
  | _ => e_port e = e_port e1 /\ e_low_power e = e_low_power e1 /\ e_timeout e = e_timeout e1
         /\ match sel with
            | None => e_protocol e = e_protocol e1
            | Some (id, r) => exists c p, lookup id = Some c /\ new_protocol c r = Ok p /\ e_protocol e = Some p
            end
  end.
(* the three ways a step of the constructor can end *)
Definition ends (ok : list event -> status -> option (text * list text) -> Prop) (e1 : elm) (t : list event) (r : res unit) (e : elm) : Prop :=
  (r = Ok tt /\ exists st sel, ok t st sel /\ final e1 st sel e)
  \/ (io_error t /\ closing t /\ e_port e = None /\ (r = Ok tt -> e_status e = NOT_CONNECTED) /\ (forall x, r = Raise x -> x = AttributeError \/ exists c r0, new_protocol c r0 = Raise x))
  \/ (exists c r0 x, new_protocol c r0 = Raise x /\ r = Raise x).

Lemma elm_init_car_spec proto e w p r e' w' : e_port e = Some p -> e_status e <> NOT_CONNECTED -> elm_init_car proto (e, w) = (r, (e', w')) ->
  exists t, w_trace w' = w_trace w ++ t /\
  ends (fun t st sel => selection proto t sel /\ st = match sel with Some _ => CAR_CONNECTED | None => e_status e end) e t r e'.
Proof.
  intros Hp Hs H. unfold elm_init_car in H. apply bind_inv in H. destruct H as [(ok & [e1 w1] & H1 & H)|(x & H1 & ->)].
  - destruct (set_protocol_spec proto e w p _ _ _ Hp H1) as (t & T & [(E & -> & S)|[(id & r0 & E & S & Bu)|[(? & ? & ? & ? & E & _)|(D & E)]]]); try discriminate E.
    + injection E as ->. injection H as <- <- <-. exists t. split; [exact T|]. left. split; [reflexivity|]. exists (e_status e), None. split; [auto|].
      split; [reflexivity|]. destruct (e_status e); auto. destruct Hs. reflexivity.
    + injection E as ->. destruct Bu as (c & q & L & N & ->).
      unfold bind in H. cbn [set_status elm_of gets fst e_port e_status e_protocol e_low_power e_timeout] in H. rewrite Hp in H. injection H as <- <- <-.
      exists t. split; [exact T|]. left. split; [reflexivity|]. exists CAR_CONNECTED, (Some (id, r0)). split; [auto|]. split; [reflexivity|]. cbn.
      rewrite Hp. repeat split; auto. exists c, q. auto.
    + clear E. exists t. destruct D as (D1 & D2 & D3 & D4). destruct ok.
      * unfold bind in H. cbn [set_status elm_of gets fst e_port e_status e_protocol e_low_power e_timeout] in H. rewrite D2 in H. injection H as <- <- <-.
        split; [exact T|]. right. left. repeat split; auto; [discriminate|]. intros x X. injection X as <-. auto.
      * injection H as <- <- <-. split; [exact T|]. right. left. repeat split; auto. discriminate.
  - destruct (set_protocol_spec proto e w p _ _ _ Hp H1) as (t & T & [(E & _)|[(id & r0 & E & _)|[(id & r0 & c & y & E & S & -> & L & N)|(D & E)]]]); try discriminate E.
    + injection E as <-. exists t. split; [exact T|]. right. right. exists c, r0, x. auto.
    + destruct E as [[b E]|(c & y & r0 & E & N)]; [discriminate E|]. injection E as <-. exists t. split; [exact T|]. right. right. exists c, r0, x. auto.
Qed.

Definition st_eq (a b : elm) : Prop := e_port a = e_port b /\ e_low_power a = e_low_power b /\ e_timeout a = e_timeout b /\ e_protocol a = e_protocol b.
Lemma final_st_eq e1 e2 st sel e : st_eq e1 e2 -> final e1 st sel e -> final e2 st sel e.
Proof. intros (H1 & H2 & H3 & H4) (F & G). split; [exact F|]. rewrite <- H1, <- H2, <- H3, <- H4. exact G. Qed.

(* elm_error from an open port *)
Lemma error_ends (ok : list event -> status -> option (text * list text) -> Prop) e1 t0 e w p r e' w' : e_port e = Some p ->
  ok (t0 ++ good_bye) NOT_CONNECTED None ->
  elm_error (e, w) = (r, (e', w')) -> exists t, w_trace w' = w_trace w ++ t /\ ends ok e1 (t0 ++ t) r e'.
Proof.
  intros Hp K H. destruct (elm_close_spec e w p r e' w' Hp H) as (t & T & S & P & _ & [(-> & ->)|(-> & I & C)]).
  - exists good_bye. split; [exact T|]. left. split; [reflexivity|]. exists NOT_CONNECTED, None. split; [exact K|]. split; assumption.
  - exists t. split; [exact T|]. right. left. repeat split; auto using io_app_r, closing_app. intros x X. injection X as <-. auto.
Qed.
Lemma error_dead (ok : list event -> status -> option (text * list text) -> Prop) e1 t0 e w r e' w' : died e t0 ->
  elm_error (e, w) = (r, (e', w')) -> w' = w /\ ends ok e1 t0 r e'.
Proof.
  intros (D1 & D2 & D3 & D4) H. unfold elm_error in H. rewrite elm_close_none in H by exact D2. injection H as <- <- <-.
  split; [reflexivity|]. right. left. repeat split; auto. discriminate.
Qed.

Definition volt_ok (check : bool) (proto : option text) (t : list event) (st : status) (sel : option (text * list text)) : Prop :=
  (exists t3, t = t3 ++ good_bye /\ power check t3 None /\ st = NOT_CONNECTED /\ sel = None)
  \/ (power check t (Some false) /\ st = ELM_CONNECTED /\ sel = None)
  \/ (exists t3 t4, t = t3 ++ t4 /\ power check t3 (Some true) /\ selection proto t4 sel
        /\ st = match sel with Some _ => CAR_CONNECTED | None => if check then OBD_CONNECTED else ELM_CONNECTED end).
Lemma elm_init_voltage_spec check proto e w p r e' w' : e_port e = Some p -> elm_init_voltage check proto (e, w) = (r, (e', w')) ->
  exists t, w_trace w' = w_trace w ++ t /\ ends (volt_ok check proto) e t r e'.
Proof.
  intros Hp H. unfold elm_init_voltage in H. unfold bind at 1 in H. cbn [set_status] in H. set (e1 := mkElm _ _ _ _ _) in H.
  assert (Hp1 : e_port e1 = Some p) by exact Hp. assert (Q : st_eq e1 e) by (repeat split).
  assert (Car : forall t3 e2 w2, st_eq e2 e -> e_status e2 = (if check then OBD_CONNECTED else ELM_CONNECTED) -> power check t3 (Some true) ->
     w_trace w2 = w_trace w ++ t3 -> elm_init_car proto (e2, w2) = (r, (e', w')) ->
     exists t, w_trace w' = w_trace w ++ t /\ ends (volt_ok check proto) e t r e').
  { intros t3 e2 w2 Q2 S2 P T2 H2. apply (elm_init_car_spec proto e2 w2 p r e' w') in H2.
    - destruct H2 as (t4 & T4 & C). exists (t3 ++ t4). rewrite T4, T2, app_assoc. split; [reflexivity|].
      destruct C as [(-> & st & sel & (Sel & ->) & F)|[(I & C & P2 & O & R)|C]].
      + left. split; [reflexivity|]. eexists _, sel. split; [|eapply final_st_eq; [exact Q2|exact F]].
        right. right. exists t3, t4. rewrite S2. auto.
      + right. left. repeat split; auto using io_app_r, closing_app.
      + right. right. exact C.
    - destruct Q2 as (Q2 & _). congruence.
    - rewrite S2. destruct check; discriminate. }
  destruct check.
  - apply (send_step _ _ _ e1 w p _ _ Hp1) in H. destruct H as (t & w1 & T & [(lines & A & H)|(D & H)]).
    + rewrite tries_false in A.
      assert (Bad : (forall l v, lines = [l] -> voltage l <> Some v) -> elm_error (e1, w1) = (r, (e', w')) ->
        exists t, w_trace w' = w_trace w ++ t /\ ends (volt_ok true proto) e t r e').
      { intros B H2. apply (error_ends (volt_ok true proto) e t e1 w1 p) in H2; [|exact Hp1|].
        - destruct H2 as (t2 & T2 & E2). exists (t ++ t2). rewrite T2, T, app_assoc. auto.
        - left. exists t. repeat split; auto. eapply power_bad; [exact A|exact B]. }
      destruct lines as [|l [|l2 ls]]; [apply Bad; [discriminate|exact H]| |apply Bad; [discriminate|exact H]].
      destruct l as [|c l]; cbn [nonempty negb] in H.
      { apply Bad; [|exact H]. intros l v E. injection E as <-. vm_compute. discriminate. }
      set (ln := c :: l) in *. clearbody ln. rewrite volts_voltage in H.
      destruct (voltage ln) as [v|] eqn:V; [|apply Bad; [intros l0 v E; injection E as <-; congruence|exact H]].
      destruct (flt v (float_of_Z 6)) eqn:L.
      * injection H as <- <- <-. exists t. split; [exact T|]. left. split; [reflexivity|]. exists ELM_CONNECTED, None. split.
        -- right. left. split; [eapply power_low; eassumption|auto].
        -- repeat split.
      * unfold bind at 1 in H. cbn [set_status] in H. eapply (Car t); [| | |exact T|exact H].
        -- repeat split.
        -- reflexivity.
        -- eapply power_good; [exact A|exact V|]. unfold below_six. congruence.
    + apply (error_dead (volt_ok true proto) e t) in H; [|exact D]. destruct H as (-> & E). exists t. auto.
  - eapply (Car []); [exact Q|reflexivity|constructor| |exact H]. rewrite app_nil_r. reflexivity.
Qed.

Definition opened_ok (name : text) (baud : option Z) (proto : option text) (timeout : Z) (check : bool)
  (t : list event) (st : status) (sel : option (text * list text)) (b : Z) : Prop :=
  (exists t1, t = t1 ++ good_bye /\ opening name timeout baud t1 None /\ st = NOT_CONNECTED /\ sel = None)
  \/ (exists t1 t2, t = t1 ++ t2 ++ good_bye /\ opening name timeout baud t1 (Some b) /\ not_ready t2 /\ st = NOT_CONNECTED /\ sel = None)
  \/ (exists t1 t2 t3, t = t1 ++ t2 ++ t3 /\ opening name timeout baud t1 (Some b) /\ ready t2 /\ volt_ok check proto t3 st sel).
(* the part after the baud rate *)
Definition acks_ok (check : bool) (proto : option text) (t : list event) (st : status) (sel : option (text * list text)) : Prop :=
  (exists t2, t = t2 ++ good_bye /\ not_ready t2 /\ st = NOT_CONNECTED /\ sel = None)
  \/ (exists t2 t3, t = t2 ++ t3 /\ ready t2 /\ volt_ok check proto t3 st sel).
Definition after_baud (check : bool) (proto : option text) : ME unit :=
    do! elm_send (str "ATZ") true;
    do r <- elm_send (str "ATE0") false;
    if negb (isok r true) then elm_error
    else
      do r <- elm_send (str "ATH1") false;
      if negb (isok r false) then elm_error
      else
        do r <- elm_send (str "ATL0") false;
        if negb (isok r false) then elm_error
        else elm_init_voltage check proto.
Lemma after_baud_spec check proto e w p r e' w' : e_port e = Some p -> after_baud check proto (e, w) = (r, (e', w')) ->
  exists t, w_trace w' = w_trace w ++ t /\ ends (acks_ok check proto) e t r e'.
Proof.
  intros Hp H. unfold after_baud in H.
  assert (Dd : forall t w1, w_trace w1 = w_trace w ++ t -> died (dead e) t -> elm_error (dead e, w1) = (r, (e', w')) ->
    exists t, w_trace w' = w_trace w ++ t /\ ends (acks_ok check proto) e t r e').
  { intros t w1 T D X. apply (error_dead (acks_ok check proto) e t) in X; [|exact D]. destruct X as (-> & X). exists t. auto. }
  assert (Err : forall t w1, w_trace w1 = w_trace w ++ t -> not_ready t -> elm_error (e, w1) = (r, (e', w')) ->
    exists t, w_trace w' = w_trace w ++ t /\ ends (acks_ok check proto) e t r e').
  { intros t w1 T N X. apply (error_ends (acks_ok check proto) e t e w1 p) in X; [|exact Hp|].
    - destruct X as (t' & T' & X). exists (t ++ t'). rewrite T', T, app_assoc. auto.
    - left. exists t. auto. }
  apply (send_step _ _ _ e w p _ _ Hp) in H. destruct H as (tz & w1 & T1 & [(lz & Az & H)|(D & H)]).
  2: { rewrite send_dead in H by reflexivity. cbn in H. eapply Dd; eassumption. }
  rewrite tries_true in Az. cbn beta in H.
  apply (send_step _ _ _ e w1 p _ _ Hp) in H. destruct H as (te & w2 & T2 & [(le & Ae & H)|(D & H)]);
    assert (T12 : w_trace w2 = w_trace w ++ tz ++ te) by (rewrite T2, T1, app_assoc; reflexivity).
  2: { cbn in H. eapply Dd; [exact T12|apply died_app, D|exact H]. }
  rewrite tries_false in Ae. destruct (isok le true) eqn:O1; cbn [negb] in H.
  2: { eapply Err; [exact T12| |exact H]. exists tz, lz, te. split; [reflexivity|]. split; [exact Az|]. left. exists le. split; [exact Ae|].
       rewrite <- isok_echo. congruence. }
  apply isok_echo in O1.
  apply (send_step _ _ _ e w2 p _ _ Hp) in H. destruct H as (th & w3 & T3 & [(lh & Ah & H)|(D & H)]);
    assert (T13 : w_trace w3 = w_trace w ++ tz ++ te ++ th) by (rewrite T3, T12, <- !app_assoc; reflexivity).
  2: { cbn in H. eapply Dd; [exact T13|apply died_app, died_app, D|exact H]. }
  rewrite tries_false in Ah. destruct (isok lh false) eqn:O2; cbn [negb] in H.
  2: { eapply Err; [exact T13| |exact H]. exists tz, lz, (te ++ th). split; [reflexivity|]. split; [exact Az|]. right. left.
       exists te, le, th, lh. repeat split; auto. rewrite <- isok_plain. congruence. }
  apply isok_plain in O2. subst lh.
  apply (send_step _ _ _ e w3 p _ _ Hp) in H. destruct H as (tl & w4 & T4 & [(ll & Al & H)|(D & H)]);
    assert (T14 : w_trace w4 = w_trace w ++ tz ++ te ++ th ++ tl) by (rewrite T4, T13, <- !app_assoc; reflexivity).
  2: { cbn in H. eapply Dd; [exact T14|apply died_app, died_app, died_app, D|exact H]. }
  rewrite tries_false in Al. destruct (isok ll false) eqn:O3; cbn [negb] in H.
  2: { eapply Err; [exact T14| |exact H]. exists tz, lz, (te ++ th ++ tl). split; [reflexivity|]. split; [exact Az|]. right. right.
       exists te, le, th, tl, ll. repeat split; auto. rewrite <- isok_plain. congruence. }
  apply isok_plain in O3. subst ll.
  apply (elm_init_voltage_spec check proto e w4 p r e' w' Hp) in H. destruct H as (tv & Tv & E).
  exists ((tz ++ te ++ th ++ tl) ++ tv). rewrite Tv, T14, <- !app_assoc. split; [reflexivity|].
  destruct E as [(-> & st & sel & V & F)|[(I & C & P & O & X)|E]].
  - left. split; [reflexivity|]. exists st, sel. split; [|exact F]. right. exists (tz ++ te ++ th ++ tl), tv. rewrite <- !app_assoc. repeat split; auto.
    exists tz, te, th, tl, lz, le. auto 10.
  - right. left. rewrite !app_assoc. repeat split; auto using io_app_r, closing_app.
  - right. right. exact E.
Qed.

Theorem new_elm_spec name baud proto timeout check slp w r w' : new_elm name baud proto timeout check slp w = (r, w') ->
  exists t, w_trace w' = w_trace w ++ t /\
  ((exists e st sel b, r = Ok e /\ startup name baud proto timeout check slp t st sel b /\ e_status e = st
      /\ (st = NOT_CONNECTED -> e_port e = None)
      /\ (st <> NOT_CONNECTED -> exists b', b = Some b' /\ e_port e = Some (mkPort name b' 10000) /\ e_low_power e = false /\ e_timeout e = timeout)
      /\ (st <> NOT_CONNECTED -> match sel with
         | None => e_protocol e = Some unknown_protocol
         | Some (id, a) => exists c p, lookup id = Some c /\ new_protocol c a = Ok p /\ e_protocol e = Some p
         end))
   \/ (io_error t /\ (exists t', t = EvOpen name true :: t') /\ (forall e, r = Ok e -> e_status e = NOT_CONNECTED /\ e_port e = None /\ closing t)
         /\ (forall x, r = Raise x -> x = AttributeError \/ x = SerialError \/ exists c r0, new_protocol c r0 = Raise x))
   \/ (exists c r0 x, new_protocol c r0 = Raise x /\ r = Raise x)).
Proof.
  intros H. unfold new_elm in H. unfold port_open in H. set (ok := match w_opens w with b :: _ => b | [] => true end) in H.
  set (w0 := emit _ _) in H. assert (T0 : w_trace w0 = w_trace w ++ [EvOpen name ok]) by reflexivity. clearbody w0. destruct ok.
  2: { unfold elm_error in H. rewrite elm_close_none in H by reflexivity. injection H as <- <-. exists [EvOpen name false]. split; [exact T0|].
       left. eexists _, NOT_CONNECTED, None, None. split; [reflexivity|]. split; [constructor|]. repeat split; intros; congruence. }
  set (e1 := mkElm _ (Some _) _ _ _) in H. set (p1 := mkPort name 9600 10000) in *.
  destruct (elm_init_opened baud proto check slp (e1, w0)) as [r1 [e2 w2]] eqn:I.
  assert (Hr : w' = w2 /\ r = match r1 with Ok _ => Ok e2 | Raise x => Raise x end) by (destruct r1; injection H as <- <-; auto).
  destruct Hr as [-> ->]. clear H.
  unfold elm_init_opened in I. fold (after_baud check proto) in I. apply bind_inv in I.
  assert (Hp : e_port e1 = Some p1) by reflexivity.
  assert (W : exists tw, w_trace w2 = w_trace w0 ++ tw /\
    ((exists t, tw = wake slp ++ t /\ (exists w1, w_trace w1 = w_trace w0 ++ wake slp /\
        (do ok <- set_baudrate baud; if negb ok then elm_error else after_baud check proto) (e1, w1) = (r1, (e2, w2)))
      /\ w_trace w2 = w_trace w0 ++ wake slp ++ t)
     \/ (io_error tw /\ closing tw /\ exists w1, w_trace w1 = w_trace w0 ++ tw /\
        (do ok <- set_baudrate baud; if negb ok then elm_error else after_baud check proto) (dead e1, w1) = (r1, (e2, w2))))).
  { assert (Pre : forall m : ME unit, (forall e w r e' w', m (e, w) = (r, (e', w')) -> exists t, w_trace w' = w_trace w ++ t) -> True) by auto. clear Pre.
    destruct I as [([] & [ea wa] & Ia & I)|(x & Ia & ->)].
    - destruct slp.
      + destruct (elm_write_spec _ e1 w0 p1 _ _ _ Hp Ia) as (_ & _ & [(-> & Ta)|(-> & Ta)]).
        * assert (exists t, w_trace w2 = w_trace wa ++ t).
          { apply bind_inv in I. destruct I as [(ok & [eb wb] & Ib & I)|(x & Ib & ->)].
            - destruct (set_baudrate_spec baud e1 wa p1 _ _ _ Hp eq_refl eq_refl Ib) as (t & T & [(res & _ & E & ->)|(E & _)]); [|discriminate E].
              injection E as ->. destruct res; cbn [negb] in I.
              + eapply after_baud_spec in I; [|reflexivity]. destruct I as (t2 & T2 & _). exists (t ++ t2). rewrite T2, T, app_assoc. reflexivity.
              + eapply elm_close_spec in I; [|reflexivity]. destruct I as (t2 & T2 & _). exists (t ++ t2). rewrite T2, T, app_assoc. reflexivity.
            - destruct (set_baudrate_spec baud e1 wa p1 _ _ _ Hp eq_refl eq_refl Ib) as (t & T & _). exists t. exact T. }
          destruct H as [t T]. exists (wake true ++ t). rewrite T, Ta, <- app_assoc. split; [reflexivity|]. left. exists t. split; [reflexivity|].
          split; [|reflexivity]. exists wa. split; [exact Ta|exact I].
        * assert (w2 = wa).
          { destruct baud as [b|]; [injection I as <- <- <-; reflexivity|]. cbn [set_baudrate] in I. unfold bind in I at 1. unfold bind in I at 1.
            unfold elm_of, gets in I. cbn [fst dead elm_port_name e_port startswith str] in I. cbn in I. injection I as <- <- <-. reflexivity. }
          subst w2. destruct Ta as [Ta|Ta]; eexists; (split; [exact Ta|]); right; (split; [|split; [|exists wa; split; [exact Ta|exact I]]]).
          -- left. left. reflexivity.
          -- exists [EvFail]. reflexivity.
          -- left. right. left. reflexivity.
          -- eexists [_; _]. reflexivity.
      + injection Ia as <- <-.
        assert (exists t, w_trace w2 = w_trace w0 ++ t).
        { pose proof I as I'. apply bind_inv in I'. destruct I' as [(ok & [eb wb] & Ib & I')|(x & Ib & ->)].
          - destruct (set_baudrate_spec baud e1 w0 p1 _ _ _ Hp eq_refl eq_refl Ib) as (t & T & [(res & _ & E & ->)|(E & _)]); [|discriminate E].
            injection E as ->. destruct res; cbn [negb] in I'.
            + eapply after_baud_spec in I'; [|reflexivity]. destruct I' as (t2 & T2 & _). exists (t ++ t2). rewrite T2, T, app_assoc. reflexivity.
            + eapply elm_close_spec in I'; [|reflexivity]. destruct I' as (t2 & T2 & _). exists (t ++ t2). rewrite T2, T, app_assoc. reflexivity.
          - destruct (set_baudrate_spec baud e1 w0 p1 _ _ _ Hp eq_refl eq_refl Ib) as (t & T & _). exists t. exact T. }
        destruct H as [t T]. exists t. split; [exact T|]. left. exists t. split; [reflexivity|]. split; [|exact T]. exists w0. cbn. rewrite app_nil_r. auto.
    - destruct slp; [|discriminate Ia]. destruct (elm_write_spec _ e1 w0 p1 _ _ _ Hp Ia) as (D & _). discriminate D. }
  clear I. destruct W as (tw & Tw & [(t & -> & (w1 & T1 & I) & T2)|(Io & Cl & w1 & T1 & I)]).
  2: { exists (EvOpen name true :: tw). rewrite Tw, T0, <- app_assoc. split; [reflexivity|]. right. left.
       destruct baud as [b|].
       - injection I as <- <- <-. split; [apply (io_app_r [_]), Io|]. split; [eauto|]. split; [discriminate|]. intros x X. injection X as <-. auto.
       - cbn [set_baudrate] in I. unfold bind in I at 1. unfold bind in I at 1. unfold elm_of, gets in I. cbn in I. injection I as <- <- <-.
         split; [apply (io_app_r [_]), Io|]. split; [eauto|]. split; [discriminate|]. intros x X. injection X as <-. auto. }
  exists (EvOpen name true :: wake slp ++ t). rewrite Tw, T0, <- app_assoc. split; [reflexivity|].
  assert (Ht : forall t', w_trace w2 = w_trace w1 ++ t' -> t' = t).
  { intros t' E. rewrite T2, T1, <- app_assoc in E. apply app_inv_head in E. apply app_inv_head in E. auto. }
  apply bind_inv in I. destruct I as [(ok & [eb wb] & Ib & I)|(x & Ib & ->)].
  2: { destruct (set_baudrate_spec baud e1 w1 p1 _ _ _ Hp eq_refl eq_refl Ib) as (t1 & T & [(? & _ & E & _)|(E & D)]); [discriminate E|].
       rewrite (Ht _ T) in D. injection E as ->. right. left. split; [apply (io_app_r [_]), io_app_r, D|]. split; [eauto|]. split; [discriminate|]. intros x X. injection X as <-. auto. }
  destruct (set_baudrate_spec baud e1 w1 p1 _ _ _ Hp eq_refl eq_refl Ib) as (t1 & T & [(res & Op & E & ->)|(E & _)]); [|discriminate E].
  cbn [p1 pt_name e1 e_timeout] in Op. injection E as ->.
  assert (Fin : forall sts t2, w_trace w2 = w_trace wb ++ t2 ->
     ends sts (with_port e1 (mkPort name (match res with Some b => b | None => last baud_rates 9600 end) 10000)) t2 r1 e2 ->
     (forall st sel, sts t2 st sel -> startup name baud proto timeout check slp (EvOpen name true :: wake slp ++ t1 ++ t2) st sel res \/ (st = NOT_CONNECTED /\ startup name baud proto timeout check slp (EvOpen name true :: wake slp ++ t1 ++ t2) st sel None)) ->
     t = t1 ++ t2 /\ ((exists e st sel b, match r1 with Ok _ => Ok e2 | Raise x => Raise x end = Ok e /\ startup name baud proto timeout check slp (EvOpen name true :: wake slp ++ t) st sel b /\ e_status e = st
      /\ (st = NOT_CONNECTED -> e_port e = None)
      /\ (st <> NOT_CONNECTED -> exists b', b = Some b' /\ e_port e = Some (mkPort name b' 10000) /\ e_low_power e = false /\ e_timeout e = timeout)
      /\ (st <> NOT_CONNECTED -> match sel with
         | None => e_protocol e = Some unknown_protocol
         | Some (id, a) => exists c p, lookup id = Some c /\ new_protocol c a = Ok p /\ e_protocol e = Some p
         end))
      \/ (io_error (EvOpen name true :: wake slp ++ t) /\ (exists t', EvOpen name true :: wake slp ++ t = EvOpen name true :: t') /\ (forall e, match r1 with Ok _ => Ok e2 | Raise x => Raise x end = Ok e -> e_status e = NOT_CONNECTED /\ e_port e = None /\ closing (EvOpen name true :: wake slp ++ t))
         /\ (forall x, match r1 with Ok _ => Ok e2 | Raise x => Raise x end = Raise x -> x = AttributeError \/ x = SerialError \/ exists c r0, new_protocol c r0 = Raise x))
      \/ (exists c r0 x, new_protocol c r0 = Raise x /\ match r1 with Ok _ => Ok e2 | Raise x => Raise x end = Raise x))).
  { intros sts t2 T3 En Im. assert (t = t1 ++ t2) by (symmetry; apply Ht; rewrite T3, T, app_assoc; reflexivity). subst t. split; [reflexivity|].
    destruct En as [(-> & st & sel & Ok_ & F)|[(Io & Cl & P & Os & X)|(c & r0 & x & N & ->)]].
    - left. exists e2, st, sel. destruct (Im st sel Ok_) as [St|(-> & St)].
      + exists res. split; [reflexivity|]. split; [exact St|]. destruct F as (F1 & F2). split; [exact F1|].
        split; [intros ->; exact F2|]. split.
        * intros N. assert (exists b', res = Some b') as [b' ->] by (clear - St N; inversion St; subst; eauto; congruence).
          exists b'. destruct st; try (destruct N; reflexivity); destruct F2 as (F2 & F3 & F4 & F5); cbn in *; auto.
        * intros N. destruct st; try (destruct N; reflexivity); destruct F2 as (F2 & F3 & F4 & F5); destruct sel as [[id a]|]; exact F5.
      + exists None. split; [reflexivity|]. split; [exact St|]. destruct F as (F1 & F2). split; [exact F1|]. split; [auto|]. split; congruence.
    - right. left. split; [apply (io_app_r [_]), io_app_r, io_app_r, Io|]. split; [eauto|]. split.
      + intros e E. destruct r1 as [[]|]; [|discriminate E]. injection E as <-. repeat split; auto.
        change (closing ([EvOpen name true] ++ wake slp ++ t1 ++ t2)). auto using closing_app.
      + intros x E. destruct r1 as [[]|y]; [discriminate E|]. injection E as ->. destruct (X x eq_refl) as [->|Y]; auto.
    - right. right. exists c, r0, x. auto. }
  destruct res as [b|]; cbn [negb] in I.
  - apply (after_baud_spec check proto _ _ (mkPort name b 10000)) in I; [|reflexivity]. destruct I as (t2 & T3 & En).
    destruct (Fin _ t2 T3 En) as (-> & R); [|exact R]. clear Fin En. intros st sel [(t3 & -> & N & -> & ->)|(t3 & t4 & -> & R & V)].
    + right. split; [reflexivity|]. eapply st_no_ack; eassumption.
    + destruct V as [(t5 & -> & P & -> & ->)|[(P & -> & ->)|(t5 & t6 & -> & P & S & ->)]].
      * right. split; [reflexivity|]. eapply st_no_volts; eassumption.
      * left. eapply st_low_volts; eassumption.
      * left. destruct sel as [[id a]|]; [eapply st_car|eapply st_no_protocol]; eassumption.
  - apply (error_ends (fun t st sel => t = good_bye /\ st = NOT_CONNECTED /\ sel = None) (with_port e1 (mkPort name (last baud_rates 9600) 10000)) [] _ _ (mkPort name (last baud_rates 9600) 10000)) in I;
      [|reflexivity|cbn; auto]. destruct I as (t2 & T3 & En). cbn [app] in En.
    destruct (Fin _ t2 T3 En) as (-> & R); [|exact R]. intros st sel (-> & -> & ->). right. split; [reflexivity|]. eapply st_no_baud; eassumption.
Qed.
