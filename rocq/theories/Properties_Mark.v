(* Property C82: supported_commands.add(). *)
From Coq Require Import ZArith List Bool Lia String.
From Verif Require Import Py Num Utils Protocol Decoders Command CommandTable Commands World Elm Obd SpecCmd SpecElm SpecObd SpecMark PyFacts CommandThms ElmFacts ElmThms
  ObdFacts ObdThms ObdThms2 ObdThms3 ObdThms4 ObdThms6 Properties_Elm Properties_Commands Properties_Obd.
Import ListNotations.
Open Scope string_scope. Open Scope list_scope. Open Scope Z_scope.

Lemma among_iff c l : in_set c l = true <-> among c l.
Proof. rewrite in_set_iff. reflexivity. Qed.
Lemma alike_trans a b c : alike a b -> alike b c -> alike a c. Proof. unfold alike. intuition congruence. Qed.
Lemma set_add_among d l c : among c (set_add d l) <-> among c l \/ alike d c.
Proof.
  unfold set_add. destruct (in_set d l) eqn:E.
  - split; [auto|]. intros [H|H]; [exact H|]. apply among_iff in E as (d' & I & K). exists d'. split; [exact I|exact (alike_trans _ _ _ K H)].
  - unfold among. split.
    + intros (c' & I & K). apply in_app_or in I as [I|[<-|[]]]; [left; eauto|auto].
    + intros [(c' & I & K)|K]; [exists c'|exists d]; (split; [apply in_or_app; cbn; auto|exact K]).
Qed.
Lemma set_add_distinct d l : unrepeated l -> unrepeated (set_add d l).
Proof.
  unfold set_add, unrepeated. intros H. destruct (in_set d l) eqn:E; [exact H|]. rewrite map_app. cbn [map].
  apply NoDup_Add with (a := (c_command d, c_header d)) (l := map (fun c => (c_command c, c_header c)) l).
  { rewrite <- (app_nil_r (map _ l)) at 1. apply Add_app. }
  split; [exact H|]. intros X. apply in_map_iff in X as (c' & Y & I). apply pair_equal_spec in Y as [Y1 Y2].
  assert (in_set d l = true) by (apply among_iff; exists c'; unfold alike; auto). congruence.
Qed.
Lemma enable_pid_distinct m p l : unrepeated l -> unrepeated (enable_pid m p l).
Proof.
  intros H. unfold enable_pid. set (l1 := if has_pid m p then _ else l). assert (H1 : unrepeated l1).
  { subst l1. destruct (has_pid m p); [|exact H]. destruct (get_pid m p); [apply set_add_distinct|]; exact H. }
  clearbody l1. destruct (_ && _); [|exact H1]. destruct (get_pid 2 p); [apply set_add_distinct|]; exact H1.
Qed.
Lemma enable_bits_distinct m bits : forall p l, unrepeated l -> unrepeated (enable_bits m p bits l).
Proof. induction bits as [|b bits IH]; intros p l H; cbn [enable_bits]; [exact H|]. apply IH. destruct b; [apply enable_pid_distinct|]; exact H. Qed.
Lemma load_one_distinct g o w r o' w' : oinv o -> unrepeated (o_supported o) -> load_one g (o, w) = (r, (o', w')) -> oinv o' /\ unrepeated (o_supported o').
Proof.
  intros OI HP H. unfold load_one in H. unfold bind at 1 in H. cbn [fst] in H. destruct (test_cmd o g) as [b|].
  2:{ apply pair_equal_spec in H as [_ H]. apply pair_equal_spec in H as [<- _]. auto. }
  destruct b; cbn [negb] in H; [|apply pair_equal_spec in H as [_ H]; apply pair_equal_spec in H as [<- _]; auto].
  apply bind_inv in H. destruct H as [(rsp & [o1 w1] & H1 & H)|(x & H1 & _)]; destruct (query_spec _ _ _ _ _ _ _ OI H1) as (t & T & Q); destruct (query_run_inv _ _ _ _ _ _ OI Q) as (I1 & F1 & F2 & F3).
  2:{ rewrite F3. auto. }
  assert (K : oinv o1 /\ unrepeated (o_supported o1)) by (rewrite F3; auto).
  assert (E : forall (x : res unit), (x, (o1, w1)) = (r, (o', w')) -> oinv o' /\ unrepeated (o_supported o')).
  { intros x X. apply pair_equal_spec in X as [_ X]. apply pair_equal_spec in X as [<- _]. exact K. }
  destruct (is_null rsp); [exact (E _ H)|]. destruct (r_value rsp); try exact (E _ H). destruct (c_mode g); [|exact (E _ H)]. destruct (c_pid g); [|exact (E _ H)].
  cbn in H. apply pair_equal_spec in H as [_ H]. apply pair_equal_spec in H as [<- _]. split; [exact I1|]. cbn [o_supported]. apply enable_bits_distinct, K.
Qed.
Lemma load_all_distinct gs : forall o w r o' w', oinv o -> unrepeated (o_supported o) -> load_all gs (o, w) = (r, (o', w')) -> oinv o' /\ unrepeated (o_supported o').
Proof.
  induction gs as [|g gs IH]; intros o w r o' w' OI HP H; cbn [load_all] in H.
  - apply pair_equal_spec in H as [_ H]. apply pair_equal_spec in H as [<- _]. auto.
  - apply bind_inv in H. destruct H as [([] & [o1 w1] & H1 & H)|(x & H1 & _)]; destruct (load_one_distinct _ _ _ _ _ _ OI HP H1) as (I1 & P1); [|auto].
    exact (IH _ _ _ _ _ I1 P1 H).
Qed.
Fixpoint all_differ (x : list (text * text)) : bool :=
  match x with [] => true | a :: l => negb (existsb (fun b => text_eqb (fst a) (fst b) && text_eqb (snd a) (snd b)) l) && all_differ l end.
Lemma all_differ_NoDup x : all_differ x = true -> NoDup x.
Proof.
  induction x as [|a x IH]; cbn [all_differ]; intros E; [constructor|]. apply andb_true_iff in E as [E1 E2]. constructor; [|apply IH, E2].
  intros X. apply negb_true_iff, not_true_iff_false in E1. apply E1. apply existsb_exists. exists a. split; [exact X|]. apply andb_true_iff. split; apply text_eqb_iff; reflexivity.
Qed.
Lemma new_distinct cf port scan w o w' : new_obd cf port scan w = (Ok tt, (o, w')) -> oinv o /\ unrepeated (o_supported o).
Proof.
  intros H. unfold new_obd in H. apply bind_inv in H. destruct H as [([] & [o1 w1] & H1 & H)|(x & _ & D)]; [|discriminate D].
  destruct (connect_spec_set _ _ _ _ _ _ _ H1) as (i & l & -> & F & _ & L). pose proof (fresh_oinv cf i l F) as I1.
  assert (D : unrepeated (o_supported (connected_obd cf i l))).
  { cbn [connected_obd o_supported]. destruct L as [-> | ->]; [|constructor]. unfold unrepeated.
    apply all_differ_NoDup. vm_compute. reflexivity. }
  unfold load_commands in H. unfold bind at 1 in H. unfold obd_of at 1, gets at 1 in H. cbv beta iota in H.
  destruct (negb _).
  - apply pair_equal_spec in H as [_ H]. apply pair_equal_spec in H as [<- _]. auto.
  - exact (load_all_distinct _ _ _ _ _ _ I1 D H).
Qed.
Lemma op_supported o p t r o' : oinv o -> op_run o p t r o' ->
  o_supported o' = match p with OpClose => [] | OpAdd c => set_add c (o_supported o) | _ => o_supported o end.
Proof.
  intros OI Q. destruct Q as [c f t r o' Q|t o' Q|t o' Q|t r o' Q|c]; [| | | |reflexivity].
  - apply (query_run_inv _ _ _ _ _ _ OI Q).
  - apply (low_run_inv _ _ _ OI Q).
  - apply (normal_run_inv _ _ _ OI Q).
  - apply (close_run_inv _ _ _ _ OI Q).
Qed.
Lemma no_close_snoc h x : no_close (h ++ [x]) <-> no_close h /\ st_op x <> OpClose.
Proof. unfold no_close. rewrite Forall_app. split; [intros [A B]; inversion B; auto|]. intros [A B]. split; [exact A|]. constructor; [exact B|constructor]. Qed.
Lemma marked_snoc h p t r c : marked (h ++ [mkStep p t r]) c <-> (marked h c /\ p <> OpClose) \/ (exists c', p = OpAdd c' /\ alike c' c).
Proof.
  split.
  - intros (a & c' & t' & r' & b & E & K & N). destruct b as [|x b _] using rev_ind.
    + apply app_inj_tail in E as [_ E]. injection E as -> _ _. right. eauto.
    + rewrite app_comm_cons, app_assoc in E. apply app_inj_tail in E as [-> <-]. apply no_close_snoc in N as [N M]. left. split; [|exact M].
      exists a, c', t', r', b. auto.
  - intros [((a & c' & t' & r' & b & -> & K & N) & M)|(c' & -> & K)].
    + exists a, c', t', r', (b ++ [mkStep p t r]). split; [rewrite <- app_assoc; reflexivity|]. split; [exact K|]. apply no_close_snoc. auto.
    + exists h, c', t, r, []. split; [reflexivity|]. split; [exact K|constructor].
Qed.

Lemma supported_history : forall s0 h s c, oinv (fst s0) -> history s0 h s ->
  (supports (fst s) c = true <-> (supports (fst s0) c = true /\ no_close h) \/ marked h c).
Proof.
  intros s0 h s c OI H. assert (K : oinv (fst s) /\ (among c (o_supported (fst s)) <-> (among c (o_supported (fst s0)) /\ no_close h) \/ marked h c)).
  2:{ unfold supports. rewrite !among_iff. apply K. }
  induction H as [|h s1 p r s2 t H IH R T].
  - split; [exact OI|]. split; [left; split; [assumption|constructor]|]. intros [[A _]|(a & c' & t' & r' & b & E & _)]; [exact A|]. destruct a; discriminate E.
  - destruct IH as [I1 IH]. destruct s1 as [o1 w1], s2 as [o2 w2]. destruct (run_op_spec _ _ _ _ _ _ I1 R) as (t' & _ & Q). cbn [fst] in *.
    split; [exact (proj1 (op_run_inv _ _ _ _ _ I1 Q))|]. rewrite marked_snoc, no_close_snoc. cbn [st_op]. rewrite (op_supported _ _ _ _ _ I1 Q).
    destruct p as [d f| | | |d].
    + rewrite IH. assert (A : OpQuery d f <> OpClose) by discriminate. split; [tauto|]. intros [[B [C _]]|[[B _]|(c' & D & _)]]; [auto|auto|discriminate D].
    + rewrite IH. assert (A : OpLowPower <> OpClose) by discriminate. split; [tauto|]. intros [[B [C _]]|[[B _]|(c' & D & _)]]; [auto|auto|discriminate D].
    + rewrite IH. assert (A : OpNormalPower <> OpClose) by discriminate. split; [tauto|]. intros [[B [C _]]|[[B _]|(c' & D & _)]]; [auto|auto|discriminate D].
    + split; [intros (x & [] & _)|]. intros [[_ [_ D]]|[[_ D]|(c' & D & _)]]; [congruence|congruence|discriminate D].
    + rewrite set_add_among, IH. assert (A : OpAdd d <> OpClose) by discriminate. split.
      * intros [[[B C]|B]|B]; [left; auto|right; left; auto|right; right; eauto].
      * intros [[B [C _]]|[[B _]|(c' & D & K)]]; [auto|auto|]. injection D as ->. auto.
Qed.
(* ------------------------------------------------------------------ C82 *)
(* the commands that count as supported: those found when connecting and those added since, until close() *)
Theorem C82_supported : forall cf port scan w t0 h o w1 s0 c, session cf port scan w t0 h (o, w1) -> new_obd cf port scan w = (Ok tt, s0) ->
  (supports o c = true <-> (supports (fst s0) c = true /\ no_close h) \/ marked h c).
Proof.
  intros cf port scan w t0 h o w1 s0 c (s1 & N1 & _ & H) N. rewrite N in N1. injection N1 as <-.
  assert (I0 : oinv (fst s0)) by (destruct s0 as [o0 w0]; apply (new_distinct _ _ _ _ _ _ N)). exact (supported_history s0 h (o, w1) c I0 H).
Qed.
(* a marked command is queried exactly as with force=True; the exception is a mode 06 command when the protocol is not CAN *)
Theorem C82_as_forced : forall cf port scan w t0 h o w1 c, session cf port scan w t0 h (o, w1) -> marked h c ->
  (c_mode c = Some 6 -> exists id, obd_protocol_id o = Ok id /\ In id [str "6"; str "7"; str "8"; str "9"]) ->
  query c false (o, w1) = query c true (o, w1).
Proof.
  intros cf port scan w t0 h o w1 c S M G. pose proof S as (s0 & N & _ & H). pose proof (session_oinv _ _ _ _ _ _ _ _ S) as (OI & _).
  assert (I0 : oinv (fst s0)) by (destruct s0 as [o0 w0]; apply (new_distinct _ _ _ _ _ _ N)).
  assert (A : among c (o_supported o)). { apply among_iff. apply (proj2 (supported_history s0 h (o, w1) c I0 H)). auto. }
  destruct (status_eqb (obd_status o) NOT_CONNECTED) eqn:St.
  { apply status_eqb_eq in St. rewrite (proj1 (C43_unconnected_query o w1 c false St)), (proj1 (C43_unconnected_query o w1 c true St)). reflexivity. }
  unfold oinv in OI. destruct (o_interface o) as [e|] eqn:Hi; [|unfold obd_status in St; rewrite Hi in St; discriminate St].
  assert (N' : e_status e <> NOT_CONNECTED) by (unfold obd_status in St; rewrite Hi in St; intros X; apply status_eqb_eq in X; congruence).
  destruct (test_cmd_spec o c e Hi OI N') as (b & B & C). assert (b = true) as -> by (apply C; right; split; [exact A|exact G]).
  unfold query, bind, obd_of, gets. cbn [fst]. rewrite St. unfold ret. cbv beta iota. change (fst (o, w1)) with o. rewrite B. reflexivity.
Qed.
(* in that case, and when it is neither supported by the car nor marked, nothing is sent and the answer is null *)
Theorem C82_unmarked : forall cf port scan w t0 h o w1 c s0, session cf port scan w t0 h (o, w1) -> new_obd cf port scan w = (Ok tt, s0) ->
  (supports (fst s0) c = false \/ ~ no_close h) -> ~ marked h c ->
  query c false (o, w1) = (Ok empty_response, (o, w1)).
Proof.
  intros cf port scan w t0 h o w1 c s0 S N D M. apply (C44_unsupported _ _ _ _ _ _ _ _ _ S). intros [X|(A & _)]; [discriminate X|].
  destruct S as (s1 & N1 & _ & H). rewrite N in N1. injection N1 as <-.
  assert (I0 : oinv (fst s0)) by (destruct s0 as [o0 w0]; apply (new_distinct _ _ _ _ _ _ N)).
  apply in_set_iff in A. destruct (proj1 (supported_history s0 h (o, w1) c I0 H) A) as [[B C]|B]; [|contradiction]. destruct D as [D|D]; [congruence|contradiction].
Qed.
Theorem C82_mode6 : forall cf port scan w t0 h o w1 c, session cf port scan w t0 h (o, w1) -> c_mode c = Some 6 ->
  (forall id, obd_protocol_id o = Ok id -> ~ In id [str "6"; str "7"; str "8"; str "9"]) ->
  query c false (o, w1) = (Ok empty_response, (o, w1)).
Proof.
  intros cf port scan w t0 h o w1 c S M G. apply (C44_unsupported _ _ _ _ _ _ _ _ _ S). intros [X|(_ & A)]; [discriminate X|]. destruct (A M) as (id & B & C). exact (G id B C).
Qed.
(* adding is no port activity, and changes nothing else *)
Theorem C82_only_the_set : forall s c, exists o', run_op (OpAdd c) s = (Ok None, (o', snd s)) /\
  (forall c', supports o' c' = true <-> supports (fst s) c' = true \/ alike c c') /\
  o_interface o' = o_interface (fst s) /\ o_frame_counts o' = o_frame_counts (fst s) /\ o_last_command o' = o_last_command (fst s) /\ o_last_header o' = o_last_header (fst s)
  /\ o_fast o' = o_fast (fst s) /\ o_timeout o' = o_timeout (fst s).
Proof.
  intros [o w] c. eexists. split; [reflexivity|]. cbn [fst o_interface o_frame_counts o_last_command o_last_header o_fast o_timeout]. split; [|auto 10].
  intros c'. unfold supports. cbn [o_supported]. rewrite !among_iff. apply set_add_among.
Qed.
(* it is a set: at no time are two of its commands the same *)
Theorem C82_a_set : forall cf port scan w t0 h o w1, session cf port scan w t0 h (o, w1) -> unrepeated (o_supported o).
Proof.
  intros cf port scan w t0 h o w1 (s0 & N & _ & H). assert (I0 : oinv (fst s0) /\ unrepeated (o_supported (fst s0))) by (destruct s0 as [o0 w0]; apply (new_distinct _ _ _ _ _ _ N)).
  change o with (fst (o, w1)). remember (o, w1) as s. clear Heqs o w1 N. enough (oinv (fst s) /\ unrepeated (o_supported (fst s))) by tauto.
  induction H as [|h s1 p r s2 t H IH R T]; [exact I0|]. destruct IH as [I1 D1]. destruct s1 as [o1 w1], s2 as [o2 w2]. destruct (run_op_spec _ _ _ _ _ _ I1 R) as (t' & _ & Q). cbn [fst] in *.
  split; [exact (proj1 (op_run_inv _ _ _ _ _ I1 Q))|]. rewrite (op_supported _ _ _ _ _ I1 Q). destruct p; try exact D1; [constructor|apply set_add_distinct, D1].
Qed.
(* a custom command: refused, then marked, then sent; after close() and a second mark it is in the set, but there is no connection *)
Definition boost := other "BOOST" "2101" "7E0".
Example C82_example : let '(h, (o, w1)) := outcome (setup false) (fresh (up ++ [says (str "7E8 04 61 01 1A F8")]))
    [OpQuery boost false; OpAdd boost; OpQuery boost false; OpClose; OpQuery boost false; OpAdd boost] in
  map (fun s => writes (st_events s)) h = [[]; []; [line (str "2101")]; [line (str "ATZ")]; []; []] /\ supports o boost = true /\ marked h boost /\ ~ no_close h.
Proof.
  destruct (outcome _ _ _) as [h [o w1]] eqn:E. vm_compute in E. injection E as <- <- <-. split; [vm_compute; reflexivity|]. split; [vm_compute; reflexivity|]. split.
  - eexists [_; _; _; _; _], _, _, _, []. split; [reflexivity|]. split; [split; reflexivity|constructor].
  - intros F. inversion F as [|? ? _ F1]; subst. inversion F1 as [|? ? _ F2]; subst. inversion F2 as [|? ? _ F3]; subst. inversion F3 as [|? ? X _]; subst. apply X. reflexivity.
Qed.

Print Assumptions C82_supported.
Print Assumptions C82_as_forced.
Print Assumptions C82_a_set.
