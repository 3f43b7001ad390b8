(* What a connection supports, which port it uses, and which exceptions a query raises. *)
From Coq Require Import ZArith List Bool Lia.
From Verif Require Import Py Num Utils Protocol Decoders Command CommandTable Commands World Elm Obd SpecElm SpecObd PyFacts CommandThms ElmFacts ElmThms ObdFacts ObdThms ObdThms2 ObdThms3 ObdThms4 ObdThms5 ObdThms6
  Properties_Protocol Properties_Decoders.
Import ListNotations.
Open Scope Z_scope.
Ltac Zify.zify_post_hook ::= Z.div_mod_to_equations.

(* the connection phase, with the commands it leaves *)
Lemma connect_result cf port scan w o' w' : connect cf port scan (initial_obd cf, w) = (Ok tt, (o', w')) ->
  exists i, fresh_elm i /\ ((obd_status o' <> NOT_CONNECTED /\ o' = connected_obd cf i base_set)
     \/ (obd_status o' = NOT_CONNECTED /\ o' = connected_obd cf None [])
     \/ (port = None /\ scan = [] /\ o' = connected_obd cf None base_set /\ w' = w)).
Proof.
  change (initial_obd cf) with (connected_obd cf None base_set). intros H. unfold connect in H.
  assert (K : forall (m : MO unit), (forall r o1 w1, m (connected_obd cf None base_set, w) = (r, (o1, w1)) -> exists i', o1 = connected_obd cf i' base_set /\ fresh_elm i') ->
    bind m (fun _ => close_if_failed) (connected_obd cf None base_set, w) = (Ok tt, (o', w')) ->
    exists i, fresh_elm i /\ ((obd_status o' <> NOT_CONNECTED /\ o' = connected_obd cf i base_set) \/ (obd_status o' = NOT_CONNECTED /\ o' = connected_obd cf None []))).
  { intros m M X. apply bind_inv in X. destruct X as [(a & [o1 w1] & H1 & X)|(x & _ & D)]; [|discriminate D]. destruct (M _ _ _ H1) as (i' & -> & F).
    destruct (close_if_failed_spec _ _ _ _ _ _ _ F X) as (_ & -> & [(_ & ->)|(N & ->)]); exists i'; (split; [exact F|]); [right|left]; (split; [|reflexivity]); [reflexivity|exact N]. }
  destruct port as [p|].
  - destruct (K (connect_port cf p)) as (i & F & [D|D]); [| |exists i; auto|exists i; auto]; [|exact H]. intros r1 o1 w1 H1.
    destruct (connect_port_spec _ _ _ _ _ _ _ _ H1) as [(e & _ & -> & N)|(y & _ & -> & N)].
    + exists (Some e). split; [reflexivity|]. exact (new_elm_einv _ _ _ _ _ _ _ _ _ N).
    + exists None. split; [reflexivity|exact Logic.I].
  - destruct scan as [|p scan].
    + injection H as <- <-. exists None. split; [exact Logic.I|]. right. right. auto.
    + destruct (K (connect_scan cf (p :: scan))) as (i & F & [D|D]); [| |exists i; auto|exists i; auto]; [|exact H].
      intros r1 o1 w1 H1. destruct (connect_scan_spec cf _ _ None _ _ _ _ Logic.I H1) as (i & A & B & _). eauto.
Qed.
Lemma supported_after cf port scan w s1 o w' : connect cf port scan (initial_obd cf, w) = (Ok tt, s1) -> new_obd cf port scan w = (Ok tt, (o, w')) ->
  (obd_status (fst s1) = CAR_CONNECTED -> exists ans, listings pid_getters s1 ans (o, w') /\
      forall c, In c (o_supported o) <-> is_base c \/ exists g bits, In (g, bits) ans /\ announces g bits c)
  /\ (obd_status (fst s1) <> CAR_CONNECTED -> (o, w') = s1 /\
      ((obd_status o <> NOT_CONNECTED \/ port = None /\ scan = []) -> forall c, In c (o_supported o) <-> is_base c)
      /\ (obd_status o = NOT_CONNECTED -> port <> None \/ scan <> [] -> o_supported o = [])).
Proof.
  intros C H. unfold new_obd in H. unfold bind at 1 in H. rewrite C in H. destruct s1 as [o1 w1]. destruct (connect_result _ _ _ _ _ _ C) as (i & F & D). cbn [fst].
  destruct base_table as [BT BI]. unfold load_commands in H. unfold bind at 1 in H. unfold obd_of at 1, gets at 1 in H. cbv beta iota in H. cbn [fst] in H.
  destruct (status_eqb (obd_status o1) CAR_CONNECTED) eqn:S; cbn [negb] in H.
  - apply status_eqb_eq in S. split; [intros _|contradiction].
    destruct D as [(_ & ->)|[(N & _)|(_ & _ & -> & _)]]; [|congruence|discriminate S].
    destruct (load_all_listings pid_getters _ w1 (o, w') (fresh_oinv cf i base_set F) BT H) as (ans & L & _ & _ & E).
    exists ans. split; [exact L|]. intros c. specialize (E c). cbn [fst connected_obd o_supported] in E. rewrite E, BI. reflexivity.
  - assert (N : obd_status o1 <> CAR_CONNECTED) by (intros X; apply status_eqb_eq in X; congruence). split; [contradiction|intros _].
    assert (H' : (o1, w1) = (o, w')) by (apply (f_equal snd) in H; exact H). injection H' as -> ->. split; [reflexivity|]. destruct D as [(M & E)|[(M & E)|(P1 & P2 & E & _)]].
    + split; [intros _ c; rewrite E; apply BI|]. contradiction.
    + split; [|intros _ _; rewrite E; reflexivity]. intros [X|(P1 & P2)]; [contradiction|].
      subst port scan. assert (C1 : o = initial_obd cf) by (apply (f_equal (fun x => fst (snd x))) in C; symmetry; exact C). intros c. rewrite C1. apply BI.
    + split; [intros _ c; rewrite E; apply BI|]. intros _ [X|X]; contradiction.
Qed.

(* the choice of a port *)
Lemma scan_tried cf ports l : forall i w o' w', connect_scan cf ports (connected_obd cf i l, w) = (Ok tt, (o', w')) ->
  (ports = [] /\ o' = connected_obd cf i l /\ w' = w)
  \/ exists before p after es e, ports = before ++ p :: after /\ tried cf (before ++ [p]) w (es ++ [e]) w' /\ o' = connected_obd cf (Some e) l
     /\ Forall (fun x => e_status x = CAR_CONNECTED) es /\ (after = [] \/ e_status e <> CAR_CONNECTED).
Proof.
  induction ports as [|p ports IH]; intros i w o' w' H; cbn [connect_scan] in H.
  - injection H as <- <-. left. auto.
  - right. apply bind_inv in H. destruct H as [([] & [o1 w1] & H1 & H)|(x & _ & D)]; [|discriminate D].
    destruct (connect_port_spec _ _ _ _ _ _ _ _ H1) as [(e & _ & -> & N)|(y & R & _)]; [|discriminate R].
    unfold bind in H. unfold obd_of, gets in H. cbv beta iota in H. cbn [fst] in H. change (obd_status (connected_obd cf (Some e) l)) with (e_status e) in H.
    assert (L : text_leb (status_text ELM_CONNECTED) (status_text (e_status e)) = negb (status_eqb (e_status e) CAR_CONNECTED)) by (destruct (e_status e); reflexivity).
    rewrite L in H. clear L. destruct (status_eqb (e_status e) CAR_CONNECTED) eqn:S; cbn [negb] in H.
    + apply status_eqb_eq in S. destruct (IH _ _ _ _ H) as [(-> & -> & ->)|(b & q & a & es & e' & -> & T & -> & F & A)].
      * exists [], p, [], [], e. split; [reflexivity|]. split; [econstructor; [exact N|constructor]|]. auto.
      * exists (p :: b), q, a, (e :: es), e'. split; [reflexivity|]. split; [cbn [app]; econstructor; [exact N|exact T]|]. auto.
    + injection H as <- <-. exists [], p, ports, [], e. split; [reflexivity|]. split; [econstructor; [exact N|constructor]|]. split; [reflexivity|]. split; [constructor|].
      right. intros X. apply status_eqb_eq in X. congruence.
Qed.
Lemma port_choice cf scan w o w1 : scan <> [] -> connect cf None scan (initial_obd cf, w) = (Ok tt, (o, w1)) ->
  exists before p after es e, scan = before ++ p :: after /\ tried cf (before ++ [p]) w (es ++ [e]) w1
     /\ Forall (fun x => e_status x = CAR_CONNECTED) es /\ (after = [] \/ e_status e <> CAR_CONNECTED)
     /\ obd_status o = e_status e /\ (obd_status o <> NOT_CONNECTED -> o_interface o = Some e) /\ (obd_status o = NOT_CONNECTED -> o_interface o = None).
Proof.
  intros Ne H. unfold connect in H. destruct scan as [|p0 ps]; [contradiction|]. change (initial_obd cf) with (connected_obd cf None base_set) in H.
  apply bind_inv in H. destruct H as [([] & [o1 w2] & H1 & H)|(x & _ & D)]; [|discriminate D].
  pose proof (connect_scan_spec cf _ _ None _ _ _ _ Logic.I H1) as (i & E & F & _).
  destruct (scan_tried _ _ _ _ _ _ _ H1) as [(D & _)|(b & q & a & es & e & P & T & Q & R & A)]; [discriminate D|].
  rewrite E in Q. apply (f_equal o_interface) in Q. change (i = Some e) in Q. subst i o1. destruct (close_if_failed_spec _ _ _ _ _ _ _ F H) as (_ & -> & [(S & ->)|(S & ->)]);
    exists b, q, a, es, e; (split; [exact P|]); (split; [exact T|]); (split; [exact R|]); (split; [exact A|]).
  - change (e_status e = NOT_CONNECTED) in S. split; [rewrite S; reflexivity|]. split; [intros X; contradiction X; reflexivity|reflexivity].
  - split; [reflexivity|]. split; [reflexivity|]. intros X. contradiction.
Qed.

(* exceptions *)
Lemma good_class_classes c : good_class c -> In c protocol_classes \/ c = UnknownProtocol.
Proof.
  intros [->|[id L]]; [auto|]. left. unfold lookup in L. apply dict_get_In in L. destruct L as (k & L & _).
  revert L. unfold supported_protocols, protocol_classes. cbn [In]. intros L. repeat (destruct L as [L|L]; [apply (f_equal snd) in L; cbn [snd] in L; subst c; auto 20|]). destruct L.
Qed.
Lemma parser_exception c p lines x : In (p_class p) protocol_classes \/ p_class p = UnknownProtocol -> c = p_class p -> call p lines = Raise x -> x = IndexError.
Proof.
  intros Hp -> H. destruct (pc_family (p_class p)) as [| |w] eqn:F.
  - destruct (C09_unknown_never_raises p lines F) as [ms E]. congruence.
  - apply (C09_legacy_exceptions p lines x F) in H. apply H.
  - apply (C09_can_exceptions p w lines x) in H; [apply H| |exact F].
    destruct Hp as [I|E]; [|rewrite E in F; discriminate F]. revert I F. unfold protocol_classes. cbn [In].
    intros I F. repeat (destruct I as [I|I]; [rewrite <- I in F; cbn in F; try discriminate F; injection F as <-; auto|]). destruct I.
Qed.

Lemma builtin_header c : In c all_commands -> c_header c = ECU_HEADER_ENGINE.
Proof.
  assert (F : forallb (fun c => text_eqb (c_header c) ECU_HEADER_ENGINE) all_commands = true) by (vm_compute; reflexivity).
  intros I. rewrite forallb_forall in F. apply text_eqb_iff, F, I.
Qed.
(* an object that only ever used the engine header *)
Lemma header_engine o e p t x o1 : o_last_header o = ECU_HEADER_ENGINE -> header_run o e p ECU_HEADER_ENGINE t x o1 -> o1 = o /\ x = None /\ t = [].
Proof. intros E H. inversion H; subst; try congruence. auto. Qed.
Lemma query_engine o c force t r o' : c_header c = ECU_HEADER_ENGINE -> o_last_header o = ECU_HEADER_ENGINE -> query_run o c force t r o' -> o_last_header o' = ECU_HEADER_ENGINE.
Proof.
  intros Hc Ho H. inversion H; subst; try exact Ho; rewrite ?Hc in *;
    match goal with X : header_run _ _ _ _ _ _ _ |- _ => destruct (header_engine _ _ _ _ _ _ Ho X) as (-> & ? & _) end; try congruence; exact Ho.
Qed.
Definition engine_step (s : step) : Prop := match st_op s with OpQuery c _ => c_header c = ECU_HEADER_ENGINE | _ => True end.
Lemma session_engine cf port scan w t0 h o w' : session cf port scan w t0 h (o, w') -> Forall engine_step h -> oinv o /\ o_last_header o = ECU_HEADER_ENGINE.
Proof.
  intros S G.
  eapply (session_inv (fun o _ => o_last_header o = ECU_HEADER_ENGINE) engine_step) in S; [split; apply S|reflexivity|auto| | |exact G].
  - intros o1 c t1 t r o2 I _ E Q. exact (query_engine _ _ _ _ _ _ (getter_header c I) E Q).
  - intros o1 p t1 t r o2 OI E R Gs. inversion R as [c f t' r' o'' Q|t' o'' L|t' o'' L|t' r' o'' L|c]; subst; [| | | |exact E].
    + exact (query_engine _ _ _ _ _ _ Gs E Q).
    + inversion L; subst; exact E.
    + inversion L; subst; exact E.
    + inversion L; subst; try exact E; match goal with X : header_run _ _ _ _ _ _ _ |- _ => apply header_engine in X; [destruct X as (-> & _)|exact E] end; try exact E.
Qed.
(* the exceptions of a query of a built-in command *)
Definition air_status (c : command) : Prop := In c all_commands /\ In (c_name c) [str "AIR_STATUS"; str "DTC_AIR_STATUS"].
Lemma query_exceptions o c force t x o' : oinv o -> In c all_commands -> query_run o c force t (Raise x) o' ->
  (x = IndexError /\ exists e p a s t1 t2 lines, o_interface o = Some e /\ e_protocol e = Some p /\ t = t1 ++ t2 /\ sends a s t2 lines /\
      (call p lines = Raise IndexError
       \/ exists ms b, call p lines = Ok ms /\ air_status c /\ answered c ms [b] /\ In b [16; 32; 64; 128]))
  \/ (x = TypeError /\ io_error t /\ unrecorded o c /\ c_header c <> o_last_header o).
Proof.
  intros OI I H. unfold oinv in OI.
  assert (PC : forall e p, o_interface o = Some e -> e_status e <> NOT_CONNECTED -> e_protocol e = Some p -> In (p_class p) protocol_classes \/ p_class p = UnknownProtocol).
  { intros e p Hi N P. rewrite Hi in OI. destruct (proj2 OI N) as (q & Q & G). rewrite P in Q. injection Q as <-. exact (good_class_classes _ G). }
  remember (Raise x) as r eqn:R. destruct H as [| |e p t y o1 Hi N P MS HR|e p t o1 Hi N P MS HR ND|e p t1 o1 e1 t2 Hi N P MS HR Hi1 N1 CS|e p t1 o1 e1 t2 lines y Hi N P MS HR Hi1 N1 Se C|e p t1 o1 e1 t2 lines ms Hi N P MS HR Hi1 N1 Se C]; try discriminate R.
  - left. injection R as ->. inversion HR as [| | |t' lines y' Nh Se C|]; subst. pose proof (parser_exception _ p lines x (PC _ _ Hi N P) eq_refl C) as ->.
    split; [reflexivity|]. exists e, p, (e_low_power e), (str "AT SH " ++ c_header c ++ str " "), [], t, lines. auto 10.
  - right. destruct (dict_mem cmd_eqb (o_frame_counts o) c) eqn:M; [discriminate R|]. injection R as <-. split; [reflexivity|].
    destruct (header_run_writes o e p c t None o1 Hi HR) as (e1 & E1 & _ & K). unfold obd_status in ND. rewrite E1 in ND. destruct (K N ND) as (A & _ & _ & _ & B & _).
    split; [exact A|]. split; [|exact B]. unfold unrecorded. unfold dict_mem in M. destruct (dict_get cmd_eqb (o_frame_counts o) c); [discriminate|reflexivity].
  - left. injection R as ->. pose proof (parser_exception _ p lines x (PC _ _ Hi N P) eq_refl C) as ->. split; [reflexivity|].
    exists e, p, (e_low_power e1), (build_command_string o c), t1, t2, lines. auto 10.
  - left. destruct ms as [|m ms]; [discriminate R|].
    assert (K : air_status c \/ (c_name c <> str "AIR_STATUS" /\ c_name c <> str "DTC_AIR_STATUS")).
    { destruct (text_eqb (c_name c) (str "AIR_STATUS")) eqn:A; [left; split; [exact I|left; symmetry; apply text_eqb_iff; exact A]|].
      destruct (text_eqb (c_name c) (str "DTC_AIR_STATUS")) eqn:B; [left; split; [exact I|right; left; symmetry; apply text_eqb_iff; exact B]|].
      right. split; intros X; apply text_eqb_iff in X; congruence. }
    destruct K as [K|[K1 K2]].
    + destruct (C19_air_status_exact c p lines (m :: ms) K (PC _ _ Hi N P) C) as [(r & E)|(E & b & A & B)]; [congruence|].
      rewrite E in R. injection R as <-. split; [reflexivity|]. exists e, p, (e_low_power e1), (build_command_string o c), t1, t2, lines. split; [exact Hi|]. split; [exact P|]. split; [reflexivity|]. split; [exact Se|].
      right. exists (m :: ms), b. auto.
    + destruct (C19_builtin_partial c p lines (m :: ms) I (PC _ _ Hi N P) C K1 K2) as (r & E). congruence.
Qed.
