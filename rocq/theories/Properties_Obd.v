(* Properties C36, C41, C43-C52: OBD connections. *)
From Coq Require Import ZArith List Bool Lia String.
From Verif Require Import Py Num Utils Protocol Decoders Command CommandTable Commands World Elm Obd SpecCmd SpecElm SpecObd PyFacts CommandThms ElmFacts ElmThms
  ObdFacts ObdThms ObdThms2 ObdThms3 ObdThms4 ObdThms5 ObdThms6 ObdThms7 Properties_Elm Properties_Commands Properties_Protocol Properties_Decoders.
Import ListNotations.
Open Scope string_scope. Open Scope list_scope. Open Scope Z_scope.
Ltac Zify.zify_post_hook ::= Z.div_mod_to_equations.

(* ---- concrete sessions, for examples and refutations ---- *)
Fixpoint play (ops : list op) (s : obd * world) : list step * (obd * world) :=
  match ops with
  | [] => ([], s)
  | p :: ps => let '(r, s1) := run_op p s in
               let '(h, s2) := play ps s1 in
               (mkStep p (skipn (List.length (w_trace (snd s))) (w_trace (snd s1))) r :: h, s2)
  end.
Lemma history_app s0 h1 s1 h2 s2 : history s0 h1 s1 -> history s1 h2 s2 -> history s0 (h1 ++ h2) s2.
Proof.
  intros A B. induction B as [|h s3 p r s4 t B IH R T]; [rewrite app_nil_r; exact A|].
  rewrite app_assoc. econstructor; eassumption.
Qed.
Lemma play_history ops : forall s, oinv (fst s) -> history s (fst (play ops s)) (snd (play ops s)).
Proof.
  induction ops as [|p ps IH]; intros [o w] OI; cbn [play]; [constructor|].
  destruct (run_op p (o, w)) as [r [o1 w1]] eqn:R. destruct (run_op_spec _ _ _ _ _ _ OI R) as (t & T & Q). destruct (op_run_inv _ _ _ _ _ OI Q) as (I1 & _).
  specialize (IH (o1, w1) I1). destruct (play ps (o1, w1)) as [h s2]. cbn [fst snd] in *.
  rewrite T, skipn_app, skipn_all, Nat.sub_diag. cbn [skipn app].
  apply (history_app _ [mkStep p t r] (o1, w1) h s2); [|exact IH]. apply (history_snoc (o, w) [] (o, w) p r (o1, w1) t); [constructor|exact R|exact T].
Qed.
Definition outcome (cf : config) (w : world) (ops : list op) : list step * (obd * world) := play ops (snd (new_obd cf (Some (str "p")) [] w)).
Lemma play_session cf w ops : w_trace w = [] -> fst (new_obd cf (Some (str "p")) [] w) = Ok tt ->
  session cf (Some (str "p")) [] w (w_trace (snd (snd (new_obd cf (Some (str "p")) [] w)))) (fst (outcome cf w ops)) (snd (outcome cf w ops)).
Proof.
  intros T H. unfold outcome. destruct (new_obd cf (Some (str "p")) [] w) as [r [o w1]] eqn:N. cbn [fst snd] in *. subst r.
  exists (o, w1). split; [exact N|]. split; [rewrite T; reflexivity|]. apply play_history. apply (new_obd_calm _ _ _ _ _ _ N).
Qed.
(* an adapter that is ready and finds protocol 6; a car that has no data about its commands *)
Definition up : list (option bytes) :=
  [says (str "ELM327 v1.5"); says (str "OK"); says (str "OK"); says (str "OK"); says (str "OK"); says (str "7E8 06 41 00 00 00 00 00");
   says (str "NO DATA"); says (str "NO DATA"); says (str "NO DATA")].
Definition setup (fast : bool) : config := mkConfig (Some 38400) (Some (str "6")) fast 100 false false.
Definition rpm := OpQuery (cmd "RPM") true.
Definition other (name request header : String.string) : command := mkCommand (str name) [] (str request) 0 D_raw_string 255 true (str header).
Arguments other (_ _ _)%string_scope.

(* ------------------------------------------------------------------ C43 *)
Theorem C43_unconnected_query : forall o w c force, obd_status o = NOT_CONNECTED ->
  query c force (o, w) = (Ok empty_response, (o, w)) /\ is_null empty_response = true.
Proof.
  intros o w c force S. split; [|reflexivity]. unfold query. unfold bind at 1. unfold obd_of, gets. cbn [fst]. rewrite S. reflexivity.
Qed.
(* and so for ever: nothing but a new object touches a port again *)
Lemma nc_run o p t r o' : oinv o -> obd_status o = NOT_CONNECTED -> op_run o p t r o' ->
  t = [] /\ obd_status o' = NOT_CONNECTED /\ match p with OpQuery _ _ => r = Ok (Some empty_response) | _ => r = Ok None end.
Proof.
  intros OI S H. assert (K : forall e, o_interface o = Some e -> e_status e = NOT_CONNECTED) by (intros e E; unfold obd_status in S; rewrite E in S; exact S).
  destruct H as [c force t r o' H|t o' H|t o' H|t r o' H|c]; [| | | |split; [reflexivity|split; [exact S|reflexivity]]]; inversion H; subst; try contradiction; auto;
    try (match goal with X : o_interface o = Some ?e |- _ => pose proof (K e X); contradiction end).
Qed.
Theorem C43_for_ever : forall cf port scan w t0 h o w1 h' o' w2, session cf port scan w t0 h (o, w1) -> obd_status o = NOT_CONNECTED ->
  history (o, w1) h' (o', w2) -> obd_status o' = NOT_CONNECTED /\ w_trace w2 = w_trace w1
  /\ Forall (fun x => st_events x = [] /\ match st_op x with OpQuery _ _ => st_result x = Ok (Some empty_response) | _ => st_result x = Ok None end) h'.
Proof.
  intros cf port scan w t0 h o w1 h' o' w2 S N H. apply session_oinv in S as (OI & _).
  remember (o, w1) as s0. remember (o', w2) as s. revert o' w2 Heqs. induction H as [|h' s1 p r s2 t H IH R T]; intros o' w2 E.
  - subst s0. injection E as <- <-. auto.
  - subst s2. destruct s1 as [o1 w3]. destruct (IH o1 w3 eq_refl) as (N1 & T1 & F). cbn [snd] in T.
    assert (I1 : oinv o1).
    { clear -H Heqs0 OI. subst s0. apply (history_inv (fun _ _ => True) (fun _ => True)) in H; auto. 2:{ apply Forall_forall. auto. } apply H. }
    destruct (run_op_spec _ _ _ _ _ _ I1 R) as (t' & T' & Q). rewrite T in T'. apply app_inv_head in T'. subst t'.
    destruct (nc_run _ _ _ _ _ I1 N1 Q) as (-> & N2 & Rr). split; [exact N2|]. split; [rewrite T, app_nil_r; exact T1|].
    apply Forall_app. split; [exact F|]. apply Forall_cons; [split; [reflexivity|exact Rr]|apply Forall_nil].
Qed.
Example C43_example : exists o w1, session (setup true) (Some (str "p")) [] (mkWorld [false] [] [] [] []) [EvOpen (str "p") false] [] (o, w1) /\ obd_status o = NOT_CONNECTED.
Proof.
  pose proof (play_session (setup true) (mkWorld [false] [] [] [] []) [] eq_refl ltac:(vm_compute; reflexivity)) as H.
  destruct (snd (outcome _ _ _)) as [o w1] eqn:E in H. exists o, w1. split; [exact H|]. 
  apply (f_equal (fun x => obd_status (fst x))) in E. cbn [fst] in E. rewrite <- E. vm_compute. reflexivity.
Qed.

(* ------------------------------------------------------------------ C36 *)
(* full statement: as below, with r = Ok empty_response always. False: see the refutation. *)
Theorem C36_query_partial : forall cf port scan w t0 h o w1 c force r o' w2 t, session cf port scan w t0 h (o, w1) ->
  query c force (o, w1) = (r, (o', w2)) -> w_trace w2 = w_trace w1 ++ t -> io_error t ->
  obd_status o' = NOT_CONNECTED /\ (exists t', t = t' ++ [EvClose])
  /\ (r = Ok empty_response \/ (r = Raise TypeError /\ unrecorded o c /\ c_header c <> o_last_header o)).
Proof.
  intros cf port scan w t0 h o w1 c force r o' w2 t S H T Io. apply session_oinv in S as (OI & _).
  destruct (query_spec _ _ _ _ _ _ _ OI H) as (t' & T' & Q). rewrite T in T'. apply app_inv_head in T'. subst t'.
  destruct (query_writes _ _ _ _ _ _ OI Q) as [(-> & _)|(_ & _ & _ & [(_ & C & N & _ & _ & R)|(NI & _)])].
  - destruct Io as [[]|[]].
  - split; [exact N|]. split; [exact C|exact R].
  - contradiction.
Qed.
(* after which nothing is ever sent again, and queries answer null *)
Theorem C36_silent_afterwards : forall cf port scan w t0 h o w1 c force r o' w2 t h' o'' w3, session cf port scan w t0 h (o, w1) ->
  run_op (OpQuery c force) (o, w1) = (r, (o', w2)) -> w_trace w2 = w_trace w1 ++ t -> io_error t -> history (o', w2) h' (o'', w3) ->
  w_trace w3 = w_trace w2 /\ obd_status o'' = NOT_CONNECTED
  /\ Forall (fun x => match st_op x with OpQuery _ _ => st_result x = Ok (Some empty_response) | _ => st_result x = Ok None end) h'.
Proof.
  intros cf port scan w t0 h o w1 c force r o' w2 t h' o'' w3 S R T Io H.
  assert (S2 : session cf port scan w t0 (h ++ [mkStep (OpQuery c force) t r]) (o', w2)).
  { destruct S as (s0 & N & T0 & Hs). exists s0. split; [exact N|]. split; [exact T0|]. exact (history_snoc _ _ _ _ _ _ _ Hs R T). }
  assert (N : obd_status o' = NOT_CONNECTED).
  { cbn [run_op] in R. unfold bind in R. destruct (query c force (o, w1)) as [[q|x] [o1 w4]] eqn:Q; injection R as _ -> ->;
      apply (C36_query_partial _ _ _ _ _ _ _ _ _ _ _ _ _ _ S Q T Io). }
  destruct (C43_for_ever _ _ _ _ _ _ _ _ _ _ _ S2 N H) as (A & B & F). split; [exact B|]. split; [exact A|].
  eapply Forall_impl; [|exact F]. cbv beta. tauto.
Qed.
(* the power calls do not raise either *)
Theorem C36_power : forall cf port scan w t0 h o w1 r o' w2 t (low : bool), session cf port scan w t0 h (o, w1) ->
  run_op (if low then OpLowPower else OpNormalPower) (o, w1) = (r, (o', w2)) -> w_trace w2 = w_trace w1 ++ t ->
  r = Ok None /\ (io_error t -> obd_status o' = NOT_CONNECTED /\ exists t', t = t' ++ [EvClose]).
Proof.
  intros cf port scan w t0 h o w1 r o' w2 t low S R T. apply session_oinv in S as (OI & _).
  destruct (run_op_spec _ _ _ _ _ _ OI R) as (t' & T' & Q). rewrite T in T'. apply app_inv_head in T'. subst t'.
  assert (K : forall m n cmd, failed_exchange m n cmd t -> exists t', t = t' ++ [EvClose]).
  { intros m n cmd F. inversion F; [exists [EvFail]|exists [EvWrite (cmd ++ [CR]); EvFail]|eexists (_ :: _)|eexists (_ :: _)]; reflexivity. }
  destruct low; inversion Q as [|t' o1 L|t' o1 L| |]; subst; (split; [reflexivity|]); intros Io; inversion L; subst;
    try (destruct Io as [[]|[]]; fail); try (match goal with X : exchange _ _ _ _ _ |- _ => apply exchange_no_close in X; contradiction end);
    try (match goal with X : asks _ _ _ _ |- _ => apply exchange_no_close in X; contradiction end); (split; [reflexivity|eauto]).
Qed.
(* a first query of a command with another header, when the port fails during the header change *)
Theorem C36_refuted : exists cf port scan w t0 h o w1 c r o' w2 t, session cf port scan w t0 h (o, w1) /\
  query c true (o, w1) = (r, (o', w2)) /\ w_trace w2 = w_trace w1 ++ t /\ io_error t /\ r = Raise TypeError.
Proof.
  set (w := mkWorld [] [] (up ++ [None]) [] []).
  pose proof (play_session (setup true) w [] eq_refl ltac:(vm_compute; reflexivity)) as H.
  destruct (snd (outcome (setup true) w [])) as [o w1] eqn:E in H. 
  destruct (query (other "X" "2101" "7E2") true (o, w1)) as [r [o' w2]] eqn:Q.
  assert (X : r = Raise TypeError /\ skipn (List.length (w_trace w1)) (w_trace w2) = [EvWrite (header_line (str "7E2")); EvRead None; EvClose]
    /\ firstn (List.length (w_trace w1)) (w_trace w2) = w_trace w1).
  { vm_compute in E. injection E as <- <-. vm_compute in Q. injection Q as <- <- <-. vm_compute. auto. }
  destruct X as (-> & X & Y).
  exists (setup true), (Some (str "p")), [], w. eexists. eexists. exists o, w1, (other "X" "2101" "7E2"), (Raise TypeError), o', w2, (skipn (List.length (w_trace w1)) (w_trace w2)).
  split; [exact H|]. split; [exact Q|]. split; [pose proof (firstn_skipn (List.length (w_trace w1)) (w_trace w2)) as Z; rewrite Y in Z; symmetry; exact Z|]. split; [|reflexivity].
  rewrite X. right. cbn. auto.
Qed.

Lemma session_query cf port scan w t0 h o w1 c force r o' w2 t : session cf port scan w t0 h (o, w1) ->
  query c force (o, w1) = (r, (o', w2)) -> w_trace w2 = w_trace w1 ++ t -> oinv o /\ o_fast o = cf_fast cf /\ query_run o c force t r o'.
Proof.
  intros S H T. apply session_oinv in S as (OI & F & _). destruct (query_spec _ _ _ _ _ _ _ OI H) as (t' & T' & Q).
  rewrite T in T'. apply app_inv_head in T'. subst t'. auto.
Qed.
(* for the refutations and examples: the query after some calls *)
Lemma next_query cf w ops c force o w1 r o' w2 : w_trace w = [] -> fst (new_obd cf (Some (str "p")) [] w) = Ok tt ->
  snd (outcome cf w ops) = (o, w1) -> query c force (o, w1) = (r, (o', w2)) ->
  session cf (Some (str "p")) [] w (w_trace (snd (snd (new_obd cf (Some (str "p")) [] w)))) (fst (outcome cf w ops)) (o, w1)
  /\ w_trace w2 = w_trace w1 ++ skipn (List.length (w_trace w1)) (w_trace w2).
Proof.
  intros T N E Q. pose proof (play_session cf w ops T N) as S. rewrite E in S. split; [exact S|].
  apply session_oinv in S as (OI & _). destruct (query_spec _ _ _ _ _ _ _ OI Q) as (t' & T' & _). rewrite T', skipn_app, skipn_all, Nat.sub_diag. reflexivity.
Qed.
(* the lines of a request s: all of them handed over, or, when the port fails or the header change is not understood, the first few *)
Definition transmits (o : obd) (c : command) (t : list event) (r : res response) (s : bytes) : Prop :=
  (exists k, writes t = firstn k (request o c s)) /\ (~ io_error t -> (exists q, r = Ok q) -> writes t = request o c s).
Lemma query_transmits o c force t r o' : oinv o -> query_run o c force t r o' ->
  (t = [] /\ r = Ok empty_response /\ o' = o /\ (obd_status o = NOT_CONNECTED \/ ~ may_send o c force))
  \/ (obd_status o <> NOT_CONNECTED /\ may_send o c force /\ transmits o c t r (build_command_string o c)).
Proof.
  intros OI Q. destruct (query_writes _ _ _ _ _ _ OI Q) as [D|(N & M & _ & D)]; [auto|right]. split; [exact N|]. split; [exact M|].
  destruct D as [(Io & _ & _ & _ & K & _)|(Io & _ & [W|(W & _ & x & ->)])].
  - split; [exact K|contradiction].
  - split; [|auto]. exists (List.length (request o c (build_command_string o c))). rewrite firstn_all. exact W.
  - split; [|intros _ [q D]; discriminate D]. exists (List.length (wake_lines (asleep o) ++ header_lines o c)). rewrite W. unfold request.
    rewrite app_assoc, firstn_app, firstn_all, Nat.sub_diag. cbn [firstn]. rewrite app_nil_r. reflexivity.
Qed.

(* ------------------------------------------------------------------ C44 *)
Theorem C44_unsupported : forall cf port scan w t0 h o w1 c, session cf port scan w t0 h (o, w1) -> ~ may_send o c false ->
  query c false (o, w1) = (Ok empty_response, (o, w1)).
Proof.
  intros cf port scan w t0 h o w1 c S N. apply session_oinv in S as (OI & _). destruct (query c false (o, w1)) as [r [o' w2]] eqn:Q.
  destruct (status_eqb (obd_status o) NOT_CONNECTED) eqn:St; [apply status_eqb_eq in St; rewrite (proj1 (C43_unconnected_query o w1 c false St)) in Q; symmetry; exact Q|].
  unfold query in Q. unfold bind at 1 in Q. unfold obd_of at 1, gets at 1 in Q. cbn [fst] in Q. rewrite St in Q.
  unfold bind at 1 in Q. cbn [fst] in Q. unfold obd_status in St. unfold oinv in OI. destruct (o_interface o) as [e|] eqn:Hi; [|discriminate St].
  assert (N' : e_status e <> NOT_CONNECTED) by (intros X; apply status_eqb_eq in X; congruence).
  destruct (test_cmd_spec o c e Hi OI N') as (b & B & C). rewrite B in Q. destruct b; [contradiction N; apply C; reflexivity|]. cbn [negb] in Q. symmetry. exact Q.
Qed.
(* what is sent is allowed *)
Theorem C44_only_allowed : forall cf port scan w t0 h o w1 c force r o' w2 t, session cf port scan w t0 h (o, w1) ->
  query c force (o, w1) = (r, (o', w2)) -> w_trace w2 = w_trace w1 ++ t -> t <> [] -> may_send o c force.
Proof.
  intros cf port scan w t0 h o w1 c force r o' w2 t S H T N. destruct (session_query _ _ _ _ _ _ _ _ _ _ _ _ _ _ S H T) as (OI & _ & Q).
  destruct (query_writes _ _ _ _ _ _ OI Q) as [(-> & _)|(_ & M & _)]; [contradiction|exact M].
Qed.
(* and what is allowed is sent *)
Theorem C44_allowed_sent : forall cf port scan w t0 h o w1 c force r o' w2 t, session cf port scan w t0 h (o, w1) ->
  query c force (o, w1) = (r, (o', w2)) -> w_trace w2 = w_trace w1 ++ t -> obd_status o <> NOT_CONNECTED -> may_send o c force -> t <> [].
Proof.
  intros cf port scan w t0 h o w1 c force r o' w2 t S H T N M E. destruct (session_query _ _ _ _ _ _ _ _ _ _ _ _ _ _ S H T) as (OI & _ & Q).
  destruct (query_writes _ _ _ _ _ _ OI Q) as [(_ & _ & _ & [D|D])|(_ & _ & _ & [(Io & _)|(_ & _ & [W|(W & Hd & _)])])]; subst t; try contradiction.
  - destruct Io as [[]|[]].
  - symmetry in W. exact (request_nonempty _ _ _ W).
  - rewrite header_lines_other in W by exact Hd. destruct (wake_lines (asleep o)); discriminate W.
Qed.
Example C44_example : exists o w1, snd (outcome (setup true) (fresh up) []) = (o, w1) /\ obd_status o = CAR_CONNECTED
  /\ ~ may_send o (cmd "RPM") false /\ may_send o (cmd "PIDS_A") false.
Proof.
  destruct (snd (outcome (setup true) (fresh up) [])) as [o w1] eqn:E. exists o, w1. split; [reflexivity|]. vm_compute in E. injection E as <- <-.
  split; [reflexivity|]. split.
  - intros [D|[D _]]; [discriminate|]. apply in_set_iff in D. vm_compute in D. discriminate D.
  - right. split; [apply in_set_iff; vm_compute; reflexivity|]. intros X. vm_compute in X. discriminate X.
Qed.

(* ------------------------------------------------------------------ C45 *)
Theorem C45_unaltered : forall cf port scan w t0 h o w1 c force r o' w2 t, session cf port scan w t0 h (o, w1) -> cf_fast cf = false ->
  query c force (o, w1) = (r, (o', w2)) -> w_trace w2 = w_trace w1 ++ t ->
  (t = [] /\ r = Ok empty_response /\ (obd_status o = NOT_CONNECTED \/ ~ may_send o c force)) \/ transmits o c t r (c_command c).
Proof.
  intros cf port scan w t0 h o w1 c force r o' w2 t S Ff H T. destruct (session_query _ _ _ _ _ _ _ _ _ _ _ _ _ _ S H T) as (OI & F & Q).
  rewrite Ff in F. destruct (query_transmits _ _ _ _ _ _ OI Q) as [(A & B & _ & D)|(_ & _ & D)]; [auto|right]. rewrite (build_slow o c F) in D. exact D.
Qed.
Example C45_example : let h := fst (outcome (setup false) (fresh (up ++ [says (str "7E8 04 41 0C 1A F8"); says (str "7E8 04 41 0C 1A F8")])) [rpm; rpm]) in
  map (fun s => writes (st_events s)) h = [[line (str "010C")]; [line (str "010C")]].
Proof. vm_compute. reflexivity. Qed.

(* ------------------------------------------------------------------ C46 *)
Theorem C46_fast : forall cf port scan w t0 h o w1 c force r o' w2 t, session cf port scan w t0 h (o, w1) -> cf_fast cf = true ->
  query c force (o, w1) = (r, (o', w2)) -> w_trace w2 = w_trace w1 ++ t ->
  (t = [] /\ r = Ok empty_response /\ (obd_status o = NOT_CONNECTED \/ ~ may_send o c force))
  \/ exists s, stands_for o c s /\ (transmits o c t r s \/ (s = o_last_command o /\ transmits o c t r [])).
Proof.
  intros cf port scan w t0 h o w1 c force r o' w2 t S Ff H T. destruct (session_query _ _ _ _ _ _ _ _ _ _ _ _ _ _ S H T) as (OI & F & Q).
  rewrite Ff in F. destruct (query_transmits _ _ _ _ _ _ OI Q) as [(A & B & _ & D)|(_ & _ & D)]; [auto|right].
  destruct (build_fast o c F) as (s & Sf & [(_ & B)|(E & B)]); rewrite B in D; exists s; auto.
Qed.
(* the count on record for a command is that of its first answer: *)
Theorem C46_first_count : forall cf port scan w t0 h o w1 c force q o' w2 t, session cf port scan w t0 h (o, w1) ->
  query c force (o, w1) = (Ok q, (o', w2)) -> w_trace w2 = w_trace w1 ++ t -> t <> [] -> unrecorded o c ->
  (io_error t /\ recorded o' c 0)
  \/ exists e p a s t1 t2 lines ms, o_interface o = Some e /\ e_protocol e = Some p /\ t = t1 ++ t2 /\ sends a s t2 lines /\ call p lines = Ok ms
       /\ recorded o' c (list_sum (map (fun m => List.length (m_frames m)) ms)).
Proof.
  intros cf port scan w t0 h o w1 c force q o' w2 t S H T N U. destruct (session_query _ _ _ _ _ _ _ _ _ _ _ _ _ _ S H T) as (OI & _ & Q).
  unfold recorded, unrecorded in *.
  assert (X : forall o1, o_frame_counts o1 = o_frame_counts o -> forall n, dict_get cmd_eqb (o_frame_counts (with_count c n o1)) c = Some n).
  { intros o1 E n. rewrite with_count_get, E, U, cmd_eqb_refl. reflexivity. }
  unfold oinv in OI. remember (Ok q) as r eqn:R.
  destruct Q as [| |e p t y o1 Hi Ns P MS HR|e p t o1 Hi Ns P MS HR ND|e p t1 o1 e1 t2 Hi Ns P MS HR Hi1 N1 CS|e p t1 o1 e1 t2 lines y Hi Ns P MS HR Hi1 N1 Se C|e p t1 o1 e1 t2 lines ms Hi Ns P MS HR Hi1 N1 Se C]; try discriminate R; try contradiction.
  - unfold dict_mem in R. rewrite U in R. discriminate R.
  - left. split; [destruct CS as (Io & _); destruct Io; [left|right]; apply in_or_app; auto|]. apply X.
    rewrite Hi in OI. destruct (header_run_inv _ _ _ _ _ _ _ Hi OI P HR) as (_ & _ & _ & _ & _ & _ & _ & _ & E & _). exact E.
  - right. exists e, p, (e_low_power e1), (build_command_string o c), t1, t2, lines, ms. split; [exact Hi|]. split; [exact P|]. split; [reflexivity|]. split; [exact Se|]. split; [exact C|].
    fold (frames_of ms). rewrite <- count_frames_sum. apply X.
    rewrite Hi in OI. destruct (header_run_inv _ _ _ _ _ _ _ Hi OI P HR) as (_ & _ & _ & _ & _ & _ & _ & _ & E & _). exact E.
Qed.
(* ... and stays *)
Lemma op_counts o p t r o' c n : oinv o -> op_run o p t r o' -> recorded o c n -> recorded o' c n.
Proof.
  intros OI R H. unfold recorded in *.
  assert (K : forall e q hd t1 x o1, o_interface o = Some e -> e_status e <> NOT_CONNECTED -> e_protocol e = Some q -> header_run (emptied o) e q hd t1 x o1 -> o_frame_counts o1 = o_frame_counts o).
  { intros e q hd t1 x o1 Hi Ns P HR. unfold oinv in OI. rewrite Hi in OI. destruct (header_run_inv (emptied o) _ _ _ _ _ _ Hi OI P HR) as (_ & _ & _ & _ & _ & _ & _ & _ & E & _). exact E. }
  destruct R as [c' force t r o' Q|t o' L|t o' L|t r o' L|c']; [| | | |exact H].
  - destruct (query_counts _ _ _ _ _ _ OI Q) as [E|(m & E & _)]; rewrite E, H; reflexivity.
  - inversion L; subst; exact H.
  - inversion L; subst; exact H.
  - inversion L; subst; try exact H; match goal with HR : header_run _ _ _ _ _ _ _ |- _ => apply K in HR; try assumption end; cbn; rewrite ?H0; congruence.
Qed.
Theorem C46_count_stays : forall cf port scan w t0 h o w1 h' o' w2 c n, session cf port scan w t0 h (o, w1) -> history (o, w1) h' (o', w2) ->
  recorded o c n -> recorded o' c n.
Proof.
  intros cf port scan w t0 h o w1 h' o' w2 c n S H R. apply session_oinv in S as (OI & _).
  apply (history_inv (fun o _ => recorded o c n) (fun _ => True)) in H; auto; [apply H| |apply Forall_forall; auto].
  intros o1 p t1 t r o2 I1 R1 Q _. exact (op_counts _ _ _ _ _ _ _ I1 Q R1).
Qed.
Example C46_example :
  let h := fst (outcome (setup true) (fresh (up ++ [says (str "7E8 04 41 0C 1A F8"); says (str "7E8 04 41 0C 1A F8"); says (str "7E8 04 41 0C 1A F8")])) [rpm; rpm; rpm]) in
  map (fun s => writes (st_events s)) h = [[line (str "010C")]; [line (str "010C1")]; [[CR]]].
Proof. vm_compute. reflexivity. Qed.

(* ------------------------------------------------------------------ C47 *)
Lemma In_firstn {A} (x : A) k l : In x (firstn k l) -> In x l.
Proof. intros H. rewrite <- (firstn_skipn k l). apply in_or_app. auto. Qed.
Lemma empty_line_repeats strict cf port scan w t0 h o w1 c force r o' w2 t : session cf port scan w t0 h (o, w1) -> Forall (good_step strict) h ->
  query c force (o, w1) = (r, (o', w2)) -> w_trace w2 = w_trace w1 ++ t -> c_command c <> [] -> In [CR] (writes t) ->
  last_inv strict o (w_trace w1) /\ obd_status o <> NOT_CONNECTED /\ transmits o c t r []
  /\ exists s a b, stands_for o c s /\ w_trace w1 = a ++ EvWrite (line s) :: b /\ Forall (noise strict) (writes b).
Proof.
  intros S G H T Nc I. destruct (session_query _ _ _ _ _ _ _ _ _ _ _ _ _ _ S H T) as (OI & F & Q).
  destruct (session_last _ _ _ _ _ _ _ _ _ S G) as (_ & _ & L).
  destruct (query_transmits _ _ _ _ _ _ OI Q) as [(-> & _)|(N & _ & D)]; [destruct I|]. split; [exact L|]. split; [exact N|].
  assert (B : build_command_string o c = []).
  { destruct D as [[k K] _]. rewrite K in I. apply In_firstn in I. unfold request in I. rewrite !in_app_iff in I. destruct I as [I|[I|[I|[]]]].
    - unfold wake_lines in I. destruct (asleep o); [|destruct I]. destruct I as [I|[]]. discriminate I.
    - unfold header_lines in I. destruct (text_eqb _ _); [destruct I|]. destruct I as [I|[]]. discriminate I.
    - unfold line in I. destruct (build_command_string o c) as [|x [|y l]]; [reflexivity|discriminate I|discriminate I]. }
  rewrite B in D. split; [exact D|].
  destruct (o_fast o) eqn:Fo; [|rewrite (build_slow o c Fo) in B; contradiction].
  destruct (build_fast o c Fo) as (s & Sf & K).
  assert (Ns : s <> []).
  { destruct Sf as [(_ & n & d & _ & _ & ->)|(_ & ->)]; [|exact Nc]. destruct (c_command c); [contradiction|discriminate]. }
  destruct K as [(_ & K)|(E & _)]; [congruence|].
  subst s. destruct L as [_ L]. destruct (L N Ns) as (a & b & E & Fb). exists (o_last_command o), a, b. auto.
Qed.
(* full statement: an empty line is written only if the last non-empty line was the string the query stands for. False:
   three refutations. Proved when all queries so far returned: only lines for the adapter itself came in between *)
Theorem C47_repeats_partial : forall cf port scan w t0 h o w1 c force r o' w2 t, session cf port scan w t0 h (o, w1) ->
  Forall (fun x => match st_op x with OpQuery _ _ => exists q, st_result x = Ok q | _ => True end) h ->
  query c force (o, w1) = (r, (o', w2)) -> w_trace w2 = w_trace w1 ++ t -> c_command c <> [] -> In [CR] (writes t) ->
  exists s a b, stands_for o c s /\ w_trace w1 = a ++ EvWrite (line s) :: b /\ Forall (fun x => repetition x \/ adapter_line x) (writes b).
Proof.
  intros cf port scan w t0 h o w1 c force r o' w2 t S G H T Nc I.
  assert (G' : Forall (good_step false) h).
  { eapply Forall_impl; [|exact G]. intros [p t1 r1]. unfold good_step. cbn. destruct p; auto. intros X. split; [exact X|discriminate]. }
  destruct (empty_line_repeats false _ _ _ _ _ _ _ _ _ _ _ _ _ _ S G' H T Nc I) as (_ & _ & _ & s & a & b & A & B & C).
  exists s, a, b. split; [exact A|]. split; [exact B|]. eapply Forall_impl; [|exact C]. unfold noise. tauto.
Qed.
(* ... and, if there were also no power calls and no commands with other headers, nothing at all: *)
Theorem C47_engine_partial : forall cf port scan w t0 h o w1 c force r o' w2 t, session cf port scan w t0 h (o, w1) ->
  Forall (fun x => match st_op x with OpQuery c _ => c_header c = str "7E0" /\ (exists q, st_result x = Ok q) | OpClose | OpAdd _ => True | _ => False end) h ->
  query c force (o, w1) = (r, (o', w2)) -> w_trace w2 = w_trace w1 ++ t -> c_command c <> [] -> c_header c = str "7E0" -> In [CR] (writes t) ->
  exists s a b, stands_for o c s /\ w_trace w1 = a ++ EvWrite (line s) :: b /\ Forall repetition (writes b) /\ writes t = [[CR]].
Proof.
  intros cf port scan w t0 h o w1 c force r o' w2 t S G H T Nc Hc I.
  assert (G' : Forall (good_step true) h).
  { eapply Forall_impl; [|exact G]. intros [p t1 r1]. unfold good_step. cbn. destruct p; auto; try contradiction. intros (X & Y). auto. }
  destruct (empty_line_repeats true _ _ _ _ _ _ _ _ _ _ _ _ _ _ S G' H T Nc I) as (L & N & (K & _) & s & a & b & A & B & C).
  exists s, a, b. split; [exact A|]. split; [exact B|]. split; [eapply Forall_impl; [|exact C]; unfold noise; intros x [X|(X & _)]; [exact X|discriminate]|].
  destruct L as [L _]. destruct (L eq_refl) as [L1 L2]. destruct K as [k K]. unfold request in K. rewrite (L2 N) in K.
  rewrite header_lines_same in K by (rewrite L1; exact Hc). cbn [wake_lines app] in K. rewrite K in I |- *. destruct k as [|[|k]]; [destruct I|reflexivity|reflexivity].
Qed.
Lemma with_trace w1 w2 : forall t, w_trace w2 = w_trace w1 ++ t -> t = skipn (List.length (w_trace w1)) (w_trace w2).
Proof. intros t T. rewrite T, skipn_app, skipn_all, Nat.sub_diag. reflexivity. Qed.
(* the last line written that is not empty *)
Definition last_line (t : list event) : option bytes := find (fun x => negb (text_eqb x [CR])) (rev (writes t)).
Definition repeats_wrong (cf : config) (w : world) (ops : list op) (c : command) (expected found : bytes) : Prop :=
  exists t0 h o w1 r o' w2 t, session cf (Some (str "p")) [] w t0 h (o, w1) /\ map st_op h = ops /\ query c true (o, w1) = (r, (o', w2)) /\ w_trace w2 = w_trace w1 ++ t
    /\ stands_for o c expected /\ (exists t', writes t = t' ++ [[CR]]) /\ last_line (w_trace w1 ++ t) = Some (line found) /\ expected <> found.
Lemma show_wrong cf w ops c expected found : w_trace w = [] -> fst (new_obd cf (Some (str "p")) [] w) = Ok tt ->
  map st_op (fst (outcome cf w ops)) = ops -> expected <> found ->
  (let '(o, w1) := snd (outcome cf w ops) in let '(r, (o', w2)) := query c true (o, w1) in
   stands_for o c expected /\ (exists t', writes (skipn (List.length (w_trace w1)) (w_trace w2)) = t' ++ [[CR]])
   /\ last_line (w_trace w2) = Some (line found)) -> repeats_wrong cf w ops c expected found.
Proof.
  intros T N M Ne H. destruct (snd (outcome cf w ops)) as [o w1] eqn:E. destruct (query c true (o, w1)) as [r [o' w2]] eqn:Q. destruct H as (A & B & C).
  destruct (next_query cf w ops c true o w1 r o' w2 T N E Q) as (S & X).
  eexists. exists (fst (outcome cf w ops)), o, w1, r, o', w2, (skipn (List.length (w_trace w1)) (w_trace w2)). split; [exact S|]. split; [exact M|]. split; [exact Q|]. split; [exact X|].
  split; [exact A|]. split; [exact B|]. rewrite <- X. auto.
Qed.
(* after a query that raised: the line written by it is repeated instead *)
Theorem C47_exception_refuted : repeats_wrong (setup true)
  (fresh (up ++ [says (str "7E8 04 41 0C 1A F8"); says (str "7E8 04 41 0C 1A F8"); says (str "7E8 01 43"); says (str "7E8 04 41 0C 1A F8")]))
  [rpm; rpm; OpQuery (cmd "GET_DTC") true] (cmd "RPM") (str "010C1") (str "03").
Proof.
  apply show_wrong; [reflexivity|vm_compute; reflexivity|vm_compute; reflexivity|vm_compute; discriminate|].
  destruct (snd (outcome _ _ _)) as [o w1] eqn:E. destruct (query _ true (o, w1)) as [r [o' w2]] eqn:Q. vm_compute in E. injection E as <- <-. vm_compute in Q. injection Q as <- <- <-.
  split; [|split; [exists []; vm_compute; reflexivity|vm_compute; reflexivity]].
  left. split; [reflexivity|]. exists 1%nat, (str "1"). split; [vm_compute; reflexivity|]. split; [apply (str_nat_decimal 1)|vm_compute; reflexivity].
Qed.
(* after low_power(): the adapter was sent ATLP and a blank since *)
Theorem C47_power_refuted : repeats_wrong (setup true)
  (fresh (up ++ [says (str "7E8 04 41 0C 1A F8"); says (str "7E8 04 41 0C 1A F8"); says (str "OK"); says (str "OK"); says (str "7E8 04 41 0C 1A F8")]))
  [rpm; rpm; OpLowPower] (cmd "RPM") (str "010C1") (str " ").
Proof.
  apply show_wrong; [reflexivity|vm_compute; reflexivity|vm_compute; reflexivity|vm_compute; discriminate|].
  destruct (snd (outcome _ _ _)) as [o w1] eqn:E. destruct (query _ true (o, w1)) as [r [o' w2]] eqn:Q. vm_compute in E. injection E as <- <-. vm_compute in Q. injection Q as <- <- <-.
  split; [|split; [exists [wake_line]; vm_compute; reflexivity|vm_compute; reflexivity]].
  left. split; [reflexivity|]. exists 1%nat, (str "1"). split; [vm_compute; reflexivity|]. split; [apply (str_nat_decimal 1)|vm_compute; reflexivity].
Qed.
(* two commands with the same request and different headers: the header change is repeated *)
Theorem C47_header_refuted : repeats_wrong (setup true) (fresh (up ++ [says (str "OK"); says (str "7E9 04 61 01 1A F8"); says (str "OK"); says (str "7EA 04 61 01 1A F8")]))
  [OpQuery (other "X" "2101" "7E1") true] (other "Y" "2101" "7E2") (str "2101") (str "AT SH 7E2 ").
Proof.
  apply show_wrong; [reflexivity|vm_compute; reflexivity|vm_compute; reflexivity|vm_compute; discriminate|].
  destruct (snd (outcome _ _ _)) as [o w1] eqn:E. destruct (query _ true (o, w1)) as [r [o' w2]] eqn:Q. vm_compute in E. injection E as <- <-. vm_compute in Q. injection Q as <- <- <-.
  split; [|split; [exists [header_line (str "7E2")]; vm_compute; reflexivity|vm_compute; reflexivity]].
  right. split; [right; vm_compute; reflexivity|reflexivity].
Qed.

(* ------------------------------------------------------------------ C48 *)
Lemma in_force_unique l a b : header_in_force l a -> header_in_force l b -> a = b.
Proof.
  assert (K : forall x1 y1 x2 y2 h1 h2, no_header_line y1 -> no_header_line y2 -> x1 ++ header_line h1 :: y1 = x2 ++ header_line h2 :: y2 -> h1 = h2).
  { intros x1 y1 x2 y2 h1 h2 N1 N2 E. apply app_eq_app in E. destruct E as (z & [(-> & E)|(-> & E)]).
    - destruct z as [|q z]; cbn [app] in E; [apply (f_equal (hd [])) in E; symmetry; apply header_line_inj, E|]. apply (f_equal (@tl _)) in E. cbn [tl] in E. exfalso.
      apply (N2 (header_line h1) h1); [rewrite E; apply in_or_app; right; left; reflexivity|reflexivity].
    - destruct z as [|q z]; cbn [app] in E; [apply (f_equal (hd [])) in E; apply header_line_inj, E|]. apply (f_equal (@tl _)) in E. cbn [tl] in E. exfalso.
      apply (N1 (header_line h2) h2); [rewrite E; apply in_or_app; right; left; reflexivity|reflexivity]. }
  intros [(x1 & y1 & E1 & N1)|(N1 & ->)] [(x2 & y2 & E2 & N2)|(N2 & ->)].
  - apply (K x1 y1 x2 y2); [exact N1|exact N2|rewrite <- E1; exact E2].
  - exfalso. apply (N2 (header_line a) a); [rewrite E1; apply in_or_app; right; left; reflexivity|reflexivity].
  - exfalso. apply (N1 (header_line b) b); [rewrite E2; apply in_or_app; right; left; reflexivity|reflexivity].
  - reflexivity.
Qed.
(* full statement: without the hypotheses on acknowledgements. False: see the refutation.
   If every header change was answered OK, the adapter uses the command's header when it gets the command,
   and the header is changed exactly when another one was in force *)
Theorem C48_header_partial : forall cf port scan w t0 h o w1 c force q o' w2 t, session cf port scan w t0 h (o, w1) ->
  Forall plain_request h -> Forall (fun x => headers_accepted (st_events x)) h ->
  query c force (o, w1) = (Ok q, (o', w2)) -> w_trace w2 = w_trace w1 ++ t -> headers_accepted t -> ~ io_error t -> t <> [] ->
  let before := writes (List.concat (map st_events h)) in
  exists pre s, writes t = pre ++ [line s] /\ header_in_force (before ++ pre) (c_header c)
    /\ (header_in_force before (c_header c) -> no_header_line pre) /\ (~ header_in_force before (c_header c) -> exists a, pre = wake_lines a ++ [header_line (c_header c)]).
Proof.
  intros cf port scan w t0 h o w1 c force q o' w2 t S G1 G2 H T Acc Io Nt before. destruct (session_query _ _ _ _ _ _ _ _ _ _ _ _ _ _ S H T) as (OI & _ & Q).
  assert (MS : obd_status o <> NOT_CONNECTED /\ transmits o c t (Ok q) (build_command_string o c)).
  { destruct (query_transmits _ _ _ _ _ _ OI Q) as [(E & _)|(N & _ & D)]; [contradiction|auto]. }
  destruct MS as (N & _ & W). specialize (W Io ltac:(eauto)). pose proof (session_force _ _ _ _ _ _ _ _ S G1 G2 N) as F. fold before in F.
  exists (wake_lines (asleep o) ++ header_lines o c), (build_command_string o c). split; [rewrite W; unfold request; rewrite app_assoc; reflexivity|].
  destruct (text_eqb (c_header c) (o_last_header o)) eqn:E.
  - apply text_eqb_iff in E. rewrite (header_lines_same o c E), app_nil_r. rewrite E. split; [apply in_force_app; [exact F|apply no_header_wake]|].
    split; [intros _; apply no_header_wake|contradiction].
  - assert (E' : c_header c <> o_last_header o) by (intros X; apply text_eqb_iff in X; congruence). rewrite (header_lines_other o c E').
    split; [rewrite app_assoc; apply in_force_last|]. split; [|eauto]. intros X. contradiction E'. exact (in_force_unique _ _ _ X F).
Qed.
(* the object takes another header for granted only after an acknowledgement *)
Theorem C48_acknowledged : forall cf port scan w t0 h o w1 c force r o' w2 t, session cf port scan w t0 h (o, w1) ->
  query c force (o, w1) = (r, (o', w2)) -> w_trace w2 = w_trace w1 ++ t ->
  o_last_header o' = o_last_header o
  \/ (o_last_header o' = c_header c /\ exists e p t1 t2 lines ms, o_interface o = Some e /\ e_protocol e = Some p /\ t = t1 ++ t2
        /\ sends (asleep o) (str "AT SH " ++ c_header c ++ str " ") t1 lines /\ call p lines = Ok ms /\ acknowledges ms).
Proof.
  intros cf port scan w t0 h o w1 c force r o' w2 t S H T. destruct (session_query _ _ _ _ _ _ _ _ _ _ _ _ _ _ S H T) as (OI & _ & Q).
  assert (K : forall e p t1 x o1 t2, o_interface o = Some e -> e_protocol e = Some p -> header_run o e p (c_header c) t1 x o1 ->
    o_last_header o1 = o_last_header o \/ (o_last_header o1 = c_header c /\ exists e p t3 t4 lines ms, o_interface o = Some e /\ e_protocol e = Some p /\ t1 ++ t2 = t3 ++ t4
        /\ sends (asleep o) (str "AT SH " ++ c_header c ++ str " ") t3 lines /\ call p lines = Ok ms /\ acknowledges ms)).
  { intros e p t1 x o1 t2 Hi P HR. destruct HR as [E|t1 l ms Nh A C Ka|t1 l ms Nh A C Ka|t1 l x Nh A C|t1 Nh A]; try (left; reflexivity).
    right. split; [reflexivity|]. exists e, p, t1, t2, l, ms. split; [exact Hi|]. split; [exact P|]. split; [reflexivity|]. unfold asleep. rewrite Hi. auto. }
  destruct Q as [| |e p t y o1 Hi Ns P MS HR|e p t o1 Hi Ns P MS HR ND|e p t1 o1 e1 t2 Hi Ns P MS HR Hi1 N1 CS|e p t1 o1 e1 t2 lines y Hi Ns P MS HR Hi1 N1 Se C|e p t1 o1 e1 t2 lines ms Hi Ns P MS HR Hi1 N1 Se C];
    try (left; reflexivity); try exact (K e p t1 _ o1 t2 Hi P HR).
  - specialize (K e p t _ o1 [] Hi P HR). rewrite app_nil_r in K. exact K.
  - specialize (K e p t _ o1 [] Hi P HR). rewrite app_nil_r in K. exact K.
Qed.
(* the adapter refuses the header, the command is transmitted with the old one all the same *)
Definition refused_session := fst (outcome (setup false) (fresh (up ++ [says (str "?"); says (str "7E8 04 61 01 1A F8")])) [OpQuery (other "X" "2101" "7E2") true]).
Lemma question_mark : asks 12 (str "AT SH " ++ str "7E2" ++ str " ") [EvWrite (header_line (str "7E2")); EvRead (says (str "?"))] [str "?"].
Proof.
  exists 1%nat, [says (str "?")]. split; [reflexivity|]. split; [|split; [lia|left; discriminate]].
  apply (heard_last _ _ [63; 13; 62]).
  - apply (attempt_marker [PROMPT] [] [63; 13; 62]); [split; [constructor|intros (a & b & X); destruct a; discriminate X]|discriminate|exists [63; 13], []; reflexivity].
  - exists [[63]]. split; [apply (pieces_cons [63] 13 [] []); [discriminate|repeat constructor; cbn; lia|cbn; auto|constructor]|].
    constructor; [|constructor]. exists [], []. split; [reflexivity|]. split; [constructor|]. split; [constructor|]. right.
    split; [exists 63, []|exists 63, []]; (split; [reflexivity|]); cbn; lia.
Qed.
Theorem C48_refuted : map (fun x => writes (st_events x)) refused_session = [[header_line (str "7E2"); line (str "2101")]]
  /\ map (fun x => match st_result x with Ok (Some r) => match r_value r with VText s => s | _ => [] end | _ => [] end) refused_session = [str "7E80461011AF8"]
  /\ ~ Forall (fun x => headers_accepted (st_events x)) refused_session.
Proof.
  split; [vm_compute; reflexivity|]. split; [vm_compute; reflexivity|]. intros A.
  assert (E : map st_events refused_session = [[EvWrite (header_line (str "7E2")); EvRead (says (str "?")); EvWrite (line (str "2101")); EvRead (says (str "7E8 04 61 01 1A F8"))]]) by (vm_compute; reflexivity).
  revert A E. generalize refused_session. intros [|x l] A E; [discriminate E|]. cbn [map] in E. apply (f_equal (hd [])) in E. cbn [hd] in E.
  inversion A as [|? ? A1 _]. specialize (A1 [] [EvWrite (line (str "2101")); EvRead (says (str "7E8 04 61 01 1A F8"))] [EvWrite (header_line (str "7E2")); EvRead (says (str "?"))] (str "7E2") [str "?"] E question_mark).
  apply (f_equal (hd [])) in A1. discriminate A1.
Qed.

(* ------------------------------------------------------------------ C41 *)
Theorem C41_wake_up : forall cf port scan w t0 h o w1 c force r o' w2 t, session cf port scan w t0 h (o, w1) -> obd_status o <> NOT_CONNECTED ->
  query c force (o, w1) = (r, (o', w2)) -> w_trace w2 = w_trace w1 ++ t -> c_command c <> str " " -> t <> [] ->
  exists wakes rest k, (wakes = [wake_line] /\ sleeps h \/ wakes = [] /\ ~ sleeps h) /\ rest <> [] /\ ~ In wake_line rest
    /\ writes t = firstn k (wakes ++ rest) /\ (~ io_error t -> (exists q, r = Ok q) -> writes t = wakes ++ rest).
Proof.
  intros cf port scan w t0 h o w1 c force r o' w2 t S N H T Nc Nt. destruct (session_query _ _ _ _ _ _ _ _ _ _ _ _ _ _ S H T) as (OI & _ & Q).
  pose proof (session_sleeps _ _ _ _ _ _ _ _ S N) as Sl.
  destruct (query_transmits _ _ _ _ _ _ OI Q) as [(E & _)|(_ & _ & [k K] & D)]; [contradiction|].
  exists (wake_lines (asleep o)), (header_lines o c ++ [line (build_command_string o c)]), k. unfold request in *.
  split; [unfold wake_lines; destruct (asleep o); [left|right]; (split; [reflexivity|])|].
  { apply Sl. reflexivity. } { intros X. apply Sl in X. discriminate X. }
  split; [destruct (header_lines o c); discriminate|]. split; [|auto].
  intros I. apply in_app_or in I as [I|[I|[]]].
  - unfold header_lines in I. destruct (text_eqb _ _); [destruct I|]. destruct I as [I|[]]. discriminate I.
  - unfold wake_line, line in I. apply app_inv_tail in I. apply Nc.
    destruct (o_fast o) eqn:Fo; [|rewrite (build_slow o c Fo) in I; exact I].
    destruct (build_fast o c Fo) as (s & Sf & [(_ & B)|(_ & B)]); rewrite B in I; [|discriminate I]. subst s.
    destruct Sf as [(_ & n & d & _ & Dc & E)|(_ & E)]; [|symmetry; exact E]. exfalso. destruct Dc as (Nd & Fd & _).
    destruct (exists_last Nd) as (d' & x & ->). apply Forall_app in Fd as [_ Fd]. inversion Fd as [|? ? Bx _]. subst.
    rewrite app_assoc in E. apply (f_equal (fun l => last l 0)) in E. rewrite last_last in E. cbn in E. lia.
Qed.
(* and no other call wakes the adapter, low_power() and close() included; low power is asked for with one line *)
Theorem C41_low_power : forall cf port scan w t0 h o w1 r o' w2 t, session cf port scan w t0 h (o, w1) -> obd_status o <> NOT_CONNECTED ->
  run_op OpLowPower (o, w1) = (r, (o', w2)) -> w_trace w2 = w_trace w1 ++ t ->
  r = Ok None /\ (exists k, writes t = firstn k [line (str "ATLP")]) /\ (~ io_error t -> exists lines, exchange (str "OK") 1 (str "ATLP") t lines).
Proof.
  intros cf port scan w t0 h o w1 r o' w2 t S N R T. apply session_oinv in S as (OI & _).
  destruct (run_op_spec _ _ _ _ _ _ OI R) as (t' & T' & Q). rewrite T in T'. apply app_inv_head in T'. subst t'.
  inversion Q as [|t' o1 L| | |]; subst. split; [reflexivity|]. inversion L as [X|e t' lines Hi Hs A|e t' Hi Hs A]; subst; [contradiction| |].
  - split; [exists 1%nat; rewrite (writes_exchange _ _ _ _ _ A); reflexivity|eauto].
  - split; [exact (writes_failed _ _ _ _ A)|]. intros X. contradiction X.
    assert (In EvClose t) by (inversion A; cbn; auto; right; apply in_or_app; right; left; reflexivity).
    inversion A as [| |rs B|n rs0 rs Hh Hn B]; subst; [left; cbn; auto|left; cbn; auto| |]; right; inversion B; subst; cbn; right; apply in_or_app; left; rewrite ?map_app; repeat (apply in_or_app; right); rewrite ?map_app; repeat (apply in_or_app; right); left; reflexivity.
Qed.
Theorem C41_unconnected : forall o w, obd_status o = NOT_CONNECTED ->
  run_op OpLowPower (o, w) = (Ok None, (o, w)) /\ run_op OpNormalPower (o, w) = (Ok None, (o, w)).
Proof. intros o w N. cbn [run_op]. unfold bind. rewrite (obd_low_nc o w N), (obd_normal_nc o w N). split; reflexivity. Qed.
Example C41_example : let h := fst (outcome (setup false) (fresh (up ++ [says (str "OK"); says (str "OK"); says (str "7E8 04 41 0C 1A F8"); says (str "7E8 04 41 0C 1A F8")]))
    [OpLowPower; rpm; rpm]) in
  map (fun s => writes (st_events s)) h = [[line (str "ATLP")]; [wake_line; line (str "010C")]; [line (str "010C")]].
Proof. vm_compute. reflexivity. Qed.

(* ------------------------------------------------------------------ C49 *)
(* the listing commands, in the order in which they are asked for *)
Definition listing_names : list text :=
  [str "PIDS_A"; str "PIDS_B"; str "PIDS_C"; str "MIDS_A"; str "MIDS_B"; str "MIDS_C"; str "MIDS_D"; str "MIDS_E"; str "MIDS_F"; str "PIDS_9A"].
Theorem C49_listings : map c_name pid_getters = listing_names /\ Forall (fun g => In g all_commands) pid_getters.
Proof.
  split; [vm_compute; reflexivity|]. rewrite Forall_forall. intros g G. unfold pid_getters in G. apply in_flat_map in G. destruct G as (m & M & G). apply filter_In in G. destruct G as [G _].
  unfold all_commands. apply in_or_app. left. unfold somes in *. apply in_flat_map in G. destruct G as (oc & G & X). apply in_flat_map. exists oc. split; [|exact X]. apply in_concat. eauto.
Qed.
Theorem C49_supported : forall cf port scan w s1 o w', connect cf port scan (initial_obd cf, w) = (Ok tt, s1) -> new_obd cf port scan w = (Ok tt, (o, w')) ->
  (obd_status (fst s1) = CAR_CONNECTED -> exists ans, listings pid_getters s1 ans (o, w') /\
      forall c, In c (o_supported o) <-> is_base c \/ exists g bits, In (g, bits) ans /\ announces g bits c)
  /\ (obd_status (fst s1) <> CAR_CONNECTED -> (o, w') = s1 /\
      ((obd_status o <> NOT_CONNECTED \/ port = None /\ scan = []) -> forall c, In c (o_supported o) <-> is_base c)
      /\ (obd_status o = NOT_CONNECTED -> port <> None \/ scan <> [] -> o_supported o = [])).
Proof. exact supported_after. Qed.
(* every object is made that way *)
Theorem C49_connected_first : forall cf port scan w o w', new_obd cf port scan w = (Ok tt, (o, w')) ->
  exists s1, connect cf port scan (initial_obd cf, w) = (Ok tt, s1).
Proof. intros cf port scan w o w' H. unfold new_obd in H. apply bind_inv in H. destruct H as [([] & s1 & H1 & _)|(x & _ & D)]; [eauto|discriminate D]. Qed.
(* and no call other than close() changes them, except that the user may add to the set, which has no second copy of a command *)
Theorem C49_kept : forall cf port scan w t0 h o w1 p r o' w2, session cf port scan w t0 h (o, w1) -> run_op p (o, w1) = (r, (o', w2)) ->
  match p with
  | OpClose => o_supported o' = []
  | OpAdd c => (~ (exists c', In c' (o_supported o) /\ c_command c' = c_command c /\ c_header c' = c_header c) /\ o_supported o' = o_supported o ++ [c])
               \/ ((exists c', In c' (o_supported o) /\ c_command c' = c_command c /\ c_header c' = c_header c) /\ o_supported o' = o_supported o)
  | _ => o_supported o' = o_supported o
  end.
Proof.
  intros cf port scan w t0 h o w1 p r o' w2 S R. apply session_oinv in S as (OI & _). destruct (run_op_spec _ _ _ _ _ _ OI R) as (t & _ & Q).
  destruct Q as [c f t r o' Q|t o' Q|t o' Q|t r o' Q|c].
  - apply (query_run_inv _ _ _ _ _ _ OI Q).
  - apply (low_run_inv _ _ _ OI Q).
  - apply (normal_run_inv _ _ _ OI Q).
  - apply (close_run_inv _ _ _ _ OI Q).
  - cbn [with_supported o_supported]. unfold set_add. destruct (in_set c (o_supported o)) eqn:E.
    + right. split; [|reflexivity]. apply in_set_iff, E.
    + left. split; [|reflexivity]. intros X. apply in_set_iff in X. congruence.
Qed.
(* a car that has PIDs 04, 0C and 20, and then PID 21, but knows no monitor ids or mode 9 *)
Definition knows : list (option bytes) := firstn 6 up ++
  [says (str "7E8 06 41 00 10 10 00 01"); says (str "7E8 06 41 20 80 00 00 00"); says (str "NO DATA"); says (str "NO DATA")].
Example C49_example : exists o w', new_obd (setup true) (Some (str "p")) [] (fresh knows) = (Ok tt, (o, w')) /\ obd_status o = CAR_CONNECTED
  /\ map c_name (o_supported o) = base_names ++ [str "ENGINE_LOAD"; str "DTC_ENGINE_LOAD"; str "RPM"; str "DTC_RPM"; str "PIDS_B"; str "DTC_PIDS_B"; str "DISTANCE_W_MIL"; str "DTC_DISTANCE_W_MIL"].
Proof.
  destruct (new_obd (setup true) (Some (str "p")) [] (fresh knows)) as [r [o w']] eqn:E. exists o, w'. vm_compute in E. injection E as <- <- <-.
  split; [reflexivity|]. split; reflexivity.
Qed.

(* ------------------------------------------------------------------ C50 *)
(* full statement: the ports are tried in order up to the first with a working adapter, which is used. False: two refutations.
   Proved: they are tried in order; the search goes on exactly after ports with a car, and the last one tried is used *)
Theorem C50_choice_partial : forall cf scan w o w1, scan <> [] -> connect cf None scan (initial_obd cf, w) = (Ok tt, (o, w1)) ->
  exists before p after es e, scan = before ++ p :: after /\ tried cf (before ++ [p]) w (es ++ [e]) w1
     /\ Forall (fun x => e_status x = CAR_CONNECTED) es /\ (after = [] \/ e_status e <> CAR_CONNECTED)
     /\ obd_status o = e_status e /\ (obd_status o <> NOT_CONNECTED -> o_interface o = Some e) /\ (obd_status o = NOT_CONNECTED -> o_interface o = None).
Proof. exact port_choice. Qed.
(* so an adapter without a car on the first port is used, and no other port is touched *)
Theorem C50_first_adapter_partial : forall cf p rest w e w1, 
  new_elm p (cf_baudrate cf) (cf_protocol cf) (cf_timeout cf) (cf_check_voltage cf) (cf_start_low_power cf) w = (Ok e, w1) ->
  e_status e = ELM_CONNECTED \/ e_status e = OBD_CONNECTED ->
  exists o, new_obd cf None (p :: rest) w = (Ok tt, (o, w1)) /\ o_interface o = Some e.
Proof.
  intros cf p rest w e w1 H S. exists (connected_obd cf (Some e) base_set). split; [|reflexivity].
  assert (C : connect cf None (p :: rest) (initial_obd cf, w) = (Ok tt, (connected_obd cf (Some e) base_set, w1))).
  { unfold connect. change (initial_obd cf) with (connected_obd cf None base_set). unfold bind at 1. cbn [connect_scan]. unfold bind at 1. unfold connect_port. change (o_timeout (connected_obd cf None base_set)) with (cf_timeout cf).
    rewrite H. change (set_interface (Some e) (connected_obd cf None base_set, w1)) with (Ok tt, (connected_obd cf (Some e) base_set, w1)). unfold bind, obd_of, gets. cbn [fst].
    change (obd_status (connected_obd cf (Some e) base_set)) with (e_status e).
    replace (text_leb (status_text ELM_CONNECTED) (status_text (e_status e))) with true by (destruct S as [-> | ->]; reflexivity).
    unfold ret. unfold close_if_failed, bind, obd_of, gets. cbn [fst]. change (obd_status (connected_obd cf (Some e) base_set)) with (e_status e). destruct S as [-> | ->]; reflexivity. }
  unfold new_obd. unfold bind at 1. rewrite C. unfold load_commands, bind, obd_of, gets. cbn [fst]. change (obd_status (connected_obd cf (Some e) base_set)) with (e_status e). destruct S as [-> | ->]; reflexivity.
Qed.
(* no ports: nothing happens *)
Theorem C50_no_ports : forall cf w, exists o, new_obd cf None [] w = (Ok tt, (o, w)) /\ obd_status o = NOT_CONNECTED.
Proof. intros cf w. exists (initial_obd cf). split; reflexivity. Qed.
(* the first port cannot be opened: the second, with an adapter and a car, is never tried *)
Theorem C50_gives_up_refuted : exists o w', new_obd (setup true) None [str "a"; str "b"] (mkWorld [false; true] [] up [] []) = (Ok tt, (o, w'))
  /\ obd_status o = NOT_CONNECTED /\ w_trace w' = [EvOpen (str "a") false]
  /\ exists o2 w2, new_obd (setup true) None [str "b"] (mkWorld [true] [] up [] []) = (Ok tt, (o2, w2)) /\ obd_status o2 = CAR_CONNECTED.
Proof.
  destruct (new_obd (setup true) None [str "a"; str "b"] (mkWorld [false; true] [] up [] [])) as [r [o w']] eqn:E. vm_compute in E. injection E as <- <- <-.
  eexists. eexists. split; [reflexivity|]. split; [reflexivity|]. split; [reflexivity|].
  destruct (new_obd (setup true) None [str "b"] (mkWorld [true] [] up [] [])) as [r [o w']] eqn:E. vm_compute in E. injection E as <- <- <-.
  eexists. eexists. split; reflexivity.
Qed.
(* the first port has an adapter with a car: the search goes on, leaves that port open and ends unconnected *)
Theorem C50_goes_on_refuted : exists o w', new_obd (setup true) None [str "a"; str "b"] (mkWorld [true; false] [] up [] []) = (Ok tt, (o, w'))
  /\ obd_status o = NOT_CONNECTED /\ ~ In EvClose (w_trace w') /\ In (EvOpen (str "a") true) (w_trace w')
  /\ exists o2 w2, new_obd (setup true) None [str "a"] (mkWorld [true] [] up [] []) = (Ok tt, (o2, w2)) /\ obd_status o2 = CAR_CONNECTED.
Proof.
  destruct (new_obd (setup true) None [str "a"; str "b"] (mkWorld [true; false] [] up [] [])) as [r [o w']] eqn:E. vm_compute in E. injection E as <- <- <-.
  eexists. eexists. split; [reflexivity|]. split; [reflexivity|]. split; [cbn; intuition discriminate|]. split; [left; reflexivity|].
  destruct (new_obd (setup true) None [str "a"] (mkWorld [true] [] up [] [])) as [r [o w']] eqn:E. vm_compute in E. injection E as <- <- <-.
  eexists. eexists. split; reflexivity.
Qed.
(* an adapter on the first port without a protocol: the hypotheses of C50_first_adapter_partial are met *)
Example C50_example : exists e w1, new_elm (str "a") (Some 38400) (Some (str "6")) 100 false false
    (fresh (firstn 5 up ++ [says (str "UNABLE TO CONNECT")])) = (Ok e, w1) /\ e_status e = ELM_CONNECTED.
Proof.
  destruct (new_elm (str "a") (Some 38400) (Some (str "6")) 100 false false (fresh (firstn 5 up ++ [says (str "UNABLE TO CONNECT")]))) as [r w1] eqn:E.
  vm_compute in E. injection E as <- <-. eexists. eexists. split; reflexivity.
Qed.

(* ------------------------------------------------------------------ C51 *)
(* full statement: for every outcome. False: two refutations. Proved whenever close() returns *)
Definition shut (o : obd) : Prop :=
  obd_status o = NOT_CONNECTED /\ o_supported o = [] /\ obd_port_name o = [] /\ obd_protocol_name o = Ok [] /\ obd_protocol_id o = Ok [] /\ is_connected o = false.
Theorem C51_close_partial : forall cf port scan w t0 h o w1 q o' w2 t, session cf port scan w t0 h (o, w1) ->
  run_op OpClose (o, w1) = (Ok q, (o', w2)) -> w_trace w2 = w_trace w1 ++ t ->
  shut o' /\ (obd_status o = NOT_CONNECTED -> t = [])
  /\ (obd_status o <> NOT_CONNECTED -> (exists t', t = t' ++ [EvClose]) /\ (~ io_error t -> exists t', t = t' ++ [EvWrite (line (str "ATZ")); EvClose]))
  /\ run_op OpClose (o', w2) = (Ok None, (o', w2)).
Proof.
  intros cf port scan w t0 h o w1 q o' w2 t S R T. apply session_oinv in S as (OI & _).
  destruct (run_op_spec _ _ _ _ _ _ OI R) as (t' & T' & Q). rewrite T in T'. apply app_inv_head in T'. subst t'. clear R T.
  remember (Ok q) as rq eqn:Rq. remember OpClose as p eqn:Hp. destruct Q as [| | |t r o' L|]; try discriminate Hp.
  assert (I : o_interface o' = None /\ o_supported o' = []).
  { split; [|apply (close_run_inv _ _ _ _ OI L)]. destruct L as [N|e Hi Hs|e p' t x oo Hi Hs P HR|e p' t oo Hi Hs P HR Hn|e p' t oo Hi Hs P HR Hn|e p' t oo t2 e2 Hi Hs P HR Hn A1 A2 A3]; try reflexivity; try discriminate Rq. exact N. }
  destruct I as [I1 I2]. split; [unfold shut, is_connected, obd_status, obd_port_name, obd_protocol_name, obd_protocol_id; rewrite I1; auto 10|].
  split; [|split].
  - intros N. destruct (nc_run o OpClose t _ o' OI N (run_close _ _ _ _ L)) as (E & _). exact E.
  - intros N. destruct L as [X|e Hi Hs|e p' t x oo Hi Hs P HR|e p' t oo Hi Hs P HR Hn|e p' t oo Hi Hs P HR Hn|e p' t oo t2 e2 Hi Hs P HR Hn A1 A2 A3]; try discriminate Rq.
    + exfalso. apply N. unfold obd_status. rewrite X. reflexivity.
    + exfalso. apply N. unfold obd_status. rewrite Hi. exact Hs.
    + assert (HR' : header_run (emptied o) e p' (c_header (mkCommand [] [] [] 0 D_drop 0 false ECU_HEADER_ENGINE)) t None oo) by exact HR.
      destruct (header_run_writes (emptied o) e p' _ t None oo Hi HR') as (e1 & E1 & _ & K). unfold obd_status in Hn. rewrite E1 in Hn. destruct (K Hs Hn) as (Io & C & _).
      split; [exact C|contradiction].
    + split; [exists (t ++ [EvWrite (line (str "ATZ"))]); rewrite <- app_assoc; reflexivity|]. intros _. exists t. reflexivity.
  - cbn [run_op]. unfold obd_close, bind, set_supported, obd_of, gets. cbn [fst o_interface]. rewrite I1. cbv beta iota delta [ret]. f_equal. f_equal. destruct o' as [i l f tm lc lh fc]. cbn in I1, I2 |- *. subst. reflexivity.
Qed.
(* the port fails while ATZ is written: close() raises, though the port is closed *)
Theorem C51_raises_refuted : exists o w1 o' w2, snd (outcome (setup true) (mkWorld [] (repeat WOk 9 ++ [WFailBefore]) up [] []) []) = (o, w1)
  /\ obd_status o = CAR_CONNECTED /\ run_op OpClose (o, w1) = (Raise AttributeError, (o', w2)).
Proof.
  destruct (snd (outcome (setup true) (mkWorld [] (repeat WOk 9 ++ [WFailBefore]) up [] []) [])) as [o w1] eqn:E. vm_compute in E. injection E as <- <-.
  eexists. eexists. eexists. eexists. split; [reflexivity|]. split; [reflexivity|]. vm_compute. reflexivity.
Qed.
(* the answer to the header change confuses the parser: close() raises and the object stays connected *)
Theorem C51_stays_connected_refuted : exists o w1 o' w2,
  snd (outcome (setup true) (fresh (up ++ [says (str "OK"); says (str "7EA 04 61 01 1A F8"); says (str "7E8 01 43")])) [OpQuery (other "X" "2101" "7E2") true]) = (o, w1)
  /\ run_op OpClose (o, w1) = (Raise IndexError, (o', w2)) /\ obd_status o' = CAR_CONNECTED.
Proof.
  destruct (snd (outcome _ _ _)) as [o w1] eqn:E. vm_compute in E. injection E as <- <-.
  eexists. eexists. eexists. eexists. split; [reflexivity|]. split; [vm_compute; reflexivity|]. reflexivity.
Qed.
Example C51_example : let '(h, (o, w1)) := outcome (setup true) (fresh up) [OpClose; OpClose] in
  map st_events h = [[EvWrite (line (str "ATZ")); EvClose]; []] /\ map st_result h = [Ok None; Ok None].
Proof. vm_compute. auto. Qed.

(* ------------------------------------------------------------------ C52 *)
(* full statement: query() returns. False: C36_refuted, C09 and C19. Proved: the only exceptions of built-in commands and their causes *)
Theorem C52_exceptions_partial : forall cf port scan w t0 h o w1 c force x o' w2 t, session cf port scan w t0 h (o, w1) -> In c all_commands ->
  query c force (o, w1) = (Raise x, (o', w2)) -> w_trace w2 = w_trace w1 ++ t ->
  (x = IndexError /\ exists e p a s t1 t2 lines, o_interface o = Some e /\ e_protocol e = Some p /\ t = t1 ++ t2 /\ sends a s t2 lines /\
      (call p lines = Raise IndexError
       \/ exists ms b, call p lines = Ok ms /\ air_status c /\ answered c ms [b] /\ In b [16; 32; 64; 128]))
  \/ (x = TypeError /\ io_error t /\ unrecorded o c /\ c_header c <> o_last_header o).
Proof.
  intros cf port scan w t0 h o w1 c force x o' w2 t S I H T. destruct (session_query _ _ _ _ _ _ _ _ _ _ _ _ _ _ S H T) as (OI & _ & Q).
  exact (query_exceptions _ _ _ _ _ _ OI I Q).
Qed.
(* with the engine's header only (that of all built-in commands) the second kind does not occur *)
Theorem C52_builtin_only_partial : forall cf port scan w t0 h o w1 c force x o' w2 t, session cf port scan w t0 h (o, w1) -> In c all_commands ->
  Forall (fun s => match st_op s with OpQuery c _ => In c all_commands | _ => True end) h ->
  query c force (o, w1) = (Raise x, (o', w2)) -> w_trace w2 = w_trace w1 ++ t ->
  x = IndexError /\ ~ io_error t /\ exists e p a s t1 t2 lines, o_interface o = Some e /\ e_protocol e = Some p /\ t = t1 ++ t2 /\ sends a s t2 lines /\
      (call p lines = Raise IndexError
       \/ exists ms b, call p lines = Ok ms /\ air_status c /\ answered c ms [b] /\ In b [16; 32; 64; 128]).
Proof.
  intros cf port scan w t0 h o w1 c force x o' w2 t S I G H T.
  assert (G' : Forall engine_step h).
  { eapply Forall_impl; [|exact G]. intros [p t1 r1]. unfold engine_step. cbn [st_op]. destruct p; auto. apply builtin_header. }
  destruct (session_engine _ _ _ _ _ _ _ _ S G') as (_ & E).
  assert (Ne : c_header c = o_last_header o) by (rewrite E; apply builtin_header, I).
  destruct (C52_exceptions_partial _ _ _ _ _ _ _ _ _ _ _ _ _ _ S I H T) as [(-> & D)|(_ & _ & _ & D)]; [|contradiction].
  split; [reflexivity|]. split; [|exact D]. intros Io.
  destruct (C36_query_partial _ _ _ _ _ _ _ _ _ _ _ _ _ _ S H T Io) as (_ & _ & [X|(X & _)]); discriminate X.
Qed.
Theorem C52_refuted : exists o w1 o' w2, snd (outcome (setup true) (fresh (up ++ [says (str "7E8 03 41 12 10")])) []) = (o, w1)
  /\ query (cmd "AIR_STATUS") true (o, w1) = (Raise IndexError, (o', w2)).
Proof.
  destruct (snd (outcome _ _ _)) as [o w1] eqn:E. vm_compute in E. injection E as <- <-.
  eexists. eexists. eexists. eexists. split; [reflexivity|]. vm_compute. reflexivity.
Qed.
Example C52_example : map st_result (fst (outcome (setup false) (fresh (up ++ [says (str "7E8 01 43")])) [OpQuery (cmd "GET_DTC") true])) = [Raise IndexError].
Proof. vm_compute. reflexivity. Qed.

Print Assumptions C36_query_partial.
Print Assumptions C41_wake_up.
Print Assumptions C43_for_ever.
Print Assumptions C44_unsupported.
Print Assumptions C46_fast.
Print Assumptions C47_engine_partial.
Print Assumptions C48_header_partial.
Print Assumptions C49_supported.
Print Assumptions C50_choice_partial.
Print Assumptions C51_close_partial.
Print Assumptions C52_builtin_only_partial.
