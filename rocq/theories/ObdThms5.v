(* Sleep, headers and supported commands over whole histories. *)
From Coq Require Import ZArith List Bool Lia.
From Verif Require Import Py Num Utils Protocol Decoders Command CommandTable Commands World Elm Obd SpecElm SpecObd PyFacts CommandThms ElmFacts ElmThms ObdFacts ObdThms ObdThms2 ObdThms3 ObdThms4
  ChopThms WireFacts SpecWire DecoderThms DecoderThms2 DecoderThms3.
Import ListNotations.
Open Scope Z_scope.
Ltac Zify.zify_post_hook ::= Z.div_mod_to_equations.

(* ---- sleep ---- *)
Definition calm (o : obd) : Prop := obd_status o <> NOT_CONNECTED -> asleep o = false.
Lemma query_calm o c force t r o' : oinv o -> calm o -> query_run o c force t r o' -> calm o'.
Proof.
  intros OI C H. destruct (query_writes _ _ _ _ _ _ OI H) as [(_ & _ & -> & _)|(_ & _ & A & _)]; [exact C|]. intros _. exact A.
Qed.
Lemma new_obd_calm cf port scan w o w' : new_obd cf port scan w = (Ok tt, (o, w')) -> oinv o /\ calm o /\ o_last_header o = ECU_HEADER_ENGINE /\ o_fast o = cf_fast cf.
Proof.
  intros H. destruct (new_obd_inv (fun o _ => calm o /\ o_last_header o = ECU_HEADER_ENGINE)) with (cf := cf) (port := port) (scan := scan) (w := w) (o := o) (w' := w') as (A & [B C] & D & _); auto.
  - intros cf0 i l t F. split; [|reflexivity]. unfold calm, obd_status, asleep. cbn. destruct i as [e|]; [|congruence]. intros N. apply F, N.
  - intros o0 c t0 t r o' G OI [C E] Q. split; [eapply query_calm; eassumption|].
    assert (K : forall e p t1 x o1, header_run o0 e p (c_header c) t1 x o1 -> o_last_header o1 = ECU_HEADER_ENGINE).
    { intros e p t1 x o1 HR. pose proof (getter_header c G) as Hg. destruct HR; try exact E; congruence. }
    inversion Q; subst; try exact E; cbn [with_count with_command with_elm o_last_header]; eapply K; eassumption.
Qed.
Lemma sleeps_snoc h s : sleeps (h ++ [s]) ->
  (st_op s = OpLowPower /\ exists lines, exchange (str "OK") 1 (str "ATLP") (st_events s) lines /\ In (str "OK") lines) \/ (sleeps h /\ (st_events s = [] \/ st_op s = OpLowPower)).
Proof.
  intros H. inversion H as [h' t r lines A B E|h' p t r A B E].
  - apply app_inj_tail in E as [_ <-]. left. cbn. eauto.
  - apply app_inj_tail in E as [-> <-]. right. cbn. auto.
Qed.
Lemma existsb_In l s : existsb (text_eqb s) l = true <-> In s l.
Proof.
  rewrite existsb_exists. split; [intros (x & I & E); apply text_eqb_iff in E; subst; exact I|]. intros I. exists s. split; [exact I|]. apply text_eqb_iff. reflexivity.
Qed.
Lemma heard_pos m n rs lines : heard m n rs lines -> (1 <= n)%nat.
Proof. intros H. destruct H; lia. Qed.
Lemma attempt_bytes m rs bs : attempt m rs bs -> bs = concat (map (fun r => match r with Some b => b | None => [] end) rs).
Proof.
  intros H. destruct H as [chunks last _ _ _|chunks _].
  - rewrite map_map, map_id. reflexivity.
  - rewrite map_app, concat_app, map_map, map_id. cbn. rewrite app_nil_r. reflexivity.
Qed.
Lemma map_read_inj a : forall b, map EvRead a = map EvRead b -> a = b.
Proof. induction a as [|x a IH]; intros [|y b] E; try discriminate E; [reflexivity|]. injection E as -> E. f_equal. apply IH, E. Qed.
Lemma exchange_fun m cmd t l1 l2 : exchange m 1 cmd t l1 -> exchange m 1 cmd t l2 -> l1 = l2.
Proof.
  intros (n1 & r1 & -> & H1 & L1 & _) (n2 & r2 & E & H2 & L2 & _). injection E as E. apply map_read_inj in E. subst r2.
  pose proof (heard_pos _ _ _ _ H1). pose proof (heard_pos _ _ _ _ H2). assert (n1 = 1%nat) by lia. assert (n2 = 1%nat) by lia. subst n1 n2.
  inversion H1 as [r b l A B|r b n rest l A B C]; subst; [|apply heard_pos in C; lia].
  inversion H2 as [r b' l A' B'|r b' n rest l A' B' C']; subst; [|apply heard_pos in C'; lia].
  apply attempt_bytes in A, A'. apply answer_lines_fun in B, B'. congruence.
Qed.
Lemma wrote_something t l : writes t <> [] -> t = [] -> l.
Proof. intros H ->. exfalso. apply H. reflexivity. Qed.
Lemma request_nonempty o c s : request o c s <> [].
Proof. unfold request. intros E. apply app_eq_nil in E as [_ E]. apply app_eq_nil in E as [_ E]. discriminate. Qed.
Lemma history_sleeps o0 w0 h s : oinv o0 -> calm o0 -> history (o0, w0) h s -> oinv (fst s) /\ (obd_status (fst s) <> NOT_CONNECTED -> (asleep (fst s) = true <-> sleeps h)).
Proof.
  intros OI C H. induction H as [|h s1 p r s2 t H IH R T].
  - cbn. split; [exact OI|]. intros N. rewrite (C N). split; [discriminate|]. intros S. inversion S as [? ? ? ? ? ? E|? ? ? ? ? ? E]; destruct h; discriminate E.
  - destruct IH as [I1 IH]. destruct s1 as [o1 w1], s2 as [o2 w2]. cbn [fst snd] in *. destruct (run_op_spec _ _ _ _ _ _ I1 R) as (t' & T' & Q).
    rewrite T in T'. apply app_inv_head in T'. subst t'. destruct (op_run_inv _ _ _ _ _ I1 Q) as (I2 & _). split; [exact I2|]. intros N2. clear R T.
    assert (Awake : forall p t r, asleep o2 = false -> writes t <> [] -> p <> OpLowPower -> (asleep o2 = true <-> sleeps (h ++ [mkStep p t r]))).
    { intros q u x A W NP. rewrite A. split; [discriminate|]. intros S. apply sleeps_snoc in S. cbn in S. destruct S as [(E & _)|(_ & [E|E])]; [contradiction| |contradiction]. subst u. exfalso. apply W. reflexivity. }
    assert (Same : forall p r, o_interface o2 = o_interface o1 -> (asleep o2 = true <-> sleeps (h ++ [mkStep p [] r]))).
    { intros q x E. assert (N1 : obd_status o1 <> NOT_CONNECTED) by (revert N2; unfold obd_status; rewrite E; auto). unfold asleep in *. rewrite E. rewrite (IH N1). split; [intros S; apply sleeps_still; auto|]. intros S. apply sleeps_snoc in S. cbn in S. destruct S as [(_ & l & (n & rs & D & _) & _)|(S & _)]; [discriminate D|exact S]. }
    destruct Q as [c f t r o' Q|t o' Q|t o' Q|t r o' Q|c]; [| | | |apply Same; reflexivity].
    + destruct (query_writes _ _ _ _ _ _ I1 Q) as [(-> & _ & E & _)|(_ & _ & A & D)]; [apply Same; rewrite E; reflexivity|]. apply Awake; [exact A| |discriminate].
      destruct D as [(_ & _ & X & _)|(_ & _ & [->|(-> & Hh & _)])]; [contradiction|apply request_nonempty|]. rewrite (header_lines_other _ _ Hh). intros E. apply app_eq_nil in E as [_ E]. discriminate.
    + destruct Q as [N|e t lines Hi Hs A|e t Hi Hs A]; [apply Same; reflexivity| |exfalso; apply N2; reflexivity].
      assert (N1 : obd_status o1 <> NOT_CONNECTED) by (unfold obd_status; rewrite Hi; exact Hs). specialize (IH N1).
      unfold asleep in *. rewrite Hi in IH. cbn [with_elm o_interface]. destruct (existsb (text_eqb (str "OK")) lines) eqn:B.
      * split; [|reflexivity]. intros _. eapply sleeps_now; [exact A|]. apply existsb_In, B.
      * rewrite IH. split; [intros S; apply sleeps_still; auto|]. intros S. apply sleeps_snoc in S. cbn in S. destruct S as [(_ & l & A' & O)|(S & _)]; [|exact S].
        rewrite (exchange_fun _ _ _ _ _ A' A) in O. exfalso. exact (eq_true_false_abs _ (proj2 (existsb_In _ _) O) B).
    + destruct Q as [N|e t lines Hi Hs A|e t Hi Hs A]; [apply Same; reflexivity| |exfalso; apply N2; reflexivity].
      apply Awake; [reflexivity| |discriminate]. rewrite (writes_exchange _ _ _ _ _ A). discriminate.
    + destruct Q as [N|e Hi Hs|e p t x oo Hi Hs P HR|e p t oo Hi Hs P HR Hn|e p t oo Hi Hs P HR Hn|e p t oo t2 e2 Hi Hs P HR Hn A1 A2 (A3 & A4 & A5)];
        try (exfalso; apply N2; reflexivity); [exfalso; apply N2; unfold obd_status; cbn; rewrite N; reflexivity| |exfalso; apply N2; exact A3].
      inversion HR; subst. apply Awake; [reflexivity| |discriminate].
      match goal with A : sends _ _ _ _ |- _ => rewrite (writes_sends _ _ _ _ A) end. intros E. apply app_eq_nil in E as [_ E]. discriminate.
Qed.
Lemma session_sleeps cf port scan w t0 h o w' : session cf port scan w t0 h (o, w') -> obd_status o <> NOT_CONNECTED -> (asleep o = true <-> sleeps h).
Proof.
  intros ([o0 w0] & N & _ & H). destruct (new_obd_calm _ _ _ _ _ _ N) as (I & C & _). apply (history_sleeps _ _ _ _ I C H).
Qed.

(* ---- headers ---- *)
Lemma header_line_inj a b : header_line a = header_line b -> a = b.
Proof. unfold header_line, line. intros H. apply app_inv_tail in H. apply app_inv_head in H. apply app_inv_tail in H. exact H. Qed.
Lemma in_force_app l m h : header_in_force l h -> no_header_line m -> header_in_force (l ++ m) h.
Proof.
  intros [(a & b & -> & N)|(N & ->)] M.
  - left. exists a, (b ++ m). rewrite <- app_assoc. split; [reflexivity|]. intros x k I. apply in_app_or in I as [I|I]; [apply N|apply M]; exact I.
  - right. split; [|reflexivity]. intros x k I. apply in_app_or in I as [I|I]; [apply N|apply M]; exact I.
Qed.
Lemma in_force_last l h : header_in_force (l ++ [header_line h]) h.
Proof. left. exists l, []. split; [reflexivity|]. intros x k []. Qed.
Lemma no_header_nil : no_header_line []. Proof. intros x k []. Qed.
Lemma line_header s h : line s = header_line h -> s = str "AT SH " ++ h ++ str " ".
Proof. unfold header_line, line. intros H. apply app_inv_tail in H. exact H. Qed.
Lemma no_header_one s : (forall h, s <> str "AT SH " ++ h ++ str " ") -> no_header_line [line s].
Proof. intros H x h [<-|[]] E. apply line_header in E. exact (H _ E). Qed.
Lemma no_header_wake a : no_header_line (wake_lines a).
Proof. destruct a; [|apply no_header_nil]. cbn [wake_lines]. apply (no_header_one (str " ")). intros h E. discriminate E. Qed.
Lemma last_app_digit (s : text) d h : d <> [] -> Forall (fun x => 48 <= x <= 57) d -> s ++ d <> str "AT SH " ++ h ++ str " ".
Proof.
  intros N F E. destruct (exists_last N) as (d' & x & ->). rewrite Forall_forall in F. specialize (F x ltac:(apply in_or_app; right; left; reflexivity)).
  rewrite !app_assoc in E. change (str " ") with [32] in E. apply app_inj_tail in E as [_ E]. lia.
Qed.
Lemma build_plain o c : (forall h, c_command c <> str "AT SH " ++ h ++ str " ") -> forall h, build_command_string o c <> str "AT SH " ++ h ++ str " ".
Proof.
  intros H h. destruct (o_fast o) eqn:F.
  - destruct (build_fast o c F) as (s & S & [(_ & ->)|(_ & ->)]); [|discriminate]. destruct S as [(_ & n & d & _ & (Nd & Fd & _) & ->)|(_ & ->)]; [|apply H]. apply last_app_digit; assumption.
  - rewrite (build_slow _ _ F). apply H.
Qed.
Lemma ok_parsed p : exists ms, call p [str "OK"] = Ok ms /\ acknowledges ms.
Proof.
  eexists. split; [apply text_only|reflexivity]. constructor; [|constructor]. intros X. apply hex_line_isHex in X. vm_compute in X. discriminate.
Qed.
Lemma accepted_app_l a b : headers_accepted (a ++ b) -> headers_accepted a.
Proof. intros H u v x h l -> A. apply (H u (v ++ b) x h l); [|exact A]. rewrite <- !app_assoc. reflexivity. Qed.
Lemma accepted_app_r a b : headers_accepted (a ++ b) -> headers_accepted b.
Proof. intros H u v x h l -> A. apply (H (a ++ u) v x h l); [|exact A]. rewrite <- !app_assoc. reflexivity. Qed.
Lemma accepted_sends a h t lines : headers_accepted t -> sends a (str "AT SH " ++ h ++ str " ") t lines -> lines = [str "OK"].
Proof. intros H (t1 & t2 & -> & _ & A). apply (H t1 [] t2 h lines); [rewrite app_nil_r; reflexivity|exact A]. Qed.
(* the header phase keeps track of the header in force *)
Lemma header_force o e p h t x o1 W : o_interface o = Some e -> header_run o e p h t x o1 -> headers_accepted t -> header_in_force W (o_last_header o) ->
  obd_status o1 <> NOT_CONNECTED -> x = None /\ o_last_header o1 = h /\ header_in_force (W ++ writes t) h.
Proof.
  intros Hi H Acc F N. destruct H as [E|t l ms Nh A C K|t l ms Nh A C K|t l x Nh A C|t Nh A].
  - cbn [writes flat_map]. rewrite app_nil_r, E. auto.
  - split; [reflexivity|]. split; [reflexivity|]. rewrite (writes_sends _ _ _ _ A), app_assoc. apply in_force_last.
  - exfalso. apply K. rewrite (accepted_sends _ _ _ _ Acc A) in C. destruct (ok_parsed p) as (ms' & C' & K'). congruence.
  - exfalso. rewrite (accepted_sends _ _ _ _ Acc A) in C. destruct (ok_parsed p) as (ms' & C' & K'). congruence.
  - exfalso. apply N. reflexivity.
Qed.
Lemma query_force o c force t r o' W : oinv o -> query_run o c force t r o' -> headers_accepted t -> (forall h, c_command c <> str "AT SH " ++ h ++ str " ") ->
  header_in_force W (o_last_header o) -> obd_status o' <> NOT_CONNECTED -> header_in_force (W ++ writes t) (o_last_header o').
Proof.
  intros OI H Acc Pl F N. inversion H as [H1|H1 H2|e p t' x o1 Hi Hs P M HR|e p t' o1 Hi Hs P M HR Hn|e p t1 o1 e1 t2 Hi Hs P M HR Hi1 Hs1 A|e p t1 o1 e1 t2 l x Hi Hs P M HR Hi1 Hs1 A C|e p t1 o1 e1 t2 l ms Hi Hs P M HR Hi1 Hs1 A C]; subst.
  - cbn. rewrite app_nil_r. exact F.
  - cbn. rewrite app_nil_r. exact F.
  - destruct (header_force _ _ _ _ _ _ _ _ Hi HR Acc F N) as (D & _). discriminate D.
  - contradiction.
  - exfalso. apply N. reflexivity.
  - assert (N1 : obd_status o1 <> NOT_CONNECTED) by (unfold obd_status; rewrite Hi1; exact Hs1).
    destruct (header_force _ _ _ _ _ _ _ _ Hi HR (accepted_app_l _ _ Acc) F N1) as (_ & E & F1). cbn [with_elm o_last_header]. rewrite E, writes_app, app_assoc.
    apply in_force_app; [exact F1|]. rewrite (writes_sends _ _ _ _ A). intros y k I. apply in_app_or in I as [I|I]; [exact (no_header_wake _ y k I)|].
    apply (no_header_one _ (build_plain o c Pl) y k I).
  - assert (N1 : obd_status o1 <> NOT_CONNECTED) by (unfold obd_status; rewrite Hi1; exact Hs1).
    destruct (header_force _ _ _ _ _ _ _ _ Hi HR (accepted_app_l _ _ Acc) F N1) as (_ & E & F1). cbn [with_count with_command with_elm o_last_header]. rewrite E, writes_app, app_assoc.
    apply in_force_app; [exact F1|]. rewrite (writes_sends _ _ _ _ A). intros y k I. apply in_app_or in I as [I|I]; [exact (no_header_wake _ y k I)|].
    apply (no_header_one _ (build_plain o c Pl) y k I).
Qed.
Lemma history_force o0 w0 h s : oinv o0 -> o_last_header o0 = ECU_HEADER_ENGINE -> history (o0, w0) h s -> Forall plain_request h -> Forall (fun x => headers_accepted (st_events x)) h ->
  oinv (fst s) /\ (obd_status (fst s) <> NOT_CONNECTED -> header_in_force (writes (concat (map st_events h))) (o_last_header (fst s))).
Proof.
  intros OI C H. induction H as [|h s1 p r s2 t H IH R T]; intros G1 G2.
  - cbn. split; [exact OI|]. intros _. rewrite C. right. split; [apply no_header_nil|reflexivity].
  - apply Forall_app in G1 as [G1 G1']. apply Forall_app in G2 as [G2 G2']. inversion G1' as [|? ? Pl _]; subst. inversion G2' as [|? ? Acc _]; subst. destruct (IH G1 G2) as [I1 F]. clear IH G1 G2 G1' G2'. destruct s1 as [o1 w1], s2 as [o2 w2]. cbn [fst snd] in *. destruct (run_op_spec _ _ _ _ _ _ I1 R) as (t' & T' & Q).
    rewrite T in T'. apply app_inv_head in T'. subst t'. destruct (op_run_inv _ _ _ _ _ I1 Q) as (I2 & _). split; [exact I2|]. intros N2. clear R T.
    rewrite map_app, concat_app. cbn [map concat st_events]. rewrite app_nil_r, writes_app. cbn [st_events] in Acc.
    destruct Q as [c f t r o' Q|t o' Q|t o' Q|t r o' Q|c]; [| | | |cbn; rewrite app_nil_r; exact (F N2)].
    + assert (N1 : obd_status o1 <> NOT_CONNECTED).
      { destruct (query_writes _ _ _ _ _ _ I1 Q) as [(_ & _ & -> & _)|(X & _)]; assumption. }
      exact (query_force _ _ _ _ _ _ _ I1 Q Acc Pl (F N1) N2).
    + destruct Q as [N|e t lines Hi Hs A|e t Hi Hs A]; [contradiction| |exfalso; apply N2; reflexivity]. cbn [with_elm o_last_header].
      apply in_force_app; [apply F; unfold obd_status; rewrite Hi; exact Hs|]. rewrite (writes_exchange _ _ _ _ _ A). apply no_header_one. intros k E. discriminate E.
    + destruct Q as [N|e t lines Hi Hs A|e t Hi Hs A]; [contradiction| |exfalso; apply N2; reflexivity]. cbn [with_elm o_last_header].
      apply in_force_app; [apply F; unfold obd_status; rewrite Hi; exact Hs|]. rewrite (writes_exchange _ _ _ _ _ A). apply no_header_one. intros k E. discriminate E.
    + destruct Q as [N|e Hi Hs|e p t x oo Hi Hs P HR|e p t oo Hi Hs P HR Hn|e p t oo Hi Hs P HR Hn|e p t oo t2 e2 Hi Hs P HR Hn A1 A2 (A3 & A4 & A5)];
        try (exfalso; apply N2; reflexivity); [exfalso; apply N2; unfold obd_status; cbn; rewrite N; reflexivity| |exfalso; apply N2; exact A3].
      assert (Hi0 : o_interface (emptied o1) = Some e) by exact Hi.
      assert (F0 : header_in_force (writes (concat (map st_events h))) (o_last_header (emptied o1))) by (apply F; unfold obd_status; rewrite Hi; exact Hs).
      destruct (header_force _ _ _ _ _ _ _ _ Hi0 HR Acc F0 N2) as (D & _). discriminate D.
Qed.
Lemma session_force cf port scan w t0 h o w' : session cf port scan w t0 h (o, w') -> Forall plain_request h -> Forall (fun x => headers_accepted (st_events x)) h ->
  obd_status o <> NOT_CONNECTED -> header_in_force (writes (concat (map st_events h))) (o_last_header o).
Proof.
  intros ([o0 w0] & N & _ & H) G1 G2. destruct (new_obd_calm _ _ _ _ _ _ N) as (I & _ & C & _). apply (history_force _ _ _ _ I C H G1 G2).
Qed.
