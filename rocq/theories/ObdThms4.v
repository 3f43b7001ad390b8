(* Fast mode, low power and headers over whole histories. *)
From Coq Require Import ZArith List Bool Lia.
From Verif Require Import Py Num Utils Protocol Decoders Command CommandTable Commands World Elm Obd SpecElm SpecObd PyFacts CommandThms ElmFacts ElmThms ObdFacts ObdThms ObdThms2 ObdThms3.
Import ListNotations.
Open Scope Z_scope.
Ltac Zify.zify_post_hook ::= Z.div_mod_to_equations.

Lemma build_slow o c : o_fast o = false -> build_command_string o c = c_command c.
Proof. intros H. unfold build_command_string. rewrite H. reflexivity. Qed.
Lemma build_fast o c : o_fast o = true -> exists s, stands_for o c s /\
  ((s <> o_last_command o /\ build_command_string o c = s) \/ (s = o_last_command o /\ build_command_string o c = [])).
Proof.
  intros H. unfold build_command_string. rewrite H. cbn [andb].
  assert (F : forall s, (s <> o_last_command o /\ (if text_eqb s (o_last_command o) then [] else s) = s) \/ (s = o_last_command o /\ (if text_eqb s (o_last_command o) then [] else s) = [])).
  { intros s. destruct (text_eqb s (o_last_command o)) eqn:E; [right; apply text_eqb_iff in E; auto|left]. split; [|reflexivity]. intros X. apply text_eqb_iff in X. congruence. }
  destruct (c_fast c) eqn:Cf.
  - destruct (dict_get cmd_eqb (o_frame_counts o) c) as [n|] eqn:D.
    + exists (c_command c ++ str_nat n). split; [left; split; [exact Cf|]; exists n, (str_nat n); repeat split; try exact D; apply str_nat_decimal|apply F].
    + exists (c_command c). split; [right; split; [right; exact D|reflexivity]|apply F].
  - exists (c_command c). split; [right; auto|apply F].
Qed.
Lemma decimal_unique n a b : decimal n a -> decimal n b -> a = b.
Proof.
  assert (G : forall a v, Forall (fun d => 48 <= d <= 57) a -> 0 <= v -> fold_left (fun v d => 10 * v + (d - 48)) a v = v * 10 ^ zlen a + fold_left (fun v d => 10 * v + (d - 48)) a 0).
  { clear. induction a as [|d a IH]; intros v F Hv; cbn [fold_left].
    - cbn. lia.
    - inversion F as [|? ? F1 F2]; subst. unfold zlen in *. cbn [length]. rewrite Nat2Z.inj_succ, Z.pow_succ_r by lia. rewrite (IH (10 * v + (d - 48))) by (assumption || lia). rewrite (IH (10 * 0 + (d - 48))) by (assumption || lia). ring. }
  assert (B : forall a, Forall (fun d => 48 <= d <= 57) a -> 0 <= fold_left (fun v d => 10 * v + (d - 48)) a 0 < 10 ^ zlen a).
  { clear -G. induction a as [|d a IH]; intros F.
    - cbn. lia.
    - inversion F as [|? ? F1 F2]; subst. specialize (IH F2). unfold zlen in *. cbn [fold_left length]. rewrite Nat2Z.inj_succ, Z.pow_succ_r by lia. rewrite (G a (10 * 0 + (d - 48)) F2) by lia. unfold zlen.
      assert (0 < 10 ^ Z.of_nat (length a)) by (apply Z.pow_pos_nonneg; lia). nia. }
  assert (L : forall a, Forall (fun d => 48 <= d <= 57) a -> forall d, 49 <= d <= 57 -> 10 ^ zlen a <= fold_left (fun v d => 10 * v + (d - 48)) (d :: a) 0).
  { intros x F d Hd. cbn [fold_left]. rewrite (G x _ F) by lia. pose proof (B x F). assert (0 < 10 ^ zlen x) by (apply Z.pow_pos_nonneg; unfold zlen; lia). nia. }
  (* same length *)
  assert (Same : forall a b, length a = length b -> Forall (fun d => 48 <= d <= 57) a -> Forall (fun d => 48 <= d <= 57) b ->
     fold_left (fun v d => 10 * v + (d - 48)) a 0 = fold_left (fun v d => 10 * v + (d - 48)) b 0 -> a = b).
  { clear -G B. induction a as [|x a IH]; intros [|y b] E Fa Fb V; try discriminate E; [reflexivity|].
    inversion Fa as [|? ? X1 X2]; inversion Fb as [|? ? Y1 Y2]; subst. cbn [fold_left] in V. rewrite (G a _ X2), (G b _ Y2) in V by lia.
    injection E as E. assert (El : zlen a = zlen b) by (unfold zlen; lia). rewrite El in V. pose proof (B a X2) as Ba. pose proof (B b Y2) as Bb. rewrite El in Ba.
    assert (x = y) by nia. subst y. f_equal. apply IH; auto; nia. }
  intros (Na & Fa & Va & Za) (Nb & Fb & Vb & Zb). apply Same; try assumption; [|congruence]. rewrite <- Vb in Va. clear Vb.
  assert (Len : forall a b, a <> [] -> Forall (fun d => 48 <= d <= 57) a -> Forall (fun d => 48 <= d <= 57) b -> (forall r, b = 48 :: r -> r = []) ->
     fold_left (fun v d => 10 * v + (d - 48)) a 0 = fold_left (fun v d => 10 * v + (d - 48)) b 0 -> (length b <= length a)%nat).
  { clear Va Zb Zb Fa Fb Na Nb Za a b. intros a b Na Fa Fb Zb V. destruct b as [|y b]; [cbn; lia|]. inversion Fb as [|? ? Y1 Y2]; subst.
    destruct (Z.eq_dec y 48) as [->|Ny]; [rewrite (Zb b eq_refl); destruct a; [congruence|cbn; lia]|].
    pose proof (L b Y2 y ltac:(lia)) as Lb. pose proof (B a Fa) as Ba. rewrite <- V in Lb.
    assert (10 ^ zlen b < 10 ^ zlen a) by lia. apply Z.pow_lt_mono_r_iff in H; [|lia|unfold zlen; lia]. unfold zlen in H. cbn [length]. lia. }
  apply Nat.le_antisymm; eapply Len; try eassumption; congruence.
Qed.

(* ---- frame counts ---- *)
Lemma cmd_eqb_refl c : cmd_eqb c c = true.
Proof. apply cmd_eqb_iff. auto. Qed.
Lemma cmd_eqb_sym a b : cmd_eqb a b = cmd_eqb b a.
Proof. apply eq_true_iff_eq. rewrite !cmd_eqb_iff. intuition. Qed.
Lemma cmd_eqb_trans a b c : cmd_eqb a b = true -> cmd_eqb b c = true -> cmd_eqb a c = true.
Proof. rewrite !cmd_eqb_iff. intuition congruence. Qed.
Lemma with_count_get c n o c' : dict_get cmd_eqb (o_frame_counts (with_count c n o)) c' =
  match dict_get cmd_eqb (o_frame_counts o) c' with Some m => Some m | None => if cmd_eqb c c' then Some n else None end.
Proof.
  cbn [with_count o_frame_counts]. unfold dict_mem. destruct (dict_get cmd_eqb (o_frame_counts o) c) as [m|] eqn:D.
  - destruct (dict_get cmd_eqb (o_frame_counts o) c') eqn:D'; [reflexivity|]. destruct (cmd_eqb c c') eqn:E; [|reflexivity].
    rewrite (cmd_dict_get _ c c' E) in D. congruence.
  - rewrite (dict_get_set cmd_eqb cmd_eqb_sym cmd_eqb_trans). destruct (cmd_eqb c c') eqn:E; [|destruct (dict_get _ _ c'); reflexivity].
    rewrite <- (cmd_dict_get _ c c' E), D. reflexivity.
Qed.
Definition frames_of (ms : list message) : nat := list_sum (map (fun m => length (m_frames m)) ms).
Lemma count_frames_sum ms : count_frames ms = frames_of ms.
Proof. induction ms as [|m ms IH]; [reflexivity|]. change (count_frames (m :: ms)) with (length (m_frames m) + count_frames ms)%nat. rewrite IH. reflexivity. Qed.
Lemma query_counts o c force t r o' : oinv o -> query_run o c force t r o' ->
  (forall c', dict_get cmd_eqb (o_frame_counts o') c' = dict_get cmd_eqb (o_frame_counts o) c')
  \/ exists n, (forall c', dict_get cmd_eqb (o_frame_counts o') c' =
        match dict_get cmd_eqb (o_frame_counts o) c' with Some m => Some m | None => if cmd_eqb c c' then Some n else None end)
     /\ ((io_error t /\ n = 0%nat) \/ exists p a t1 t2 lines ms, t = t1 ++ t2 /\ sends a (build_command_string o c) t2 lines /\ call p lines = Ok ms /\ n = frames_of ms
           /\ exists e, o_interface o = Some e /\ e_protocol e = Some p).
Proof.
  intros OI H. unfold oinv in OI. destruct H as [H|H1 H2|e p t x o1 Hi Hs P M HR|e p t o1 Hi Hs P M HR Hn|e p t1 o1 e1 t2 Hi Hs P M HR Hi1 Hs1 A|e p t1 o1 e1 t2 l x Hi Hs P M HR Hi1 Hs1 A C|e p t1 o1 e1 t2 l ms Hi Hs P M HR Hi1 Hs1 A C];
    [left; auto|left; auto| | | | |]; rewrite Hi in OI;
    destruct (header_run_inv _ _ _ _ _ _ _ Hi OI P HR) as (e' & Hi' & I' & _ & Q1 & Q2 & Q3 & Q4 & Q5 & Q6).
  - left. rewrite Q5. reflexivity.
  - left. cbn [with_command o_frame_counts]. rewrite Q5. reflexivity.
  - right. exists 0%nat. split; [|left; split; [apply io_app_r; apply A|reflexivity]]. intros c'. rewrite with_count_get. cbn [with_command with_elm o_frame_counts]. rewrite Q5. reflexivity.
  - left. cbn [with_elm o_frame_counts]. rewrite Q5. reflexivity.
  - right. exists (count_frames ms). split.
    + intros c'. rewrite with_count_get. cbn [with_command with_elm o_frame_counts]. rewrite Q5. reflexivity.
    + right. exists p, (e_low_power e1), t1, t2, l, ms. rewrite count_frames_sum. eauto 10.
Qed.

(* ---- the last command ---- *)
Lemma writes_noise (N : bytes -> Prop) t l : writes t = l -> Forall N l -> Forall N (writes t).
Proof. intros ->. auto. Qed.
Definition noise (strict : bool) (x : bytes) : Prop := repetition x \/ (strict = false /\ adapter_line x).
Definition last_inv (strict : bool) (o : obd) (t : list event) : Prop :=
  (strict = true -> o_last_header o = ECU_HEADER_ENGINE /\ (obd_status o <> NOT_CONNECTED -> asleep o = false)) /\
  (obd_status o <> NOT_CONNECTED -> o_last_command o <> [] ->
   exists a b, t = a ++ EvWrite (line (o_last_command o)) :: b /\ Forall (noise strict) (writes b)).
Definition good_step (strict : bool) (s : step) : Prop :=
  match st_op s with
  | OpQuery c _ => (exists r, st_result s = Ok r) /\ (strict = true -> c_header c = ECU_HEADER_ENGINE)
  | OpLowPower | OpNormalPower => strict = false
  | OpClose | OpAdd _ => True
  end.
Lemma noise_wake strict a : (strict = true -> a = false) -> Forall (noise strict) (wake_lines a).
Proof. intros H. destruct a; cbn; [|constructor]. (apply Forall_cons; [|apply Forall_nil]). right. destruct strict; [discriminate (H eq_refl)|]. split; [reflexivity|left; reflexivity]. Qed.
Lemma noise_header strict o c : (strict = true -> c_header c = o_last_header o) -> Forall (noise strict) (header_lines o c).
Proof.
  intros H. unfold header_lines. destruct (text_eqb _ _) eqn:E; [constructor|]. (apply Forall_cons; [|apply Forall_nil]). right. destruct strict.
  - apply text_eqb_iff in H; [|reflexivity]. congruence.
  - split; [reflexivity|]. right. right. eexists. reflexivity.
Qed.
Lemma trace_sends a cmd t lines : sends a cmd t lines -> exists t1 rs, t = t1 ++ EvWrite (line cmd) :: map EvRead rs /\ writes t1 = wake_lines a.
Proof.
  intros (t1 & t2 & -> & H1 & (n & rs & -> & _)). exists t1, rs. split; [reflexivity|]. destruct a; [|subst; reflexivity].
  destruct H1 as [l H1]. rewrite (writes_exchange _ _ _ _ _ H1). reflexivity.
Qed.
Lemma query_last strict o c force t0 t r o' : oinv o -> last_inv strict o t0 -> query_run o c force t (Ok r) o' ->
  (strict = true -> c_header c = ECU_HEADER_ENGINE) -> last_inv strict o' (t0 ++ t).
Proof.
  intros OI [L1 L2] H Hh. destruct (query_writes _ _ _ _ _ _ OI H) as [(-> & _ & -> & _)|(Hc & Hm & As & D)].
  { rewrite app_nil_r. split; assumption. }
  assert (LH : strict = true -> o_last_header o' = ECU_HEADER_ENGINE).
  { intros S. destruct (L1 S) as [E _]. specialize (Hh S). clear D. unfold oinv in OI.
    assert (K : forall e p t1 x o1, header_run o e p (c_header c) t1 x o1 -> o_last_header o1 = ECU_HEADER_ENGINE).
    { intros e p t1 x o1 HR. destruct HR; try (exact E); congruence. }
    inversion H; subst; try exact E; cbn [with_count with_command with_elm o_last_header]; eapply K; eassumption. }
  split; [intros S; split; [exact (LH S)|intros _; exact As]|]. intros Hc' Ln.
  destruct D as [(_ & _ & X & _)|(NE & St & Wr)]; [contradiction|].
  inversion H as [| |e p t' x o1 Hi Hs P M HR|e p t' o1 Hi Hs P M HR Hn E1 E2|e p t1 o1 e1 t2 Hi Hs P M HR Hi1 Hs1 A|e p t1 o1 e1 t2 l x Hi Hs P M HR Hi1 Hs1 A C|e p t1 o1 e1 t2 l ms Hi Hs P M HR Hi1 Hs1 A C]; subst; try contradiction.
  - cbn [with_count with_command with_elm o_last_command] in *. destruct (header_run_inv _ _ _ _ _ _ _ Hi ltac:(unfold oinv in OI; rewrite Hi in OI; exact OI) P HR) as (e' & Hi' & I' & _ & Q1 & Q2 & Q3 & Q4 & Q5 & Q6).
    destruct (build_command_string o c) as [|z s] eqn:B; cbn [nonempty] in *.
    + rewrite Q4 in *. destruct (L2 Hc Ln) as (a & b & -> & Fb). exists a, (b ++ t1 ++ t2). rewrite <- app_assoc. split; [reflexivity|].
      rewrite writes_app. apply Forall_app. split; [exact Fb|]. destruct Wr as [->|(-> & _)]; unfold request; repeat (apply Forall_app; split);
        try (apply noise_wake; intros S; apply (proj2 (L1 S) Hc)); try (apply noise_header; intros S; rewrite (proj1 (L1 S)); apply Hh, S).
      repeat constructor.
    + destruct (trace_sends _ _ _ _ A) as (u & rs & -> & _). exists (t0 ++ t1 ++ u), (map EvRead rs). rewrite writes_reads. split; [|constructor].
      rewrite <- !app_assoc. reflexivity.
Qed.
Lemma op_last strict o p t0 t r o' : oinv o -> last_inv strict o t0 -> op_run o p t r o' -> good_step strict (mkStep p t r) -> last_inv strict o' (t0 ++ t).
Proof.
  intros OI L H G. destruct H as [c f t r o' Q|t o' Q|t o' Q|t r o' Q|c]; unfold good_step in G; cbn [st_op st_result] in G; [| | | |rewrite app_nil_r; exact L].
  - destruct G as [[x Ex] G]. destruct r as [y|y]; [|discriminate Ex]. eapply query_last; eassumption.
  - subst strict. destruct L as [_ L2]. split; [discriminate|]. destruct Q as [N|e t lines Hi Hs A|e t Hi Hs A]; cbn [with_elm o_last_command].
    + rewrite app_nil_r. exact L2.
    + intros _ Ln. destruct L2 as (a & b & -> & F); [unfold obd_status; rewrite Hi; exact Hs|exact Ln|]. exists a, (b ++ t). rewrite <- app_assoc. split; [reflexivity|].
      rewrite writes_app, (writes_exchange _ _ _ _ _ A). apply Forall_app. split; [exact F|]. (apply Forall_cons; [|apply Forall_nil]). right. split; [reflexivity|]. right. left. reflexivity.
    + intros X. exfalso. apply X. reflexivity.
  - subst strict. destruct L as [_ L2]. split; [discriminate|]. destruct Q as [N|e t lines Hi Hs A|e t Hi Hs A]; cbn [with_elm o_last_command].
    + rewrite app_nil_r. exact L2.
    + intros _ Ln. destruct L2 as (a & b & -> & F); [unfold obd_status; rewrite Hi; exact Hs|exact Ln|]. exists a, (b ++ t). rewrite <- app_assoc. split; [reflexivity|].
      rewrite writes_app, (writes_exchange _ _ _ _ _ A). apply Forall_app. split; [exact F|]. (apply Forall_cons; [|apply Forall_nil]). right. split; [reflexivity|]. left. reflexivity.
    + intros X. exfalso. apply X. reflexivity.
  - destruct L as [L1 L2]. destruct Q as [N|e Hi Hs|e p t x o1 Hi Hs P HR|e p t o1 Hi Hs P HR Hn|e p t o1 Hi Hs P HR Hn|e p t o1 t2 e2 Hi Hs P HR Hn A1 A2 (A3 & A4 & A5)].
    + split; [intros S; split; [apply (L1 S)|]|]; intros X; exfalso; apply X; unfold obd_status; cbn; rewrite N; reflexivity.
    + split; [intros S; split; [apply (L1 S)|]|]; intros X; exfalso; apply X; reflexivity.
    + assert (N : ECU_HEADER_ENGINE <> o_last_header o /\ exists lines, sends (e_low_power e) (str "AT SH " ++ ECU_HEADER_ENGINE ++ str " ") t lines /\ o1 = with_elm (awake e) (emptied o)).
      { inversion HR; subst. split; [assumption|eauto]. }
      destruct N as (N & l & A & ->). split; [intros S; destruct (L1 S) as [X _]; congruence|]. intros _ Ln. cbn [with_elm emptied o_last_command] in *.
      destruct L2 as (a & b & -> & F); [unfold obd_status; rewrite Hi; exact Hs|exact Ln|]. exists a, (b ++ t). rewrite <- app_assoc. split; [reflexivity|].
      rewrite writes_app, (writes_sends _ _ _ _ A). apply Forall_app. split; [exact F|].
      destruct strict; [exfalso; apply N; symmetry; apply (L1 eq_refl)|]. apply Forall_app. split; [apply noise_wake; discriminate|]. (apply Forall_cons; [|apply Forall_nil]). right. split; [reflexivity|].
      right. right. eexists. reflexivity.
    + assert (X : strict = true -> o_last_header o1 = ECU_HEADER_ENGINE). { intros S. destruct (L1 S) as [E _]. inversion HR; subst; first [exact E|reflexivity]. }
      split; [intros S; split; [exact (X S)|]|]; intros Y; exfalso; apply Y; reflexivity.
    + assert (X : strict = true -> o_last_header o1 = ECU_HEADER_ENGINE). { intros S. destruct (L1 S) as [E _]. inversion HR; subst; first [exact E|reflexivity]. }
      split; [intros S; split; [exact (X S)|]|]; intros Y; exfalso; apply Y; reflexivity.
    + assert (X : strict = true -> o_last_header o1 = ECU_HEADER_ENGINE). { intros S. destruct (L1 S) as [E _]. inversion HR; subst; first [exact E|reflexivity]. }
      split; [intros S; split; [exact (X S)|]|]; intros Y; exfalso; apply Y; exact A3.
Qed.
Lemma getter_header c : In c pid_getters -> c_header c = ECU_HEADER_ENGINE.
Proof.
  assert (F : forallb (fun c => text_eqb (c_header c) ECU_HEADER_ENGINE) pid_getters = true) by (vm_compute; reflexivity).
  rewrite forallb_forall in F. intros I. apply text_eqb_iff, F, I.
Qed.
Lemma session_last strict cf port scan w t0 h o w' : session cf port scan w t0 h (o, w') -> Forall (good_step strict) h -> oinv o /\ o_fast o = cf_fast cf /\ last_inv strict o (w_trace w').
Proof.
  intros S G. destruct (session_inv (last_inv strict) (good_step strict)) with (cf := cf) (port := port) (scan := scan) (w := w) (t0 := t0) (h := h) (o := o) (w' := w') as (A & B & C & _); auto.
  - intros cf0 i l t F. split; [|intros _ X; exfalso; apply X; reflexivity]. intros _. split; [reflexivity|]. unfold obd_status, asleep. cbn. destruct i as [e|]; [|reflexivity]. intros N. apply F, N.
  - intros o0 c t1 t r o' I OI L Q. eapply query_last; try eassumption. intros _. apply getter_header, I.
  - intros. eapply op_last; eassumption.
Qed.
