(* Proofs about SpecAdapter: sessions. *)
From Coq Require Import ZArith List Bool Lia String.
From Verif Require Import Py Num Utils Protocol Decoders Command CommandTable Commands World Elm Obd SpecElm SpecObd SpecE2E SpecAdapter SpecAdapter2
  PyFacts ElmFacts ElmThms ObdFacts ObdThms ObdThms2 ObdThms3 ObdThms4 ObdThms5 Properties_Elm AdapterThms AdapterThms2 AdapterThms3.
Import ListNotations.
Open Scope string_scope. Open Scope list_scope. Open Scope Z_scope.

Local Arguments Z.eqb : simpl never.
(* ---- the full string a query stands for ---- *)
Definition full_string (o : obd) (c : command) : bytes :=
  if o_fast o && c_fast c then match dict_get cmd_eqb (o_frame_counts o) c with Some n => c_command c ++ str_nat n | None => c_command c end else c_command c.
Lemma build_full o c : build_command_string o c = if o_fast o && text_eqb (full_string o c) (o_last_command o) then [] else full_string o c.
Proof. reflexivity. Qed.
Lemma plain_decimal d : Forall (fun x => 48 <= x <= 57) d -> plain d = d.
Proof.
  intros F. unfold plain. induction F as [|x l B F IH]; [reflexivity|]. cbn [filter]. replace (x =? 32) with false by (symmetry; apply Z.eqb_neq; lia). cbn [negb map]. rewrite IH.
  unfold capital. replace (97 <=? x) with false by (symmetry; apply Z.leb_gt; lia). reflexivity.
Qed.
Lemma hexdigit_decimal d : Forall (fun x => 48 <= x <= 57) d -> forallb is_hexdigit d = true.
Proof.
  intros F. apply forallb_forall. intros x I. rewrite Forall_forall in F. specialize (F x I). unfold is_hexdigit. replace (48 <=? x) with true by (symmetry; apply Z.leb_le; lia).
  replace (x <=? 57) with true by (symmetry; apply Z.leb_le; lia). reflexivity.
Qed.
Lemma understand_hex s : plain s <> [] -> forallb is_hexdigit (plain s) = true ->
  understand s = if Nat.even (length (plain s)) then KRequest (plain s) else KCounted (removelast (plain s)) (hexdigit_value (last (plain s) 0)).
Proof.
  intros N H. unfold understand. remember (plain s) as p. destruct p as [|a p]; [contradiction|]. change (text_eqb (a :: p) []) with false. cbn [forallb] in H. apply andb_true_iff in H as [H1 H2].
  assert (A : text_eqb (a :: p) (str "ATZ") = false /\ text_eqb (a :: p) (str "ATE0") = false /\ text_eqb (a :: p) (str "ATH1") = false /\ text_eqb (a :: p) (str "ATL0") = false
    /\ existsb (text_eqb (a :: p)) [str "ATI"; str "ATRV"; str "ATDPN"; str "ATSP0"] = false /\ behind (str "ATTP") (a :: p) = None /\ behind (str "ATSH") (a :: p) = None).
  { destruct p as [|b p].
    - cbn. rewrite ?(Z.eqb_sym 65 a). destruct (a =? 65); repeat split.
    - cbn [forallb] in H2. apply andb_true_iff in H2 as [H2 _]. assert (B : b =? 84 = false) by (apply Z.eqb_neq; intros ->; discriminate H2).
      destruct (a =? 65) eqn:E; cbn; rewrite ?(Z.eqb_sym 65 a), ?(Z.eqb_sym 84 b), ?E, ?B; repeat split. }
  destruct A as (A1 & A2 & A3 & A4 & A5 & A6 & A7). rewrite A1, A2, A3, A4, A5, A6, A7. cbn [forallb]. rewrite H1, H2. cbn [andb]. reflexivity.
Qed.
Lemma understand_request s req : understand s = KRequest req -> req = plain s /\ plain s <> [] /\ forallb is_hexdigit (plain s) = true /\ Nat.even (length (plain s)) = true.
Proof.
  unfold understand. remember (plain s) as p. intros H. destruct (text_eqb p []) eqn:E0; [discriminate H|]. destruct (text_eqb p (str "ATZ")); [discriminate H|]. destruct (text_eqb p (str "ATE0")); [discriminate H|].
  destruct (text_eqb p (str "ATH1")); [discriminate H|]. destruct (text_eqb p (str "ATL0")); [discriminate H|]. destruct (existsb _ _); [discriminate H|]. destruct (behind (str "ATTP") p); [discriminate H|].
  destruct (behind (str "ATSH") p) as [h|]; [destruct (header_ok h); discriminate H|]. destruct (forallb is_hexdigit p) eqn:F; [|discriminate H]. destruct (Nat.even (length p)) eqn:Ev; [|discriminate H]. injection H as <-.
  split; [reflexivity|]. split; [intros ->; discriminate E0|]. auto.
Qed.
(* a request with digits behind it *)
Lemma understand_count s req d : understand s = KRequest req -> Forall (fun x => 48 <= x <= 57) d ->
  understand (s ++ d) = if Nat.even (length d) then KRequest (req ++ d) else KCounted (removelast (req ++ d)) (hexdigit_value (last (req ++ d) 0)).
Proof.
  intros U D. destruct (understand_request _ _ U) as (-> & N & H & E). assert (P : plain (s ++ d) = plain s ++ d) by (rewrite plain_app, (plain_decimal _ D); reflexivity).
  rewrite (understand_hex (s ++ d)); rewrite P.
  - rewrite app_length, Nat.even_add, E. destruct (Nat.even (length d)); reflexivity.
  - intros X. apply app_eq_nil in X as [X _]. contradiction.
  - rewrite forallb_app, H, (hexdigit_decimal _ D). reflexivity.
Qed.
Lemma full_leaves o c : proper c -> leaves (understand (full_string o c)).
Proof.
  intros (_ & P). unfold full_string. destruct P as [(req & U)|(U & F)].
  - destruct (o_fast o && c_fast c); [|rewrite U; exact Logic.I]. destruct (dict_get cmd_eqb (o_frame_counts o) c) as [n|]; [|rewrite U; exact Logic.I].
    rewrite (understand_count _ _ _ U (proj1 (proj2 (str_nat_decimal n)))). destruct (Nat.even _); exact Logic.I.
  - rewrite F, andb_false_r, U. exact Logic.I.
Qed.
Lemma leaves_nonempty s : leaves (understand s) -> s <> [].
Proof. intros L ->. exact L. Qed.
Lemma build_bell o c : proper c -> build_command_string o c <> [127; 127].
Proof. intros P. rewrite build_full. destruct (_ && _); [discriminate|]. apply leaves_bell, full_leaves, P. Qed.
Lemma getter_proper : Forall (fun c => proper c /\ c_header c = engine_header) pid_getters.
Proof.
  assert (F : forallb (fun c => header_ok (plain (c_header c)) && match understand (c_command c) with KRequest _ => true | _ => false end && text_eqb (c_header c) engine_header) pid_getters = true) by (vm_compute; reflexivity).
  apply Forall_forall. intros c I. rewrite forallb_forall in F. specialize (F c I). apply andb_true_iff in F as [F F3]. apply andb_true_iff in F as [F1 F2]. split; [|apply text_eqb_iff, F3].
  split; [exact F1|]. left. destruct (understand (c_command c)); try discriminate F2. eauto.
Qed.

Section Car.
  Context {Car : Type} (ask : Car -> option text -> text -> list text -> Car -> Prop).
  Notation follows := (follows ask). Notation obeys := (obeys ask). Notation moves := (moves ask). Notation does := (does ask).
  Lemma obeys_does a s l lines a' s' : leaves (understand l) -> obeys a s l lines a' s' <-> does a s l lines a' s'.
  Proof. unfold SpecAdapter.obeys. destruct (understand l); intros L; try contradiction; reflexivity. Qed.

  (* the header in force *)
  Definition header_inv (sw : bool) (o : obd) (a : adapter) : Prop :=
    if sw then ad_header a = Some (plain (o_last_header o)) else ad_header a = None /\ o_last_header o = engine_header.
  Definition line_inv (o : obd) (a : adapter) : Prop := o_last_command o = [] \/ ad_last a = o_last_command o.
  Definition usable (o : obd) (a : adapter) (sw strict : bool) : Prop :=
    obd_status o <> NOT_CONNECTED -> asleep o = false /\ tuned a /\ header_inv sw o a /\ (strict = true -> line_inv o a).
  Definition switches (c : command) (t : list event) : bool := negb (text_eqb (c_header c) engine_header) && match t with [] => false | _ => true end.

  (* a query that is sent; strict: by an object whose last line is also the adapter's *)
  Lemma query_step_full o c force t r o' a s pend y sw strict : oinv o -> usable o a sw strict -> query_run o c force t r o' -> proper c -> follows (a, s, pend) t y ->
    (strict = true -> c_header c = o_last_header o) -> (strict = false -> o_fast o = false) -> obd_status o <> NOT_CONNECTED -> may_send o c force ->
    exists p a1 lines a' s', y = (a', s', []) /\ uses o p /\ uses o' p /\ r = decoded p c lines /\ last_answer t lines
      /\ tuned a1 /\ header_inv (sw || switches c t) (with_header (c_header c) o) a1
      /\ does a1 s (full_string o c) lines a' s' /\ obd_status o' = obd_status o
      /\ (forall ms, call p lines = Ok ms -> o_frame_counts o' = o_frame_counts (with_count c (count_frames ms) o))
      /\ usable o' a' (sw || switches c t) (strict && match call p lines with Ok _ => true | Raise _ => false end).
  Proof.
    intros OI U Q Pr F St1 St2 Con Ms. destruct (U Con) as (Sl & Tu & Hi & Li). destruct y as [[a' s'] p'].
    destruct (query_follows ask _ _ _ _ _ _ _ _ _ _ _ _ OI Con Sl Q Ms Tu (proj1 Pr) (build_bell o c Pr) F) as (p & a1 & lines & t1 & t2 & Us & Tu1 & Et & A & Hd & O & -> & R & S1 & S2 & S3 & Us' & Lc).
    assert (Nt : switches c t = negb (text_eqb (c_header c) engine_header)).
    { unfold switches. destruct t as [|ev t]; [|apply andb_true_r]. exfalso. symmetry in Et. apply app_eq_nil in Et as [_ ->]. destruct A as (n & rs & X & _). discriminate X. }
    assert (Ha : header_inv (sw || switches c t) (with_header (c_header c) o) a1).
    { rewrite Nt. unfold header_inv in *. cbn [with_header o_last_header]. destruct Hd as [(E & ->)|(E & Ha1)].
      - destruct sw; cbn [orb]; [rewrite E; exact Hi|]. destruct Hi as [H1 H2]. rewrite E, H2. change (text_eqb engine_header engine_header) with true. cbn [negb]. auto.
      - destruct sw; cbn [orb]; [exact Ha1|]. destruct Hi as [H1 H2]. rewrite H2 in E. destruct (text_eqb (c_header c) engine_header) eqn:X; [apply text_eqb_iff in X; contradiction|]. exact Ha1. }
    pose proof (full_leaves o c Pr) as Lv.
    assert (D : does a1 s (full_string o c) lines a' s' /\ (if nonempty (build_command_string o c) then build_command_string o c else o_last_command o) = full_string o c).
    { rewrite build_full in *. destruct (o_fast o && text_eqb (full_string o c) (o_last_command o)) eqn:B.
      - apply andb_true_iff in B as [B1 B2]. apply text_eqb_iff in B2. destruct strict; [|rewrite (St2 eq_refl) in B1; discriminate B1].
        destruct Hd as [(_ & ->)|(E & _)]; [|exfalso; apply E, St1; reflexivity]. destruct (Li eq_refl) as [L|L]; [exfalso; apply (leaves_nonempty _ Lv); congruence|].
        split; [|cbn; congruence]. change (does a s (ad_last a) lines a' s') in O. rewrite L, <- B2 in O. exact O.
      - split; [apply obeys_does in O; assumption|]. destruct (full_string o c) eqn:X; [exfalso; apply (leaves_nonempty _ Lv); reflexivity|reflexivity]. }
    destruct D as (D & LC).
    assert (Ea : a' = remember_line (full_string o c) a1) by (apply (obeys_leaves ask a1 s (full_string o c) lines a' s' Lv), obeys_does; assumption).
    exists p, a1, lines, a', s'. split; [reflexivity|]. split; [exact Us|]. split; [exact Us'|]. split; [exact R|]. split; [exists t1, t2, (build_command_string o c); auto|]. split; [exact Tu1|]. split; [exact Ha|]. split; [exact D|]. split; [exact S1|]. split; [intros ms X; apply (Lc ms X)|].
    intros _. split; [exact S2|]. rewrite Ea. split; [exact Tu1|]. split.
    - unfold header_inv in *. cbn [with_header o_last_header remember_line ad_header] in *. rewrite S3. exact Ha.
    - intros X. apply andb_true_iff in X as [_ X]. right. cbn [remember_line ad_last]. destruct (call p lines) as [ms|] eqn:C; [|discriminate X]. rewrite (proj1 (Lc ms eq_refl)), LC. reflexivity.
  Qed.
  Lemma query_step o c force t r o' a s pend y sw strict : oinv o -> usable o a sw strict -> query_run o c force t r o' -> proper c -> follows (a, s, pend) t y ->
    (strict = true -> c_header c = o_last_header o) -> (strict = false -> o_fast o = false) -> obd_status o <> NOT_CONNECTED -> may_send o c force ->
    exists p a1 lines a' s', y = (a', s', []) /\ uses o p /\ uses o' p /\ r = decoded p c lines /\ last_answer t lines
      /\ tuned a1 /\ header_inv (sw || switches c t) (with_header (c_header c) o) a1
      /\ does a1 s (full_string o c) lines a' s' /\ obd_status o' = obd_status o
      /\ usable o' a' (sw || switches c t) (strict && match call p lines with Ok _ => true | Raise _ => false end).
  Proof.
    intros OI U Q Pr F St1 St2 Con Ms. destruct (query_step_full _ _ _ _ _ _ _ _ _ _ _ _ OI U Q Pr F St1 St2 Con Ms) as (p & a1 & lines & a' & s' & H1 & H2 & H3 & H4 & H5 & H6 & H7 & H8 & H9 & _ & H10).
    exists p, a1, lines, a', s'. auto 15.
  Qed.
  Lemma uses_oinv o p : oinv o -> uses o p -> True. Proof. trivial. Qed.

  (* ---- connecting ---- *)
  Definition settled (w0 : list event) (x : conf) (o : obd) (tr : list event) : Prop :=
    exists t, tr = w0 ++ t /\ forall a s p, follows x t (a, s, p) -> usable o a false true.
  Lemma new_obd_settled cf name scan w o w' x : new_obd cf (Some name) scan w = (Ok tt, (o, w')) -> oinv o /\ o_fast o = cf_fast cf /\ settled (w_trace w) x o (w_trace w').
  Proof.
    intros H. unfold new_obd in H. apply bind_inv in H. destruct H as [([] & [o1 w1] & C & H)|(? & _ & D)]; [|discriminate D].
    unfold connect in C. apply bind_inv in C. destruct C as [([] & [o2 w2] & C1 & C2)|(? & _ & D)]; [|discriminate D].
    change (initial_obd cf) with (connected_obd cf None base_set) in C1.
    destruct (connect_port_spec _ _ _ _ _ _ _ _ C1) as [(e & _ & -> & N)|(x0 & D & _)]; [|discriminate D].
    destruct (new_elm_einv _ _ _ _ _ _ _ _ _ N) as (Ie & Le).
    destruct (close_if_failed_spec cf (Some e) base_set _ _ _ _ (conj Ie Le) C2) as (_ & -> & K).
    destruct (new_elm_spec _ _ _ _ _ _ _ _ _ N) as (t & T & NS).
    assert (S0 : oinv o1 /\ o_fast o1 = cf_fast cf /\ settled (w_trace w) x o1 (w_trace w2)).
    { destruct K as [(K & ->)|(K & ->)].
      - split; [exact Logic.I|]. split; [reflexivity|]. exists t. split; [exact T|]. intros a s p _ X. contradiction X. reflexivity.
      - split; [exact Ie|]. split; [reflexivity|]. exists t. split; [exact T|]. intros a s p F _. cbn in K.
        destruct NS as [(e' & st & sel & b & R & Su & Se & _)|[(Io & _)|(c & r0 & y & _ & R)]]; [|exfalso; exact (no_io_error ask _ _ _ F Io)|discriminate R].
        injection R as <-. destruct (startup_follows ask _ _ _ _ _ _ _ _ _ _ _ _ Su ltac:(congruence) F) as (a' & s' & Y & Tu & Hn). injection Y as -> -> ->.
        split; [exact (Le K)|]. split; [exact Tu|]. split; [split; [exact Hn|reflexivity]|]. intros _. left. reflexivity. }
    destruct S0 as (I1 & F1 & S1). unfold load_commands in H. apply bind_inv in H. destruct H as [(st & [o3 w3] & H1 & H)|(? & _ & D)]; [|discriminate D].
    unfold obd_of, gets in H1. injection H1 as <- <- <-. cbn [fst] in H. destruct (negb _); [injection H as <- <-; auto|].
    assert (Psup : forall o l t0, settled (w_trace w) x o t0 -> settled (w_trace w) x (with_supported l o) t0) by (intros o2 l t0 Z; exact Z).
    assert (Pq : forall o c t0 t r o', In c pid_getters -> oinv o -> settled (w_trace w) x o t0 -> query_run o c false t (Ok r) o' -> settled (w_trace w) x o' (t0 ++ t)).
    { intros o2 c t0 t2 r o2' G OI (t3 & -> & S2) Q. exists (t3 ++ t2). split; [rewrite app_assoc; reflexivity|]. intros a s p F. apply follows_app in F. destruct F as ([[a1 s1] p1] & F3 & F4).
      specialize (S2 _ _ _ F3). pose proof getter_proper as GP. rewrite Forall_forall in GP. destruct (GP c G) as (Pr & He).
      destruct (status_eqb (obd_status o2) NOT_CONNECTED) eqn:E.
      { apply status_eqb_eq in E. destruct (query_not_sent _ _ _ _ _ _ Q (or_introl E)) as (-> & -> & _). inversion F4; subst. exact S2. }
      assert (Con : obd_status o2 <> NOT_CONNECTED) by (intros X; apply status_eqb_eq in X; congruence).
      assert (Dm : may_send o2 c false \/ ~ may_send o2 c false).
      { destruct (o_interface o2) as [e2|] eqn:Hi; [|contradiction Con; unfold obd_status; rewrite Hi; reflexivity]. unfold oinv in OI. rewrite Hi in OI.
        destruct (test_cmd_spec o2 c e2 Hi OI) as (b & _ & B); [unfold obd_status in Con; rewrite Hi in Con; exact Con|]. destruct b; [left; apply B; reflexivity|right; intros X; apply B in X; discriminate X]. }
      destruct Dm as [Ms|Ns].
      2:{ destruct (query_not_sent _ _ _ _ _ _ Q (or_intror Ns)) as (-> & -> & _). inversion F4; subst. exact S2. }
      destruct (query_step _ _ _ _ _ _ _ _ _ _ false true OI S2 Q Pr F4) as (pr & aa & lines & a' & s' & Y & _ & _ & R & _ & _ & _ & _ & _ & U2); auto.
      - intros _. destruct (S2 Con) as (_ & _ & (_ & Z) & _). congruence.
      - discriminate.
      - injection Y as -> -> ->. assert (Sw : switches c t2 = false) by (unfold switches; rewrite He; reflexivity). rewrite Sw in U2. unfold decoded in R. destruct (call pr lines); [exact U2|discriminate R]. }
    destruct (load_all_inv _ Psup Pq pid_getters (incl_refl _) _ _ _ _ I1 S1 H) as (I4 & S4 & F4 & _). split; [exact I4|]. split; [congruence|exact S4].
  Qed.
End Car.
