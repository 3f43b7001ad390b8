(* C101: what the user of an Async object is shown is what the car measured (SpecAdapter, SpecAsyncCar, SpecAsyncFast, SpecDashboard). C101_sensor* use the real numbers of the standard library. *)
From Coq Require Import ZArith List Bool Lia String Sorted Reals.
From Verif Require Import Py Num Utils Protocol Codes UasTable Decoders Command CommandTable Commands World Elm Obd Async SpecWire SpecBits SpecProto SpecCmd SpecElm SpecObd SpecAsync SpecNum SpecSensors SpecE2E SpecAdapter SpecAdapter2
  SpecAsyncCar SpecAsyncFast PyFacts WireFacts ElmFacts ElmThms ObdFacts ObdThms ObdThms2 ObdThms3 ObdThms4 ObdThms5 Examples Properties_Protocol Properties_Elm Properties_Decoders Properties_Numbers Properties_Obd
  AdapterThms AdapterThms2 AdapterThms3 AdapterThms4 AdapterThms5 AdapterCheck Properties_Adapter AsyncFacts AsyncThms AsyncHistory AsyncCar AsyncCarFast Properties_Async SpecLive Properties_Live Properties_AsyncCar
  Properties_AsyncFast Properties_EndToEnd SpecAsyncCar2 Properties_AsyncCar2 AdapterCheck SpecDashboard.
From Verif Require Async2.
Import ListNotations.
Open Scope string_scope. Open Scope list_scope. Open Scope Z_scope.

Lemma sensor_requests : forallb (fun s => forallb (fun c => negb (existsb (text_eqb (c_name c)) (map str (s_names s))) || match understand (c_command c) with KRequest _ => true | _ => false end) all_commands) sensors = true.
Proof. vm_compute. reflexivity. Qed.
Lemma sensor_request sn c : In sn sensors -> named (s_names sn) c -> exists req, understand (c_command c) = KRequest req.
Proof.
  intros I N. pose proof sensor_requests as F. rewrite forallb_forall in F. specialize (F sn I). pose proof (named_check (s_names sn) _ c N F) as G. cbv beta in G.
  destruct (understand (c_command c)); try discriminate G. eauto.
Qed.
Lemma codes_request c : named ["GET_DTC"] c -> exists req, understand (c_command c) = KRequest req.
Proof.
  intros N. assert (F : forallb (fun c => negb (existsb (text_eqb (c_name c)) (map str ["GET_DTC"])) || match understand (c_command c) with KRequest _ => true | _ => false end) all_commands = true) by (vm_compute; reflexivity).
  pose proof (named_check ["GET_DTC"] _ c N F) as G. cbv beta in G. destruct (understand (c_command c)); try discriminate G. eauto.
Qed.

Section Car.
  Context {Car : Type} (ask : Car -> option text -> text -> list text -> Car -> Prop).

  Lemma asked_watched cf name scan w prog sched o s x y z c r : async_with ask cf name scan w prog sched o s x y z -> In (c, r) (asked_for (a_events s)) -> exists cb f, In (AWatch c cb f) prog.
  Proof.
    intros (w1 & t0 & t & N & -> & _) H.
    assert (V : ainv (new_async o w1 prog)) by (apply new_async_inv; destruct (new_obd_settled ask _ _ _ _ _ _ x N) as (I0 & _); exact I0).
    pose proof (from_run _ _ sched _ V (from_new (fun c => exists cb f, In (AWatch c cb f) prog) o w1 prog (fun c cb f H => ex_intro _ cb (ex_intro _ f H)))) as F.
    destruct (F_hist _ _ _ F) as (h & _ & L & E). apply (in_map fst) in H. rewrite <- asked_by, <- E in H. apply in_map_iff in H as ([c1 r1] & E1 & H). cbn [fst] in E1. subst c1.
    apply in_flat_map in H as (st & I & H). rewrite Forall_forall in L. specialize (L _ I). unfold loop_op in L. destruct (st_op st); try contradiction. destruct H as [H|[]]. injection H as <- _. apply L.
  Qed.
  Lemma shown_asked cf name scan w prog sched o s x y z c r : async_with ask cf name scan w prog sched o s x y z -> shown prog s c r -> In (c, Ok r) (asked_for (a_events s)).
  Proof.
    intros A H. pose proof A as (w1 & t0 & t & N & E & _).
    assert (V : ainv (new_async o w1 prog)) by (apply new_async_inv; destruct (new_obd_settled ask _ _ _ _ _ _ x N) as (I0 & _); exact I0).
    pose proof (from_run _ _ sched _ V (from_new (fun c => exists cb f, In (AWatch c cb f) prog) o w1 prog (fun c cb f H => ex_intro _ cb (ex_intro _ f H)))) as F. rewrite <- E in F.
    assert (Q : forall i c r, queried_by s i c r -> In (c, Ok r) (asked_for (a_events s))) by (intros i c0 r0 X; apply in_flat_map; exists (AEv_query i c0 (Ok r0)); split; [exact X|left; reflexivity]).
    destruct H as [(i & f & H)|(c' & Sm & H & Ne & U)]; [exact (Q _ _ _ (F_fire _ _ _ F _ _ _ _ H))|].
    destruct (F_ret _ _ _ F _ _ H) as [D|(i & c1 & D & Y)]; [contradiction|]. apply Q in Y. apply cmd_eqb_same in D. destruct (asked_watched _ _ _ _ _ _ _ _ _ _ _ _ _ A Y) as (cb & f & W).
    rewrite <- (U c1 cb f W); [exact Y|]. unfold same_command in *. intuition congruence.
  Qed.
  Lemma served_split pr s0 l s1 : served ask pr s0 l s1 -> forall l1 c r l2 req, l = l1 ++ (c, Ok r) :: l2 -> understand (c_command c) = KRequest req ->
    exists st hd lines st', served ask pr s0 l1 st /\ ask st hd req lines st' /\ reading c pr lines r
      /\ (engine_only (l1 ++ [(c, Ok r)]) -> hd = None) /\ (~ engine_only (l1 ++ [(c, Ok r)]) -> hd = Some (plain (c_header c))).
  Proof.
    induction 1 as [|l s1 c0 rq hd lines s2 S IH U H1 H2 A Rd|l s1 c0 lines S IH U Rd]; intros l1 c r l2 req E K.
    - destruct l1; discriminate E.
    - destruct (exists_last (l := (c, Ok r) :: l2) ltac:(discriminate)) as (l3 & e & E3). rewrite E3, app_assoc in E. apply app_inj_tail in E as [E E']. destruct l3 as [|e3 l3].
      + cbn in E3. injection E3 as E4 ->. rewrite app_nil_r in E. rewrite <- E4 in E'. subst l. injection E' as <- M. rewrite K in U. injection U as <-. exists s1, hd, lines, s2. rewrite M in H1, H2. split; [exact S|]. split; [exact A|]. split; [apply Rd; exact M|]. auto.
      + cbn in E3. injection E3 as <- ->. eapply IH; [exact E|exact K].
    - destruct (exists_last (l := (c, Ok r) :: l2) ltac:(discriminate)) as (l3 & e & E3). rewrite E3, app_assoc in E. apply app_inj_tail in E as [E E']. destruct l3 as [|e3 l3].
      + cbn in E3. injection E3 as E4 ->. rewrite <- E4 in E'. injection E' as <- M. rewrite K in U. discriminate U.
      + cbn in E3. injection E3 as <- ->. eapply IH; [exact E|exact K].
  Qed.

  (* what the user is shown for a command that asks the car something is a reading (in the sense of C67-C72 and C81) of an answer the car gave to this command, in a state it was in
     after it had answered the queries of the update threads before it *)
Theorem C101_reading : forall cf name scan w prog sched o s x y z pr c r req,
    async_with ask cf name scan w prog sched o s x y z -> cf_fast cf = false -> watches_proper prog -> (obd_status o <> NOT_CONNECTED -> uses o pr) ->
    shown prog s c r -> understand (c_command c) = KRequest req ->
    exists st hd lines st', at_query ask pr (car_of y) (asked_for (a_events s)) c r st /\ addressed c hd /\ (watches_engine prog -> hd = None) /\ ask st hd req lines st' /\ reading c pr lines r.
  Proof.
    intros cf name scan w prog sched o s x y z pr c r req A Sl Pr U Sh K. pose proof (C90_requests ask _ _ _ _ _ _ _ _ _ _ _ _ A Sl Pr U) as S.
    pose proof (shown_asked _ _ _ _ _ _ _ _ _ _ _ _ _ A Sh) as H. apply in_split in H as (l1 & l2 & E).
    destruct (served_split _ _ _ _ S _ _ _ _ _ E K) as (st & hd & lines & st' & S1 & A1 & R1 & H1 & H2). exists st, hd, lines, st'. split; [exists l1, l2; auto|].
    split; [|split; [|auto]].
    - destruct (Forall_dec (fun q => c_header (fst q) = engine_header) (fun q => list_eq_dec Z.eq_dec _ _) (l1 ++ [(c, Ok r)])) as [D|D]; [left; apply H1; exact D|right; apply H2; exact D].
    - intros We. apply H1. apply Forall_forall. intros [c1 r1] I. cbn [fst]. assert (I1 : In (c1, r1) (asked_for (a_events s))) by (rewrite E; apply in_app_or in I as [I|[I|[]]]; apply in_or_app; [left; exact I|right; left; exact I]).
      destruct (asked_watched _ _ _ _ _ _ _ _ _ _ _ _ _ A I1) as (cb & f & W). exact (We _ _ _ W).
  Qed.
  (* so if the car tells the truth about a scalar sensor, the user is shown what it measured, in the documented unit, up to rounding *)
Theorem C101_sensor : forall cf name scan w prog sched o s x y z pr sn c r shows,
    async_with ask cf name scan w prog sched o s x y z -> cf_fast cf = false -> watches_proper prog -> (obd_status o <> NOT_CONNECTED -> uses o pr) ->
    In sn sensors -> named (s_names sn) c -> truthful ask pr c shows -> (forall st d, shows st d -> List.length d = s_len sn) -> shown prog s c r ->
    exists st d v, at_query ask pr (car_of y) (asked_for (a_events s)) c r st /\ shows st d /\ r_value r = VQty v (str (s_unit sn)) /\ within (s_error sn d) v (s_value sn d).
  Proof.
    intros cf name scan w prog sched o s x y z pr sn c r shows A Sl Pr U Is N Tr Ln Sh.
    assert (K : exists req, understand (c_command c) = KRequest req) by (exact (sensor_request sn c Is N)). destruct K as (req & K).
    destruct (C101_reading _ _ _ _ _ _ _ _ _ _ _ _ _ _ _ A Sl Pr U Sh K) as (st & hd & lines & st' & Q & Ad & Hn & A1 & R1).
    destruct (Tr st hd req lines st' K Ad A1) as (h1 & h2 & d & Sp & Ne & Sw).
    destruct (C67_sensor sn c pr lines r h1 h2 d Is N R1 Sp Ne (Ln _ _ Sw)) as (v & V & W & _). exists st, d, v. auto.
  Qed.
  (* and if it reports trouble codes, the user is shown those of all the ECUs that were asked (all of them, if only commands with the engine's header are watched), in the order of their ids *)
Theorem C101_codes : forall cf name scan w prog sched o s x y z pr c r shows,
    async_with ask cf name scan w prog sched o s x y z -> cf_fast cf = false -> watches_proper prog -> (obd_status o <> NOT_CONNECTED -> uses o pr) ->
    named ["GET_DTC"] c -> reporting ask pr c shows -> shown prog s c r ->
    exists st hd rs, at_query ask pr (car_of y) (asked_for (a_events s)) c r st /\ addressed c hd /\ (watches_engine prog -> hd = None) /\ shows st hd rs
      /\ forall ps codes, byte_pairs (List.concat (map snd rs)) ps -> SpecWire.selects real_code ps codes ->
           exists l, r_value r = VDtcs l /\ Forall2 (fun p e => fst e = dtc_text (fst p) (snd p) /\ described DTC (fst e) (snd e)) codes l.
  Proof.
    intros cf name scan w prog sched o s x y z pr c r shows A Sl Pr U N Tr Sh. destruct (codes_request c N) as (req & K).
    destruct (C101_reading _ _ _ _ _ _ _ _ _ _ _ _ _ _ _ A Sl Pr U Sh K) as (st & hd & lines & st' & Q & Ad & Hn & A1 & R1).
    destruct (Tr st hd req lines st' K Ad A1) as (rs & Sw & Ne & So & Hr & Si). exists st, hd, rs. split; [exact Q|]. split; [exact Ad|]. split; [exact Hn|]. split; [exact Sw|]. intros ps codes Bp Se.
    exact (C68_trouble_codes 3 c pr lines r rs ps codes (or_introl (conj eq_refl N)) R1 So Ne Hr Si Bp Se).
  Qed.

  (* with fast=True *)
  Lemma fast_split pr k0 s0 l s1 kk c n req : served_fast ask pr k0 s0 l s1 kk -> understand (c_command c) = KRequest req -> steady ask pr c n -> (1 <= n <= 9)%nat ->
    (forall c', same_command c' c -> k0 c' = None \/ k0 c' = Some n) ->
    (forall c', same_command c' c -> kk c' = None \/ kk c' = Some n)
    /\ forall l1 r l2, l = l1 ++ (c, Ok r) :: l2 -> exists st k lines st', served_fast ask pr k0 s0 l1 st k /\ ask st None req lines st' /\ reading c pr lines r.
  Proof.
    intros H K St B K0. induction H as [k H|l s1 k c0 line lines s2 k' S [IH1 IH2] L G Nt Rd].
    - split; [intros c' Sm; rewrite H; auto|]. intros l1 r l2 E. destruct l1; discriminate E.
    - assert (Full : same_command c0 c -> ask s1 None req lines s2).
      { intros Sm. assert (U : understand (c_command c0) = KRequest req) by (rewrite (proj1 Sm); exact K).
        destruct (C100_line ask k c0 line lines s1 s2 req U L G) as (L1 & L2 & _). destruct (c_fast c0) eqn:F; [|apply L1; auto]. destruct (IH1 c0 Sm) as [E|E]; [apply L1; auto|].
        destruct (L2 n eq_refl E B) as (full & A & ->). pose proof (proj1 (St _ _ _ _ K A)) as Ln. rewrite firstn_all2 by lia. exact A. }
      split.
      + intros c' Sm. specialize (Nt c'). destruct (IH1 c' Sm) as [E|E]; rewrite E in Nt; [|auto]. destruct Nt as [N1 N2].
        destruct (cmd_eqb c0 c') eqn:D; [|left; apply N2; intros X; apply cmd_eqb_same in X; congruence].
        apply cmd_eqb_same in D. right. rewrite (N1 D). f_equal. apply (proj2 (St s1 req lines s2 K (Full ltac:(unfold same_command in *; intuition congruence)))).
      + intros l1 r l2 E. destruct (exists_last (l := (c, Ok r) :: l2) ltac:(discriminate)) as (l3 & e & E3). rewrite E3, app_assoc in E. apply app_inj_tail in E as [E E']. destruct l3 as [|e3 l3].
        * cbn in E3. injection E3 as E4 ->. rewrite app_nil_r in E. rewrite <- E4 in E'. subst l. injection E' as -> M. exists s1, k, lines, s2. split; [exact S|]. split; [apply Full; split; reflexivity|apply Rd; exact M].
        * cbn in E3. injection E3 as <- ->. eapply IH2. exact E.
  Qed.
  (* if every answer of the car to c has the same number n of lines, from 1 to 9, which are all frames of messages, and no other number is on record: as C101_reading *)
Theorem C101_reading_fast : forall cf name scan w prog sched o s x y z pr k0 c r req n,
    async_with ask cf name scan w prog sched o s x y z -> cf_fast cf = true -> watches_proper prog -> watches_engine prog -> none_raised s -> (obd_status o <> NOT_CONNECTED -> uses o pr) ->
    (forall c n, k0 c = Some n <-> recorded o c n) -> shown prog s c r -> understand (c_command c) = KRequest req -> steady ask pr c n -> (1 <= n <= 9)%nat -> (forall m, recorded o c m -> m = n) ->
    exists st lines st', at_query_fast ask pr k0 (car_of y) (asked_for (a_events s)) c r st /\ ask st None req lines st' /\ reading c pr lines r.
  Proof.
    intros cf name scan w prog sched o s x y z pr k0 c r req n A Fa Pr En Nr U K0 Sh K St B Rc. destruct (C100_requests ask _ _ _ _ _ _ _ _ _ _ _ _ _ A Fa Pr En Nr U K0) as (k & S).
    pose proof (shown_asked _ _ _ _ _ _ _ _ _ _ _ _ _ A Sh) as H. apply in_split in H as (l1 & l2 & E).
    assert (I : forall c', same_command c' c -> k0 c' = None \/ k0 c' = Some n).
    { intros c' Sm. destruct (k0 c') as [m|] eqn:M; [|auto]. right. f_equal. apply Rc. apply K0 in M. unfold recorded in *. rewrite <- M. apply cmd_eqb_same in Sm.
      clear - Sm. induction (o_frame_counts o) as [|[c1 v] d IH]; [reflexivity|]. cbn [dict_get]. assert (X : cmd_eqb c1 c = cmd_eqb c1 c'); [|rewrite X, IH; reflexivity].
      apply eq_true_iff_eq. apply cmd_eqb_same in Sm. rewrite !cmd_eqb_same. intuition congruence. }
    destruct (proj2 (fast_split _ _ _ _ _ _ _ _ _ S K St B I) _ _ _ E) as (st & k1 & lines & st' & S1 & A1 & R1). exists st, lines, st'. split; [exists l1, l2, k1; auto|auto].
  Qed.
Theorem C101_sensor_fast : forall cf name scan w prog sched o s x y z pr k0 sn c r shows n,
    async_with ask cf name scan w prog sched o s x y z -> cf_fast cf = true -> watches_proper prog -> watches_engine prog -> none_raised s -> (obd_status o <> NOT_CONNECTED -> uses o pr) ->
    (forall c n, k0 c = Some n <-> recorded o c n) -> In sn sensors -> named (s_names sn) c -> truthful ask pr c shows -> (forall st d, shows st d -> List.length d = s_len sn) -> shown prog s c r ->
    steady ask pr c n -> (1 <= n <= 9)%nat -> (forall m, recorded o c m -> m = n) ->
    exists st d v, at_query_fast ask pr k0 (car_of y) (asked_for (a_events s)) c r st /\ shows st d /\ r_value r = VQty v (str (s_unit sn)) /\ within (s_error sn d) v (s_value sn d).
  Proof.
    intros cf name scan w prog sched o s x y z pr k0 sn c r shows n A Fa Pr En Nr U K0 Is N Tr Ln Sh St B Rc. destruct (sensor_request sn c Is N) as (req & K).
    destruct (C101_reading_fast _ _ _ _ _ _ _ _ _ _ _ _ _ _ _ _ _ A Fa Pr En Nr U K0 Sh K St B Rc) as (st & lines & st' & Q & A1 & R1).
    destruct (Tr st None req lines st' K (or_introl eq_refl) A1) as (h1 & h2 & d & Sp & Ne & Sw).
    destruct (C67_sensor sn c pr lines r h1 h2 d Is N R1 Sp Ne (Ln _ _ Sw)) as (v & V & W & _). exists st, d, v. auto.
  Qed.
  (* the same with callbacks that make harmless calls of their own *)
Theorem C101_sensor_with_callbacks : forall cf name scan w prog sched o s x y z pr sn c r shows,
    async_with_callbacks ask cf name scan w prog sched o s x y z -> cf_fast cf = false -> watches_proper prog -> (obd_status o <> NOT_CONNECTED -> uses o pr) ->
    In sn sensors -> named (s_names sn) c -> truthful ask pr c shows -> (forall st d, shows st d -> List.length d = s_len sn) -> shown prog (Async2.b_a s) c r ->
    exists st d v, at_query ask pr (car_of y) (asked_for (a_events (Async2.b_a s))) c r st /\ shows st d /\ r_value r = VQty v (str (s_unit sn)) /\ within (s_error sn d) v (s_value sn d).
  Proof.
    intros cf name scan w prog sched o s x y z pr sn c r shows A Sl Pr U Is N Tr Ln Sh. destruct (as_silent ask _ _ _ _ _ _ _ _ _ _ _ A) as (sc & B).
    exact (C101_sensor _ _ _ _ _ _ _ _ _ _ _ _ _ _ _ _ B Sl Pr U Is N Tr Ln Sh).
  Qed.
End Car.

(* ------------------------------------------------------------------ examples *)
(* a car whose engine turns at 1726 and at 1 revolutions per minute in turn *)
Definition car4 (s : bool) (h : option text) (req : text) : list text * bool :=
  if is_req req "0100" then ([str "7E8 06 41 00 00 00 00 00"], s)
  else if is_req req "010C" then ([if s then str "7E8 04 41 0C 1A F8" else str "7E8 04 41 0C 00 04"], negb s)
  else ([str "NO DATA"], s).
Definition turns (s : bool) (d : bytes) : Prop := d = if s then [26; 248] else [0; 4].
Lemma car4_answers st hd req lines st' : understand (c_command revs) = KRequest req -> SpecAdapter2.answers car4 st hd req lines st' -> lines = [if st then str "7E8 04 41 0C 1A F8" else str "7E8 04 41 0C 00 04"].
Proof.
  intros K A. assert (E : understand (c_command revs) = KRequest (str "010C")) by (vm_compute; reflexivity). assert (Er : req = str "010C") by congruence. rewrite Er in A. clear K E.
  assert (F : car4 st hd (str "010C") = ([if st then str "7E8 04 41 0C 1A F8" else str "7E8 04 41 0C 00 04"], negb st)) by (vm_compute; reflexivity). unfold SpecAdapter2.answers in A. rewrite F in A. congruence.
Qed.
Lemma car4_truthful : truthful (SpecAdapter2.answers car4) can11 revs turns.
Proof.
  intros st hd req lines st' K _ A. rewrite (car4_answers _ _ _ _ _ K A).
  exists 65, 12, (if st then [26; 248] else [0; 4]). split; [|split; [discriminate|reflexivity]].
  destruct st; (apply (can11_speaks _ _ _ 4); [left; vm_compute; reflexivity|show|bytes_ok|discriminate|cbn; lia|lia|reflexivity|lia]).
Qed.
Lemma car4_steady : steady (SpecAdapter2.answers car4) can11 revs 1.
Proof. intros st req lines st' K A. rewrite (car4_answers _ _ _ _ _ K A). destruct st; (split; [reflexivity|vm_compute; reflexivity]). Qed.
Lemma revs_sensor : exists sn, In sn sensors /\ named (s_names sn) revs /\ s_len sn = 2%nat.
Proof.
  exists (nth 6 sensors (hd (mkSensor [] 0 0 0 0 0 0 "" 0 0) sensors)). split; [right; right; right; right; right; right; left; reflexivity|].
  split; [|reflexivity]. change (named ["RPM"] revs). apply named_one. vm_compute. reflexivity.
Qed.
Lemma scene_uses fast ans o prog sched s x y z : async_with (SpecAdapter2.answers car4) (setup fast) (str "p") [] (fresh ans) prog sched o s x y z ->
  match o_interface (fst (snd (new_obd (setup fast) (Some (str "p")) [] (fresh ans)))) with Some e => e_protocol e | None => None end = Some can11 -> uses o can11.
Proof. intros (w1 & t0 & t & N & _) E. rewrite N in E. cbn [fst snd] in E. unfold uses. destruct (o_interface o) as [e|]; [eauto|discriminate E]. Qed.
Lemma doing_fired l rv f : In (inr (rv, f)) (doings l) -> exists r i, In (AEv_fire i rv f r) l.
Proof.
  induction l as [|e l IH]; [intros []|]. destruct e; cbn [doings]; intros H; try (destruct (IH H) as (r1 & i1 & X); exists r1, i1; right; exact X).
  - destruct H as [H|H]; [discriminate H|]. destruct (IH H) as (r1 & i1 & X); exists r1, i1; right; exact X.
  - destruct H as [H|H]; [injection H as -> ->; eexists _, _; left; reflexivity|]. destruct (IH H) as (r1 & i1 & X); exists r1, i1; right; exact X.
Qed.
(* the update loop runs twice (three times with fast=True); the callback is called with different values *)
Example C101_example : exists ans prog sched o s a1 a2 r,
  async_with (SpecAdapter2.answers car4) (setup false) (str "p") [] (fresh ans) prog sched o s (new_adapter, true, []) (a1, true, []) (a2, true, []) /\ watches_proper prog /\ uses o can11
  /\ (exists sn, In sn sensors /\ named (s_names sn) revs /\ s_len sn = 2%nat) /\ truthful (SpecAdapter2.answers car4) can11 revs turns /\ (forall st d, turns st d -> List.length d = 2%nat) /\ shown prog s revs r
  /\ doings (a_events s) = [inl revs; inr (revs, 1); inl revs; inr (revs, 1)].
Proof.
  assert (Wp : watches_proper [AWatch revs (Some 1) true; AStart; AQuery revs]).
  { assert (K : forall rv c cb f, In (AWatch c cb f) [AWatch rv (Some 1) true; AStart; AQuery rv] -> c = rv) by (intros rv c cb f [X|[X|[X|[]]]]; try discriminate X; congruence).
    intros c cb f X. rewrite (K _ _ _ _ X). exact revs_proper. }
  assert (E : exists a1 a2, async_scene car4 true (start_up ++ [several [str "7E8 04 41 0C 1A F8"]; several [str "7E8 04 41 0C 00 04"]])
      [AWatch revs (Some 1) true; AStart; AQuery revs] (user 9 ++ loop 0 21 ++ user 1) = (true, Some (a1, true), Some (a2, true), CAR_CONNECTED, [inl revs; inr (revs, 1); inl revs; inr (revs, 1)])).
  { eexists _, _. vm_compute. reflexivity. }
  destruct E as (a1 & a2 & E). destruct (async_scene_facts _ _ _ _ _ _ _ _ _ _ _ E Wp) as (o & s & A & St & Do).
  assert (Sh : exists r, shown [AWatch revs (Some 1) true; AStart; AQuery revs] s revs r).
  { destruct (doing_fired (a_events s) revs 1) as (r & i & Y); [rewrite Do; right; left; reflexivity|]. exists r. left. eauto. }
  destruct Sh as (r & Sh). eexists _, _, _, o, s, a1, a2, r. split; [exact A|]. split; [exact Wp|]. split; [eapply scene_uses; [exact A|vm_compute; reflexivity]|]. split; [exact revs_sensor|].
  split; [exact car4_truthful|]. split; [intros [|] d ->; reflexivity|]. split; [exact Sh|exact Do].
Qed.
Example C101_fast_example : exists ans prog sched o s a1 a2 r,
  async_with (SpecAdapter2.answers car4) (setup true) (str "p") [] (fresh ans) prog sched o s (new_adapter, true, []) (a1, true, []) (a2, false, []) /\ watches_proper prog /\ watches_engine prog /\ none_raised s /\ uses o can11
  /\ steady (SpecAdapter2.answers car4) can11 revs 1 /\ (forall m, ~ recorded o revs m) /\ shown prog s revs r
  /\ doings (a_events s) = [inl revs; inr (revs, 1); inl revs; inr (revs, 1); inl revs; inr (revs, 1)].
Proof.
  assert (Wp : watches_proper [AWatch revs (Some 1) true; AStart; AQuery revs] /\ watches_engine [AWatch revs (Some 1) true; AStart; AQuery revs]).
  { assert (K : forall rv c cb f, In (AWatch c cb f) [AWatch rv (Some 1) true; AStart; AQuery rv] -> c = rv) by (intros rv c cb f [X|[X|[X|[]]]]; try discriminate X; congruence).
    split; intros c cb f X; rewrite (K _ _ _ _ X); [exact revs_proper|]. unfold revs. exact (proj2 rpm_engine). }
  assert (E : exists a1 a2, fast_scene car4 true (start_up ++ [several [str "7E8 04 41 0C 1A F8"]; several [str "7E8 04 41 0C 00 04"]; several [str "7E8 04 41 0C 1A F8"]])
      [AWatch revs (Some 1) true; AStart; AQuery revs] (user 9 ++ loop 0 34 ++ user 1) = (true, Some (a1, true), Some (a2, false), CAR_CONNECTED, [inl revs; inr (revs, 1); inl revs; inr (revs, 1); inl revs; inr (revs, 1)], true,
         [str "010C" ++ [13]; str "010C1" ++ [13]; [13]])).
  { eexists _, _. vm_compute. reflexivity. }
  destruct E as (a1 & a2 & E). destruct (fast_scene_facts _ _ _ _ _ _ _ _ _ _ _ _ E (proj1 Wp) (proj2 Wp)) as (o & s & A & St & Do & Nr).
  assert (Sh : exists r, shown [AWatch revs (Some 1) true; AStart; AQuery revs] s revs r).
  { destruct (doing_fired (a_events s) revs 1) as (r & i & Y); [rewrite Do; right; left; reflexivity|]. exists r. left. eauto. }
  destruct Sh as (r & Sh). eexists _, _, _, o, s, a1, a2, r. split; [exact A|]. split; [exact (proj1 Wp)|]. split; [exact (proj2 Wp)|]. split; [exact Nr|].
  split; [eapply scene_uses; [exact A|vm_compute; reflexivity]|]. split; [exact car4_steady|]. split; [|split; [exact Sh|exact Do]].
  assert (F : dict_get cmd_eqb (o_frame_counts (fst (snd (new_obd (setup true) (Some (str "p")) [] (fresh (start_up ++ [several [str "7E8 04 41 0C 1A F8"]; several [str "7E8 04 41 0C 00 04"]; several [str "7E8 04 41 0C 1A F8"]])))))) revs = None) by (vm_compute; reflexivity).
  destruct A as (w1 & t0 & t & N & _). rewrite N in F. cbn [fst snd] in F. intros m X. unfold recorded in X. rewrite F in X. discriminate X.
Qed.
