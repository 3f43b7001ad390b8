(* C96, C97, C98: sessions with an adapter whose output may take any time to arrive (SpecSlow; adapter and car as in SpecAdapter, SpecAdapter2). Proofs: SlowThms.v. *)
From Coq Require Import ZArith List Bool Lia String.
From Verif Require Import Py Num Utils Protocol Decoders Command CommandTable Commands World Elm Obd SpecWire SpecElm SpecObd SpecE2E 
  DecoderThms E2EThms6 CutThms CutThms2 SpecAdapter SpecAdapter2 SpecSlow
 PyFacts ElmFacts ElmThms ObdFacts ObdThms ObdThms2 ObdThms3 ObdThms4 ObdThms5 Properties_Protocol Properties_Elm Properties_Decoders Properties_Obd Properties_EndToEnd
  AdapterThms AdapterThms2 AdapterThms3 AdapterThms4 AdapterThms5 AdapterCheck SlowThms SlowCheck Properties_Adapter E2EThms2 Examples.
Import ListNotations.
Open Scope string_scope. Open Scope list_scope. Open Scope Z_scope.

Section Car.
  Context {Car : Type} (ask : Car -> option text -> text -> list text -> Car -> Prop).
  Notation slow_together := (slow_together ask). Notation slow_queried := (slow_queried ask).

  Lemma slow_sent b cf name scan w h o w1 x a s p c force t r o' z : slow_together b cf name scan w h o w1 x (a, s, p) -> cf_fast cf = false -> Forall ordinary h -> Forall engine_only h ->
    slow_queried b c force o w1 (a, s, p) t r o' z -> proper c -> c_header c = engine_header -> obd_status o <> NOT_CONNECTED -> may_send o c force ->
    exists pr shown lines a' s' p', z = (a', s', p') /\ uses o pr /\ r = made_of pr c lines /\ (forall q, r = Ok q -> reading c pr lines q) /\ (b = true -> stretch_in (got t) shown lines)
      /\ ad_headers a = true /\ ad_header a = None /\ does ask a s (c_command c) shown a' s' /\ obd_status o' = obd_status o.
  Proof.
    intros (t0 & S & F) Cf G1 G2 (w2 & Q & T & F2) Pr Eh Con Ms.
    destruct (slow_session ask b _ _ _ _ _ _ _ _ _ _ _ _ S G1 G2 Cf F) as (OI & Fa & U & _).
    destruct (session_query _ _ _ _ _ _ _ _ _ _ _ _ _ _ S Q T) as (_ & _ & Qr). destruct (U Con) as (_ & Tu & Hn & _).
    destruct (slow_query ask b _ _ _ _ _ _ _ _ _ _ OI Fa U Qr Pr Eh F2 Con Ms) as (pr & shown & lines & a' & s' & p' & Y & Us & _ & Rr & La & St & D & So & _).
    exists pr, shown, lines, a', s', p'. split; [exact Y|]. split; [exact Us|]. split; [exact Rr|]. split; [|split; [exact St|split; [apply Tu|split; [exact Hn|split; [exact D|exact So]]]]].
    intros q ->. exists cf, (Some name), scan, w, t0, h, o, w1, force, o', w2, t. auto 10.
  Qed.

  (* ---------------------------------------------------------------- C96 *)
  (* however late the output comes (b = false), a query that is sent is one request to the car, the command's own, to all ECUs; and the connection is kept *)
Theorem C96_one_request : forall b cf name scan w h o w1 x a s p c force t r o' a' s' p' req,
    slow_together b cf name scan w h o w1 x (a, s, p) -> cf_fast cf = false -> Forall ordinary h -> Forall engine_only h ->
    slow_queried b c force o w1 (a, s, p) t r o' (a', s', p') -> c_header c = engine_header -> understand (c_command c) = KRequest req ->
    obd_status o <> NOT_CONNECTED -> may_send o c force ->
    (exists full, ask s None req full s') /\ obd_status o' = obd_status o.
  Proof.
    intros b cf name scan w h o w1 x a s p c force t r o' a' s' p' req To Fa Od En Q Hc U Con Ms.
    assert (Pr : proper c) by (split; [rewrite Hc; reflexivity|left; eauto]).
    destruct (slow_sent _ _ _ _ _ _ _ _ _ _ _ _ _ _ _ _ _ _ To Fa Od En Q Pr Hc Con Ms) as (pr & shown & lines & a2 & s2 & p2 & Y & _ & _ & _ & _ & _ & Hn & D & So). injection Y as -> -> ->.
    split; [|exact So]. unfold does in D. rewrite U, Hn in D. destruct D as (full & A & _). eauto.
  Qed.
  (* as long as output that comes too late is thrown away before the next line is written (b = true), the response is made of nothing but what the car answers to this very
     request: of the lines in a stretch of it that nothing but blank stretches come before; if what is read is plain ASCII, of its first lines and perhaps a part of the next one *)
Theorem C96_own_answer_partial : forall cf name scan w h o w1 x a s p c force t r o' a' s' p' req,
    slow_together true cf name scan w h o w1 x (a, s, p) -> cf_fast cf = false -> Forall ordinary h -> Forall engine_only h ->
    slow_queried true c force o w1 (a, s, p) t r o' (a', s', p') -> c_header c = engine_header -> understand (c_command c) = KRequest req ->
    obd_status o <> NOT_CONNECTED -> may_send o c force ->
    exists pr full lines, uses o pr /\ ask s None req full s' /\ stretch full lines /\ (ascii (got t) -> cut_of full lines) /\ r = made_of pr c lines /\ (forall q, r = Ok q -> reading c pr lines q).
  Proof.
    intros cf name scan w h o w1 x a s p c force t r o' a' s' p' req To Fa Od En Q Hc U Con Ms.
    assert (Pr : proper c) by (split; [rewrite Hc; reflexivity|left; eauto]).
    destruct (slow_sent _ _ _ _ _ _ _ _ _ _ _ _ _ _ _ _ _ _ To Fa Od En Q Pr Hc Con Ms) as (pr & shown & lines & a2 & s2 & p2 & Y & Us & Rr & Rd & St & Ah & Hn & D & _). injection Y as -> -> ->.
    unfold does in D. rewrite U, Hn in D. destruct D as (full & A & E & _). rewrite (E Ah) in St. specialize (St eq_refl). exists pr, full, lines.
    split; [exact Us|]. split; [exact A|]. split; [exists (got t); exact St|]. split; [intros As; exact (stretch_cut _ _ _ St As)|]. auto.
  Qed.
  (* also a query that times out leaves the connection as it was made *)
Theorem C96_stays : forall b cf name scan w h o w1 x y, slow_together b cf name scan w h o w1 x y -> cf_fast cf = false -> Forall ordinary h -> Forall engine_only h ->
    exists o0 w0, new_obd cf (Some name) scan w = (Ok tt, (o0, w0)) /\ obd_status o = obd_status o0.
  Proof. intros b cf name scan w h o w1 x [[a s] p] (t0 & S & F) Fa Od En. apply (slow_session ask b _ _ _ _ _ _ _ _ _ _ _ _ S Od En Fa F). Qed.

  (* ---------------------------------------------------------------- C98 *)
  (* with any headers: as long as every header that is set is acknowledged in time, a request goes where SpecAdapter2 (C87) has it go *)
Theorem C98_acknowledged_partial : forall b cf name scan w h o w1 x a s p c force t r o' a' s' p' req,
    slow_together b cf name scan w h o w1 x (a, s, p) -> cf_fast cf = false -> Forall ordinary h -> Forall (fun y => acknowledged (st_events y)) h ->
    slow_queried b c force o w1 (a, s, p) t r o' (a', s', p') -> acknowledged t -> header_ok (plain (c_header c)) = true -> understand (c_command c) = KRequest req ->
    obd_status o <> NOT_CONNECTED -> may_send o c force ->
    exists pr hd full lines, uses o pr /\ ask s hd req full s' /\ (b = true -> stretch full lines /\ (ascii (got t) -> cut_of full lines)) /\ r = made_of pr c lines /\ (forall q, r = Ok q -> reading c pr lines q)
      /\ (~ switched (h ++ [as_step c force t r]) -> hd = None) /\ (switched (h ++ [as_step c force t r]) -> hd = Some (plain (c_header c)))
      /\ obd_status o' = obd_status o.
  Proof.
    intros b cf name scan w h o w1 x a s p c force t r o' a' s' p' req (t0 & S & F) Cf G1 G2 (w2 & Q & T & F2) Ak Hk U Con Ms.
    assert (Pr : proper c) by (split; [exact Hk|left; eauto]).
    destruct (slow_hsession ask b _ _ _ _ _ _ _ _ _ _ _ _ S G1 G2 Cf F) as (OI & Fa & Us0).
    destruct (session_query _ _ _ _ _ _ _ _ _ _ _ _ _ _ S Q T) as (_ & _ & Qr).
    destruct (slow_hquery ask b _ _ _ _ _ _ _ _ _ _ _ OI Fa Us0 Qr Ak Pr F2 Con Ms) as (pr & shown & lines & a1 & a2 & s2 & p2 & Y & Us & Rr & La & St & D & Tu & Hi & So & _). injection Y as -> -> ->.
    unfold does in D. rewrite U in D. destruct D as (full & A & E & _). rewrite (E (proj2 Tu)) in St.
    exists pr, (ad_header a1), full, lines. split; [exact Us|]. split; [exact A|]. split.
    { intros B. destruct (St B) as (pre & rd & G & St'). split; [exists rd; exact St'|]. intros As. apply (stretch_cut _ _ _ St'). rewrite G in As. apply Forall_app in As. apply As. }
    split; [exact Rr|]. split.
    - intros q ->. exists cf, (Some name), scan, w, t0, h, o, w1, force, o', w2, t. auto 10.
    - unfold header_inv in Hi. cbn [with_header o_last_header] in Hi. change (existsb step_switches h || switches c t) with (existsb step_switches h || step_switches (as_step c force t r)) in Hi.
      replace (existsb step_switches h || step_switches (as_step c force t r)) with (existsb step_switches (h ++ [as_step c force t r])) in Hi by (rewrite existsb_app; cbn [existsb]; rewrite orb_false_r; reflexivity).
      split; [|split; [|exact So]]; intros X; rewrite switched_iff in X.
      + destruct (existsb step_switches (h ++ [as_step c force t r])); [contradiction X; reflexivity|apply Hi].
      + rewrite X in Hi. exact Hi.
  Qed.
End Car.

(* ------------------------------------------------------------------ C97 *)
(* if only whole lines at the end of an answer are lost to a time-out, and the one ECU a command of the engine's heeds answers in one line: the value is that of the complete answer, or none *)
Lemma selects_firstn {A} (P : A -> Prop) l ls : selects P l ls -> forall k, exists n, selects P (firstn k l) (firstn n ls).
Proof.
  intros H. induction H as [|x l ls Px H IH|x l ls Nx H IH]; intros k.
  - exists O. rewrite !firstn_nil. constructor.
  - destruct k as [|k]; [exists O; constructor|]. destruct (IH k) as (n & S). exists (Datatypes.S n). cbn [firstn]. constructor; assumption.
  - destruct k as [|k]; [exists O; cbn; constructor|]. destruct (IH k) as (n & S). exists n. cbn [firstn]. constructor 3; assumption.
Qed.
Lemma selects_none {A} (P : A -> Prop) l ls : selects P l ls -> ls = [] -> forall x, In x l -> ~ P x.
Proof. intros H. induction H as [|x l ls Px H IH|x l ls Nx H IH]; intros E y I; [destruct I|discriminate E|]. destruct I as [<-|I]; [exact Nx|exact (IH E y I)]. Qed.
Theorem C97_whole_lines_partial : forall c p full k q q' u l payload, In c all_commands -> c_ecu c = ECU_ENGINE ->
  reading c p full q' -> reading c p (firstn k full) q ->
  heeds (c_ecu c) p u -> (forall u', heeds (c_ecu c) p u' -> u' = u) ->
  heard_from (pc_family (p_class p)) u full [l] -> delivers (pc_family (p_class p)) u [l] payload -> (forall r, payload <> 67 :: r) ->
  r_value q = r_value q' \/ is_null q = true /\ r_value q = VNone.
Proof.
  intros c p full k q q' u l payload I E R' R Hu Ho Hf De Np. destruct (selects_firstn _ _ _ Hf k) as (n & Hk).
  destruct n as [|n].
  - right. apply (C70_no_answer c p (firstn k full) q I E R). intros u' H'. rewrite (Ho u' H'). exact (selects_none _ _ _ Hk eq_refl).
  - left. cbn [firstn] in Hk. replace (firstn n []) with (@nil text) in Hk by (destruct n; reflexivity). apply (C69_first_ecu c p (firstn k full) full q q' payload I); try assumption.
    + intros (_ & N). assert (F : forallb (fun c => negb (existsb (text_eqb (c_name c)) (map str ["GET_DTC"; "GET_CURRENT_DTC"; "ELM_VERSION"; "ELM_VOLTAGE"])) || negb (c_ecu c =? ECU_ENGINE)) all_commands = true) by (vm_compute; reflexivity).
      rewrite forallb_forall in F. specialize (F c I). rewrite E, Z.eqb_refl in F. cbn [negb] in F. rewrite orb_false_r in F. apply negb_true_iff in F.
      assert (X : existsb (text_eqb (c_name c)) (map str ["GET_DTC"; "GET_CURRENT_DTC"; "ELM_VERSION"; "ELM_VOLTAGE"]) = true) by (apply existsb_exists; exists (c_name c); split; [exact N|apply text_eqb_iff; reflexivity]). congruence.
    + exists u, [l]. split; [exact Hk|]. split; [exact De|]. split; [exact Hu|]. intros u' Lt H'. rewrite (Ho u' H') in Lt. lia.
    + exists u, [l]. split; [exact Hf|]. split; [exact De|]. split; [exact Hu|]. intros u' Lt H'. rewrite (Ho u' H') in Lt. lia.
Qed.

(* and if a line may be cut, too: the value, if any, is the one the command makes of the first bytes of the complete answer *)
Lemma engine_first c : In c all_commands -> c_ecu c = ECU_ENGINE -> first_only (c_decode c) = true.
Proof.
  intros I E. assert (F : forallb (fun c => negb (c_ecu c =? ECU_ENGINE) || first_only (c_decode c)) all_commands = true) by (vm_compute; reflexivity).
  rewrite forallb_forall in F. specialize (F c I). rewrite E, Z.eqb_refl in F. exact F.
Qed.
Lemma engine_known c : c_ecu c = ECU_ENGINE -> ~ SpecCmd.common_bit (c_ecu c) ECU_UNKNOWN.
Proof. intros -> (i & B1 & B2). destruct i as [|[i|[i|i|]|]|i]; cbn in B1, B2; discriminate. Qed.
Theorem C97_cut_partial : forall c p full lines q u l payload, In c all_commands -> c_ecu c = ECU_ENGINE -> reading c p lines q -> cut_of full lines ->
  heeds (c_ecu c) p u -> (forall u', heeds (c_ecu c) p u' -> u' = u) ->
  heard_from (pc_family (p_class p)) u full [l] -> delivers (pc_family (p_class p)) u [l] payload -> (forall r, payload <> 67 :: r) ->
  (forall l', In l' full -> exists u', SpecProto.is_from (pc_family (p_class p)) u' l') ->
  is_null q = true /\ r_value q = VNone
  \/ exists j, (1 <= j <= List.length payload)%nat /\ forall m, for_it c m -> m_data m = firstn j payload -> evaluates c [m] (r_value q).
Proof.
  intros c p full lines q u l payload I E R C Hu Ho H D Np A.
  exact (cut_value c p full lines q u l payload (all_nonneg c I) (engine_known c E) (engine_first c I E) R C Hu Ho H D Np A).
Qed.
(* the same in a session with an adapter whose output may take any time to arrive *)
Theorem C97_session_partial : forall Car ask cf name scan w h o w1 x a s p c force t q o' a' s' p' req,
  slow_together (Car := Car) ask true cf name scan w h o w1 x (a, s, p) -> cf_fast cf = false -> Forall ordinary h -> Forall engine_only h ->
  slow_queried ask true c force o w1 (a, s, p) t (Ok q) o' (a', s', p') -> In c all_commands -> c_ecu c = ECU_ENGINE -> c_header c = engine_header -> understand (c_command c) = KRequest req ->
  obd_status o <> NOT_CONNECTED -> may_send o c force -> ascii (got t) ->
  (* the car's answers to this request: one line from the one ECU the command heeds, and lines from other ECUs *)
  forall pr u, uses o pr -> heeds (c_ecu c) pr u -> (forall u', heeds (c_ecu c) pr u' -> u' = u) ->
  (forall full, ask s None req full s' -> exists l payload, heard_from (pc_family (p_class pr)) u full [l] /\ delivers (pc_family (p_class pr)) u [l] payload /\ (forall r, payload <> 67 :: r)
     /\ forall l', In l' full -> exists u', SpecProto.is_from (pc_family (p_class pr)) u' l') ->
  is_null q = true /\ r_value q = VNone
  \/ exists full l payload j, ask s None req full s' /\ heard_from (pc_family (p_class pr)) u full [l] /\ delivers (pc_family (p_class pr)) u [l] payload /\ (1 <= j <= List.length payload)%nat
    /\ forall m, for_it c m -> m_data m = firstn j payload -> evaluates c [m] (r_value q).
Proof.
  intros Car ask cf name scan w h o w1 x a s p c force t q o' a' s' p' req To Fa Od En Q Ic Ee Hc U Con Ms As pr u Us Hu Ho An.
  destruct (C96_own_answer_partial ask _ _ _ _ _ _ _ _ _ _ _ _ _ _ _ _ _ _ _ _ To Fa Od En Q Hc U Con Ms) as (pr' & full & lines & Us' & A & _ & C & _ & Rd).
  assert (pr' = pr) by (destruct Us as (e & E1 & E2), Us' as (e' & E1' & E2'); congruence). subst pr'.
  destruct (An full A) as (l & payload & H & D & Np & Al).
  destruct (C97_cut_partial c pr full lines q u l payload Ic Ee (Rd q eq_refl) (C As) Hu Ho H D Np Al) as [X|(j & J & X)]; [left; exact X|].
  right. exists full, l, payload, j. auto.
Qed.

(* ------------------------------------------------------------------ examples and refutations *)
Section Scene.
  Context {Car : Type} (f : Car -> option text -> text -> list text * Car) (b : bool).
  (* as Properties_Adapter.scene; outs: how many unread bytes come late, and what is printed, for each line written *)
  Definition slow_scene (s0 : Car) (ans : list (option bytes)) (outs : list (nat * bytes)) (ops : list op) (c : command) :
      bool * option (adapter * Car * bytes * list (nat * bytes)) * option (adapter * Car * bytes * list (nat * bytes)) * status * option value * list (bool * bool) * bool :=
    let n := new_obd (setup false) (Some (str "p")) [] (fresh ans) in
    let s := play ops (snd n) in
    let t0 := w_trace (snd (snd n)) in
    let q := query c true (snd s) in
    let t := skipn (List.length (w_trace (snd (snd s)))) (w_trace (snd (snd q))) in
    let y := slow_c f b new_adapter s0 [] outs (t0 ++ List.concat (map st_events (fst s))) in
    (match fst n with Ok _ => true | _ => false end, y, match y with Some (a, c1, p, outs') => slow_c f b a c1 p outs' t | None => None end, obd_status (fst (snd s)),
     match fst q with Ok r => Some (r_value r) | Raise _ => None end, map went (fst s),
     forallb (fun x => acks_c (st_events x)) (fst s) && acks_c t).
  Lemma slow_scene_facts s0 ans outs ops c a1 s1 p1 u1 a2 s2 p2 u2 st v l ak : slow_scene s0 ans outs ops c = (true, Some (a1, s1, p1, u1), Some (a2, s2, p2, u2), st, Some v, l, ak) ->
    exists h o w1 t q o', slow_together (answers f) b (setup false) (str "p") [] (fresh ans) h o w1 (new_adapter, s0, []) (a1, s1, p1) /\ obd_status o = st
      /\ slow_queried (answers f) b c true o w1 (a1, s1, p1) t (Ok q) o' (a2, s2, p2) /\ r_value q = v /\ map st_op h = ops /\ l = map went h
      /\ (ak = true -> Forall (fun x => acknowledged (st_events x)) h /\ acknowledged t)
      /\ (forall s, s = snd (play ops (snd (new_obd (setup false) (Some (str "p")) [] (fresh ans)))) -> o = fst s /\ w_trace (snd (snd (query c true s))) = w_trace (snd s) ++ t).
  Proof.
    unfold slow_scene. intros H. apply pair_equal_spec in H as [H Ak]. do 5 (let D := fresh "D" in apply pair_equal_spec in H as [H D]).
    destruct (new_obd (setup false) (Some (str "p")) [] (fresh ans)) as [r0 s00] eqn:N. cbn [fst snd] in *.
    assert (r0 = Ok tt) by (destruct r0 as [[]|]; [reflexivity|discriminate H]). subst r0.
    pose proof (play_session (setup false) (fresh ans) ops eq_refl ltac:(rewrite N; reflexivity)) as S. unfold outcome in S. rewrite N in S. cbn [fst snd] in S.
    pose proof (play_ops ops s00) as Po. destruct (play ops s00) as [h [o w1]]. cbn [fst snd] in *.
    destruct (query c true (o, w1)) as [r [o' w2]] eqn:Q. cbn [fst snd] in *. destruct r as [q|]; [|discriminate D0]. injection D0 as D0.
    rewrite D3 in D2. pose proof (session_oinv _ _ _ _ _ _ _ _ S) as (OI & _). destruct (query_spec _ _ _ _ _ _ _ OI Q) as (t & T & _).
    rewrite T, skipn_app, skipn_all, Nat.sub_diag in D2, Ak. cbn [skipn app] in D2, Ak.
    exists h, o, w1, t, q, o'. split; [exists (w_trace (snd s00)); split; [exact S|eapply slow_check; exact D3]|]. split; [exact D1|].
    split; [exists w2; split; [exact Q|split; [exact T|eapply slow_check; exact D2]]|]. split; [exact D0|]. split; [exact Po|]. split; [symmetry; exact D|].
    split; [|intros s ->; split; [reflexivity|rewrite Q; exact T]]. intros ->. apply andb_true_iff in Ak as [A1 A2]. split; [|apply acks_check, A2]. apply Forall_forall. intros x I. rewrite forallb_forall in A1. apply acks_check, A1, I.
  Qed.
End Scene.
(* what is printed when the answer is x *)
Definition in_time (x : option bytes) : nat * bytes := (0%nat, match x with Some s => removelast s | None => [] end).
Definition time_out : option bytes := Some [].
Definition car4 (s : unit) (h : option text) (req : text) : list text * unit :=
  (if is_req req "0100" then [str "7E8 06 41 00 00 00 00 00"]
   else if is_req req "010C" then [str "7E8 04 41 0C 1A F8"] else if is_req req "010D" then [str "7E8 03 41 0D 32"] else if is_req req "0904" then calibration
   else [str "NO DATA"], tt).
Definition its_revs := says (str "7E8 04 41 0C 1A F8").
Definition its_speed := says (str "7E8 03 41 0D 32").
Definition speed_op := OpQuery (cmd "SPEED") true.
Lemma ordinary_ops ops h : Forall asks_engine ops -> map st_op h = ops -> Forall ordinary h /\ Forall engine_only h.
Proof.
  intros F <-. induction h as [|x h IH]; [split; constructor|]. cbn [map] in F. inversion F as [|? ? F1 F2]; subst. destruct (IH F2) as (A & B).
  split; constructor; try assumption; unfold ordinary, engine_only; destruct (st_op x); try contradiction; apply F1.
Qed.
Lemma speed_engine : asks_engine speed_op.
Proof. split; [split; [vm_compute; reflexivity|left; eexists; vm_compute; reflexivity]|vm_compute; reflexivity]. Qed.
(* the value of a query of c in a session with this car in which these queries were made before *)
Definition slow_value {Car : Type} (f : Car -> option text -> text -> list text * Car) (s0 : Car) (b : bool) (ops : list op) (c : command) (hd : option text) (v : value) : Prop :=
  exists w h o w1 a s p t q o' z, slow_together (answers f) b (setup false) (str "p") [] w h o w1 (new_adapter, s0, []) (a, s, p) /\ map st_op h = ops /\ Forall ordinary h
    /\ slow_queried (answers f) b c true o w1 (a, s, p) t (Ok q) o' z /\ obd_status o = CAR_CONNECTED /\ ad_header a = hd /\ c_header c = engine_header
    /\ may_send o c true /\ r_value q = v.
Lemma slow_show {Car : Type} (f : Car -> option text -> text -> list text * Car) b s0 ans outs ops c a1 s1 p1 u1 a2 s2 p2 u2 v l ak hd : Forall (fun p => match p with OpQuery c _ => proper c | _ => False end) ops ->
  text_eqb (c_header c) engine_header = true ->
  slow_scene f b s0 ans outs ops c = (true, Some (a1, s1, p1, u1), Some (a2, s2, p2, u2), CAR_CONNECTED, Some v, l, ak) -> ad_header a1 = hd -> slow_value f s0 b ops c hd v.
Proof.
  intros Fo Eh E Hd. destruct (slow_scene_facts _ _ _ _ _ _ _ _ _ _ _ _ _ _ _ _ _ _ _ E) as (h & o & w1 & t & q & o' & T & St & Q & V & M & _).
  exists (fresh ans), h, o, w1, a1, s1, p1, t, q, o', (a2, s2, p2). split; [exact T|]. split; [exact M|]. split.
  { clear -Fo M. subst ops. induction h as [|x h IH]; [constructor|]. cbn [map] in Fo. inversion Fo; subst. constructor; [|auto]. unfold ordinary. destruct (st_op x); try contradiction. assumption. }
  split; [exact Q|]. split; [exact St|]. split; [exact Hd|]. split; [apply text_eqb_iff, Eh|]. split; [left; reflexivity|exact V].
Qed.
Lemma speed_proper : Forall (fun p => match p with OpQuery c _ => proper c | _ => False end) [speed_op].
Proof. constructor; [apply speed_engine|constructor]. Qed.
(* full statement of C96: the response is made of what the car answers to this request. False: the answer to SPEED comes after the query has timed out, and after the unread
   output is thrown away; it is taken for the answer to RPM (50 km/h give 3200 rpm instead of 1726) *)
Theorem C96_refuted : exists v v', slow_value car4 tt false [speed_op] (cmd "RPM") None v /\ slow_value car4 tt false [] (cmd "RPM") None v' /\ v <> v'
  /\ (exists x, v = VQty x (str "rpm")) /\ exists x, v' = VQty x (str "rpm").
Proof.
  eexists _, _. split; [|split; [|split; [|split]]].
  - eapply (slow_show car4 false tt (start_up ++ repeat time_out 12 ++ [its_speed]) (map in_time start_up ++ [in_time its_speed; (List.length (match its_speed with Some s => s | None => [] end), snd (in_time its_revs))])).
    + exact speed_proper.
    + vm_compute. reflexivity.
    + vm_compute. reflexivity.
    + reflexivity.
  - eapply (slow_show car4 false tt (start_up ++ [its_revs]) (map in_time (start_up ++ [its_revs]))).
    + constructor.
    + vm_compute. reflexivity.
    + vm_compute. reflexivity.
    + reflexivity.
  - discriminate.
  - eexists. reflexivity.
  - eexists. reflexivity.
Qed.

(* full statement of C97: a query that is cut short by a time-out gives the value of the complete answer, or none. False: the last byte of the answer comes after
   the read has timed out (1664 rpm instead of 1726) *)
Theorem C97_mid_line_refuted : exists v v', slow_value car4 tt true [] (cmd "RPM") None v /\ slow_value car4 tt true [] (cmd "RPM") None v' /\ v <> v'
  /\ (exists x, v = VQty x (str "rpm")) /\ exists x, v' = VQty x (str "rpm").
Proof.
  eexists _, _. split; [|split; [|split; [|split]]].
  - eapply (slow_show car4 true tt (start_up ++ [Some (str "7E8 04 41 0C 1A"); time_out]) (map in_time (start_up ++ [its_revs]))).
    + constructor.
    + vm_compute. reflexivity.
    + vm_compute. reflexivity.
    + reflexivity.
  - eapply (slow_show car4 true tt (start_up ++ [its_revs]) (map in_time (start_up ++ [its_revs]))).
    + constructor.
    + vm_compute. reflexivity.
    + vm_compute. reflexivity.
    + reflexivity.
  - discriminate.
  - eexists. reflexivity.
  - eexists. reflexivity.
Qed.
(* and false also if only whole lines are lost: an answer in ten lines of which only the first two came in time is taken for a complete one *)
Theorem C97_lines_refuted : exists v v', slow_value car4 tt true [] (cmd "CALIBRATION_ID") None (VBytes v) /\ slow_value car4 tt true [] (cmd "CALIBRATION_ID") None (VBytes v') /\ v <> [] /\ (List.length v < List.length v')%nat.
Proof.
  eexists _, _. split; [|split; [|split]].
  - eapply (slow_show car4 true tt (start_up ++ [Some (nth 0 calibration [] ++ [13] ++ nth 1 calibration [] ++ [13]); time_out]) (map in_time (start_up ++ [several calibration]))).
    + constructor.
    + vm_compute. reflexivity.
    + vm_compute. reflexivity.
    + reflexivity.
  - eapply (slow_show car4 true tt (start_up ++ [several calibration]) (map in_time (start_up ++ [several calibration]))).
    + constructor.
    + vm_compute. reflexivity.
    + vm_compute. reflexivity.
    + reflexivity.
  - discriminate.
  - cbn. lia.
Qed.
(* full statement of C98: a request goes where its command says. False: the acknowledgement of the header 7E1 comes after the reads have timed out; from then on the object takes
   the header for the engine's, and trouble codes are asked from the gearbox only *)
Definition car5 (s : unit) (h : option text) (req : text) : list text * unit :=
  (if is_req req "0100" then [str "7E8 06 41 00 00 00 00 00"]
   else if is_req req "03" then match h with Some h => if is_req h "7E1" then [str "7E9 04 43 01 07 00"] else codes_of_one | None => codes_of_both end
   else if is_req req "2101" then match h with Some h => if is_req h "7E1" then [str "7E9 03 61 01 05"] else [str "NO DATA"] | None => [str "NO DATA"] end
   else [str "NO DATA"], tt).
Theorem C98_refuted : exists v v', slow_value car5 tt true [OpQuery gearbox true] (cmd "GET_DTC") (Some (str "7E1")) v /\ codes v = [str "P0700"]
  /\ slow_value car5 tt true [] (cmd "GET_DTC") None v' /\ codes v' = [str "P0133"; str "P0700"].
Proof.
  eexists _, _. split; [|split; [|split]].
  - eapply (slow_show car5 true tt (start_up ++ repeat time_out 12 ++ [says (str "7E9 03 61 01 05"); says (str "7E9 04 43 01 07 00")])
      (map in_time (start_up ++ [says (str "OK"); says (str "7E9 03 61 01 05"); says (str "7E9 04 43 01 07 00")]))).
    + constructor; [exact gearbox_proper|constructor].
    + vm_compute. reflexivity.
    + vm_compute. reflexivity.
    + reflexivity.
  - vm_compute. reflexivity.
  - eapply (slow_show car5 true tt (start_up ++ [several codes_of_both]) (map in_time (start_up ++ [several codes_of_both]))).
    + constructor.
    + vm_compute. reflexivity.
    + vm_compute. reflexivity.
    + reflexivity.
  - vm_compute. reflexivity.
Qed.

(* a case of C96_own_answer_partial: the answer to SPEED came after the time-outs and was thrown away, then RPM is answered in two parts with a time-out before them *)
Example C96_example : exists w h o w1 a s p t q o' z, let c := cmd "RPM" in
  slow_together (answers car4) true (setup false) (str "p") [] w h o w1 (new_adapter, tt, []) (a, s, p) /\ cf_fast (setup false) = false /\ Forall ordinary h /\ Forall engine_only h
  /\ slow_queried (answers car4) true c true o w1 (a, s, p) t (Ok q) o' z /\ c_header c = engine_header /\ understand (c_command c) = KRequest (str "010C")
  /\ obd_status o <> NOT_CONNECTED /\ may_send o c true /\ map st_op h = [speed_op] /\ p <> [] /\ r_value q <> VNone.
Proof.
  assert (E : exists a1 p1 u1 a2 p2 u2 v l, slow_scene car4 true tt (start_up ++ repeat time_out 12 ++ [time_out; Some (str "7E8 04 41 0C"); Some (str " 1A F8" ++ [13; 62])]) (map in_time (start_up ++ [its_speed; its_revs])) [speed_op] (cmd "RPM")
    = (true, Some (a1, tt, p1, u1), Some (a2, tt, p2, u2), CAR_CONNECTED, Some v, l, true) /\ p1 <> [] /\ v <> VNone).
  { eexists _, _, _, _, _, _, _, _. split; [vm_compute; reflexivity|]. split; discriminate. }
  destruct E as (a1 & p1 & u1 & a2 & p2 & u2 & v & l & E & N1 & N2). destruct (slow_scene_facts _ _ _ _ _ _ _ _ _ _ _ _ _ _ _ _ _ _ _ E) as (h & o & w1 & t & q & o' & T & St & Q & V & M & _).
  destruct (ordinary_ops [speed_op] h (Forall_cons _ speed_engine (Forall_nil _)) M) as (O1 & O2).
  eexists _, h, o, w1, a1, tt, p1, t, q, o', _. cbv zeta. split; [exact T|]. split; [reflexivity|]. split; [exact O1|]. split; [exact O2|]. split; [exact Q|]. split; [vm_compute; reflexivity|]. split; [vm_compute; reflexivity|].
  split; [rewrite St; discriminate|]. split; [left; reflexivity|]. split; [exact M|]. split; [exact N1|]. rewrite V. exact N2.
Qed.

(* a case of C97_whole_lines_partial: the second ECU's line is lost; and one in which the engine's is *)
Example C97_example : exists p full q q' q2 u l payload, let c := cmd "SPEED" in In c all_commands /\ c_ecu c = ECU_ENGINE /\ reading c p full q' /\ reading c p (firstn 2 full) q /\ reading c p (firstn 1 full) q2
  /\ heeds (c_ecu c) p u /\ (forall u', heeds (c_ecu c) p u' -> u' = u) /\ heard_from (pc_family (p_class p)) u full [l] /\ delivers (pc_family (p_class p)) u [l] payload
  /\ (forall r, payload <> 67 :: r) /\ r_value q <> VNone /\ r_value q2 = VNone.
Proof.
  get_demo (cmd "SPEED") can11 (str "7E9 03 41 0D 20" ++ [13] ++ str "7E8 03 41 0D 32" ++ [13] ++ str "7EA 03 41 0D 21") [str "7E9 03 41 0D 20"; str "7E8 03 41 0D 32"; str "7EA 03 41 0D 21"].
  get_demo (cmd "SPEED") can11 (str "7E9 03 41 0D 20" ++ [13] ++ str "7E8 03 41 0D 32") [str "7E9 03 41 0D 20"; str "7E8 03 41 0D 32"].
  get_demo (cmd "SPEED") can11 (str "7E9 03 41 0D 20") [str "7E9 03 41 0D 20"].
  exists can11, [str "7E9 03 41 0D 20"; str "7E8 03 41 0D 32"; str "7EA 03 41 0D 21"], q0, q, q1, 0, (str "7E8 03 41 0D 32"), [65; 13; 50]. cbv zeta. cbn [firstn].
  assert (Nm : named ["SPEED"] (cmd "SPEED")) by (apply named_one; vm_compute; reflexivity).
  split; [apply Nm|]. split; [vm_compute; reflexivity|]. split; [exact Rd|]. split; [exact Rd0|]. split; [exact Rd1|].
  split; [apply C67_engine; [reflexivity|left; vm_compute; reflexivity]|]. split; [|split; [|split; [|split; [|split]]]].
  - assert (Ee : c_ecu (cmd "SPEED") = 2) by (vm_compute; reflexivity). rewrite Ee. intros u' H. apply heeds_iff in H. destruct H as (i & B1 & B2).
    assert (Ei : i = 1) by (destruct i as [|[i|[i|i|]|]|i]; try discriminate B1; reflexivity). subst i.
    destruct u' as [|[u'|u'|]|u']; [reflexivity| | | |]; cbn in B2; discriminate B2.
  - change (pc_family (p_class can11)) with (FCan 11). constructor 3; [from_other 9 [3; 65; 13; 32]|]. constructor 2; [|constructor 3; [from_other 10 [3; 65; 13; 33]|constructor]].
    apply (can_from 7 14 8 _ [3; 65; 13; 50]); try (unfold is_nibble; lia); [bytes_ok|show|]. split; [cbn; lia|]. left. cbn. lia.
  - change (pc_family (p_class can11)) with (FCan 11). apply (delivers_can_single (Id11 7 14 8) _ [65; 13; 50] []); [cbn; unfold is_nibble; lia|bytes_ok|constructor|discriminate|cbn; lia|show].
  - intros r. discriminate.
  - rewrite V0. discriminate.
  - exact V1.
Qed.

(* a case of C98_acknowledged_partial: the header 7E1 is acknowledged, the answer of the gearbox comes too late; then the trouble codes, for which the header is set back *)
Example C98_example : exists w h o w1 a s p t q o' z, let c := cmd "GET_DTC" in
  slow_together (answers car5) true (setup false) (str "p") [] w h o w1 (new_adapter, tt, []) (a, s, p) /\ cf_fast (setup false) = false /\ Forall ordinary h /\ Forall (fun y => acknowledged (st_events y)) h
  /\ slow_queried (answers car5) true c true o w1 (a, s, p) t (Ok q) o' z /\ acknowledged t /\ header_ok (plain (c_header c)) = true /\ understand (c_command c) = KRequest (str "03")
  /\ obd_status o <> NOT_CONNECTED /\ may_send o c true /\ map st_op h = [OpQuery gearbox true] /\ ad_header a = Some (str "7E1") /\ codes (r_value q) = [str "P0133"].
Proof.
  assert (E : exists a1 p1 u1 a2 p2 u2 v l, slow_scene car5 true tt (start_up ++ [says (str "OK")] ++ repeat time_out 12 ++ [says (str "OK"); several codes_of_one])
      (map in_time (start_up ++ [says (str "OK"); says (str "7E9 03 61 01 05"); says (str "OK"); several codes_of_one])) [OpQuery gearbox true] (cmd "GET_DTC")
    = (true, Some (a1, tt, p1, u1), Some (a2, tt, p2, u2), CAR_CONNECTED, Some v, l, true) /\ ad_header a1 = Some (str "7E1") /\ codes v = [str "P0133"]).
  { eexists _, _, _, _, _, _, _, _. split; [vm_compute; reflexivity|]. split; vm_compute; reflexivity. }
  destruct E as (a1 & p1 & u1 & a2 & p2 & u2 & v & l & E & N1 & N2). destruct (slow_scene_facts _ _ _ _ _ _ _ _ _ _ _ _ _ _ _ _ _ _ _ E) as (h & o & w1 & t & q & o' & T & St & Q & V & M & _ & Ak & _).
  destruct (Ak eq_refl) as (A1 & A2).
  assert (O1 : Forall ordinary h) by (destruct h as [|x [|y h]]; try discriminate M; injection M as M; constructor; [unfold ordinary; rewrite M; exact gearbox_proper|constructor]).
  eexists _, h, o, w1, a1, tt, p1, t, q, o', _. cbv zeta. split; [exact T|]. split; [reflexivity|]. split; [exact O1|]. split; [exact A1|]. split; [exact Q|]. split; [exact A2|]. split; [vm_compute; reflexivity|]. split; [vm_compute; reflexivity|].
  split; [rewrite St; discriminate|]. split; [left; reflexivity|]. split; [exact M|]. split; [exact N1|]. rewrite V. exact N2.
Qed.

(* a case of C97_session_partial: half of the answer to RPM comes in time *)
Definition half_of_it := start_up ++ [Some (str "7E8 04 41 0C 1A"); time_out].
Definition half_scene := snd (new_obd (setup false) (Some (str "p")) [] (fresh half_of_it)).
Example C97_session_example : exists w h o w1 a p t q o' z, let c := cmd "RPM" in
  slow_together (answers car4) true (setup false) (str "p") [] w h o w1 (new_adapter, tt, []) (a, tt, p) /\ cf_fast (setup false) = false /\ Forall ordinary h /\ Forall engine_only h
  /\ slow_queried (answers car4) true c true o w1 (a, tt, p) t (Ok q) o' z /\ In c all_commands /\ c_ecu c = ECU_ENGINE /\ c_header c = engine_header /\ understand (c_command c) = KRequest (str "010C")
  /\ obd_status o <> NOT_CONNECTED /\ may_send o c true /\ ascii (got t)
  /\ exists pr u, uses o pr /\ heeds (c_ecu c) pr u /\ (forall u', heeds (c_ecu c) pr u' -> u' = u)
  /\ (forall full, answers car4 tt None (str "010C") full tt -> exists l payload, heard_from (pc_family (p_class pr)) u full [l] /\ delivers (pc_family (p_class pr)) u [l] payload /\ (forall r, payload <> 67 :: r)
     /\ forall l', In l' full -> exists u', SpecProto.is_from (pc_family (p_class pr)) u' l')
  /\ r_value q <> VNone.
Proof.
  assert (E : exists a1 p1 u1 a2 p2 u2 v l, slow_scene car4 true tt half_of_it (map in_time (start_up ++ [its_revs])) [] (cmd "RPM") = (true, Some (a1, tt, p1, u1), Some (a2, tt, p2, u2), CAR_CONNECTED, Some v, l, true) /\ v <> VNone).
  { eexists _, _, _, _, _, _, _, _. split; [vm_compute; reflexivity|]. discriminate. }
  destruct E as (a1 & p1 & u1 & a2 & p2 & u2 & v & l & E & N2). destruct (slow_scene_facts _ _ _ _ _ _ _ _ _ _ _ _ _ _ _ _ _ _ _ E) as (h & o & w1 & t & q & o' & T & St & Q & V & M & _ & _ & Es).
  destruct (Es _ eq_refl) as (Eo & Et). clear Es.
  destruct (ordinary_ops [] h (Forall_nil _) M) as (O1 & O2).
  assert (At : forallb (fun c => c <? 128) (got t) = true).
  { match type of Et with ?x = _ => let y := eval vm_compute in x in assert (Ex : x = y) by (vm_compute; reflexivity); rewrite Ex in Et; clear Ex end.
    match type of Et with _ = ?x ++ _ => let y := eval vm_compute in x in assert (Ex : x = y) by (vm_compute; reflexivity); rewrite Ex in Et; clear Ex end.
    cbn [app] in Et. repeat (match type of Et with _ :: _ = _ :: _ => apply (f_equal (@List.tl event)) in Et; cbn [List.tl] in Et end). rewrite <- Et. reflexivity. }
  assert (Ep : match o_interface o with Some e => e_protocol e | None => None end = Some can11) by (rewrite Eo; vm_compute; reflexivity).
  eexists _, h, o, w1, a1, p1, t, q, o', _. cbv zeta. split; [exact T|]. split; [reflexivity|]. split; [exact O1|]. split; [exact O2|]. split; [exact Q|].
  assert (Nm : named ["RPM"] (cmd "RPM")) by (apply named_one; vm_compute; reflexivity).
  split; [apply Nm|]. split; [vm_compute; reflexivity|]. split; [vm_compute; reflexivity|]. split; [vm_compute; reflexivity|]. split; [rewrite St; discriminate|]. split; [left; reflexivity|].
  split; [apply Forall_forall; intros x I; rewrite forallb_forall in At; apply Z.ltb_lt, At, I|].
  assert (Us : uses o can11) by (unfold uses; destruct (o_interface o) as [e|]; [exists e; auto|discriminate Ep]). exists can11, 0. split; [exact Us|].
  split; [apply C67_engine; [reflexivity|left; vm_compute; reflexivity]|]. split; [|split; [|rewrite V; exact N2]].
  - assert (Ee : c_ecu (cmd "RPM") = 2) by (vm_compute; reflexivity). rewrite Ee. intros u' H. apply heeds_iff in H. destruct H as (i & B1 & B2).
    assert (Ei : i = 1) by (destruct i as [|[i|[i|i|]|]|i]; try discriminate B1; reflexivity). subst i.
    destruct u' as [|[u'|u'|]|u']; [reflexivity| | | |]; cbn in B2; discriminate B2.
  - intros full A. assert (full = [str "7E8 04 41 0C 1A F8"]) as -> by (inversion A; reflexivity). exists (str "7E8 04 41 0C 1A F8"), [65; 12; 26; 248].
    assert (Fr : SpecProto.is_from (FCan 11) 0 (str "7E8 04 41 0C 1A F8")).
    { apply (can_from 7 14 8 _ [4; 65; 12; 26; 248]); try (unfold is_nibble; lia); [bytes_ok|show|]. split; [cbn; lia|]. left. cbn. lia. }
    change (pc_family (p_class can11)) with (FCan 11). split; [constructor; [exact Fr|constructor]|].
    split; [apply (delivers_can_single (Id11 7 14 8) _ [65; 12; 26; 248] []); [cbn; unfold is_nibble; lia|bytes_ok|constructor|discriminate|cbn; lia|show]|].
    split; [discriminate|]. intros l' [<-|[]]. eauto.
Qed.
