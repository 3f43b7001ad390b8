(* C109: sessions with fast=True and an adapter whose output may take any time to arrive (SpecSlow). Proofs: SlowFast.v. *)
From Coq Require Import ZArith List Bool Lia String.
From Verif Require Import Py Num Utils Protocol Decoders Command CommandTable Commands World Elm Obd SpecWire SpecElm SpecObd SpecE2E
  CutThms SpecAdapter SpecAdapter2 SpecSlow
  PyFacts ElmFacts ElmThms ObdFacts ObdThms ObdThms2 ObdThms3 ObdThms4 ObdThms5 Properties_Protocol Properties_Elm Properties_Decoders Properties_Obd
  AdapterThms AdapterThms2 AdapterThms3 AdapterThms4 AdapterThms5 AdapterCheck SlowThms SlowCheck SlowFast Properties_Adapter Properties_Slow.
Import ListNotations.
Open Scope string_scope. Open Scope list_scope. Open Scope Z_scope.

Section Car.
  Context {Car : Type} (ask : Car -> option text -> text -> list text -> Car -> Prop).
  Notation slow_together := (slow_together ask). Notation slow_queried := (slow_queried ask).

  Lemma counted o c req n : o_fast o = true -> c_fast c = true -> recorded o c n -> (n <= 9)%nat -> understand (c_command c) = KRequest req -> understand (full_string o c) = KCounted req (Z.of_nat n).
  Proof.
    intros F1 F2 Rc B U. unfold recorded in Rc. assert (E : full_string o c = c_command c ++ str_nat n) by (unfold full_string; rewrite F1, F2, Rc; reflexivity).
    assert (Sn : str_nat n = [48 + Z.of_nat n]) by (do 10 (destruct n as [|n]; [reflexivity|]); lia).
    rewrite E, (understand_count _ _ _ U (proj1 (proj2 (str_nat_decimal n)))), Sn. cbn [List.length Nat.even]. rewrite removelast_last, last_last. f_equal. unfold hexdigit_value.
    destruct (Z.leb_spec (48 + Z.of_nat n) 57); lia.
  Qed.
  Lemma uncounted o c req : o_fast o = false \/ c_fast c = false \/ unrecorded o c -> understand (c_command c) = KRequest req -> understand (full_string o c) = KRequest req.
  Proof.
    intros H U. assert (E : full_string o c = c_command c); [|rewrite E; exact U].
    unfold full_string. destruct H as [H|[H|H]]; [rewrite H; reflexivity|rewrite H, andb_false_r; reflexivity|unfold unrecorded in H; rewrite H; destruct (_ && _); reflexivity].
  Qed.
  Lemma slow_fsent b cf name scan w h o w1 x a s p c force t r o' z : slow_together b cf name scan w h o w1 x (a, s, p) -> Forall plainly h ->
    slow_queried b c force o w1 (a, s, p) t r o' z -> proper c -> c_header c = engine_header -> obd_status o <> NOT_CONNECTED -> may_send o c force ->
    exists pr shown lines a' s' p', z = (a', s', p') /\ uses o pr /\ r = made_of pr c lines /\ (forall q, r = Ok q -> reading c pr lines q) /\ (b = true -> stretch_in (got t) shown lines)
      /\ ad_headers a = true /\ ad_header a = None /\ does ask a s (full_string o c) shown a' s' /\ obd_status o' = obd_status o /\ o_fast o = cf_fast cf
      /\ (forall ms, call pr lines = Ok ms -> o_frame_counts o' = o_frame_counts (with_count c (count_frames ms) o)).
  Proof.
    intros (t0 & S & F) G1 (w2 & Q & T & F2) Pr Eh Con Ms.
    destruct (slow_fsession ask b _ _ _ _ _ _ _ _ _ _ _ _ S G1 F) as (OI & Fa & U & _).
    destruct (session_query _ _ _ _ _ _ _ _ _ _ _ _ _ _ S Q T) as (_ & _ & Qr). destruct (U Con) as (_ & Tu & Hn & _).
    destruct (slow_fquery ask b _ _ _ _ _ _ _ _ _ _ OI U Qr Pr Eh F2 Con Ms) as (pr & shown & lines & a' & s' & p' & Y & Us & Rr & La & St & D & So & K).
    exists pr, shown, lines, a', s', p'. split; [exact Y|]. split; [exact Us|]. split; [exact Rr|]. split.
    { intros q ->. exists cf, (Some name), scan, w, t0, h, o, w1, force, o', w2, t. auto 10. }
    split; [exact St|]. split; [apply Tu|]. split; [exact Hn|]. split; [exact D|]. split; [exact So|]. split; [exact Fa|]. intros ms C. apply (K ms C).
  Qed.

  (* however late the output comes (b = false too), and whatever was cut off before: a query that is sent is one request to the car, the command's own, to all ECUs, as long as no count
     of two digits is on record for it; and the connection is kept *)
Theorem C109_request_partial : forall b cf name scan w h o w1 x a s p c force t r o' a' s' p' req,
    slow_together b cf name scan w h o w1 x (a, s, p) -> Forall plainly h ->
    slow_queried b c force o w1 (a, s, p) t r o' (a', s', p') -> c_header c = engine_header -> understand (c_command c) = KRequest req ->
    obd_status o <> NOT_CONNECTED -> may_send o c force -> (forall n, recorded o c n -> (n <= 9)%nat) ->
    (exists full, ask s None req full s') /\ obd_status o' = obd_status o.
  Proof.
    intros b cf name scan w h o w1 x a s p c force t r o' a' s' p' req To Pl Q Hc U Con Ms Rn.
    assert (Pr : proper c) by (split; [rewrite Hc; reflexivity|left; eauto]).
    destruct (slow_fsent _ _ _ _ _ _ _ _ _ _ _ _ _ _ _ _ _ _ To Pl Q Pr Hc Con Ms) as (pr & shown & lines & a2 & s2 & p2 & Y & _ & _ & _ & _ & _ & Hn & D & So & _). injection Y as -> -> ->.
    split; [|exact So].
    assert (K : understand (full_string o c) = KRequest req \/ exists n, understand (full_string o c) = KCounted req n).
    { destruct (o_fast o) eqn:F1; [|left; apply uncounted; auto]. destruct (c_fast c) eqn:F2; [|left; apply uncounted; auto].
      destruct (dict_get cmd_eqb (o_frame_counts o) c) as [n|] eqn:Rc; [right; exists (Z.of_nat n); apply counted; auto|left; apply uncounted; auto]. }
    unfold does in D. destruct K as [K|(n & K)]; rewrite K, Hn in D; destruct D as (full & A & _); eauto.
  Qed.
  (* as long as output that comes too late is thrown away before the next line is written (b = true), the response is made of nothing but what the car answers to this very request:
     of the lines in a stretch of the answer (C96); if a count n is on record, of the first n lines of the answer *)
Theorem C109_answer_partial : forall cf name scan w h o w1 x a s p c force t r o' a' s' p' req,
    slow_together true cf name scan w h o w1 x (a, s, p) -> Forall plainly h ->
    slow_queried true c force o w1 (a, s, p) t r o' (a', s', p') -> c_header c = engine_header -> understand (c_command c) = KRequest req ->
    obd_status o <> NOT_CONNECTED -> may_send o c force ->
    (cf_fast cf = false \/ c_fast c = false \/ unrecorded o c ->
       exists pr full lines, uses o pr /\ ask s None req full s' /\ stretch full lines /\ (ascii (got t) -> cut_of full lines) /\ r = made_of pr c lines /\ (forall q, r = Ok q -> reading c pr lines q))
    /\ (forall n, cf_fast cf = true -> c_fast c = true -> recorded o c n -> (1 <= n <= 9)%nat ->
       exists pr full lines, uses o pr /\ ask s None req full s' /\ stretch (firstn n full) lines /\ (ascii (got t) -> cut_of (firstn n full) lines) /\ r = made_of pr c lines
         /\ (forall q, r = Ok q -> reading c pr lines q)).
  Proof.
    intros cf name scan w h o w1 x a s p c force t r o' a' s' p' req To Pl Q Hc U Con Ms.
    assert (Pr : proper c) by (split; [rewrite Hc; reflexivity|left; eauto]).
    destruct (slow_fsent _ _ _ _ _ _ _ _ _ _ _ _ _ _ _ _ _ _ To Pl Q Pr Hc Con Ms) as (pr & shown & lines & a2 & s2 & p2 & Y & Us & Rr & Rd & St & Ah & Hn & D & _ & Ff & _). injection Y as -> -> ->.
    specialize (St eq_refl). unfold does in D. split.
    - intros H. rewrite <- Ff in H. rewrite (uncounted _ _ _ H U), Hn in D. destruct D as (full & A & E & _). rewrite (E Ah) in St. exists pr, full, lines.
      split; [exact Us|]. split; [exact A|]. split; [exists (got t); exact St|]. split; [intros As; exact (stretch_cut _ _ _ St As)|]. auto.
    - intros n F1 F2 Rc B. rewrite <- Ff in F1. rewrite (counted o c req n F1 F2 Rc (proj2 B) U), Hn in D. destruct D as (full & A & E & _). rewrite (E Ah), Nat2Z.id in St by lia. exists pr, full, lines.
      split; [exact Us|]. split; [exact A|]. split; [exists (got t); exact St|]. split; [intros As; exact (stretch_cut _ _ _ St As)|]. auto.
  Qed.
  (* and the count that goes on record at the first query that returns is the number of frames of that much of the answer, however little it is (it stays: C46_count_stays) *)
Theorem C109_recorded_partial : forall cf name scan w h o w1 x a s p c force t q o' a' s' p' req,
    slow_together true cf name scan w h o w1 x (a, s, p) -> Forall plainly h ->
    slow_queried true c force o w1 (a, s, p) t (Ok q) o' (a', s', p') -> c_header c = engine_header -> understand (c_command c) = KRequest req ->
    obd_status o <> NOT_CONNECTED -> may_send o c force -> unrecorded o c ->
    exists pr full lines ms, uses o pr /\ ask s None req full s' /\ stretch full lines /\ (ascii (got t) -> cut_of full lines) /\ Ok q = made_of pr c lines
      /\ call pr lines = Ok ms /\ recorded o' c (list_sum (map (fun m => List.length (m_frames m)) ms)).
  Proof.
    intros cf name scan w h o w1 x a s p c force t q o' a' s' p' req To Pl Q Hc U Con Ms Un.
    assert (Pr : proper c) by (split; [rewrite Hc; reflexivity|left; eauto]).
    destruct (slow_fsent _ _ _ _ _ _ _ _ _ _ _ _ _ _ _ _ _ _ To Pl Q Pr Hc Con Ms) as (pr & shown & lines & a2 & s2 & p2 & Y & Us & Rr & Rd & St & Ah & Hn & D & _ & Ff & K). injection Y as -> -> ->.
    specialize (St eq_refl). unfold does in D. rewrite (uncounted _ _ _ (or_intror (or_intror Un)) U), Hn in D. destruct D as (full & A & E & _). rewrite (E Ah) in St.
    destruct (made_ok _ _ _ _ (eq_sym Rr)) as (ms & C). exists pr, full, lines, ms.
    split; [exact Us|]. split; [exact A|]. split; [exists (got t); exact St|]. split; [intros As; exact (stretch_cut _ _ _ St As)|]. split; [exact Rr|]. split; [exact C|].
    unfold recorded, unrecorded in *. rewrite (K ms C). fold (frames_of ms). rewrite <- count_frames_sum. rewrite with_count_get, Un, cmd_eqb_refl. reflexivity.
  Qed.
End Car.

(* ------------------------------------------------------------------ the refutation, and examples *)
Section Scene.
  Context {Car : Type} (f : Car -> option text -> text -> list text * Car).
  Definition fast_scene (s0 : Car) (ans : list (option bytes)) (outs : list (nat * bytes)) (ops : list op) (c : command) :=
    let n := new_obd (setup true) (Some (str "p")) [] (fresh ans) in
    let s := play ops (snd n) in
    let t0 := w_trace (snd (snd n)) in
    let q := query c true (snd s) in
    let t := skipn (List.length (w_trace (snd (snd s)))) (w_trace (snd (snd q))) in
    let y := slow_c f true new_adapter s0 [] outs (t0 ++ List.concat (map st_events (fst s))) in
    (match fst n with Ok _ => true | _ => false end, y, match y with Some (a, c1, p, outs') => slow_c f true a c1 p outs' t | None => None end, obd_status (fst (snd s)),
     match fst q with Ok r => Some (r_value r) | Raise _ => None end, map went (fst s),
     dict_get cmd_eqb (o_frame_counts (fst (snd s))) c, existsb (fun ev => match ev with EvRead (Some []) => true | _ => false end) t).
  Lemma fast_scene_facts s0 ans outs ops c a1 s1 p1 u1 a2 s2 p2 u2 st v l k late : fast_scene s0 ans outs ops c = (true, Some (a1, s1, p1, u1), Some (a2, s2, p2, u2), st, Some v, l, k, late) ->
    exists h o w1 t q o', slow_together (answers f) true (setup true) (str "p") [] (fresh ans) h o w1 (new_adapter, s0, []) (a1, s1, p1) /\ obd_status o = st
      /\ slow_queried (answers f) true c true o w1 (a1, s1, p1) t (Ok q) o' (a2, s2, p2) /\ r_value q = v /\ map st_op h = ops /\ map went h = l
      /\ dict_get cmd_eqb (o_frame_counts o) c = k /\ (late = false -> ~ In (EvRead (Some [])) t).
  Proof.
    unfold fast_scene. intros H. do 7 (let D := fresh "D" in apply pair_equal_spec in H as [H D]).
    destruct (new_obd (setup true) (Some (str "p")) [] (fresh ans)) as [r0 s00] eqn:N. cbn [fst snd] in *.
    assert (r0 = Ok tt) by (destruct r0 as [[]|]; [reflexivity|discriminate H]). subst r0.
    pose proof (play_session (setup true) (fresh ans) ops eq_refl ltac:(rewrite N; reflexivity)) as S. unfold outcome in S. rewrite N in S. cbn [fst snd] in S.
    pose proof (play_ops ops s00) as Po. destruct (play ops s00) as [h [o w1]]. cbn [fst snd] in *.
    destruct (query c true (o, w1)) as [r [o' w2]] eqn:Q. cbn [fst snd] in *. destruct r as [q|]; [|discriminate D2]. injection D2 as D2.
    rewrite D5 in D4. pose proof (session_oinv _ _ _ _ _ _ _ _ S) as (OI & _). destruct (query_spec _ _ _ _ _ _ _ OI Q) as (t & T & _).
    rewrite T, skipn_app, skipn_all, Nat.sub_diag in D4, D. cbn [skipn app] in D4, D.
    exists h, o, w1, t, q, o'. split; [exists (w_trace (snd s00)); split; [exact S|eapply slow_check; exact D5]|]. split; [exact D3|].
    split; [exists w2; split; [exact Q|split; [exact T|eapply slow_check; exact D4]]|]. split; [exact D2|]. split; [exact Po|]. split; [exact D1|]. split; [exact D0|].
    intros E I. rewrite E in D. assert (X : existsb (fun ev => match ev with EvRead (Some []) => true | _ => false end) t = true) by (apply existsb_exists; exists (EvRead (Some [])); auto). congruence.
  Qed.
End Scene.
(* a car with two ECUs; the engine's (7E8) answers second *)
Definition car6 (s : unit) (h : option text) (req : text) : list text * unit :=
  (if is_req req "0100" then [str "7E8 06 41 00 00 00 00 00"] else if is_req req "010C" then [str "7E9 04 41 0C 00 00"; str "7E8 04 41 0C 1A F8"] else [str "NO DATA"], tt).
(* the value of a query of RPM, no read of which times out, after a query of RPM, with this car *)
Definition second_value (v : value) (n : nat) : Prop :=
  exists w h o w1 a s p t q o' z, let c := cmd "RPM" in
    slow_together (answers car6) true (setup true) (str "p") [] w h o w1 (new_adapter, tt, []) (a, s, p) /\ map st_op h = [OpQuery c true] /\ Forall plainly h
    /\ slow_queried (answers car6) true c true o w1 (a, s, p) t (Ok q) o' z /\ ~ In (EvRead (Some [])) t /\ obd_status o = CAR_CONNECTED /\ c_header c = engine_header
    /\ understand (c_command c) = KRequest (str "010C") /\ c_fast c = true /\ may_send o c true /\ recorded o c n /\ r_value q = v.
Lemma show_second ans outs a1 s1 p1 u1 a2 s2 p2 u2 v n : fast_scene car6 tt ans outs [rpm] (cmd "RPM") = (true, Some (a1, s1, p1, u1), Some (a2, s2, p2, u2), CAR_CONNECTED, Some v, [(true, true)], Some n, false) -> second_value v n.
Proof.
  intros E. destruct (fast_scene_facts _ _ _ _ _ _ _ _ _ _ _ _ _ _ _ _ _ _ _ E) as (h & o & w1 & t & q & o' & T & St & Q & V & M & L & K & Nl).
  exists (fresh ans), h, o, w1, a1, s1, p1, t, q, o', (a2, s2, p2). cbv zeta. split; [exact T|]. split; [exact M|]. split; [exact (plainly_ops [rpm] h (Forall_cons _ rpm_engine (Forall_nil _)) M L)|].
  split; [exact Q|]. split; [exact (Nl eq_refl)|]. split; [exact St|]. split; [vm_compute; reflexivity|]. split; [vm_compute; reflexivity|]. split; [vm_compute; reflexivity|]. split; [left; reflexivity|]. split; [exact K|exact V].
Qed.
(* full statement of C109: an answer that was cut off once does not matter for later queries. False: the first answer to RPM was cut behind its first line, which is the other ECU's; from then on
   one line is asked for, and there is no value, although nothing comes late; had the first answer been complete, there would be one *)
Theorem C109_refuted : exists v, second_value v 2 /\ second_value VNone 1 /\ v <> VNone /\ exists x, v = VQty x (str "rpm").
Proof.
  eexists. split; [|split; [|split]].
  - eapply (show_second (start_up ++ [several [str "7E9 04 41 0C 00 00"; str "7E8 04 41 0C 1A F8"]; several [str "7E9 04 41 0C 00 00"; str "7E8 04 41 0C 1A F8"]])
      (map in_time (start_up ++ [several [str "7E9 04 41 0C 00 00"; str "7E8 04 41 0C 1A F8"]; several [str "7E9 04 41 0C 00 00"; str "7E8 04 41 0C 1A F8"]]))).
    vm_compute. reflexivity.
  - eapply (show_second (start_up ++ [Some (str "7E9 04 41 0C 00 00" ++ [13]); time_out; several [str "7E9 04 41 0C 00 00"]])
      (map in_time (start_up ++ [several [str "7E9 04 41 0C 00 00"; str "7E8 04 41 0C 1A F8"]; several [str "7E9 04 41 0C 00 00"]]))).
    vm_compute. reflexivity.
  - discriminate.
  - eexists. reflexivity.
Qed.
(* so it is a case of C109_request_partial and of the second half of C109_answer_partial, too; a case of C109_recorded_partial: that first query itself *)
Example C109_recorded_example : exists w h o w1 a s p t q o' z, let c := cmd "RPM" in
  slow_together (answers car6) true (setup true) (str "p") [] w h o w1 (new_adapter, tt, []) (a, s, p) /\ Forall plainly h
  /\ slow_queried (answers car6) true c true o w1 (a, s, p) t (Ok q) o' z /\ c_header c = engine_header /\ understand (c_command c) = KRequest (str "010C")
  /\ obd_status o <> NOT_CONNECTED /\ may_send o c true /\ unrecorded o c /\ r_value q = VNone.
Proof.
  assert (E : exists a1 s1 p1 u1 a2 s2 p2 u2 b, fast_scene car6 tt (start_up ++ [Some (str "7E9 04 41 0C 00 00" ++ [13]); time_out]) (map in_time (start_up ++ [several [str "7E9 04 41 0C 00 00"; str "7E8 04 41 0C 1A F8"]])) [] (cmd "RPM")
    = (true, Some (a1, s1, p1, u1), Some (a2, s2, p2, u2), CAR_CONNECTED, Some VNone, [], None, b)).
  { eexists _, _, _, _, _, _, _, _, _. vm_compute. reflexivity. }
  destruct E as (a1 & s1 & p1 & u1 & a2 & s2 & p2 & u2 & b & E). destruct (fast_scene_facts _ _ _ _ _ _ _ _ _ _ _ _ _ _ _ _ _ _ _ E) as (h & o & w1 & t & q & o' & T & St & Q & V & M & L & K & _).
  assert (h = []) by (destruct h; [reflexivity|discriminate M]). subst h.
  eexists _, [], o, w1, a1, s1, p1, t, q, o', _. cbv zeta. split; [exact T|]. split; [constructor|]. split; [exact Q|]. split; [vm_compute; reflexivity|]. split; [vm_compute; reflexivity|]. split; [rewrite St; discriminate|].
  split; [left; reflexivity|]. split; [exact K|exact V].
Qed.
