(* C91, C92: low power modes, with an adapter and a car (SpecAdapter, SpecAdapter2, SpecSleep). *)
From Coq Require Import ZArith List Bool Lia String.
From Verif Require Import Py Num Utils Protocol Decoders Command CommandTable Commands World Elm Obd SpecElm SpecObd SpecE2E SpecAdapter SpecAdapter2 SpecSleep
  PyFacts ElmFacts ElmThms ObdFacts ObdThms ObdThms2 ObdThms3 ObdThms4 ObdThms5 Properties_Elm Properties_Decoders Properties_Obd AdapterThms AdapterThms2 AdapterThms3 AdapterThms4 AdapterThms5
  Properties_Adapter SleepThms SleepThms2 SleepThms3 SleepCheck.
Import ListNotations.
Open Scope string_scope. Open Scope list_scope. Open Scope Z_scope.

Section Car.
  Context {Car : Type} (ask : Car -> option text -> text -> list text -> Car -> Prop) (woken : adapter -> adapter -> Prop).
  Notation ztogether := (ztogether ask woken). Notation zqueried := (zqueried ask woken).

  (* ---------------------------------------------------------------- C91 *)
  (* as C87_reading: asleep or not, a query that is sent is one request to the car, the command's own, and the response is made of just the lines the car answers;
     the adapter is awake then *)
Theorem C91_reading_partial : forall cf name scan w h o w1 x b a s p c force t r o' b' a' s' p' req,
    ztogether cf name scan w h o w1 x (b, (a, s, p)) -> settings_kept woken -> startable cf x -> cf_fast cf = false -> all_in_turn h ->
    zqueried c force o w1 (b, (a, s, p)) t r o' (b', (a', s', p')) -> header_ok (plain (c_header c)) = true -> understand (c_command c) = KRequest req ->
    obd_status o <> NOT_CONNECTED -> may_send o c force ->
    exists pr hd lines, uses o pr /\ ask s hd req lines s' /\ r = made_of pr c lines /\ (forall q, r = Ok q -> reading c pr lines q)
      /\ (~ switched (h ++ [as_step c force t r]) -> hd = None) /\ (switched (h ++ [as_step c force t r]) -> hd = Some (plain (c_header c)))
      /\ obd_status o' = obd_status o /\ b' = false.
  Proof.
    intros cf name scan w h o w1 x b a s p c force t r o' b' a' s' p' req (t0 & S & F) Sk Sb Cf It (w2 & Q & T & F2) Hk U Con Ms.
    destruct (session_zusable ask woken _ _ _ _ _ _ _ _ _ _ _ _ _ Sk S It Cf Sb F) as (OI & Fa & Uz & _).
    destruct (session_query _ _ _ _ _ _ _ _ _ _ _ _ _ _ S Q T) as (_ & _ & Qr).
    destruct (zquery_step ask woken o c force t r o' b a s p _ (existsb step_switches h) OI Uz Qr (conj Hk (or_introl (ex_intro _ _ U))) F2 (fun _ => Sk) Fa Con Ms)
      as (pr & a1 & lines & a2 & s2 & Y & Us & Rr & La & Tu & Hi & D & St & _ & _). injection Y as -> -> -> ->.
    unfold does in D. rewrite U in D. destruct D as (full & A & E & _). rewrite (E (proj2 Tu)) in *.
    exists pr, (ad_header a1), full. split; [exact Us|]. split; [exact A|]. split; [exact Rr|].
    split; [intros q ->; exists cf, (Some name), scan, w, t0, h, o, w1, force, o', w2, t; auto 10|]. unfold header_inv in Hi. cbn [with_header o_last_header] in Hi.
    assert (Sw : existsb step_switches (h ++ [as_step c force t r]) = existsb step_switches h || switches c t) by (rewrite existsb_app; cbn [existsb]; rewrite orb_false_r; reflexivity).
    split; [|split; [|split; [exact St|reflexivity]]]; intros X; rewrite switched_iff, Sw in X.
    - destruct (existsb _ _ || _); [contradiction X; reflexivity|apply Hi].
    - rewrite X in Hi. exact Hi.
  Qed.
  (* the adapter is asleep exactly if low_power() was called and no query was sent and normal_power() not called since; the object knows *)
Theorem C91_asleep_partial : forall cf name scan w h o w1 x b a s p,
    ztogether cf name scan w h o w1 x (b, (a, s, p)) -> settings_kept woken -> startable cf x -> cf_fast cf = false -> all_in_turn h -> obd_status o <> NOT_CONNECTED ->
    b = asleep_after h /\ asleep o = b /\ ad_echo a = false /\ ad_headers a = true
    /\ exists o0 w0, new_obd cf (Some name) scan w = (Ok tt, (o0, w0)) /\ obd_status o = obd_status o0.
  Proof.
    intros cf name scan w h o w1 x b a s p (t0 & S & F) Sk Sb Cf It Con. destruct (session_zusable ask woken _ _ _ _ _ _ _ _ _ _ _ _ _ Sk S It Cf Sb F) as (_ & _ & U & B & E). destruct (U Con) as (A1 & (A2 & A3) & _).
    split; [exact (B Con)|]. auto.
  Qed.
  (* low_power() when awake and normal_power() when asleep do what they are for, and leave the car alone *)
Theorem C91_power_partial : forall cf name scan w h o w1 x b a s p op t r o' w2 b' a' s' p',
    ztogether cf name scan w h o w1 x (b, (a, s, p)) -> settings_kept woken -> startable cf x -> cf_fast cf = false -> all_in_turn h -> obd_status o <> NOT_CONNECTED ->
    op = OpLowPower /\ asleep_after h = false \/ op = OpNormalPower /\ asleep_after h = true ->
    run_op op (o, w1) = (r, (o', w2)) -> w_trace w2 = w_trace w1 ++ t -> zfollows ask woken (b, (a, s, p)) t (b', (a', s', p')) ->
    r = Ok None /\ s' = s /\ b' = negb b /\ obd_status o' = obd_status o.
  Proof.
    intros cf name scan w h o w1 x b a s p op t r o' w2 b' a' s' p' (t0 & S & F) Sk Sb Cf It Con Hop R T F2.
    destruct (session_zusable ask woken _ _ _ _ _ _ _ _ _ _ _ _ _ Sk S It Cf Sb F) as (OI & _ & U & B & _). destruct (U Con) as (A1 & (A2 & A3) & _). specialize (B Con).
    destruct (run_op_spec _ _ _ _ _ _ OI R) as (t' & T' & Q). rewrite T in T'. apply app_inv_head in T'. subst t'. pose proof (zno_io ask woken _ _ _ F2) as Io.
    destruct Hop as [(-> & Ha)|(-> & Ha)]; rewrite Ha in B; subst b.
    - inversion Q as [|? ? L| | |]; subst. split; [reflexivity|]. destruct (low_run_connected _ _ _ L Con Io) as (e & lines & He & A & ->). destruct (low_step ask woken _ _ _ _ _ _ A A2 F2) as (-> & p1 & Y). injection Y as -> -> -> ->.
      split; [reflexivity|]. split; [reflexivity|]. cbn [existsb]. change (text_eqb (str "OK") (str "OK")) with true. unfold obd_status. rewrite He. reflexivity.
    - inversion Q as [| |? ? L| |]; subst. split; [reflexivity|]. destruct (normal_run_connected _ _ _ L Con Io) as (e & lines & He & A & ->). destruct (wake_step ask woken _ _ _ _ _ _ _ _ A F2) as (a1 & p1 & _ & Y). injection Y as -> -> -> ->.
      split; [reflexivity|]. split; [reflexivity|]. unfold obd_status. rewrite He. reflexivity.
  Qed.

  (* ---------------------------------------------------------------- C92 *)
  (* with start_low_power=True, a connection to an adapter that is asleep (whatever it forgets then) ends with the adapter awake and set up *)
Theorem C92_wakes_partial : forall cf name scan w o w' t x b a s p,
    new_obd cf (Some name) scan w = (Ok tt, (o, w')) -> w_trace w' = w_trace w ++ t -> zfollows ask woken x t (b, (a, s, p)) -> startable cf x -> cf_fast cf = false -> obd_status o <> NOT_CONNECTED ->
    b = false /\ asleep o = false /\ ad_echo a = false /\ ad_headers a = true /\ ad_header a = None.
  Proof.
    intros cf name scan w o w' t x b a s p N T F Sb Cf Con. destruct (new_obd_zsettled ask woken _ _ _ _ _ _ x N Cf Sb) as (_ & _ & _ & t1 & T1 & S). rewrite T in T1. apply app_inv_head in T1. subst t1.
    destruct (S _ _ _ _ F) as (U & B). specialize (B Con). subst b. destruct (U Con) as (A1 & (A2 & A3) & A4 & _). auto.
  Qed.
End Car.

(* ---------------------------------------------------------------- examples and refutations *)
(* a car that keeps a list of the requests it gets *)
Definition car4 (s : list text) (h : option text) (req : text) : list text * list text :=
  (if is_req req "0100" then [str "7E8 06 41 00 00 00 00 00"] else if is_req req "010C" then [str "7E8 04 41 0C 1A F8"] else if is_req req "04" then [str "7E8 01 44"] else [str "NO DATA"], s ++ [req]).
(* what start-up asks it *)
Definition start_reqs : list text := [str "0100"; str "0100"; str "0600"; str "0900"].
Definition keeps (a a' : adapter) : Prop := a' = a.
(* an adapter that starts anew *)
Definition restarts (a a' : adapter) : Prop := a' = new_adapter.
Definition low_setup (slp fast : bool) : config := mkConfig (Some 38400) (Some (str "6")) fast 100 false slp.
Section Scene.
  Context (wk : adapter -> adapter) (unread : bytes).
  Notation woken := (fun a a' => a' = wk a).
  (* OBD("p", ...) with these answers, these calls, and a query of c *)
  Definition zscene (cf : config) (b0 : bool) (a0 : adapter) (ans : list (option bytes)) (ops : list op) (c : command) :
      bool * option (bool * adapter * list text) * option (bool * adapter * list text) * status * option value * list (bool * bool) :=
    let n := new_obd cf (Some (str "p")) [] (fresh ans) in
    let s := play ops (snd n) in
    let t0 := w_trace (snd (snd n)) in
    let q := query c true (snd s) in
    let t := skipn (List.length (w_trace (snd (snd s)))) (w_trace (snd (snd q))) in
    let y := zfollows_c car4 wk unread b0 a0 [] (t0 ++ List.concat (map st_events (fst s))) in
    (match fst n with Ok _ => true | _ => false end, y, match y with Some (b, a, c1) => zfollows_c car4 wk unread b a c1 t | None => None end, obd_status (fst (snd s)),
     match fst q with Ok r => Some (r_value r) | Raise _ => None end, map went (fst s)).
  Lemma zscene_facts cf b0 a0 ans ops c b1 a1 s1 b2 a2 s2 st v l : zscene cf b0 a0 ans ops c = (true, Some (b1, a1, s1), Some (b2, a2, s2), st, Some v, l) ->
    exists h o w1 t q o' p1 p2, ztogether (answers car4) woken cf (str "p") [] (fresh ans) h o w1 (b0, (a0, [], [])) (b1, (a1, s1, p1)) /\ obd_status o = st
      /\ zqueried (answers car4) woken c true o w1 (b1, (a1, s1, p1)) t (Ok q) o' (b2, (a2, s2, p2)) /\ r_value q = v /\ map st_op h = ops /\ l = map went h.
  Proof.
    unfold zscene. intros H. do 5 (let D := fresh "D" in apply pair_equal_spec in H as [H D]).
    destruct (new_obd cf (Some (str "p")) [] (fresh ans)) as [r0 s00] eqn:N. cbn [fst snd] in *.
    assert (r0 = Ok tt) by (destruct r0 as [[]|]; [reflexivity|discriminate H]). subst r0.
    pose proof (play_session cf (fresh ans) ops eq_refl ltac:(rewrite N; reflexivity)) as S. unfold outcome in S. rewrite N in S. cbn [fst snd] in S.
    pose proof (play_ops ops s00) as Po. destruct (play ops s00) as [h [o w1]]. cbn [fst snd] in *.
    destruct (query c true (o, w1)) as [r [o' w2]] eqn:Q. cbn [fst snd] in *. destruct r as [q|]; [|discriminate D0]. injection D0 as D0.
    rewrite D3 in D2. pose proof (session_oinv _ _ _ _ _ _ _ _ S) as (OI & _). destruct (query_spec _ _ _ _ _ _ _ OI Q) as (t & T & _).
    rewrite T, skipn_app, skipn_all, Nat.sub_diag in D2. cbn [skipn app] in D2.
    destruct (zfollows_check car4 wk unread _ _ _ [] _ _ _ _ D3) as (p1 & F1). destruct (zfollows_check car4 wk unread _ _ _ p1 _ _ _ _ D2) as (p2 & F2).
    exists h, o, w1, t, q, o', p1, p2. split; [exists (w_trace (snd s00)); split; [exact S|exact F1]|]. split; [exact D1|].
    split; [exists w2; split; [exact Q|split; [exact T|exact F2]]|]. auto.
  Qed.
End Scene.
Definition says_lp : option bytes := Some (str "OK" ++ [13; 13]).
Definition says_rpm : option bytes := says (str "7E8 04 41 0C 1A F8").
Definition clear_codes := OpQuery (cmd "CLEAR_DTC") true.
(* a session with the car above, an adapter that has just been switched on (or is in the state x), these calls, and then query(RPM, force=True): what the car was asked up to then, and
   by the query, and the value *)
Definition goes (woken : adapter -> adapter -> Prop) (cf : config) (x : bool * adapter) (ops : list op) (before after : list text) (v : value) : Prop :=
  exists w h o w1 b1 a1 p1 t q o' b2 a2 p2, let c := cmd "RPM" in
  ztogether (answers car4) woken cf (str "p") [] w h o w1 (fst x, (snd x, [], [])) (b1, (a1, before, p1)) /\ map st_op h = ops /\ obd_status o = CAR_CONNECTED
  /\ zqueried (answers car4) woken c true o w1 (b1, (a1, before, p1)) t (Ok q) o' (b2, (a2, before ++ after, p2)) /\ r_value q = v.
Lemma show_goes wk unread cf x ans ops b1 a1 s1 b2 a2 s2 v l after : zscene wk unread cf (fst x) (snd x) ans ops (cmd "RPM") = (true, Some (b1, a1, s1), Some (b2, a2, s2), CAR_CONNECTED, Some v, l) -> s2 = s1 ++ after ->
  goes (fun a a' => a' = wk a) cf x ops s1 after v.
Proof.
  intros E ->. destruct (zscene_facts wk unread _ _ _ _ _ _ _ _ _ _ _ _ _ _ _ E) as (h & o & w1 & t & q & o' & p1 & p2 & T & St & Q & V & M & _).
  eexists _, h, o, w1, b1, a1, p1, t, q, o', b2, a2, p2. cbv zeta. split; [exact T|]. split; [exact M|]. split; [exact St|]. split; [exact Q|exact V].
Qed.
(* normal_power() while the adapter is awake: the trouble codes are cleared once more *)
Theorem C91_normal_repeats_refuted : exists v, goes keeps (low_setup false false) (false, new_adapter) [clear_codes; OpNormalPower] (start_reqs ++ [str "04"; str "04"]) [str "010C"] v.
Proof.
  eexists. refine (show_goes (fun a => a) [] _ _ (start_up ++ [says (str "7E8 01 44"); says (str "7E8 01 44"); says_rpm]) _ _ _ _ _ _ _ _ _ _ _ _); [vm_compute; reflexivity|vm_compute; reflexivity].
Qed.
(* low_power() twice, and normal_power() twice: the next query never reaches the car *)
Theorem C91_low_twice_refuted : goes keeps (low_setup false false) (false, new_adapter) [OpLowPower; OpLowPower] start_reqs [] VNone.
Proof.
  refine (show_goes (fun a => a) [] _ _ (start_up ++ [says_lp; says (str "?"); Some []; says (str "OK"); says (str "?")]) _ _ _ _ _ _ _ _ _ _ _ _); [vm_compute; reflexivity|vm_compute; reflexivity].
Qed.
Theorem C91_normal_twice_refuted : goes keeps (low_setup false false) (false, new_adapter) [OpLowPower; OpNormalPower; OpNormalPower] start_reqs [] VNone.
Proof.
  refine (show_goes (fun a => a) [] _ _ (start_up ++ [says_lp; says (str "?"); says (str "OK"); says (str "?")]) _ _ _ _ _ _ _ _ _ _ _ _); [vm_compute; reflexivity|vm_compute; reflexivity].
Qed.
(* an adapter that starts anew when it wakes up echoes and does not print headers any more: the car answers, and the value is lost *)
Theorem C91_restart_refuted : goes restarts (low_setup false false) (false, new_adapter) [OpLowPower] start_reqs [str "010C"] VNone.
Proof.
  refine (show_goes (fun _ => new_adapter) [] _ _ (start_up ++ [says_lp; says (str "ELM327 v1.5"); several [str "010C"; str "41 0C 1A F8"]]) _ _ _ _ _ _ _ _ _ _ _ _); [vm_compute; reflexivity|vm_compute; reflexivity].
Qed.
(* fast=True: the second query of a command after a sleep sends a carriage return, which puts the adapter to sleep once more *)
Theorem C91_fast_refuted : goes keeps (low_setup false true) (false, new_adapter) [rpm; OpLowPower; rpm; OpLowPower] (start_reqs ++ [str "010C"; str "010C"]) [] VNone.
Proof.
  refine (show_goes (fun a => a) [] _ _ (start_up ++ [says_rpm; says_lp; says (str "?"); says_rpm; says_lp; says (str "?"); says (str "OK")]) _ _ _ _ _ _ _ _ _ _ _ _); [vm_compute; reflexivity|vm_compute; reflexivity].
Qed.
(* start_low_power=True with an adapter that is awake: its last line is repeated, here the one that clears trouble codes; without it, it is not *)
Theorem C92_repeats_refuted : let x := (false, mkAdapter false true None (str "04")) in
  (exists v, goes keeps (low_setup true false) x [] (str "04" :: start_reqs) [str "010C"] v) /\ (exists v, goes keeps (low_setup false false) x [] start_reqs [str "010C"] v).
Proof.
  cbv zeta. split; eexists.
  - refine (show_goes (fun a => a) (str "7E8 01 44" ++ [13; PROMPT]) _ _ (start_up ++ [says_rpm]) _ _ _ _ _ _ _ _ _ _ _ _); [vm_compute; reflexivity|vm_compute; reflexivity].
  - refine (show_goes (fun a => a) [] _ _ (start_up ++ [says_rpm]) _ _ _ _ _ _ _ _ _ _ _ _); [vm_compute; reflexivity|vm_compute; reflexivity].
Qed.
(* cases of the theorems above *)
Fixpoint turns (b : bool) (h : list step) : Prop := match h with [] => True | x :: h => in_turn b x /\ turns (dozes b x) h end.
Lemma turns_all h : turns false h -> all_in_turn h.
Proof.
  unfold all_in_turn, asleep_after. generalize false. induction h as [|y h IH]; intros b T h1 x h2 E; [destruct h1; discriminate E|]. destruct T as [T1 T2]. destruct h1 as [|z h1]; cbn [app] in E; injection E as -> E; [exact T1|].
  cbn [fold_left]. exact (IH _ T2 _ _ _ E).
Qed.
Lemma rpm_proper : proper (cmd "RPM").
Proof. split; [vm_compute; reflexivity|left; eexists; vm_compute; reflexivity]. Qed.
Example C91_example : exists w h o w1 b a s p t q o' z, let c := cmd "RPM" in
  ztogether (answers car4) keeps (low_setup true false) (str "p") [] w h o w1 (true, (mkAdapter false true (Some (str "7E1")) (str "04"), [], [])) (b, (a, s, p)) /\ settings_kept keeps
  /\ startable (low_setup true false) (true, (mkAdapter false true (Some (str "7E1")) (str "04"), @nil text, [])) /\ all_in_turn h
  /\ map st_op h = [OpLowPower; rpm; OpLowPower; OpNormalPower; OpLowPower] /\ asleep_after h = true
  /\ zqueried (answers car4) keeps c true o w1 (b, (a, s, p)) t (Ok q) o' z /\ header_ok (plain (c_header c)) = true /\ understand (c_command c) = KRequest (str "010C")
  /\ obd_status o <> NOT_CONNECTED /\ may_send o c true /\ r_value q <> VNone.
Proof.
  assert (E1 : exists b1 a1 s1 b2 a2 s2 v, zscene (fun a => a) [] (low_setup true false) true (mkAdapter false true (Some (str "7E1")) (str "04"))
      (start_up ++ [says_lp; says (str "?"); says_rpm; says_lp; says (str "?"); says_lp; says (str "?"); says_rpm]) [OpLowPower; rpm; OpLowPower; OpNormalPower; OpLowPower] (cmd "RPM")
      = (true, Some (b1, a1, s1), Some (b2, a2, s2), CAR_CONNECTED, Some v, repeat (true, true) 5) /\ v <> VNone).
  { eexists _, _, _, _, _, _, _. split; [vm_compute; reflexivity|discriminate]. }
  destruct E1 as (b1 & a1 & s1 & b2 & a2 & s2 & v & E1 & Nv).
  destruct (zscene_facts _ _ _ _ _ _ _ _ _ _ _ _ _ _ _ _ _ E1) as (h & o & w1 & t & q & o' & p1 & p2 & T & St & Q & V & M & L).
  assert (K : forall x l, map went (x :: l) = (true, true) :: map went l -> exists ev evs, st_events x = ev :: evs).
  { intros x l H. cbn [map] in H. unfold went in H at 1. destruct (st_events x) as [|ev evs]; [|eauto]. exfalso. injection H as _ H. discriminate H. }
  assert (Tu : turns false h /\ asleep_after h = true).
  { destruct h as [|x1 [|x2 [|x3 [|x4 [|x5 [|x6 h]]]]]]; try discriminate M. cbn [map] in M, L. unfold rpm in M.
    assert (M1 : st_op x1 = OpLowPower) by congruence. assert (M2 : st_op x2 = OpQuery (cmd "RPM") true) by congruence. assert (M3 : st_op x3 = OpLowPower) by congruence. assert (M4 : st_op x4 = OpNormalPower) by congruence. assert (M5 : st_op x5 = OpLowPower) by congruence.
    cbn [repeat] in L.
    assert (L1 : went x1 = (true, true)) by congruence. assert (L2 : went x2 = (true, true)) by congruence. assert (L3 : went x3 = (true, true)) by congruence. assert (L4 : went x4 = (true, true)) by congruence. assert (L5 : went x5 = (true, true)) by congruence.
    clear L M. destruct (K x1 [] ltac:(cbn [map]; congruence)) as (? & ? & N1). destruct (K x2 [] ltac:(cbn [map]; congruence)) as (? & ? & N2). destruct (K x3 [] ltac:(cbn [map]; congruence)) as (? & ? & N3).
    destruct (K x4 [] ltac:(cbn [map]; congruence)) as (? & ? & N4). destruct (K x5 [] ltac:(cbn [map]; congruence)) as (? & ? & N5).
    unfold asleep_after. cbn [turns fold_left]. unfold in_turn, dozes. rewrite M1, M2, M3, M4, M5, N1, N2, N3, N4, N5. repeat split; try exact (proj1 rpm_proper); try exact (proj2 rpm_proper). }
  destruct Tu as (Tu & As). eexists _, h, o, w1, _, _, _, _, t, q, o', _. cbv zeta. split; [exact T|]. split; [intros a a' ->; auto|]. split; [reflexivity|]. split; [exact (turns_all h Tu)|]. split; [exact M|]. split; [exact As|].
  split; [exact Q|]. split; [vm_compute; reflexivity|]. split; [vm_compute; reflexivity|]. split; [rewrite St; discriminate|]. split; [left; reflexivity|]. rewrite V. exact Nv.
Qed.
Example C92_example : exists w o w' t b a s p, new_obd (low_setup true false) (Some (str "p")) [] w = (Ok tt, (o, w')) /\ w_trace w' = w_trace w ++ t
  /\ zfollows (answers car4) restarts (true, (mkAdapter false true (Some (str "7E1")) (str "04"), [], [])) t (b, (a, s, p)) /\ obd_status o <> NOT_CONNECTED /\ s = start_reqs.
Proof.
  assert (E1 : exists b1 a1 b2 a2 s2 v, zscene (fun _ => new_adapter) [] (low_setup true false) true (mkAdapter false true (Some (str "7E1")) (str "04")) (start_up ++ [says_rpm]) [] (cmd "RPM")
      = (true, Some (b1, a1, start_reqs), Some (b2, a2, s2), CAR_CONNECTED, Some v, [])).
  { eexists _, _, _, _, _, _. vm_compute. reflexivity. }
  destruct E1 as (b1 & a1 & b2 & a2 & s2 & v & E1).
  destruct (zscene_facts _ _ _ _ _ _ _ _ _ _ _ _ _ _ _ _ _ E1) as (h & o & w1 & t & q & o' & p1 & p2 & (t0 & (s0 & N & T0 & H) & F) & St & _ & _ & M & _).
  destruct h; [|discriminate M]. inversion H; [subst|exfalso; match goal with X : _ ++ _ = [] |- _ => apply app_eq_nil in X as [_ X]; discriminate X end]. cbn [map concat] in F. rewrite app_nil_r in F.
  eexists _, o, w1, t0, b1, a1, _, p1. split; [exact N|]. split; [exact T0|]. split; [exact F|]. split; [rewrite St; discriminate|reflexivity].
Qed.
