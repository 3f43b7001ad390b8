(* C103: an Async object with a car and an adapter whose output may take any time to arrive (SpecSlow, SpecAsyncSlow). Proofs: AsyncSlow.v. *)
From Coq Require Import ZArith List Bool Lia String.
From Verif Require Import Py Num Utils Protocol Decoders Command CommandTable Commands World Elm Obd Async SpecElm SpecObd SpecAsync SpecE2E SpecAdapter SpecAdapter2 SpecSlow SpecAsyncCar SpecAsyncFast SpecAsyncSlow
  PyFacts ElmFacts ElmThms ObdFacts ObdThms ObdThms2 ObdThms3 ObdThms4 ObdThms5 Properties_Elm Properties_Decoders Properties_Obd AdapterThms AdapterThms2 AdapterThms3 AdapterThms4 AdapterThms5 AdapterCheck
  Properties_Adapter AsyncFacts AsyncThms AsyncHistory AsyncCar SlowThms SlowCheck Properties_Slow AsyncSlow Properties_Async SpecLive Properties_Live Properties_AsyncCar.
Import ListNotations.
Open Scope string_scope. Open Scope list_scope. Open Scope Z_scope.

Section Car.
  Context {Car : Type} (ask : Car -> option text -> text -> list text -> Car -> Prop).

  (* however late the output comes, under every schedule: since the object was made, the car has answered exactly the queries of the update threads, in order, one request each, and
     nothing else; if output that comes too late is thrown away before the next line is written (b = true), each response is made of the lines in a stretch of the car's answer to that
     very request (if what is read is ASCII: of its first lines and perhaps a part of the next one) *)
Theorem C103_requests : forall b cf name scan w prog sched o s x y z rd pr,
    async_slow_with ask b cf name scan w prog sched o s x y z rd -> cf_fast cf = false -> watches_proper prog -> watches_engine prog -> (obd_status o <> NOT_CONNECTED -> uses o pr) ->
    served_slowly ask b pr (car_of y) rd (asked_for (a_events s)) (car_of z).
  Proof.
    intros b cf name scan w prog sched o s x y z rd pr A Sl Pr En U. destruct (async_slow_facts ask b _ _ _ _ _ _ _ _ _ _ _ _ A Sl Pr En) as (w1 & t & _ & -> & C). exact (S_served _ _ _ _ _ _ _ _ C pr U).
  Qed.
  (* a callback is called with the response to a query of its command, and query(c) returns the response to a query of c, or an empty one *)
Theorem C103_responses : forall b cf name scan w prog sched o s x y z rd,
    async_slow_with ask b cf name scan w prog sched o s x y z rd -> cf_fast cf = false -> watches_proper prog -> watches_engine prog ->
    (forall i c f r, In (AEv_fire i c f r) (a_events s) -> In (c, Ok r) (asked_for (a_events s)))
    /\ (forall c r, In (AEv_return (AQuery c) (OResponse r)) (a_events s) ->
          r = empty_response \/ exists c', c_command c' = c_command c /\ c_header c' = c_header c /\ In (c', Ok r) (asked_for (a_events s))).
  Proof.
    intros b cf name scan w prog sched o s x y z rd A Sl Pr En. destruct (async_slow_facts ask b _ _ _ _ _ _ _ _ _ _ _ _ A Sl Pr En) as (w1 & t & F & _).
    assert (Q : forall i c r, queried_by s i c r -> In (c, Ok r) (asked_for (a_events s))) by (intros i c r X; apply in_flat_map; exists (AEv_query i c (Ok r)); split; [exact X|left; reflexivity]).
    split; [intros i c f r X; exact (Q _ _ _ (F_fire _ _ _ F _ _ _ _ X))|].
    intros c r X. destruct (F_ret _ _ _ F _ _ X) as [E|(i & c' & E & Y)]; [auto|]. right. exists c'. apply cmd_eqb_same in E as [E1 E2]. eauto.
  Qed.
  (* also queries that time out leave the connection as it was made: it ends only with a call of close() *)
Theorem C103_stays : forall b cf name scan w prog sched o s x y z rd,
    async_slow_with ask b cf name scan w prog sched o s x y z rd -> cf_fast cf = false -> watches_proper prog -> watches_engine prog -> ~ In AClose prog -> obd_status (a_obd s) = obd_status o.
  Proof.
    intros b cf name scan w prog sched o s x y z rd A Sl Pr En N. destruct (async_slow_facts ask b _ _ _ _ _ _ _ _ _ _ _ _ A Sl Pr En) as (w1 & t & _ & _ & C). destruct (S_status _ _ _ _ _ _ _ _ C); [contradiction|assumption].
  Qed.
  (* so the update loop, once running, ends only because stop() (or a call that stops it) is waiting for it, or because a query or a callback raised *)
Theorem C103_loop_ends : forall b cf name scan w prog sched o s x y z rd ch i,
    async_slow_with ask b cf name scan w prog sched o s x y z rd -> cf_fast cf = false -> watches_proper prog -> watches_engine prog -> ~ In AClose prog -> obd_status o = CAR_CONNECTED ->
    in_loop s i -> ~ in_loop (astep ch s) i -> exists raises, ch = CThread i raises /\
      (inside_stop s \/ (exists c e, a_events (astep ch s) = a_events s ++ [AEv_query i c (Raise e)]) \/ raises = true /\ exists c f r, a_events (astep ch s) = a_events s ++ [AEv_fire i c f r]).
  Proof.
    intros b cf name scan w prog sched o s x y z rd ch i A Sl Pr En N St L E. pose proof (C103_stays _ _ _ _ _ _ _ _ _ _ _ _ _ A Sl Pr En N) as S.
    assert (Re : reachable s) by (destruct A as (w1 & t0 & t & Nw & -> & _); exists prog, (new_async o w1 prog), sched; split; [exists cf, (Some name), scan, w, o, w1; auto|reflexivity]).
    destruct (C80_ends_only s ch i Re L E) as (rs & -> & [H|[H|[H|H]]]); exists rs; auto. exfalso. unfold async_connected, is_connected in H. rewrite S, St in H. discriminate H.
  Qed.
End Car.

(* ------------------------------------------------------------------ an example *)
Definition async_slow_scene {Car : Type} (f : Car -> option text -> text -> list text * Car) (on_time : bool) (s0 : Car) (ans : list (option bytes)) (outs : list (nat * bytes)) (prog : list aop) (sched : list choice) :
    bool * option (adapter * Car * bytes * list (nat * bytes)) * option (adapter * Car * bytes * list (nat * bytes)) * status * list (command + command * callback) :=
  let n := new_obd (setup false) (Some (str "p")) [] (fresh ans) in
  let s := arun sched (new_async (fst (snd n)) (snd (snd n)) prog) in
  let t0 := w_trace (snd (snd n)) in
  let t := skipn (List.length t0) (w_trace (a_world s)) in
  let y := slow_c f on_time new_adapter s0 [] outs t0 in
  (match fst n with Ok _ => true | _ => false end, y, match y with Some (a, c1, p1, outs) => slow_c f on_time a c1 p1 outs t | None => None end, obd_status (fst (snd n)), doings (a_events s)).
Lemma async_slow_scene_facts {Car : Type} (f : Car -> option text -> text -> list text * Car) on_time s0 ans outs prog sched a1 s1 p1 u1 a2 s2 p2 u2 st l :
  async_slow_scene f on_time s0 ans outs prog sched = (true, Some (a1, s1, p1, u1), Some (a2, s2, p2, u2), st, l) -> watches_proper prog -> watches_engine prog ->
  exists o s rd, async_slow_with (answers f) on_time (setup false) (str "p") [] (fresh ans) prog sched o s (new_adapter, s0, []) (a1, s1, p1) (a2, s2, p2) rd /\ obd_status o = st /\ doings (a_events s) = l.
Proof.
  unfold async_slow_scene. intros H Wp We. do 4 (let D := fresh "D" in apply pair_equal_spec in H as [H D]).
  destruct (new_obd (setup false) (Some (str "p")) [] (fresh ans)) as [r0 [o w1]] eqn:N. cbn [fst snd] in *.
  assert (r0 = Ok tt) by (destruct r0 as [[]|]; [reflexivity|discriminate H]). subst r0. rewrite D2 in D1.
  assert (F0 : slow_follows (answers f) on_time (new_adapter, s0, []) (w_trace w1) (a1, s1, p1)) by (eapply slow_check; exact D2).
  destruct (slowinv_run (answers f) on_time (setup false) (str "p") [] (fresh ans) w1 o prog (new_adapter, s0, []) (a1, s1, p1) (w_trace w1) N eq_refl eq_refl F0 Wp We sched) as (_ & t & T & _).
  change (sstart w1 o prog) with (new_async o w1 prog) in T. rewrite T, skipn_app, skipn_all, Nat.sub_diag in D1. cbn [skipn app] in D1.
  exists o, (arun sched (new_async o w1 prog)), (got t). split; [|auto]. exists w1, (w_trace w1), t. split; [exact N|]. split; [reflexivity|]. split; [reflexivity|]. split; [exact T|]. split; [exact F0|]. split; [eapply slow_check; exact D1|reflexivity].
Qed.
(* all twelve reads of the first query time out, and its answer is thrown away; the second query is answered in two parts: two requests, the callback called twice *)
Example C103_example : exists ans prog sched o s a1 a2 p1 rd,
  async_slow_with (answers car2) true (setup false) (str "p") [] (fresh ans) prog sched o s (new_adapter, O, []) (a1, O, p1) (a2, 2%nat, []) rd /\ watches_proper prog /\ watches_engine prog
  /\ ~ In AClose prog /\ obd_status o = CAR_CONNECTED /\ doings (a_events s) = [inl revs; inr (revs, 1); inl revs; inr (revs, 1)].
Proof.
  assert (K : forall rv c cb f, In (AWatch c cb f) [AWatch rv (Some 1) true; AStart; AQuery rv] -> c = rv) by (intros rv c cb f [X|[X|[X|[]]]]; try discriminate X; congruence).
  assert (Wp : watches_proper [AWatch revs (Some 1) true; AStart; AQuery revs]) by (intros c cb f X; rewrite (K _ _ _ _ X); exact revs_proper).
  assert (We : watches_engine [AWatch revs (Some 1) true; AStart; AQuery revs]) by (intros c cb f X; rewrite (K _ _ _ _ X); exact (proj2 rpm_engine)).
  assert (E : exists a1 p1 u1 a2 u2, async_slow_scene car2 true O (start_up ++ repeat time_out 12 ++ [time_out; Some (str "7E9 04 41 0C 00 00" ++ [13] ++ str "7E8 04 41"); Some (str " 0C 1A F8" ++ [13; 62])])
      (map in_time (start_up ++ [several [str "7E8 04 41 0C 1A F8"]; several [str "7E9 04 41 0C 00 00"; str "7E8 04 41 0C 1A F8"]]))
      [AWatch revs (Some 1) true; AStart; AQuery revs] (user 9 ++ loop 0 21 ++ user 1) = (true, Some (a1, O, p1, u1), Some (a2, 2%nat, [], u2), CAR_CONNECTED, [inl revs; inr (revs, 1); inl revs; inr (revs, 1)])).
  { eexists _, _, _, _, _. vm_compute. reflexivity. }
  destruct E as (a1 & p1 & u1 & a2 & u2 & E). destruct (async_slow_scene_facts _ _ _ _ _ _ _ _ _ _ _ _ _ _ _ _ _ E Wp We) as (o & s & rd & A & St & Do).
  eexists _, _, _, o, s, a1, a2, p1, rd. split; [exact A|]. split; [exact Wp|]. split; [exact We|]. split; [|split; [exact St|exact Do]]. intros [X|[X|[X|[]]]]; discriminate X.
Qed.
