(* C90: an Async object with an adapter and a car (SpecAdapter, SpecAsyncCar). *)
From Coq Require Import ZArith List Bool Lia String.
From Verif Require Import Py Num Utils Protocol Decoders Command CommandTable Commands World Elm Obd Async SpecElm SpecObd SpecAsync SpecE2E SpecAdapter SpecAdapter2 SpecAsyncCar
  PyFacts ElmFacts ElmThms ObdFacts ObdThms ObdThms2 ObdThms3 ObdThms4 ObdThms5 Properties_Elm Properties_Decoders Properties_Obd AdapterThms AdapterThms2 AdapterThms3 AdapterThms4 AdapterThms5 AdapterCheck
  Properties_Adapter AsyncFacts AsyncThms AsyncHistory AsyncCar Properties_Async SpecLive Properties_Live.
Import ListNotations.
Open Scope string_scope. Open Scope list_scope. Open Scope Z_scope.

Section Car.
  Context {Car : Type} (ask : Car -> option text -> text -> list text -> Car -> Prop).

  (* under every schedule of the user's thread and the update threads: since the object was made, the car has answered exactly the queries of the update threads, in order, one request
     each, and nothing else (start, stop, watch, unwatch, query and close put no request to it); each result is made of the lines of its answer *)
Theorem C90_requests : forall cf name scan w prog sched o s x y z pr,
    async_with ask cf name scan w prog sched o s x y z -> cf_fast cf = false -> watches_proper prog -> (obd_status o <> NOT_CONNECTED -> uses o pr) ->
    served ask pr (car_of y) (asked_for (a_events s)) (car_of z).
  Proof.
    intros cf name scan w prog sched o s x y z pr A Sl Pr U. destruct (async_facts ask _ _ _ _ _ _ _ _ _ _ _ A Sl Pr) as (w1 & _ & C). exact (V_served _ _ _ _ _ _ C pr U).
  Qed.
  (* and what the user gets are results of such queries: a callback is called with the response to a query of its command, and query(c) returns the response to a query of c, or an empty one *)
Theorem C90_responses : forall cf name scan w prog sched o s x y z,
    async_with ask cf name scan w prog sched o s x y z -> cf_fast cf = false -> watches_proper prog ->
    (forall i c f r, In (AEv_fire i c f r) (a_events s) -> In (c, Ok r) (asked_for (a_events s)))
    /\ (forall c r, In (AEv_return (AQuery c) (OResponse r)) (a_events s) ->
          r = empty_response \/ exists c', c_command c' = c_command c /\ c_header c' = c_header c /\ In (c', Ok r) (asked_for (a_events s))).
  Proof.
    intros cf name scan w prog sched o s x y z A Sl Pr. destruct (async_facts ask _ _ _ _ _ _ _ _ _ _ _ A Sl Pr) as (w1 & F & _).
    assert (Q : forall i c r, queried_by s i c r -> In (c, Ok r) (asked_for (a_events s))) by (intros i c r X; apply in_flat_map; exists (AEv_query i c (Ok r)); split; [exact X|left; reflexivity]).
    split; [intros i c f r X; exact (Q _ _ _ (F_fire _ _ _ F _ _ _ _ X))|].
    intros c r X. destruct (F_ret _ _ _ F _ _ X) as [E|(i & c' & E & Y)]; [auto|]. right. exists c'. apply cmd_eqb_same in E as [E1 E2]. eauto.
  Qed.
  (* without a call of close() the connection is never lost *)
Theorem C90_stays : forall cf name scan w prog sched o s x y z,
    async_with ask cf name scan w prog sched o s x y z -> cf_fast cf = false -> watches_proper prog -> ~ In AClose prog -> obd_status (a_obd s) = obd_status o.
  Proof.
    intros cf name scan w prog sched o s x y z A Sl Pr N. destruct (async_facts ask _ _ _ _ _ _ _ _ _ _ _ A Sl Pr) as (w1 & _ & C). destruct (V_status _ _ _ _ _ _ C); [contradiction|assumption].
  Qed.
  (* so the update loop, once running, ends only because stop() (or a call that stops it) is waiting for it, or because a query or a callback raised *)
Theorem C90_loop_ends : forall cf name scan w prog sched o s x y z ch i,
    async_with ask cf name scan w prog sched o s x y z -> cf_fast cf = false -> watches_proper prog -> ~ In AClose prog -> obd_status o = CAR_CONNECTED ->
    in_loop s i -> ~ in_loop (astep ch s) i -> exists b, ch = CThread i b /\
      (inside_stop s \/ (exists c e, a_events (astep ch s) = a_events s ++ [AEv_query i c (Raise e)]) \/ b = true /\ exists c f r, a_events (astep ch s) = a_events s ++ [AEv_fire i c f r]).
  Proof.
    intros cf name scan w prog sched o s x y z ch i A Sl Pr N St L E. pose proof (C90_stays _ _ _ _ _ _ _ _ _ _ _ A Sl Pr N) as S.
    assert (Re : reachable s) by (destruct A as (w1 & t0 & t & Nw & -> & _); exists prog, (new_async o w1 prog), sched; split; [exists cf, (Some name), scan, w, o, w1; auto|reflexivity]).
    destruct (C80_ends_only s ch i Re L E) as (b & -> & [H|[H|[H|H]]]); exists b; auto. exfalso. unfold async_connected, is_connected in H. rewrite S, St in H. discriminate H.
  Qed.
End Car.

(* ------------------------------------------------------------------ an example *)
Definition async_scene {Car : Type} (f : Car -> option text -> text -> list text * Car) (s0 : Car) (ans : list (option bytes)) (prog : list aop) (sched : list choice) :
    bool * option (adapter * Car) * option (adapter * Car) * status * list (command + command * callback) :=
  let n := new_obd (setup false) (Some (str "p")) [] (fresh ans) in
  let s := arun sched (new_async (fst (snd n)) (snd (snd n)) prog) in
  let t0 := w_trace (snd (snd n)) in
  let t := skipn (List.length t0) (w_trace (a_world s)) in
  let y := follows_c f new_adapter s0 t0 in
  (match fst n with Ok _ => true | _ => false end, y, match y with Some (a, c1) => follows_c f a c1 t | None => None end, obd_status (fst (snd n)), doings (a_events s)).
Lemma async_scene_facts {Car : Type} (f : Car -> option text -> text -> list text * Car) s0 ans prog sched a1 s1 a2 s2 st l : 
  async_scene f s0 ans prog sched = (true, Some (a1, s1), Some (a2, s2), st, l) -> watches_proper prog ->
  exists o s, async_with (answers f) (setup false) (str "p") [] (fresh ans) prog sched o s (new_adapter, s0, []) (a1, s1, []) (a2, s2, []) /\ obd_status o = st /\ doings (a_events s) = l.
Proof.
  unfold async_scene. intros H Wp. do 4 (let D := fresh "D" in apply pair_equal_spec in H as [H D]).
  destruct (new_obd (setup false) (Some (str "p")) [] (fresh ans)) as [r0 [o w1]] eqn:N. cbn [fst snd] in *.
  assert (r0 = Ok tt) by (destruct r0 as [[]|]; [reflexivity|discriminate H]). subst r0. rewrite D2 in D1.
  assert (F0 : follows (answers f) (new_adapter, s0, []) (w_trace w1) (a1, s1, [])) by (apply follows_check; exact D2).
  destruct (carinv_run (answers f) (setup false) (str "p") [] (fresh ans) w1 o prog (new_adapter, s0, []) (a1, s1, []) (w_trace w1) N eq_refl eq_refl F0 Wp sched) as (_ & t & T & _).
  change (start w1 o prog) with (new_async o w1 prog) in T. rewrite T, skipn_app, skipn_all, Nat.sub_diag in D1. cbn [skipn app] in D1.
  exists o, (arun sched (new_async o w1 prog)). split; [|auto]. exists w1, (w_trace w1), t. split; [exact N|]. split; [reflexivity|]. split; [reflexivity|]. split; [exact T|]. split; [exact F0|]. apply follows_check. exact D1.
Qed.
Lemma revs_proper : proper revs. Proof. exact (proj1 rpm_engine). Qed.
(* a car in which another ECU answers too from the second request on: two rounds of the update loop, two requests, the callback called twice *)
Example C90_example : exists ans prog sched o s a1 a2,
  async_with (answers car2) (setup false) (str "p") [] (fresh ans) prog sched o s (new_adapter, O, []) (a1, O, []) (a2, 2%nat, []) /\ watches_proper prog /\ ~ In AClose prog /\ obd_status o = CAR_CONNECTED
  /\ doings (a_events s) = [inl revs; inr (revs, 1); inl revs; inr (revs, 1)].
Proof.
  assert (Wp : watches_proper [AWatch revs (Some 1) true; AStart; AQuery revs]).
  { assert (K : forall rv c cb f, In (AWatch c cb f) [AWatch rv (Some 1) true; AStart; AQuery rv] -> c = rv) by (intros rv c cb f [X|[X|[X|[]]]]; try discriminate X; congruence).
    intros c cb f X. rewrite (K _ _ _ _ X). exact revs_proper. }
  assert (E : exists a1 a2, async_scene car2 O (start_up ++ [several [str "7E8 04 41 0C 1A F8"]; several [str "7E9 04 41 0C 00 00"; str "7E8 04 41 0C 1A F8"]])
      [AWatch revs (Some 1) true; AStart; AQuery revs] (user 9 ++ loop 0 21 ++ user 1) = (true, Some (a1, O), Some (a2, 2%nat), CAR_CONNECTED, [inl revs; inr (revs, 1); inl revs; inr (revs, 1)])).
  { eexists _, _. vm_compute. reflexivity. }
  destruct E as (a1 & a2 & E). destruct (async_scene_facts _ _ _ _ _ _ _ _ _ _ _ E Wp) as (o & s & A & St & Do).
  eexists _, _, _, o, s, a1, a2. split; [exact A|]. split; [exact Wp|]. split; [|split; [exact St|exact Do]]. intros [X|[X|[X|[]]]]; discriminate X.
Qed.
