(* Specification vocabulary for Async objects with an adapter and a car, whose callbacks use the API (Async2). No proofs in this file. *)
From Coq Require Import ZArith List Bool.
From Verif Require Import Py Protocol Decoders Command World Elm Obd Async Async2 SpecElm SpecObd SpecAsync SpecAsync2 SpecAdapter SpecAdapter2 SpecAsyncCar SpecAsyncFast.
Import ListNotations.

Section Car.
  Context {Car : Type} (ask : Car -> option text -> text -> list text -> Car -> Prop).
  (* Async(name, ...) was made, and then used with the calls prog under the schedule sched, in which callbacks make harmless calls: query() and start(), and, while running
     is true, watch(), unwatch() and unwatch_all(); the adapter and the car were x before, y when it was made and z at the end *)
  Definition async_with_callbacks (cf : config) (name : text) (scan : list text) (w : world) (prog : list aop) (sched : list bchoice) (o : obd) (s : bstate) (x y z : conf) : Prop :=
    exists w1 t0 t, new_obd cf (Some name) scan w = (Ok tt, (o, w1)) /\ s = brun sched (new_b (new_async o w1 prog)) /\ polite sched (new_b (new_async o w1 prog))
      /\ w_trace w1 = w_trace w ++ t0 /\ w_trace (a_world (b_a s)) = w_trace w1 ++ t /\ SpecAdapter.follows ask x t0 y /\ SpecAdapter.follows ask y t z.
End Car.
(* every response that was given out, to callbacks, to query() of the user and to query() in callbacks, is the result of a query of that command (or an empty response) *)
Definition gives_out_answers (s : bstate) : Prop :=
  let got := asked_for (a_events (b_a s)) in
  (forall i c f r, In (AEv_fire i c f r) (a_events (b_a s)) -> In (c, Ok r) got)
  /\ (forall c r, In (AEv_return (AQuery c) (OResponse r)) (a_events (b_a s)) -> r = empty_response \/ exists c', same_command c' c /\ In (c', Ok r) got)
  /\ (forall i c r, In (i, AQuery c, OResponse r) (b_log s) -> r = empty_response \/ exists c', same_command c' c /\ In (c', Ok r) got).
