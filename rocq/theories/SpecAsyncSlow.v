(* Specification vocabulary for Async objects with a slow adapter (SpecSlow) and a car. No proofs in this file. *)
From Coq Require Import ZArith List Bool.
From Verif Require Import Py Protocol Decoders Command World Elm Obd Async SpecElm SpecObd SpecE2E SpecAdapter SpecAdapter2 SpecSlow SpecAsyncCar.
Import ListNotations.
Open Scope Z_scope.

Section Car.
  Context {Car : Type} (ask : Car -> option text -> text -> list text -> Car -> Prop).
  (* as SpecAsyncCar.served, with an adapter whose output may come late: the car goes from s to s' by answering these queries one after the other, each with one request to all ECUs,
     and nothing else; each response is made of lines that were read, and, if output that comes too late is thrown away (on_time), these are the lines in a stretch of the car's answer
     to that very request; rd: the bytes that were read *)
  Inductive served_slowly (on_time : bool) (pr : protocol) (s : Car) : bytes -> list (command * res response) -> Car -> Prop :=
  | ss_nil : served_slowly on_time pr s [] [] s
  | ss_request rd l s1 c req full rd2 lines s2 : served_slowly on_time pr s rd l s1 -> understand (c_command c) = KRequest req -> ask s1 None req full s2 ->
      (on_time = true -> stretch full lines /\ (ascii rd2 -> cut_of full lines)) ->
      (forall q, made_of pr c lines = Ok q -> reading c pr lines q) -> served_slowly on_time pr s (rd ++ rd2) (l ++ [(c, made_of pr c lines)]) s2
  | ss_adapter rd l s1 c rd2 lines : served_slowly on_time pr s rd l s1 -> understand (c_command c) = KHarmless ->
      (forall q, made_of pr c lines = Ok q -> reading c pr lines q) -> served_slowly on_time pr s (rd ++ rd2) (l ++ [(c, made_of pr c lines)]) s1.   (* a question to the adapter *)

  (* as SpecAsyncCar.async_with; rd: the bytes read since the object was made *)
  Definition async_slow_with (on_time : bool) (cf : config) (name : text) (scan : list text) (w : world) (prog : list aop) (sched : list choice) (o : obd) (s : astate) (x y z : conf (Car := Car)) (rd : bytes) : Prop :=
    exists w1 t0 t, new_obd cf (Some name) scan w = (Ok tt, (o, w1)) /\ s = arun sched (new_async o w1 prog)
      /\ w_trace w1 = w_trace w ++ t0 /\ w_trace (a_world s) = w_trace w1 ++ t /\ slow_follows ask on_time x t0 y /\ slow_follows ask on_time y t z /\ rd = got t.
End Car.
