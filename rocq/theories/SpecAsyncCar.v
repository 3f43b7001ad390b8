(* Specification vocabulary for Async objects with an adapter and a car (SpecAdapter). No proofs in this file. *)
From Coq Require Import ZArith List Bool.
From Verif Require Import Py Protocol Decoders Command World Elm Obd Async SpecElm SpecObd SpecE2E SpecAdapter SpecAdapter2.
Import ListNotations.
Open Scope Z_scope.

(* the queries the update threads made, oldest first, with their results *)
Definition asked_for (l : list aevent) : list (command * res response) :=
  flat_map (fun e => match e with AEv_query _ c r => [(c, r)] | _ => [] end) l.
(* all of these commands have the engine's header *)
Definition engine_only (l : list (command * res response)) : Prop := Forall (fun q => c_header (fst q) = engine_header) l.

Section Car.
  Context {Car : Type} (ask : Car -> option text -> text -> list text -> Car -> Prop).
  (* the car goes from s to s' by answering these queries one after the other, each with one request, and nothing else; each response is made of the lines of its answer
     (and is a reading in the sense of SpecE2E, so that C67-C72 and C81 apply to it).
     The request goes to all ECUs as long as all commands have the engine's header, and to the header of the command from then on *)
  Inductive served (pr : protocol) (s : Car) : list (command * res response) -> Car -> Prop :=
  | sv_nil : served pr s [] s
  | sv_request l s1 c req hd lines s2 : served pr s l s1 -> understand (c_command c) = KRequest req ->
      (engine_only (l ++ [(c, made_of pr c lines)]) -> hd = None) -> (~ engine_only (l ++ [(c, made_of pr c lines)]) -> hd = Some (plain (c_header c))) ->
      ask s1 hd req lines s2 -> (forall q, made_of pr c lines = Ok q -> reading c pr lines q) -> served pr s (l ++ [(c, made_of pr c lines)]) s2
  | sv_adapter l s1 c lines : served pr s l s1 -> understand (c_command c) = KHarmless -> (forall q, made_of pr c lines = Ok q -> reading c pr lines q) -> served pr s (l ++ [(c, made_of pr c lines)]) s1.   (* a question to the adapter *)

  (* Async(name, ...) was made, and then used with the calls prog under the schedule sched; the adapter and the car were x before, y when it was made and z at the end *)
  Definition async_with (cf : config) (name : text) (scan : list text) (w : world) (prog : list aop) (sched : list choice) (o : obd) (s : astate) (x y z : conf) : Prop :=
    exists w1 t0 t, new_obd cf (Some name) scan w = (Ok tt, (o, w1)) /\ s = arun sched (new_async o w1 prog)
      /\ w_trace w1 = w_trace w ++ t0 /\ w_trace (a_world s) = w_trace w1 ++ t /\ follows ask x t0 y /\ follows ask y t z.
End Car.
Definition car_of {Car : Type} (z : @conf Car) : Car := snd (fst z).
(* only commands the adapter understands are watched *)
Definition watches_proper (prog : list aop) : Prop := forall c cb f, In (AWatch c cb f) prog -> proper c.
