(* Specification vocabulary for sessions with an adapter and a car (SpecAdapter). No proofs in this file. *)
From Coq Require Import ZArith List Bool.
From Verif Require Import Py Protocol Decoders Command World Elm Obd SpecElm SpecObd SpecAdapter.
Import ListNotations.
Open Scope Z_scope.

Definition engine_header : bytes := str "7E0".
(* a command the adapter understands: a request of whole bytes to the car, or a question to the adapter that does not change its settings; with a well-formed header *)
Definition proper (c : command) : Prop :=
  header_ok (plain (c_header c)) = true /\ ((exists req, understand (c_command c) = KRequest req) \/ understand (c_command c) = KHarmless /\ c_fast c = false).
(* queries of such commands, and marking commands as supported *)
Definition ordinary (x : step) : Prop := match st_op x with OpQuery c _ => proper c | OpAdd _ => True | _ => False end.
(* a command with another header than the engine's was sent *)
Definition switched (h : list step) : Prop :=
  exists x c force, In x h /\ st_op x = OpQuery c force /\ c_header c <> engine_header /\ st_events x <> [].
(* such a query, only of commands with the engine's header, and it returned *)
Definition plainly (x : step) : Prop :=
  ordinary x /\ match st_op x with OpQuery c _ => c_header c = engine_header /\ exists q, st_result x = Ok (Some q) | _ => True end.

(* what a query makes of the lines of an answer: the messages for the command, decoded (no messages at all: an empty response) *)
Definition made_of (p : protocol) (c : command) (lines : list text) : res response :=
  match call p lines with Raise x => Raise x | Ok [] => Ok empty_response | Ok ms => cmd_call c ms end.

Section Car.
  Context {Car : Type} (ask : Car -> option text -> text -> list text -> Car -> Prop).
  (* an object made by OBD(name, ...), used with this history, at the end of which it is (o, w1): all with this adapter and car, which come from x to y *)
  Definition together (cf : config) (name : text) (scan : list text) (w : world) (h : list step) (o : obd) (w1 : world) (x y : conf) : Prop :=
    exists t0, session cf (Some name) scan w t0 h (o, w1) /\ follows ask x (t0 ++ List.concat (map st_events h)) y.
  (* then query(c) with result r; the adapter and the car come from y to z *)
  Definition queried (c : command) (force : bool) (o : obd) (w1 : world) (y : conf) (t : list event) (r : res response) (o' : obd) (z : conf) : Prop :=
    exists w2, query c force (o, w1) = (r, (o', w2)) /\ w_trace w2 = w_trace w1 ++ t /\ follows ask y t z.
  Definition as_step (c : command) (force : bool) (t : list event) (r : res response) : step :=
    mkStep (OpQuery c force) t (match r with Ok q => Ok (Some q) | Raise x => Raise x end).
End Car.
(* a car that answers for sure *)
Definition answers {Car : Type} (f : Car -> option text -> text -> list text * Car) (s : Car) (h : option text) (req : text) (lines : list text) (s' : Car) : Prop :=
  f s h req = (lines, s').
