(* Specification vocabulary for Async objects made with fast=True, with an adapter and a car (SpecAdapter). No proofs in this file. *)
From Coq Require Import ZArith List Bool.
From Verif Require Import Py Protocol Decoders Command World Elm Obd Async SpecElm SpecObd SpecE2E SpecAdapter SpecAdapter2 SpecAsyncCar.
Import ListNotations.
Open Scope Z_scope.

(* the number of frames in the messages made of these lines *)
Definition frames_in (pr : protocol) (lines : list text) : nat :=
  match call pr lines with Ok ms => fold_right plus O (map (fun m => length (m_frames m)) ms) | Raise _ => O end.
(* what is noted of the commands: how many frames they were first adapter_gives with *)
Definition notes : Type := command -> option nat.
(* commands with the same bytes and the same header are the same *)
Definition same_command (c c' : command) : Prop := c_command c = c_command c' /\ c_header c = c_header c'.
(* k' is k with n noted for c, unless something was noted for it before *)
Definition noted (k : notes) (c : command) (n : nat) (k' : notes) : Prop :=
  forall c', match k c' with Some m => k' c' = Some m | None => (same_command c c' -> k' c' = Some n) /\ (~ same_command c c' -> k' c' = None) end.
(* the line that stands for a query of c: its bytes, with the noted number in decimal behind them if the command may be sped up *)
Inductive line_of (k : notes) (c : command) : bytes -> Prop :=
| ln_plain : c_fast c = false \/ k c = None -> line_of k c (c_command c)
| ln_counted n d : c_fast c = true -> k c = Some n -> decimal n d -> line_of k c (c_command c ++ d).

Section Car.
  Context {Car : Type} (ask : Car -> option text -> text -> list text -> Car -> Prop).
  (* the adapter, which sends to all ECUs, answers such a line with these lines: with all the car answers to a request, with the first n of them for a request with a limit of n *)
  Definition adapter_gives (s : Car) (k : kind) (lines : list text) (s' : Car) : Prop :=
    match k with
    | KRequest req => ask s None req lines s'
    | KCounted req n => exists full, ask s None req full s' /\ (0 < n -> lines = firstn (Z.to_nat n) full)
    | KHarmless => s' = s
    | _ => False
    end.
  (* the car goes from s to s' by answering these queries one after the other and nothing else *)
  Inductive served_fast (pr : protocol) (k0 : notes) (s : Car) : list (command * res response) -> Car -> notes -> Prop :=
  | sf_nil k : (forall c, k c = k0 c) -> served_fast pr k0 s [] s k
  | sf_more l s1 k c line lines s2 k' : served_fast pr k0 s l s1 k -> line_of k c line -> adapter_gives s1 (understand line) lines s2 -> noted k c (frames_in pr lines) k' ->
      (forall q, made_of pr c lines = Ok q -> reading c pr lines q) ->
      served_fast pr k0 s (l ++ [(c, made_of pr c lines)]) s2 k'.
End Car.
(* only commands with the engine's header are watched *)
Definition watches_engine (prog : list aop) : Prop := forall c cb f, In (AWatch c cb f) prog -> c_header c = engine_header.
(* no query of an update thread raised *)
Definition none_raised (s : astate) : Prop := forall c e, ~ In (c, Raise e) (asked_for (a_events s)).
