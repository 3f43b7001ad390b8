(* What it means for a user to have marked a command as supported (docs/Connections.md:162-174, docs/Custom Commands.md:40-52). *)
From Coq Require Import ZArith List.
From Verif Require Import Py Command World Elm Obd SpecElm SpecObd.
Import ListNotations.

(* the same command, for the library: the same request to the same header (OBDCommand.__eq__) *)
Definition alike (a b : command) : Prop := c_command a = c_command b /\ c_header a = c_header b.
(* c is one of the commands of a set *)
Definition among (c : command) (l : list command) : Prop := exists c', In c' l /\ alike c' c.
(* no close() among the calls of a history *)
Definition no_close (h : list step) : Prop := Forall (fun x => st_op x <> OpClose) h.
(* c was added to supported_commands, and close() was not called since *)
Definition marked (h : list step) (c : command) : Prop :=
  exists a c' t r b, h = a ++ mkStep (OpAdd c') t r :: b /\ alike c' c /\ no_close b.
(* no two commands of a set are the same *)
Definition unrepeated (l : list command) : Prop := NoDup (map (fun c => (c_command c, c_header c)) l).
