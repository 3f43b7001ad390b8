(* Which received lines a message is made of (C95). *)
From Coq Require Import ZArith List Bool Sorted.
From Verif Require Import Py Protocol SpecWire.
Import ListNotations.
Open Scope Z_scope.

(* how a received line appears in raw(): hex lines without their spaces, other text as it is *)
Definition appears (l s : text) : Prop :=
  (hex_line l /\ s = remove_char 32 l) \/ (~ hex_line l /\ s = l).
(* the message shows the lines at these places of the answer, in the order they were received, one below the other *)
Definition shows_lines (lines : list text) (m : message) (places : list nat) : Prop :=
  places <> [] /\ StronglySorted lt places /\
  exists ss, Forall2 (fun i s => exists l, nth_error lines i = Some l /\ appears l s) places ss /\ m_raw m = join [10] ss.
(* the messages show different lines: no line is used twice *)
Definition made_of (lines : list text) (ms : list message) (places : list (list nat)) : Prop :=
  Forall2 (shows_lines lines) ms places /\ NoDup (List.concat places).
