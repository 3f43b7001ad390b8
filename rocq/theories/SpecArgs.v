(* Specification vocabulary for calls: what a call means by a documented signature. No proofs in this file. *)
From Coq Require Import ZArith List Bool String.
From Verif Require Import Py Protocol Decoders Command World Elm Obd Async Args.
Import ListNotations.
Open Scope string_scope. Open Scope list_scope. Open Scope Z_scope.

(* a documented signature: the names of the parameters in order, and the defaults of those that have one *)
Definition doc_sig := list (string * option arg).
(* docs/Connections.md:24 *)
Definition doc_obd : doc_sig :=
  [("portstr", Some PNone); ("baudrate", Some PNone); ("protocol", Some PNone); ("fast", Some (PBool true)); ("timeout", Some (PSeconds 100)); ("check_voltage", Some (PBool true)); ("start_low_power", Some (PBool false))].
(* docs/Async Connections.md:52 *)
Definition doc_async : doc_sig :=
  [("portstr", Some PNone); ("baudrate", Some PNone); ("protocol", Some PNone); ("fast", Some (PBool true)); ("timeout", Some (PSeconds 100)); ("check_voltage", Some (PBool true)); ("delay_cmds", Some (PSeconds 250))].
(* docs/Connections.md:49; docs/Async Connections.md:97, 105 *)
Definition doc_query : doc_sig := [("command", None); ("force", Some (PBool false))].
Definition doc_watch : doc_sig := [("command", None); ("callback", Some PNone); ("force", Some (PBool false))].
Definition doc_unwatch : doc_sig := [("command", None); ("callback", Some PNone)].
(* docs/Custom Commands.md:5-14 *)
Definition doc_command : doc_sig :=
  [("name", None); ("desc", None); ("command", None); ("bytes", None); ("decoder", None); ("ecu", Some (PInt 255)); ("fast", Some (PBool false)); ("header", Some (PBytes (str "7E0")))].

(* the keyword argument of this name *)
Definition given (kw : list (text * arg)) (n : string) (v : arg) : Prop := In (str n, v) kw.
(* no keyword twice (Python does not let one write that) *)
Definition once (kw : list (text * arg)) : Prop := NoDup (map fst kw).
(* by the signature sg, the call with these positional and keyword arguments gives its k-th parameter the value v *)
Inductive gives (sg : doc_sig) (pos : list arg) (kw : list (text * arg)) (k : nat) : arg -> Prop :=
| by_position v : nth_error pos k = Some v -> gives sg pos kw k v
| by_name n d v : (List.length pos <= k)%nat -> nth_error sg k = Some (n, d) -> given kw n v -> gives sg pos kw k v
| by_default n v : (List.length pos <= k)%nat -> nth_error sg k = Some (n, Some v) -> (forall x, ~ given kw n x) -> gives sg pos kw k v.
(* the call is one the signature allows: not too many positional arguments, every keyword is the name of a parameter that has no positional argument,
   and every parameter without a default gets a value *)
Definition allowed (sg : doc_sig) (pos : list arg) (kw : list (text * arg)) : Prop :=
  (List.length pos <= List.length sg)%nat
  /\ (forall n v, In (n, v) kw -> exists k p d, nth_error sg k = Some (p, d) /\ n = str p /\ (List.length pos <= k)%nat)
  /\ (forall k p, nth_error sg k = Some (p, None) -> (List.length pos <= k)%nat -> exists v, given kw p v).
(* vs are the values of the parameters by the signature *)
Definition means (sg : doc_sig) (pos : list arg) (kw : list (text * arg)) (vs : list arg) : Prop :=
  allowed sg pos kw /\ List.length vs = List.length sg /\ forall k v, nth_error vs k = Some v -> gives sg pos kw k v.
