(* Specification vocabulary for what a user of an Async object is shown of the car. No proofs in this file. *)
From Coq Require Import ZArith List Bool Sorted.
From Verif Require Import Py Utils Protocol Decoders Command World Elm Obd Async SpecBits SpecProto SpecCmd SpecElm SpecObd SpecE2E SpecAdapter SpecAdapter2 SpecAsyncCar SpecAsyncFast.
Import ListNotations.
Open Scope Z_scope.

(* the user was shown r for c: a callback of c was called with r, or query() returned r (not the empty response) for a command with the bytes and the header of c, if c is the only such
   command that is watched *)
Definition shown (prog : list aop) (s : astate) (c : command) (r : response) : Prop :=
  (exists i f, In (AEv_fire i c f r) (a_events s))
  \/ (exists c', same_command c c' /\ In (AEv_return (AQuery c') (OResponse r)) (a_events s) /\ r <> empty_response /\ forall c2 cb f, In (AWatch c2 cb f) prog -> same_command c2 c -> c2 = c).

Section Car.
  Context {Car : Type} (ask : Car -> option text -> text -> list text -> Car -> Prop).
  (* a request of c goes to all ECUs or to the header of c *)
  Definition addressed (c : command) (hd : option text) : Prop := hd = None \/ hd = Some (plain (c_header c)).
  (* whenever the car is asked what c asks, the first ECU heeded by c answers with the data d that belong to the state the car is in (behind the two bytes of the echo) *)
  Definition truthful (pr : protocol) (c : command) (shows : Car -> bytes -> Prop) : Prop :=
    forall st hd req lines st', understand (c_command c) = KRequest req -> addressed c hd -> ask st hd req lines st' ->
      exists h1 h2 d, speaks pr (c_ecu c) lines (h1 :: h2 :: d) /\ h1 <> 67 /\ shows st d.
  (* whenever the car is asked what c asks (all ECUs, or the one with the header of c), exactly these ECUs answer, in ascending order of their ids, each reporting its codes *)
  Definition reporting (pr : protocol) (c : command) (shows : Car -> option text -> list (Z * bytes) -> Prop) : Prop :=
    forall st hd req lines st', understand (c_command c) = KRequest req -> addressed c hd -> ask st hd req lines st' ->
      exists rs, shows st hd rs /\ rs <> [] /\ StronglySorted Z.lt (map fst rs)
        /\ (forall u codes, In (u, codes) rs -> exists ls, heard_from (pc_family (p_class pr)) u lines ls /\ reports_codes (pc_family (p_class pr)) 3 u ls codes)
        /\ (forall u, ~ In u (map fst rs) -> silent (pc_family (p_class pr)) u lines).
  (* whenever the car is asked what c asks, it answers with n lines that make messages of n frames *)
  Definition steady (pr : protocol) (c : command) (n : nat) : Prop :=
    forall st req lines st', understand (c_command c) = KRequest req -> ask st None req lines st' -> length lines = n /\ frames_in pr lines = n.
  (* st is a state the car was in when an update thread asked it (at the query after those in l) *)
  Definition at_query (pr : protocol) (s0 : Car) (l : list (command * res response)) (c : command) (r : response) (st : Car) : Prop :=
    exists l1 l2, l = l1 ++ (c, Ok r) :: l2 /\ served ask pr s0 l1 st.
  Definition at_query_fast (pr : protocol) (k0 : notes) (s0 : Car) (l : list (command * res response)) (c : command) (r : response) (st : Car) : Prop :=
    exists l1 l2 k, l = l1 ++ (c, Ok r) :: l2 /\ served_fast ask pr k0 s0 l1 st k.
End Car.
