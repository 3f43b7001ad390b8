(* Specification vocabulary for looking at a connection in use. No proofs in this file. *)
From Coq Require Import ZArith List.
From Verif Require Import Py Command World Elm Obd Async Fine Look.
Import ListNotations.

(* what a look shows of a connection nobody else uses *)
Definition show (k : look) (o : obd) : res shown :=
  match k with
  | LStatus => Ok (SStatus (obd_status o))
  | LConnected => Ok (SBool (is_connected o))
  | LPort => Ok (SText (obd_port_name o))
  | LId => match obd_protocol_id o with Ok t => Ok (SText t) | Raise e => Raise e end
  | LName => match obd_protocol_name o with Ok t => Ok (SText t) | Raise e => Raise e end
  | LSupports c => Ok (SBool (supports o c))
  end.
(* the user's thread is between two calls *)
Definition may_look (l : lstate) : Prop :=
  a_pc (f_a (l_f l)) = M_idle /\ f_power (l_f l) = None /\ l_look l = None.
(* how many steps of the user's looks are in the schedule *)
Definition is_look (ch : lchoice) : bool := match ch with LLook _ => true | _ => false end.
Definition times_look (sched : list lchoice) : nat := length (filter is_look sched).
(* the user makes no power calls *)
Definition quiet_looks (sched : list lchoice) : Prop := forall low, ~ In (LFine (FPower low)) sched.
