(* Specification vocabulary for printed results. No proofs in this file. *)
From Coq Require Import ZArith List Bool Sorted.
From Verif Require Import Py Num Utils Protocol Codes UasTable Decoders SpecWire SpecBits SpecCmd SpecMonitor.
Import ListNotations.
Open Scope Z_scope.

(* the text consists of these lines *)
Inductive lines_of : text -> list text -> Prop :=
| lines_last l : ~ In 10 l -> lines_of l [l]
| lines_more l t ls : ~ In 10 l -> lines_of t ls -> lines_of (l ++ 10 :: t) (l :: ls).

(* the line says this test's result: its description, its value (showq prints quantities) and the verdict *)
Definition tells (showq : num -> text -> text) (t : mtest) (line : text) : Prop :=
  exists desc v, t_desc t = Some desc /\
    match t_value t with
    | Some (TQty n u) => v = showq n u
    | Some (TBool true) => v = str "True"
    | Some (TBool false) => v = str "False"
    | None => False
    end /\
    line = desc ++ str " : " ++ v ++ (if test_passed t then str " [PASSED]" else str " [FAILED]").

(* the test ids of the standard *)
Definition standard (tid : Z) : Prop := 1 <= tid <= 12.
(* the order of the tests of one answer: those of the standard by their ids, then the others as they first occur in the answer *)
Definition precedes (bs : list bytes) (t1 t2 : Z) : Prop :=
  standard t1 /\ (standard t2 -> t1 < t2) \/
  ~ standard t1 /\ ~ standard t2 /\ exists l1 b l2, bs = l1 ++ b :: l2 /\ usable t1 b /\ Forall (fun x => ~ usable t2 x) (l1 ++ [b]).

(* the line a status test is printed as *)
Definition status_line (name : text) (available complete : bool) : text :=
  str "Test " ++ name ++ str ": " ++
  match available, complete with
  | true, true => str "Available, Complete"
  | true, false => str "Available, Incomplete"
  | false, true => str "Unavailable, Complete"
  | false, false => str "Unavailable, Incomplete"
  end.
