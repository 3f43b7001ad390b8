(* Specification vocabulary for the port scan. No proofs in this file. *)
From Coq Require Import ZArith List Bool Sorted.
From Verif Require Import Py World Scan SpecObd.
Import ListNotations.
Open Scope Z_scope.

(* the platforms the library distinguishes, by the beginning of sys.platform *)
Definition platform_is (m : machine) (s : String.string) : Prop := exists rest, m_platform m = str s ++ rest.
Arguments platform_is m s%string_scope.
Definition unixlike (m : machine) : Prop := platform_is m "linux" \/ platform_is m "cygwin".
Definition windows (m : machine) : Prop := platform_is m "win".
Definition mac (m : machine) : Prop := platform_is m "darwin".

(* device file names: prefix, a decimal digit, anything *)
Definition numbered (prefix : String.string) (n : text) : Prop := exists d rest, 48 <= d <= 57 /\ n = str prefix ++ d :: rest.
Arguments numbered prefix%string_scope n.
(* l1 is the sub-list of l of those with property P, mapped by f *)
Inductive picks {A B} (P : A -> Prop) (f : A -> B) : list A -> list B -> Prop :=
| picks_nil : picks P f [] []
| picks_take x l r : P x -> picks P f l r -> picks P f (x :: l) (f x :: r)
| picks_skip x l r : ~ P x -> picks P f l r -> picks P f (x :: l) r.
Definition dev (n : text) : text := str "/dev/" ++ n.
Definition com (i : nat) (name : text) : Prop := exists d, decimal i d /\ name = str "\\.\COM" ++ d.

(* the ports the library looks at, in this order *)
Inductive candidates (m : machine) : list text -> Prop :=
| cand_unix bluetooth usb : unixlike m ->
    picks (numbered "rfcomm") dev (m_dev m) bluetooth -> picks (numbered "ttyUSB") dev (m_dev m) usb ->
    candidates m (bluetooth ++ usb)
| cand_windows l : windows m -> length l = 256%nat -> (forall i name, nth_error l i = Some name -> com i name) -> candidates m l
| cand_mac l : mac m ->
    picks (fun n => (exists rest, n = str "tty." ++ rest) /\ n <> str "tty.Bluetooth-Incoming-Port" /\ n <> str "tty.Bluetooth-Modem") dev (m_dev m) l ->
    candidates m l
| cand_other : ~ unixlike m -> ~ windows m -> ~ mac m -> candidates m [].

(* the names opened, in order *)
Definition opened (t : list event) : list text := flat_map (fun e => match e with EvOpen n _ => [n] | _ => [] end) t.
(* every port the scan opened was closed again before anything else happened *)
Definition visits (l : list text) : list sevent := flat_map (fun n => [SOpened n; SClosed n]) l.
(* an error that is neither a SerialException nor "no such file or directory" *)
Definition hard (p : probe) (n : Z) : Prop := p = Fails n /\ n <> 2.
