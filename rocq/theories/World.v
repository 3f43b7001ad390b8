(* The serial port as seen by the program, and the monad of methods. No proofs in this file. *)
From Coq Require Import ZArith List Bool.
From Verif Require Import Py.
Import ListNotations.
Open Scope Z_scope.

(* what a write (flushInput, write, flush) does: succeeds, raises before or after the bytes were handed over *)
Inductive wres : Set := WOk | WFailBefore | WFailAfter.
(* port activity *)
Inductive event : Set :=
| EvOpen (name : text) (ok : bool)
| EvSend (flushed : bool) (bs : bytes)   (* a write; flushed: after flushInput(), which throws away all input that has arrived and was not read *)
| EvRead (r : option bytes)            (* bytes received; [] = timeout; None = exception *)
| EvFail                               (* a write or a change of the baud rate raised an exception *)
| EvBaud (b : Z)
| EvTimeout (t : Z)
| EvClose.
Notation EvWrite := (EvSend true).
(* how the operating system, the adapter and the car behave from now on: results of the successive opens, writes,
   reads and baud rate settings; an exhausted list means success, for reads a timeout. w_trace is the past. *)
Record world := mkWorld {
  w_opens : list bool;
  w_writes : list wres;
  w_reads : list (option bytes);
  w_confs : list bool;
  w_trace : list event }.

Definition emit (ev : event) (w : world) : world :=
  mkWorld (w_opens w) (w_writes w) (w_reads w) (w_confs w) (w_trace w ++ [ev]).
Definition with_reads (rs : list (option bytes)) (w : world) : world :=
  mkWorld (w_opens w) (w_writes w) rs (w_confs w) (w_trace w).

(* serial.serial_for_url: true, or SerialException / OSError *)
Definition port_open (name : text) (w : world) : bool * world :=
  let ok := match w_opens w with b :: _ => b | [] => true end in
  (ok, emit (EvOpen name ok) (mkWorld (tl (w_opens w)) (w_writes w) (w_reads w) (w_confs w) (w_trace w))).
(* flushInput(), if flushed; write(bs); flush() *)
Definition port_write (flushed : bool) (bs : bytes) (w : world) : bool * world :=
  let o := match w_writes w with o :: _ => o | [] => WOk end in
  let w := mkWorld (w_opens w) (tl (w_writes w)) (w_reads w) (w_confs w) (w_trace w) in
  match o with
  | WOk => (true, emit (EvSend flushed bs) w)
  | WFailBefore => (false, emit EvFail w)
  | WFailAfter => (false, emit EvFail (emit (EvSend flushed bs) w))
  end.
(* one read: None = exception *)
Definition port_read (w : world) : option bytes * world :=
  let r := match w_reads w with r :: _ => r | [] => Some [] end in
  (r, emit (EvRead r) (with_reads (tl (w_reads w)) w)).
(* port.baudrate = b: true, or an exception *)
Definition port_baud (b : Z) (w : world) : bool * world :=
  let ok := match w_confs w with x :: _ => x | [] => true end in
  let w := mkWorld (w_opens w) (w_writes w) (w_reads w) (tl (w_confs w)) (w_trace w) in
  (ok, if ok then emit (EvBaud b) w else emit EvFail w).

(* methods: effects survive an exception *)
Definition M (S A : Type) : Type := S -> res A * S.
Definition ret {S A} (a : A) : M S A := fun s => (Ok a, s).
Definition raise {S A} (e : exn) : M S A := fun s => (Raise e, s).
Definition bind {S A B} (m : M S A) (k : A -> M S B) : M S B :=
  fun s => match m s with (Ok a, s') => k a s' | (Raise e, s') => (Raise e, s') end.
Definition of_res {S A} (r : res A) : M S A := fun s => (r, s).
Definition gets {S A} (f : S -> A) : M S A := fun s => (Ok (f s), s).
Notation "'do' x <- m ; k" := (bind m (fun x => k))
  (at level 200, x name, m at level 100, k at level 200, right associativity).
Notation "'do!' m ; k" := (bind m (fun _ => k))
  (at level 200, m at level 100, k at level 200, right associativity).
