(* Model of obd/utils.py. No proofs in this file. *)
From Coq Require Import ZArith List Bool.
From Verif Require Import Py.
Import ListNotations.
Open Scope Z_scope.

(* utils.py:44-50  class OBDStatus *)
Inductive status : Set := NOT_CONNECTED | ELM_CONNECTED | OBD_CONNECTED | CAR_CONNECTED.
Definition status_text (s : status) : text :=
  match s with
  | NOT_CONNECTED => str "Not Connected"
  | ELM_CONNECTED => str "ELM Connected"
  | OBD_CONNECTED => str "OBD Connected"
  | CAR_CONNECTED => str "Car Connected"
  end.
Definition status_eqb (a b : status) : bool :=
  match a, b with
  | NOT_CONNECTED, NOT_CONNECTED | ELM_CONNECTED, ELM_CONNECTED
  | OBD_CONNECTED, OBD_CONNECTED | CAR_CONNECTED, CAR_CONNECTED => true
  | _, _ => false
  end.

(* bin(b)[2:] for b >= 0, most significant digit first; the argument fuel bounds the number of digits *)
Fixpoint bin_digits (fuel : nat) (b : Z) (acc : list bool) : list bool :=
  match fuel with
  | O => acc
  | S f => if b <=? 1 then (b =? 1) :: acc else bin_digits f (b / 2) ((b mod 2 =? 1) :: acc)
  end.
Definition bin (b : Z) : list bool := bin_digits (S (Z.to_nat (Z.log2 b))) b [].

(* utils.py:53-101  class BitArray: the string of '0' and '1' is a list of booleans *)
Definition bitarray := list bool.
(* utils.py:62-66  __init__ *)
Definition ba_of (d : bytes) : bitarray :=
  List.concat (map (fun b => let v := bin b in repeat false (8 - length v) ++ v) d).
(* utils.py:68-73  __getitem__ with an int *)
Definition ba_get (a : bitarray) (key : Z) : bool :=
  if (0 <=? key) && (key <? zlen a) then nth (Z.to_nat key) a false else false.
(* utils.py:74-79  __getitem__ with a slice [lo:hi], lo, hi >= 0 *)
Definition ba_slice (a : bitarray) (lo hi : nat) : list bool := slice lo hi a.
(* the same with an open end [lo:] *)
Definition ba_from (a : bitarray) (lo : nat) : list bool := from lo a.
(* list.count(True) *)
Definition count_true (l : list bool) : Z := zlen (filter (fun b => b) l).
(* utils.py:81-82  num_set *)
Definition num_set (a : bitarray) : Z := count_true a.
(* utils.py:84-85  num_cleared *)
Definition num_cleared (a : bitarray) : Z := zlen (filter negb a).
(* int(bits, 2) *)
Definition int2 (l : list bool) : Z := fold_left (fun (v : Z) (b : bool) => 2 * v + (if b then 1 else 0)) l 0.
(* utils.py:87-92  value *)
Definition ba_value (a : bitarray) (start stop : nat) : Z :=
  match slice start stop a with [] => 0 | bits => int2 bits end.
(* utils.py:94-95  __len__ *)
Definition ba_len (a : bitarray) : Z := zlen a.
(* utils.py:100-101  __iter__ *)
Definition ba_iter (a : bitarray) : list bool := a.

(* utils.py:104-111  bytes_to_int: v += b * 2**p from the right, p += 8 *)
Definition bytes_to_int (bs : bytes) : Z :=
  fst (fold_left (fun vp b => (fst vp + b * 2 ^ snd vp, snd vp + 8)) (rev bs) (0, 0)).

(* hex(b)[2:] for 0 <= b: lower-case digits, most significant first *)
Definition hexdigit (d : Z) : Z := if d <? 10 then 48 + d else 87 + d.
Fixpoint hex_digits (fuel : nat) (b : Z) (acc : text) : text :=
  match fuel with
  | O => acc
  | S f => if b <=? 15 then hexdigit b :: acc else hex_digits f (b / 16) (hexdigit (b mod 16) :: acc)
  end.
Definition hex (b : Z) : text := hex_digits (S (Z.to_nat (Z.log2 b))) b [].
(* utils.py:114-119  bytes_to_hex *)
Definition bytes_to_hex (bs : bytes) : text :=
  fold_left (fun h b => h ++ (let bh := hex b in repeat 48 (2 - length bh) ++ bh)) bs [].

(* utils.py:122-126  twos_comp, num_bits >= 1. Simplification: 1 << (num_bits - 1) with num_bits = 0 raises
   ValueError in Python; see uas_call in Decoders.v for the only caller that could reach it. *)
Definition twos_comp (val num_bits : Z) : Z :=
  if negb (Z.land val (Z.shiftl 1 (num_bits - 1)) =? 0) then val - Z.shiftl 1 num_bits else val.

(* utils.py:129-130  isHex *)
Definition isHex (s : text) : bool :=
  forallb (fun c => match hexval c with Some _ => true | None => false end) s.

(* zip(l, l[1:]) *)
Definition pairs {A} (l : list A) : list (A * A) := combine l (tl l).
(* utils.py:133-147  contiguous *)
Definition contiguous (l : list Z) (start end_ : Z) : bool :=
  match l with
  | [] => false
  | x :: _ =>
      if negb (x =? start) then false
      else if negb (last l 0 =? end_) then false
      else forallb (fun p => fst p + 1 =? snd p) (pairs l)
  end.
