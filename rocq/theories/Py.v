(* The Python primitives used by python-OBD, as total Gallina functions.
   No proofs in this file. *)
From Coq Require Export ZArith List Bool.
From Coq Require String Ascii.
Export String.StringSyntax.
Export ListNotations.
Open Scope Z_scope.
Open Scope list_scope.

(* ------------------------------------------------------------------ *)
(* Exceptions. A Python expression either yields a value or raises. Only the
   classes that the modelled code can raise or catch are listed.
   SerialError stands for serial.SerialException and OSError. *)
Inductive exn : Set :=
| IndexError | TypeError | ValueError | KeyError | AttributeError | RuntimeError | SerialError | CustomError.

Inductive res (A : Type) : Type :=
| Ok (a : A)
| Raise (e : exn).
Arguments Ok {A} a.
Arguments Raise {A} e.

Definition rbind {A B} (m : res A) (k : A -> res B) : res B :=
  match m with Ok a => k a | Raise e => Raise e end.
Notation "'let!' x := m 'in' k" := (rbind m (fun x => k))
  (at level 200, x name, m at level 100, k at level 200, right associativity).

(* [f(x) for x in l], raising at the first element that raises *)
Fixpoint rmap {A B} (f : A -> res B) (l : list A) : res (list B) :=
  match l with
  | [] => Ok []
  | x :: t => let! y := f x in let! ys := rmap f t in Ok (y :: ys)
  end.

Definition is_ok {A} (r : res A) : bool := match r with Ok _ => true | Raise _ => false end.

(* ------------------------------------------------------------------ *)
(* bytes, bytearray and str are lists of byte values / code points. *)
Definition bytes := list Z.
Definition text := list Z.

(* a Python literal made of ASCII characters *)
Fixpoint str (s : String.string) : text :=
  match s with
  | String.EmptyString => []
  | String.String c t => Z.of_N (Ascii.N_of_ascii c) :: str t
  end.
Arguments str _%string_scope.

(* x == y on bytes or str *)
Fixpoint text_eqb (a b : list Z) : bool :=
  match a, b with
  | [], [] => true
  | x :: a', y :: b' => (x =? y) && text_eqb a' b'
  | _, _ => false
  end.

(* a <= b on str: lexicographic by code point *)
Fixpoint text_leb (a b : list Z) : bool :=
  match a, b with
  | [], _ => true
  | _ :: _, [] => false
  | x :: a', y :: b' => (x <? y) || ((x =? y) && text_leb a' b')
  end.

(* l[i] for i >= 0 *)
Definition get {A} (l : list A) (i : nat) : res A :=
  match nth_error l i with Some x => Ok x | None => Raise IndexError end.

(* l[a:], l[:b], l[a:b] for a, b >= 0 *)
Definition from {A} (a : nat) (l : list A) : list A := skipn a l.
Definition upto {A} (b : nat) (l : list A) : list A := firstn b l.
Definition slice {A} (a b : nat) (l : list A) : list A := firstn (b - a) (skipn a l).

(* len(l) as a Python int *)
Definition zlen {A} (l : list A) : Z := Z.of_nat (length l).

(* bool(l) / not l *)
Definition nonempty {A} (l : list A) : bool := match l with [] => false | _ => true end.

(* p.startswith *)
Fixpoint startswith (p l : list Z) : bool :=
  match p, l with
  | [], _ => true
  | x :: p', y :: l' => (x =? y) && startswith p' l'
  | _, [] => false
  end.

(* needle in hay, for str and bytes *)
Fixpoint contains (needle hay : list Z) : bool :=
  startswith needle hay || match hay with [] => false | _ :: t => contains needle t end.

(* l.endswith(bytes([c])) *)
Definition endswith1 (c : Z) (l : list Z) : bool :=
  match rev l with x :: _ => x =? c | [] => false end.

(* l.replace(chr(c), '') *)
Definition remove_char (c : Z) (l : list Z) : list Z := filter (fun x => negb (x =? c)) l.

(* sep.join(parts) *)
Fixpoint join (sep : list Z) (parts : list (list Z)) : list Z :=
  match parts with
  | [] => []
  | [p] => p
  | p :: t => p ++ sep ++ join sep t
  end.

Fixpoint drop_while {A} (f : A -> bool) (l : list A) : list A :=
  match l with
  | [] => []
  | x :: t => if f x then drop_while f t else l
  end.
(* l.strip(chars) *)
Definition strip_by (f : Z -> bool) (l : list Z) : list Z :=
  rev (drop_while f (rev (drop_while f l))).

(* str.isspace() of one character: the set used by str.strip() *)
Definition uspace (c : Z) : bool :=
  ((9 <=? c) && (c <=? 13)) || ((28 <=? c) && (c <=? 32)) || (c =? 133) || (c =? 160)
  || (c =? 5760) || ((8192 <=? c) && (c <=? 8202)) || (c =? 8232) || (c =? 8233)
  || (c =? 8239) || (c =? 8287) || (c =? 12288).
(* the set used by bytes.strip() *)
Definition bspace (c : Z) : bool := ((9 <=? c) && (c <=? 13)) || (c =? 32).

(* str.lower(), on ASCII letters only. Simplification: other cased letters are left alone
   (lower() is only applied to text given to float(), which rejects letters other than
   those of inf, infinity, nan and e; no non-ASCII letter lowers to a text made of these). *)
Definition lower (l : text) : text :=
  map (fun c => if (65 <=? c) && (c <=? 90) then c + 32 else c) l.

(* re.split("[\r\n]", s) : pieces between separators, empty ones included *)
Fixpoint split_crlf (l : text) : list text :=
  match l with
  | [] => [ [] ]
  | c :: t =>
      if (c =? 13) || (c =? 10) then [] :: split_crlf t
      else match split_crlf t with
           | p :: ps => (c :: p) :: ps
           | [] => [ [c] ]
           end
  end.

(* ------------------------------------------------------------------ *)
(* bytes.decode("utf-8", "ignore") as CPython does it: an invalid start byte is skipped;
   a start byte with invalid or missing continuation is skipped together with the
   valid part of its continuation. *)
Definition ucont (c : Z) : bool := (128 <=? c) && (c <=? 191).
Definition ucont3 (b c : Z) : bool :=
  if b =? 224 then (160 <=? c) && (c <=? 191)
  else if b =? 237 then (128 <=? c) && (c <=? 159)
  else ucont c.
Definition ucont4 (b c : Z) : bool :=
  if b =? 240 then (144 <=? c) && (c <=? 191)
  else if b =? 244 then (128 <=? c) && (c <=? 143)
  else ucont c.
Fixpoint utf8_ignore (bs : bytes) : text :=
  match bs with
  | [] => []
  | b :: t =>
      if b <? 128 then b :: utf8_ignore t
      else if (194 <=? b) && (b <=? 223) then
        match t with
        | c :: t1 => if ucont c then ((b - 192) * 64 + (c - 128)) :: utf8_ignore t1
                     else utf8_ignore t
        | [] => []
        end
      else if (224 <=? b) && (b <=? 239) then
        match t with
        | c :: t1 =>
            if ucont3 b c then
              match t1 with
              | d :: t2 =>
                  if ucont d then ((b - 224) * 4096 + (c - 128) * 64 + (d - 128)) :: utf8_ignore t2
                  else utf8_ignore t1
              | [] => []
              end
            else utf8_ignore t
        | [] => []
        end
      else if (240 <=? b) && (b <=? 244) then
        match t with
        | c :: t1 =>
            if ucont4 b c then
              match t1 with
              | d :: t2 =>
                  if ucont d then
                    match t2 with
                    | e :: t3 =>
                        if ucont e then
                          ((b - 240) * 262144 + (c - 128) * 4096 + (d - 128) * 64 + (e - 128)) :: utf8_ignore t3
                        else utf8_ignore t2
                    | [] => []
                    end
                  else utf8_ignore t1
              | [] => []
              end
            else utf8_ignore t
        | [] => []
        end
      else utf8_ignore t
  end.

(* ------------------------------------------------------------------ *)
(* sorted(l, key=...): stable *)
Fixpoint insert_by {A} (key : A -> Z) (x : A) (l : list A) : list A :=
  match l with
  | [] => [x]
  | y :: t => if key x <=? key y then x :: l else y :: insert_by key x t
  end.
Fixpoint sort_by {A} (key : A -> Z) (l : list A) : list A :=
  match l with
  | [] => []
  | x :: t => insert_by key x (sort_by key t)
  end.

(* ------------------------------------------------------------------ *)
(* dict: association list in insertion order; eqb is the key's __eq__ *)
Section Dict.
  Context {K V : Type} (eqb : K -> K -> bool).
  Fixpoint dict_get (d : list (K * V)) (k : K) : option V :=
    match d with
    | [] => None
    | (k', v) :: t => if eqb k' k then Some v else dict_get t k
    end.
  (* d[k] = v *)
  Fixpoint dict_set (d : list (K * V)) (k : K) (v : V) : list (K * V) :=
    match d with
    | [] => [(k, v)]
    | (k', v') :: t => if eqb k' k then (k', v) :: t else (k', v') :: dict_set t k v
    end.
  (* d.pop(k, None) *)
  Fixpoint dict_pop (d : list (K * V)) (k : K) : list (K * V) :=
    match d with
    | [] => []
    | (k', v') :: t => if eqb k' k then t else (k', v') :: dict_pop t k
    end.
  Definition dict_mem (d : list (K * V)) (k : K) : bool :=
    match dict_get d k with Some _ => true | None => false end.
End Dict.

Definition oz_eqb (a b : option Z) : bool :=
  match a, b with
  | Some x, Some y => x =? y
  | None, None => true
  | _, _ => false
  end.

(* ------------------------------------------------------------------ *)
(* hexadecimal digits *)
Definition hexval (c : Z) : option Z :=
  if (48 <=? c) && (c <=? 57) then Some (c - 48)
  else if (65 <=? c) && (c <=? 70) then Some (c - 55)
  else if (97 <=? c) && (c <=? 102) then Some (c - 87)
  else None.

(* int(s, 16), for s made of hex digits (other characters: ValueError) *)
Fixpoint int16_from (acc : Z) (s : text) : res Z :=
  match s with
  | [] => Ok acc
  | c :: t => match hexval c with Some d => int16_from (acc * 16 + d) t | None => Raise ValueError end
  end.
Definition int16 (s : text) : res Z :=
  match s with [] => Raise ValueError | _ => int16_from 0 s end.

(* binascii.unhexlify: odd length or a non-hex digit raises binascii.Error (a ValueError) *)
Fixpoint unhexlify (s : text) : res bytes :=
  match s with
  | [] => Ok []
  | [_] => Raise ValueError
  | a :: b :: t =>
      match hexval a, hexval b with
      | Some x, Some y => let! r := unhexlify t in Ok (x * 16 + y :: r)
      | _, _ => Raise ValueError
      end
  end.

(* str(n) for n >= 0 *)
Fixpoint uint_text (u : Decimal.uint) : text :=
  match u with
  | Decimal.Nil => []
  | Decimal.D0 u => 48 :: uint_text u
  | Decimal.D1 u => 49 :: uint_text u
  | Decimal.D2 u => 50 :: uint_text u
  | Decimal.D3 u => 51 :: uint_text u
  | Decimal.D4 u => 52 :: uint_text u
  | Decimal.D5 u => 53 :: uint_text u
  | Decimal.D6 u => 54 :: uint_text u
  | Decimal.D7 u => 55 :: uint_text u
  | Decimal.D8 u => 56 :: uint_text u
  | Decimal.D9 u => 57 :: uint_text u
  end.
Definition str_nat (n : nat) : text := uint_text (Nat.to_uint n).
