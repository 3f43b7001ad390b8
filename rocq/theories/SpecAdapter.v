(* An adapter of the ELM327 kind and a car behind it, after the adapter's data sheet; independent of the model of the library (only the type of port
   activity, World.event, is shared). No proofs in this file. *)
From Coq Require Import ZArith List Bool.
From Verif Require Import Py World SpecElm.
Import ListNotations.
Open Scope Z_scope.

(* ---- how the adapter understands a line ---- *)
(* spaces do not count, nor does the case of letters *)
Definition capital (c : Z) : Z := if (97 <=? c) && (c <=? 122) then c - 32 else c.
Definition plain (s : bytes) : text := map capital (filter (fun c => negb (c =? 32)) s).
Definition is_hexdigit (c : Z) : bool := ((48 <=? c) && (c <=? 57)) || ((65 <=? c) && (c <=? 70)).
Definition hexdigit_value (c : Z) : Z := if c <=? 57 then c - 48 else c - 55.
(* the rest of s behind a prefix *)
Fixpoint behind (prefix s : text) : option text :=
  match prefix, s with
  | [], _ => Some s
  | a :: p, b :: t => if a =? b then behind p t else None
  | _ :: _, [] => None
  end.
(* a header is given with three, six or eight hexadecimal digits *)
Definition header_ok (h : text) : bool := forallb is_hexdigit h && existsb (Nat.eqb (length h)) [3; 6; 8]%nat.
Inductive kind : Set :=
| KBlank                          (* repeat the last line *)
| KReset | KEcho0 | KHeaders1 | KLinefeeds0
| KHeader (h : text)              (* use this header from now on *)
| KHarmless                       (* asks the adapter for something, or selects a protocol *)
| KRequest (req : text)           (* a request to the car: whole bytes *)
| KCounted (req : text) (n : Z)   (* the same with one more digit: how many lines of the answer to wait for *)
| KOther.
Definition understand (l : bytes) : kind :=
  let s := plain l in
  if text_eqb s [] then KBlank
  else if text_eqb s (str "ATZ") then KReset
  else if text_eqb s (str "ATE0") then KEcho0
  else if text_eqb s (str "ATH1") then KHeaders1
  else if text_eqb s (str "ATL0") then KLinefeeds0
  else if existsb (text_eqb s) [str "ATI"; str "ATRV"; str "ATDPN"; str "ATSP0"] then KHarmless
  else match behind (str "ATTP") s with
       | Some _ => KHarmless
       | None =>
           match behind (str "ATSH") s with
           | Some h => if header_ok h then KHeader h else KOther
           | None =>
               if forallb is_hexdigit s then
                 if Nat.even (length s) then KRequest s else KCounted (removelast s) (hexdigit_value (last s 0))
               else KOther
           end
       end.

(* ---- the adapter and the car ---- *)
(* does it echo lines, does it print the headers, which header does it send (None: the one it starts with, for all ECUs of the car), the last line *)
Record adapter := mkAdapter { ad_echo : bool; ad_headers : bool; ad_header : option text; ad_last : bytes }.
Definition remember_line (l : bytes) (a : adapter) : adapter := mkAdapter (ad_echo a) (ad_headers a) (ad_header a) l.

Section Car.
  (* any car: ask s h req lines s': in state s, the request req sent with header h may be answered with these lines (as the adapter prints them with headers:
     from all ECUs that answer, or a message such as NO DATA), and the car is in state s' then *)
  Context {Car : Type} (ask : Car -> option text -> text -> list text -> Car -> Prop).

  (* a line that is not blank: the answer's lines, and the states afterwards *)
  Definition does (a : adapter) (s : Car) (l : bytes) (lines : list text) (a' : adapter) (s' : Car) : Prop :=
    match understand l with
    | KBlank => a' = a /\ s' = s
    | KReset => a' = mkAdapter true false None l /\ s' = s
    | KEcho0 => lines = [str "OK"] /\ a' = mkAdapter false (ad_headers a) (ad_header a) l /\ s' = s
    | KHeaders1 => lines = [str "OK"] /\ a' = mkAdapter (ad_echo a) true (ad_header a) l /\ s' = s
    | KLinefeeds0 => lines = [str "OK"] /\ a' = remember_line l a /\ s' = s
    | KHeader h => lines = [str "OK"] /\ a' = mkAdapter (ad_echo a) (ad_headers a) (Some h) l /\ s' = s
    | KHarmless => a' = remember_line l a /\ s' = s
    | KRequest req => exists full, ask s (ad_header a) req full s' /\ (ad_headers a = true -> lines = full) /\ a' = remember_line l a
    | KCounted req n => exists full, ask s (ad_header a) req full s' /\ (ad_headers a = true -> 0 < n -> lines = firstn (Z.to_nat n) full) /\ a' = remember_line l a
    | KOther => s' = s
    end.
  (* any line: a blank one stands for the line before *)
  Definition obeys (a : adapter) (s : Car) (l : bytes) (lines : list text) (a' : adapter) (s' : Car) : Prop :=
    match understand l with KBlank => does a s (ad_last a) lines a' s' | _ => does a s l lines a' s' end.
  (* what it prints up to the prompt: these lines; with the echo on, the line itself comes first *)
  Definition prints (a : adapter) (lines : list text) (out : bytes) : Prop :=
    ~ In PROMPT out /\ exists echo, answer_lines (out ++ [PROMPT]) (echo ++ lines) /\ (ad_echo a = false -> echo = []).

  (* the adapter, the car, and what was printed and not yet read *)
  Definition conf : Type := (adapter * Car * bytes)%type.
  Inductive moves : conf -> event -> conf -> Prop :=
  | mv_write a s pend l lines out a' s' : obeys a s l lines a' s' -> prints a lines out ->
      moves (a, s, pend) (EvWrite (l ++ [CR])) (a', s', out ++ [PROMPT])      (* unread output is thrown away before writing *)
  | mv_pile a s pend l lines out a' s' : obeys a s l lines a' s' -> prints a lines out ->
      moves (a, s, pend) (EvSend false (l ++ [CR])) (a', s', pend ++ out ++ [PROMPT])      (* unless the program does not do that *)
  | mv_probe a s pend out : moves (a, s, pend) (EvWrite [127; 127; CR]) (a, s, out)       (* perhaps at the wrong baud rate *)
  | mv_read a s x rest : x <> [] -> moves (a, s, x ++ rest) (EvRead (Some x)) (a, s, rest)
  | mv_idle a s : moves (a, s, []) (EvRead (Some [])) (a, s, [])                (* a read only times out if nothing is left to be read *)
  | mv_open a s pend name : moves (a, s, pend) (EvOpen name true) (a, s, [])
  | mv_baud a s pend b : moves (a, s, pend) (EvBaud b) (a, s, pend)
  | mv_timeout a s pend t : moves (a, s, pend) (EvTimeout t) (a, s, pend)
  | mv_close a s pend : moves (a, s, pend) EvClose (a, s, []).
  (* the port activity t is with this adapter and this car *)
  Inductive follows : conf -> list event -> conf -> Prop :=
  | fo_nil x : follows x [] x
  | fo_cons x ev y t z : moves x ev y -> follows y t z -> follows x (ev :: t) z.
End Car.
