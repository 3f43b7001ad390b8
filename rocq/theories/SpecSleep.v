(* An adapter with a low power mode, on top of SpecAdapter, after the adapter's data sheet; independent of the model of the library (only the types of
   port activity, World.event, and of histories are shared). No proofs in this file. *)
From Coq Require Import ZArith List Bool.
From Verif Require Import Py Protocol Decoders Command World Elm Obd SpecElm SpecObd SpecAdapter SpecAdapter2.
Import ListNotations.
Open Scope Z_scope.

Definition sleep_line : text := str "ATLP".
(* the line is ATLP, or blank after ATLP *)
Definition told_to_sleep (a : adapter) (l : bytes) : Prop := plain l = sleep_line \/ plain l = [] /\ plain (ad_last a) = sleep_line.
(* line ends *)
Definition line_ends (s : bytes) : Prop := Forall (fun c => c = 10 \/ c = 13) s.
(* OK, with nothing but line ends around it, and perhaps a prompt behind it *)
Definition acknowledged (out : bytes) : Prop :=
  exists before behind, line_ends before /\ line_ends behind /\ (out = before ++ str "OK" ++ behind \/ out = before ++ str "OK" ++ behind ++ [PROMPT]).
Definition is_write (ev : event) : Prop := match ev with EvSend _ _ => True | _ => False end.

Section Car.
  Context {Car : Type} (ask : Car -> option text -> text -> list text -> Car -> Prop).
  (* woken a a': an adapter that fell asleep with the settings a may wake up with the settings a' *)
  Context (woken : adapter -> adapter -> Prop).
  (* is it asleep; the rest as in SpecAdapter *)
  Definition zconf : Type := (bool * @conf Car)%type.
  Inductive zmoves : zconf -> event -> zconf -> Prop :=
  | z_awake a s pend ev y : moves ask (a, s, pend) ev y -> (forall fl l, ev = EvSend fl (l ++ [CR]) -> ~ told_to_sleep a l) -> zmoves (false, (a, s, pend)) ev (false, y)
  | z_sleep a s pend l out : told_to_sleep a l -> (ad_echo a = false -> acknowledged out) ->
      zmoves (false, (a, s, pend)) (EvWrite (l ++ [CR])) (true, (if text_eqb (plain l) [] then a else remember_line l a, s, out))
  | z_sleep_pile a s pend l out : told_to_sleep a l -> (ad_echo a = false -> acknowledged out) ->
      zmoves (false, (a, s, pend)) (EvSend false (l ++ [CR])) (true, (if text_eqb (plain l) [] then a else remember_line l a, s, pend ++ out))
  (* anything that is written wakes it up, and is not heeded; it may print anything then *)
  | z_wake a s pend fl l a' out : woken a a' -> zmoves (true, (a, s, pend)) (EvSend fl l) (false, (a', s, out))
  | z_asleep x ev y : moves ask x ev y -> ~ is_write ev -> zmoves (true, x) ev (true, y).
  Inductive zfollows : zconf -> list event -> zconf -> Prop :=
  | zf_nil x : zfollows x [] x
  | zf_cons x ev y t z : zmoves x ev y -> zfollows y t z -> zfollows x (ev :: t) z.

  (* as together and queried (SpecAdapter2) *)
  Definition ztogether (cf : config) (name : text) (scan : list text) (w : world) (h : list step) (o : obd) (w1 : world) (x y : zconf) : Prop :=
    exists t0, session cf (Some name) scan w t0 h (o, w1) /\ zfollows x (t0 ++ List.concat (map st_events h)) y.
  Definition zqueried (c : command) (force : bool) (o : obd) (w1 : world) (y : zconf) (t : list event) (r : res response) (o' : obd) (z : zconf) : Prop :=
    exists w2, query c force (o, w1) = (r, (o', w2)) /\ w_trace w2 = w_trace w1 ++ t /\ zfollows y t z.
  (* the adapter is awake, and not after ATLP, or asleep with start_low_power=True *)
  Definition startable (cf : config) (x : zconf) : Prop :=
    if fst x then cf_start_low_power cf = true else cf_start_low_power cf = true -> let '(a, _, _) := snd x in plain (ad_last a) <> sleep_line.
End Car.

(* ---- histories with power modes ---- *)
(* has the user put the adapter to sleep (dozing: before this step); a query that is sent wakes it *)
Definition dozes (dozing : bool) (x : step) : bool :=
  match st_op x, st_events x with
  | OpLowPower, _ :: _ => true
  | OpNormalPower, _ :: _ => false
  | OpQuery _ _, _ :: _ => false
  | _, _ => dozing
  end.
Definition asleep_after (h : list step) : bool := fold_left dozes h false.
(* queries of proper commands, marking commands as supported; low_power() only when awake and normal_power() only when asleep *)
Definition in_turn (dozing : bool) (x : step) : Prop :=
  match st_op x with
  | OpQuery c _ => proper c
  | OpAdd _ => True
  | OpLowPower => dozing = false
  | OpNormalPower => dozing = true
  | OpClose => False
  end.
Definition all_in_turn (h : list step) : Prop := forall h1 x h2, h = h1 ++ x :: h2 -> in_turn (asleep_after h1) x.
(* the settings survive the sleep *)
Definition settings_kept (woken : adapter -> adapter -> Prop) : Prop :=
  forall a a', woken a a' -> ad_echo a' = ad_echo a /\ ad_headers a' = ad_headers a /\ ad_header a' = ad_header a.
