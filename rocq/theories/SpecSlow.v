(* An adapter of the ELM327 kind (SpecAdapter) whose output may take any time to arrive: reads time out while there is more to come. No proofs in this file. *)
From Coq Require Import ZArith List Bool.
From Verif Require Import Py Protocol Decoders Command World Elm Obd SpecElm SpecObd SpecAdapter SpecAdapter2.
Import ListNotations.
Open Scope Z_scope.

Section Car.
  Context {Car : Type} (ask : Car -> option text -> text -> list text -> Car -> Prop).
  (* as SpecAdapter.moves, but a read may time out at any time, and some of what was to be read (the last part: late) may arrive only after unread output is thrown
     away, before a line is written; on_time: this does not happen, only the reads come too early *)
  Inductive slowly (on_time : bool) : conf (Car := Car) -> event -> conf (Car := Car) -> Prop :=
  | sl_write a s early late l lines out a' s' : obeys ask a s l lines a' s' -> prints a lines out -> (on_time = true -> late = []) ->
      slowly on_time (a, s, early ++ late) (EvWrite (l ++ [CR])) (a', s', late ++ out ++ [PROMPT])
  | sl_pile a s pend l lines out a' s' : obeys ask a s l lines a' s' -> prints a lines out -> slowly on_time (a, s, pend) (EvSend false (l ++ [CR])) (a', s', pend ++ out ++ [PROMPT])
  | sl_probe a s pend out : slowly on_time (a, s, pend) (EvWrite [127; 127; CR]) (a, s, out)
  | sl_read a s x rest : x <> [] -> slowly on_time (a, s, x ++ rest) (EvRead (Some x)) (a, s, rest)
  | sl_idle a s pend : slowly on_time (a, s, pend) (EvRead (Some [])) (a, s, pend)
  | sl_open a s pend name : slowly on_time (a, s, pend) (EvOpen name true) (a, s, [])
  | sl_baud a s pend b : slowly on_time (a, s, pend) (EvBaud b) (a, s, pend)
  | sl_timeout a s pend t : slowly on_time (a, s, pend) (EvTimeout t) (a, s, pend)
  | sl_close a s pend : slowly on_time (a, s, pend) EvClose (a, s, []).
  Inductive slow_follows (on_time : bool) : conf (Car := Car) -> list event -> conf (Car := Car) -> Prop :=
  | sf_nil x : slow_follows on_time x [] x
  | sf_cons x ev y t z : slowly on_time x ev y -> slow_follows on_time y t z -> slow_follows on_time x (ev :: t) z.

  (* as SpecAdapter2.together and queried, with such an adapter *)
  Definition slow_together (on_time : bool) (cf : config) (name : text) (scan : list text) (w : world) (h : list step) (o : obd) (w1 : world) (x y : conf (Car := Car)) : Prop :=
    exists t0, session cf (Some name) scan w t0 h (o, w1) /\ slow_follows on_time x (t0 ++ List.concat (map st_events h)) y.
  Definition slow_queried (on_time : bool) (c : command) (force : bool) (o : obd) (w1 : world) (y : conf (Car := Car)) (t : list event) (r : res response) (o' : obd) (z : conf (Car := Car)) : Prop :=
    exists w2, query c force (o, w1) = (r, (o', w2)) /\ w_trace w2 = w_trace w1 ++ t /\ slow_follows on_time y t z.
End Car.

(* the bytes that were read *)
Definition got (t : list event) : bytes := flat_map (fun ev => match ev with EvRead (Some x) => x | _ => [] end) t.
(* lines are what there is in one stretch of what the adapter prints as the answer full: the stretches before it hold no lines; rd: what was read, up to the end of the stretch *)
Definition stretch_in (rd : bytes) (full lines : list text) : Prop :=
  exists out us v w, answer_lines (out ++ [PROMPT]) full /\ ~ In PROMPT out /\ out ++ [PROMPT] = List.concat us ++ v ++ w
    /\ Forall (fun u => answer_lines u []) us /\ answer_lines v lines /\ rd = List.concat us ++ v.
Definition stretch (full lines : list text) : Prop := exists rd, stretch_in rd full lines.
Definition ascii (s : bytes) : Prop := Forall (fun c => c < 128) s.
(* lines are the first lines of full, and possibly a part of the next one *)
Definition cut_of (full lines : list text) : Prop :=
  exists k, lines = firstn k full \/ exists l rest, nth_error full k = Some (l ++ rest) /\ lines = firstn k full ++ [l].
(* queries of commands with the engine's header only *)
Definition engine_only (x : step) : Prop := match st_op x with OpQuery c _ => c_header c = engine_header | _ => True end.
(* every header set in this port activity was acknowledged *)
Definition acknowledged (t : list event) : Prop :=
  forall t1 t2 t3 hd lines, t = t1 ++ t2 ++ t3 -> asks 12 (str "AT SH " ++ hd ++ str " ") t2 lines -> lines = [str "OK"].
