(* Model of obd/obd.py:169-242, the calls that only look at the connection, made by the user's thread while other threads use it.
   No proofs in this file.

   On top of Fine.v: between its other calls the user's thread may look; a look is a sequence of single attribute accesses. *)
From Coq Require Import ZArith List Bool.
From Verif Require Import Py Num Utils Protocol Decoders Command CommandTable Commands World Elm Obd Async Fine.
Import ListNotations.
Open Scope Z_scope.

Inductive look : Type := LStatus | LConnected | LPort | LId | LName | LSupports (c : command).
Inductive shown : Type := SStatus (s : status) | SBool (b : bool) | SText (t : text).
(* elm327.py:358-362: __port is read twice *)
Definition f_port_name : code text :=
  let* p <- elm_ (elm_of e_port);
  match p with
  | None => pure []
  | Some _ => let* p <- elm_ (elm_of e_port);
              match p with None => Done (Raise AttributeError) | Some p => pure (pt_name p) end      (* None.portstr *)
  end.
(* obd.py:169-174 status, 199-218 protocol_name, protocol_id, port_name, 220-227 is_connected, 237-242 supports;
   elm327.py:364-374 *)
Definition f_look (k : look) : code shown :=
  match k with
  | LSupports c => let* b <- obj (obd_of (fun o => supports o c)); pure (SBool b)
  | _ =>
      let* i <- obj (obd_of o_interface);
      match i with
      | None => pure (match k with LStatus => SStatus NOT_CONNECTED | LConnected => SBool false | _ => SText [] end)
      | Some _ =>
          match k with
          | LStatus => let* s <- elm_ (elm_of e_status); pure (SStatus s)
          | LConnected => let* s <- elm_ (elm_of e_status); pure (SBool (status_eqb s CAR_CONNECTED))
          | LPort => let* t <- f_port_name; pure (SText t)
          | LId => let* t <- obj (fun s => (obd_protocol_id (fst s), s)); pure (SText t)
          | _ => let* t <- obj (fun s => (obd_protocol_name (fst s), s)); pure (SText t)
          end
      end
  end.

(* the program, the look in progress, the looks that have returned *)
Record lstate := mkL { l_f : fstate; l_look : option (look * code shown); l_seen : list (look * res shown) }.
Definition l_conn (l : lstate) : conn := f_conn (l_f l).
Inductive lchoice : Type := LFine (ch : fchoice) | LLook (k : look).
Definition lstep (ch : lchoice) (l : lstate) : lstate :=
  match ch with
  | LFine ch =>
      match l_look l, ch with
      | Some _, FMain | Some _, FPower _ => l                       (* the user's thread is looking *)
      | _, _ => mkL (fstep ch (l_f l)) (l_look l) (l_seen l)
      end
  | LLook k =>
      match a_pc (f_a (l_f l)), f_power (l_f l) with
      | M_idle, None =>
          match l_look l with
          | None => mkL (l_f l) (Some (k, f_look k)) (l_seen l)
          | Some (k, Act g next) => mkL (f_upd (upd_obd (g (l_conn l)) (f_a (l_f l))) (l_f l)) (Some (k, next (l_conn l))) (l_seen l)
          | Some (k, Done r) => mkL (l_f l) None (l_seen l ++ [(k, r)])
          end
      | _, _ => l
      end
  end.
Definition lrun (sched : list lchoice) (l : lstate) : lstate := fold_left (fun l ch => lstep ch l) sched l.
Definition new_look (s : astate) : lstate := mkL (new_fine s) None [].
