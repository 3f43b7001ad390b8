(* Model of try_port and scan_serial in obd/utils.py, and of OBD() without a port. No proofs in this file. *)
From Coq Require Import ZArith List Bool.
From Verif Require Import Py Num Utils Protocol Decoders Command CommandTable Commands World Elm Obd.
Import ListNotations.
Open Scope Z_scope.

(* what serial.Serial(name) does: opens the port, raises SerialException, or raises another OSError with this errno.
   (SerialException is an OSError; utils.py:157 catches it first.) *)
Inductive probe : Set := Opens | Refuses | Fails (errno : Z).
(* the machine: sys.platform, the entries of /dev in the order in which the system lists them, and its serial ports.
   Simplification: what a port does depends on its name only, and does not change during one scan. *)
Record machine := mkMachine { m_platform : text; m_dev : list text; m_probe : text -> probe }.
(* what the scan does to the ports *)
Inductive sevent : Set := SOpened (name : text) | SClosed (name : text).
(* a list of names, or an OSError with this errno *)
Inductive scanned (A : Type) : Type := Found (a : A) | OsError (errno : Z).
Arguments Found {A} a.
Arguments OsError {A} errno.

(* errno.ENOENT *)
Definition ENOENT : Z := 2.

(* utils.py:150-163  try_port. Simplification: s.close() does not raise. *)
Definition try_port (m : machine) (name : text) : scanned bool * list sevent :=
  match m_probe m name with
  | Opens => (Found true, [SOpened name; SClosed name])
  | Refuses => (Found false, [])
  | Fails n => if negb (n =? ENOENT) then (OsError n, []) else (Found false, [])
  end.

(* the elements of a glob pattern used in utils.py:173-185: a character, [0-9], * *)
Inductive gchar : Set := GChar (c : Z) | GDigit | GStar.
(* fnmatch.fnmatch(name, pattern), case-sensitive as on POSIX systems *)
Fixpoint fnmatch (p : list gchar) (s : text) {struct p} : bool :=
  match p with
  | [] => match s with [] => true | _ => false end
  | GChar c :: p' => match s with x :: s' => (x =? c) && fnmatch p' s' | [] => false end
  | GDigit :: p' => match s with x :: s' => (48 <=? x) && (x <=? 57) && fnmatch p' s' | [] => false end
  | GStar :: p' =>
      (fix star (s : text) : bool := fnmatch p' s || match s with [] => false | _ :: t => star t end) s
  end.
(* glob.glob("/dev/" + p): entries of the directory that match; those beginning with a dot only if p does *)
Definition glob_dev (m : machine) (p : list gchar) : list text :=
  let hidden := match p with GChar 46 :: _ => true | _ => false end in
  map (fun n => str "/dev/" ++ n) (filter (fun n => (hidden || negb (startswith (str ".") n)) && fnmatch p n) (m_dev m)).

(* utils.py:172-185  possible_ports *)
Definition possible_ports (m : machine) : list text :=
  let starts p := startswith p (m_platform m) in
  if starts (str "linux") || starts (str "cygwin") then
    glob_dev m (map GChar (str "rfcomm") ++ [GDigit; GStar]) ++ glob_dev m (map GChar (str "ttyUSB") ++ [GDigit; GStar])
  else if starts (str "win") then
    map (fun i => str "\\.\COM" ++ str_nat i) (seq 0 256)
  else if starts (str "darwin") then
    let exclude := [str "/dev/tty.Bluetooth-Incoming-Port"; str "/dev/tty.Bluetooth-Modem"] in
    filter (fun p => negb (existsb (text_eqb p) exclude)) (glob_dev m (map GChar (str "tty.") ++ [GStar]))
  else [].

(* utils.py:189-191 *)
Fixpoint try_ports (m : machine) (ports available : list text) : scanned (list text) * list sevent :=
  match ports with
  | [] => (Found available, [])
  | p :: t =>
      match try_port m p with
      | (OsError n, ev) => (OsError n, ev)
      | (Found ok, ev) =>
          let '(r, ev') := try_ports m t (if (ok : bool) then available ++ [p] else available) in (r, ev ++ ev')
      end
  end.
(* utils.py:166-193  scan_serial *)
Definition scan_serial (m : machine) : scanned (list text) * list sevent := try_ports m (possible_ports m) [].

(* obd.py:52-66, 74-76  OBD() without a port name: scan_serial() first; its exception leaves the constructor *)
Definition new_obd_auto (cf : config) (m : machine) (w : world) : scanned (res unit * (obd * world)) * list sevent :=
  match scan_serial m with
  | (Found names, ev) => (Found (new_obd cf None names w), ev)
  | (OsError n, ev) => (OsError n, ev)
  end.
