(* C76: the port scan. *)
From Coq Require Import ZArith List Bool.
From Verif Require Import Py Num Utils Protocol Decoders Command CommandTable Commands World Elm Obd Scan SpecObd SpecScan ScanThms.
Import ListNotations.
Open Scope Z_scope.

(* ------------------------------------------------------------------ C76 *)
(* scan_serial() returns exactly those candidates that can be opened, in the order of the candidates; each was closed again at once,
   and nothing else was opened *)
Theorem C76_found : forall m l ev, scan_serial m = (Found l, ev) ->
  exists cs, candidates m cs /\ picks (fun p => m_probe m p = Opens) (fun p => p) cs l /\ ev = visits l
    /\ forall p n, In p cs -> ~ hard (m_probe m p) n.
Proof.
  intros m l ev H. apply try_ports_spec in H as [(l' & E & P & V & F)|(b & p & a & n & l' & _ & _ & E & _)]; [|discriminate E].
  cbn [app] in E. injection E as ->. exists (possible_ports m). auto using possible_candidates.
Qed.
(* it raises exactly if opening some candidate fails with an error that is neither a SerialException nor ENOENT; the error is that
   of the first such candidate, and the ports opened before are closed *)
Theorem C76_error : forall m n ev, scan_serial m = (OsError n, ev) ->
  exists before p after l, candidates m (before ++ p :: after) /\ hard (m_probe m p) n
    /\ (forall q k, In q before -> ~ hard (m_probe m q) k)
    /\ picks (fun p => m_probe m p = Opens) (fun p => p) before l /\ ev = visits l.
Proof.
  intros m n ev H. apply try_ports_spec in H as [(l' & E & _)|(b & p & a & k & l' & E & Hd & En & F & P & V)]; [discriminate E|].
  injection En as ->. exists b, p, a, l'. rewrite <- E. auto using possible_candidates.
Qed.
(* the candidates are determined by the machine *)
Theorem C76_candidates : forall m, exists cs, candidates m cs /\ forall cs', candidates m cs' -> cs' = cs.
Proof. intros m. exists (possible_ports m). split; [apply possible_candidates|]. intros cs' C. eapply candidates_fun; [exact C|apply possible_candidates]. Qed.
(* OBD() without a port name scans, and then opens ports it found, in the order found, each at most once, and no others;
   an error of the scan leaves the constructor, before any adapter is talked to *)
Theorem C76_constructor : forall cf m w,
  match new_obd_auto cf m w with
  | (Found (r, (o, w')), ev) => exists l k, scan_serial m = (Found l, ev) /\ opened (w_trace w') = opened (w_trace w) ++ firstn k l
  | (OsError n, ev) => scan_serial m = (OsError n, ev)
  end.
Proof.
  intros cf m w. unfold new_obd_auto. destruct (scan_serial m) as [[l|n] ev]; [|reflexivity].
  destruct (scan_opens cf l w) as (k & H). destruct (new_obd cf None l w) as [r [o w']]. exists l, k. split; [reflexivity|exact H].
Qed.
(* a PC with a Bluetooth adapter, a USB adapter in use by another program, and one that is free *)
Definition pc : machine :=
  mkMachine (str "linux") [str "ttyUSB1"; str "null"; str "ttyUSB0"; str "rfcomm0"; str "ttyUSBx"; str "tty.x"; str ".rfcomm1"]
    (fun p => if text_eqb p (str "/dev/ttyUSB1") then Refuses else Opens).
Example C76_example : scan_serial pc = (Found [str "/dev/rfcomm0"; str "/dev/ttyUSB0"], visits [str "/dev/rfcomm0"; str "/dev/ttyUSB0"]).
Proof. vm_compute. reflexivity. Qed.
Example C76_example_error : scan_serial (mkMachine (str "linux2") (m_dev pc) (fun p => if text_eqb p (str "/dev/ttyUSB1") then Fails 5 else Opens))
  = (OsError 5, visits [str "/dev/rfcomm0"]).
Proof. vm_compute. reflexivity. Qed.
Example C76_example_mac : scan_serial (mkMachine (str "darwin") [str "tty.Bluetooth-Modem"; str "tty.OBDII"; str "ttyUSB0"] (fun _ => Opens))
  = (Found [str "/dev/tty.OBDII"], visits [str "/dev/tty.OBDII"]).
Proof. vm_compute. reflexivity. Qed.
Example C76_example_windows : scan_serial (mkMachine (str "win32") [] (fun p => if text_eqb p (str "\\.\COM13") then Opens else Fails 2))
  = (Found [str "\\.\COM13"], visits [str "\\.\COM13"]).
Proof. vm_compute. reflexivity. Qed.
