(* What the documented response types mean. No proofs in this file. *)
From Coq Require Import ZArith List.
From Verif Require Import Py Decoders DocTables.
Import ListNotations.
Open Scope Z_scope.

(* other names the library itself gives to units (UnitsAndScaling.py:41-43) *)
Definition same_unit (u d : text) : Prop :=
  u = d \/ In (u, d) [(str "gps", str "grams_per_second"); (str "lph", str "liters_per_hour"); (str "ppm", str "parts_per_million")].
Definition hex_digit (c : Z) : Prop := 48 <= c <= 57 \/ 97 <= c <= 102.
Definition of_type (t : doc_type) (v : value) : Prop :=
  match t with
  | DocUnit d => exists n u, v = VQty n u /\ same_unit u d
  | DocString => exists s, v = VText s
  | DocHexString => exists s, v = VText s /\ Forall hex_digit s
  | DocBool => exists b, v = VBool b
  | DocBitArray => exists a, v = VBits a
  | DocFuelStatus => exists a b, v = VPair a b /\ In a doc_fuel_status /\ In b doc_fuel_status
  | DocAirStatus => exists s, v = VText s /\ In s doc_air_status
  | DocStatus => exists s, v = VStatus s /\ In (st_ignition_type s) [str "spark"; str "compression"] /\
                 (forall name, In name doc_tests -> exists t, dict_get otext_eqb (st_tests s) (Some name) = Some t)
  | DocDtc => exists code desc, v = VDtc code desc
  | DocDtcs => exists l, v = VDtcs l
  | DocO2 => exists banks, v = VTuple ([] :: banks) /\ map (@length bool) banks = [4; 4]%nat
  | DocO2Alt => exists banks, v = VTuple ([] :: banks) /\ map (@length bool) banks = [2; 2; 2; 2]%nat
  | DocMonitor => exists m, v = VMonitor m /\
      (forall tid name desc, In (tid, (name, desc)) doc_tids -> exists t, dict_get Z.eqb (mon_tests m) tid = Some t /\ dict_get text_eqb (mon_names m) name = Some t /\
         (t = mkTest None None None None None None \/ exists x lo hi, t = mkTest (Some tid) (Some name) (Some desc) (Some x) (Some lo) (Some hi)))
  | DocNothing => v = VNone
  | DocTodo => True
  end.
