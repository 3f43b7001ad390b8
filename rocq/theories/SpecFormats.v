(* Specification vocabulary: the frame formats of the protocols of the ELM327. No proofs in this file. *)
From Coq Require Import ZArith List String.
From Verif Require Import Py Protocol.
Import ListNotations.
Open Scope string_scope. Open Scope list_scope. Open Scope Z_scope.

(* data sheet of the ELM327, AT SP: 1 and 2 are SAE J1850, 3 is ISO 9141-2, 4 and 5 are ISO 14230-4: three header bytes, data, checksum;
   6 and 8 are CAN with 11-bit ids, 7 and 9 CAN with 29-bit ids, and so is A (SAE J1939) *)
Definition older_protocols : list text := map str ["1"; "2"; "3"; "4"; "5"].
Definition can_protocols (width : Z) : list text := if width =? 11 then map str ["6"; "8"] else if width =? 29 then map str ["7"; "9"; "A"] else [].
