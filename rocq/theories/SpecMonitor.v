(* Specification vocabulary for monitor results (mode 06). No proofs in this file. *)
From Coq Require Import ZArith List Bool.
From Verif Require Import Py Num Utils Protocol Codes UasTable Decoders SpecWire SpecBits SpecCmd.
Import ListNotations.
Open Scope Z_scope.

(* what a block of 9 bytes says *)
(* the block is about the test tid, and its unit is one of the listed *)
Definition usable (tid : Z) (b : bytes) : Prop := block_tid b = tid /\ In (block_uas b) (map fst UAS_IDS).
(* what the test tid is called *)
Definition names_test (tid : Z) (name desc : text) : Prop :=
  In (tid, (name, desc)) TEST_IDS \/ (~ In tid (map fst TEST_IDS) /\ name = str "Unknown" /\ desc = str "Unknown").
(* the test result a block says: value, lower and upper limit, in the unit and scaling with the id in the third byte *)
Definition block_test (b : bytes) (t : mtest) : Prop :=
  exists mid tid id v1 v2 l1 l2 h1 h2 u name desc v lo hi,
    b = [mid; tid; id; v1; v2; l1; l2; h1; h2] /\ In (id, u) UAS_IDS /\ names_test tid name desc
    /\ uas_call u [v1; v2] = Ok v /\ uas_call u [l1; l2] = Ok lo /\ uas_call u [h1; h2] = Ok hi
    /\ t = mkTest (Some tid) (Some name) (Some desc) (Some v) (Some lo) (Some hi).
