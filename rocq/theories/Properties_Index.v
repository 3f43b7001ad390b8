(* Properties C63 and C66, continued: commands[mode], names there are not, and printed text with doubled underscores. *)
From Coq Require Import ZArith List Bool Lia String.
From Verif Require Import Py Num Utils Protocol Decoders Command CommandTable Commands World Elm SpecWire SpecCmd SpecElm SpecProto SpecNum SpecVolt Obd
  PyFacts WireFacts ProtocolFacts ProtocolThms CommandThms VoltThms Properties_Protocol Properties_Commands Properties_Decoders Properties_Elm Properties_Voltage.
Import ListNotations.
Open Scope string_scope. Open Scope list_scope. Open Scope Z_scope.

(* commands[mode] for the modes 0 to 9: a list in which exactly the commands with this mode occur *)
Definition mode_names (m : Z) : list text := map c_name (filter (fun c => oz_eqb (c_mode c) (Some m)) all_commands).
Lemma modes_hold : forallb (fun m => match get_mode m with
    | Ok l => forallb (fun n => existsb (text_eqb n) (map c_name (somes l))) (mode_names m) && forallb (fun c => oz_eqb (c_mode c) (Some m)) (somes l)
    | Raise _ => false end) [0; 1; 2; 3; 4; 5; 6; 7; 8; 9] = true.
Proof. vm_compute. reflexivity. Qed.
Lemma mode_in_table m l : 0 <= m <= 9 -> get_mode m = Ok l -> incl (somes l) all_commands.
Proof.
  intros R G c H. unfold all_commands. apply in_or_app. left. unfold somes in *. apply in_flat_map in H as (oc & I & X). apply in_flat_map. exists oc. split; [|exact X].
  apply in_concat. exists l. split; [|exact I]. unfold get_mode in G. replace (0 <=? m) with true in G by lia. unfold get in G. destruct (nth_error modes (Z.to_nat m)) eqn:N; [|discriminate G].
  injection G as ->. exact (nth_error_In _ _ N).
Qed.
Theorem C63_by_mode : forall m, 0 <= m <= 9 -> exists l, get_mode m = Ok l /\ forall c, In (Some c) l <-> In c all_commands /\ c_mode c = Some m.
Proof.
  intros m R. pose proof modes_hold as F. rewrite forallb_forall in F. specialize (F m). assert (I : In m [0; 1; 2; 3; 4; 5; 6; 7; 8; 9]) by (cbn; lia). specialize (F I).
  destruct (get_mode m) as [l|] eqn:G; [|discriminate F]. exists l. split; [reflexivity|]. apply andb_prop in F as [F1 F2]. rewrite forallb_forall in F1, F2.
  assert (S : forall c, In (Some c) l <-> In c (somes l)).
  { intros c. unfold somes. rewrite in_flat_map. split; [intros H; exists (Some c); split; [exact H|left; reflexivity]|intros ([d|] & H & X); [destruct X as [<-|[]]; exact H|destruct X]]. }
  intros c. rewrite S. split.
  - intros H. split; [exact (mode_in_table m l R G c H)|]. specialize (F2 c H). unfold oz_eqb in F2. destruct (c_mode c) as [k|]; [apply Z.eqb_eq in F2; congruence|discriminate F2].
  - intros [Ic Mc]. assert (In (c_name c) (mode_names m)) as Hn.
    { unfold mode_names. apply in_map. apply filter_In. split; [exact Ic|]. rewrite Mc. cbn [oz_eqb]. apply Z.eqb_refl. }
    specialize (F1 _ Hn). apply existsb_exists in F1 as (n & Hm & E). apply text_eqb_eq in E. subst n. apply in_map_iff in Hm as (c' & E & H).
    assert (c' = c); [|congruence].
    assert (U : forall (L : list command) x y, NoDup (map c_name L) -> In x L -> In y L -> c_name x = c_name y -> x = y).
    { clear. induction L as [|z L IH]; cbn [map In]; [tauto|]. intros x y D Ix Iy E. inversion D as [|? ? Nz D']; subst. destruct Ix as [<-|Ix], Iy as [<-|Iy]; auto.
      - exfalso. apply Nz. rewrite E. apply in_map, Iy.
      - exfalso. apply Nz. rewrite <- E. apply in_map, Ix. }
    exact (U all_commands c' c (proj1 C63_unique) (mode_in_table m l R G c' H) Ic E).
Qed.
Theorem C63_no_mode : forall m, 9 < m -> get_mode m = Raise IndexError.
Proof.
  intros m L. unfold get_mode. replace (0 <=? m) with true by lia. unfold get. destruct (nth_error modes (Z.to_nat m)) eqn:N; [|reflexivity].
  exfalso. assert (Z.to_nat m < List.length modes)%nat by (apply nth_error_Some; congruence). cbn in H. lia.
Qed.
(* a name that is no command's is a KeyError *)
Theorem C63_no_name : forall name, (forall c, In c all_commands -> c_name c <> name) -> get_name name = Raise KeyError.
Proof.
  intros name H. assert (K : forall c, get_name name <> Ok c) by (intros c E; apply C63_by_name in E; exact (H c (proj1 E) (proj2 E))).
  unfold get_name in *. destruct (dict_get text_eqb by_name name) as [c|]; [exfalso; exact (K c eq_refl)|reflexivity].
Qed.
Example C63_by_mode_example : exists l, get_mode 3 = Ok l /\ In (Some (cmd "GET_DTC")) l.
Proof.
  destruct (C63_by_mode 3 ltac:(lia)) as (l & G & F). exists l. split; [exact G|]. apply F. split; [apply (cmd_named "GET_DTC"); vm_compute; congruence|reflexivity].
Qed.
Example C63_no_name_example : get_name (str "WARP_SPEED") = Raise KeyError.
Proof.
  apply C63_no_name. intros c I E. assert (F : forallb (fun c => negb (text_eqb (c_name c) (str "WARP_SPEED"))) all_commands = true) by (vm_compute; reflexivity).
  rewrite forallb_forall in F. specialize (F c I). rewrite E in F. vm_compute in F. discriminate F.
Qed.

(* C66: two underscores in a row are in no number, wherever they stand *)
Lemma under_two a : forall b q, underscores_ok q (a ++ 95 :: 95 :: b) = false.
Proof.
  induction a as [|c a IH]; intros b q; [destruct q; reflexivity|]. cbn [app underscores_ok]. destruct (c =? 95); [rewrite IH; apply andb_false_r|apply IH].
Qed.
Theorem C66_underscores : forall c p a b, named ["ELM_VOLTAGE"] c -> In (p_class p) protocol_classes \/ p_class p = UnknownProtocol ->
  Forall (fun ch => 0 <= ch < 128 /\ ~ In ch white) (a ++ str "__" ++ b) -> ~ hex_line (a ++ str "__" ++ b) ->
  exists ms r, call p [a ++ str "__" ++ b] = Ok ms /\ cmd_call c ms = Ok r /\ is_null r = true.
Proof.
  intros c p a b N Hp P Nh. set (l := a ++ str "__" ++ b) in *. destruct (volt_eval c l N) as (r & C & V).
  assert (E : py_float (remove_char 118 (lower l)) = None); [|rewrite E in V; eexists _, r; split; [apply (call_text p l Hp Nh)|]; split; [exact C|]; unfold is_null; rewrite V; apply orb_true_r].
  assert (El : remove_char 118 (lower l) = remove_char 118 (lower a) ++ 95 :: 95 :: remove_char 118 (lower b)).
  { unfold l, lower, remove_char. rewrite !map_app, !filter_app. reflexivity. }
  assert (Sp : Forall (fun x => uspace x = false) (remove_char 118 (lower l))).
  { apply Forall_forall. intros x X. unfold remove_char in X. apply filter_In in X as [X _]. unfold lower in X. apply in_map_iff in X as (y & <- & Y).
    rewrite Forall_forall in P. specialize (P y Y). destruct P as [R W]. destruct (uspace (low y)) eqn:Q; [|exact Q]. exfalso. unfold low in Q. destruct ((65 <=? y) && (y <=? 90)) eqn:E2.
    - apply andb_true_iff in E2. rewrite !Z.leb_le in E2. unfold uspace in Q. rewrite !orb_true_iff, !andb_true_iff, !Z.leb_le, !Z.eqb_eq in Q. lia.
    - apply W. apply ElmFacts.uspace_white in Q. exact Q. }
  unfold py_float. rewrite (strip_keep uspace _ Sp), El, map_app. cbn [map].
  assert (T : to_ascii_digit 95 = 95) by (vm_compute; reflexivity). rewrite T, under_two. reflexivity.
Qed.
Example C66_underscores_example : Forall (fun ch => 0 <= ch < 128 /\ ~ In ch white) (str "1" ++ str "__" ++ str "2.3V") /\ ~ hex_line (str "1" ++ str "__" ++ str "2.3V").
Proof.
  split; [repeat constructor; vm_compute; intuition discriminate|]. rewrite hex_line_isHex. vm_compute. discriminate.
Qed.
(* C72: is_connected() is true exactly while the status is Car Connected, not on a mere connection to the adapter *)
Theorem C72_is_connected : forall o, is_connected o = true <-> obd_status o = CAR_CONNECTED.
Proof. intros o. unfold is_connected. destruct (obd_status o); cbn; split; congruence. Qed.
Example C72_is_connected_example : exists o, obd_status o = ELM_CONNECTED /\ is_connected o = false.
Proof. exists (mkObd (Some (mkElm ELM_CONNECTED None None false 1)) [] true 1 [] [] []). split; reflexivity. Qed.
Print Assumptions C63_by_mode.
Print Assumptions C63_no_mode.
Print Assumptions C63_no_name.
Print Assumptions C66_underscores.
Print Assumptions C72_is_connected.
