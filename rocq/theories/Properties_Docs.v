(* Property C86: the response is what the command tables of the documentation say. *)
From Coq Require Import ZArith List Bool Lia String.
From Verif Require Import Py Num Utils Protocol Codes UasTable Decoders Command CommandTable Commands World Elm Obd SpecWire SpecCmd SpecObd SpecE2E DocTables SpecDocs
  PyFacts UtilsThms EcuMapThms CommandThms DecoderThms DecoderThms3 ElmThms ObdFacts ObdThms2 ObdThms7 E2EThms4 DocThms Properties_Protocol Properties_Decoders Properties_Elm Properties_Obd.
Import ListNotations.
Open Scope string_scope. Open Scope list_scope. Open Scope Z_scope.

(* documented commands the library does not have (they are commented out in commands.py) *)
Definition missing : list text :=
  [str "PERF_TRACKING_MESSAGE_COUNT"; str "PERF_TRACKING_SPARK"; str "ECU_NAME_MESSAGE_COUNT"; str "ECU_NAME"; str "PERF_TRACKING_COMPRESSION"].
Definition byte_strings : list text := [str "VIN"; str "CALIBRATION_ID"].

(* where the row says the command is: commands[mode][pid], the only command of the mode, or an adapter command *)
Definition at_place (row : doc_row) (c : command) : Prop :=
  match d_mode row, d_pid row with
  | Some m, Some p => has_pid m p = true /\ get_pid m p = Some c
  | Some m, None => get_mode m = Ok [Some c]
  | None, _ => In (Some c) misc
  end.
Lemma in_missing n l : existsb (text_eqb n) l = true <-> In n l.
Proof. rewrite existsb_exists. split; [intros (x & I & E); apply text_eqb_eq in E; subst; exact I|intros I; exists n; split; [exact I|apply text_eqb_eq; reflexivity]]. Qed.
Definition ocmd_same (a : option command) (name : text) : bool := match a with Some c => text_eqb (c_name c) name | None => false end.
Definition place_check (row : doc_row) : bool :=
  existsb (text_eqb (d_name row)) missing ||
  match get_name (d_name row) with
  | Ok c => match d_mode row, d_pid row with
            | Some m, Some p => has_pid m p && ocmd_same (get_pid m p) (d_name row)
            | Some m, None => match get_mode m with Ok [x] => ocmd_same x (d_name row) | _ => false end
            | None, _ => existsb (fun x => ocmd_same x (d_name row)) misc
            end && (text_eqb (c_desc c) (d_desc row) || existsb (text_eqb (d_name row)) [str "ELM_VERSION"; str "GET_DTC"])
            && (fits c (d_type row) || existsb (text_eqb (d_name row)) byte_strings)
            && match d_mode row with Some 1 => match get_name (str "DTC_" ++ d_name row) with Ok c2 => fits c2 (d_type row) | Raise _ => false end | _ => true end
  | Raise _ => false
  end.
Lemma rows_ok : forallb place_check doc_rows = true. Proof. vm_compute. reflexivity. Qed.
Lemma somes_In {A} (l : list (option A)) x : In (Some x) l -> In x (somes l).
Proof. intros I. apply in_flat_map. exists (Some x). split; [exact I|left; reflexivity]. Qed.
Lemma same_by_name name c c' : get_name name = Ok c -> In (Some c') (List.concat modes ++ misc) -> c_name c' = name -> c' = c.
Proof.
  intros G I E. assert (G' : get_name name = Ok c').
  { apply get_name_spec. split; [|exact E]. unfold all_commands. apply in_or_app. apply in_app_or in I as [I|I]; [left|right]; apply somes_In, I. }
  congruence.
Qed.
(* ------------------------------------------------------------------ C86 *)
(* the documented commands but those five exist, under their names and places, and with their descriptions (two are worded differently) *)
Theorem C86_commands_partial : forall row, In row doc_rows -> ~ In (d_name row) missing -> exists c, get_name (d_name row) = Ok c /\ at_place row c /\
  (c_desc c = d_desc row \/ In (d_name row) [str "ELM_VERSION"; str "GET_DTC"]).
Proof.
  intros row I N. pose proof rows_ok as F. rewrite forallb_forall in F. specialize (F row I). unfold place_check in F. destruct (existsb (text_eqb (d_name row)) missing) eqn:M; [apply in_missing in M; contradiction|]. cbn [orb] in F.
  destruct (get_name (d_name row)) as [c|] eqn:G; [|discriminate F]. exists c. split; [reflexivity|]. apply andb_true_iff in F as [F _]. apply andb_true_iff in F as [F _]. apply andb_true_iff in F as [F1 F2]. split.
  - unfold at_place. destruct (d_mode row) as [m|]; [destruct (d_pid row) as [p|]|].
    + apply andb_true_iff in F1 as [H F1]. split; [exact H|]. unfold ocmd_same in F1. destruct (get_pid m p) as [c'|] eqn:P; [|discriminate F1]. apply text_eqb_eq in F1. f_equal. apply (same_by_name _ _ _ G); [|exact F1].
      apply in_or_app. left. unfold get_pid in P. destruct (nth_in_or_default (Z.to_nat p) (nth (Z.to_nat m) modes []) None) as [I1|E1]; [|rewrite E1 in P; discriminate P]. rewrite P in I1.
      destruct (nth_in_or_default (Z.to_nat m) modes []) as [I2|E2]; [|rewrite E2 in I1; destruct I1]. apply in_concat. eauto.
    + unfold ocmd_same in F1. destruct (get_mode m) as [[|[c'|] [|]]|] eqn:P; try discriminate F1. apply text_eqb_eq in F1. do 3 f_equal. apply (same_by_name _ _ _ G); [|exact F1].
      apply in_or_app. left. apply in_concat. exists [Some c']. split; [|left; reflexivity]. unfold get_mode, get in P.
      destruct (0 <=? m); [destruct (nth_error modes (Z.to_nat m)) eqn:E; [injection P as ->; exact (nth_error_In _ _ E)|discriminate P]|].
      destruct (0 <=? zlen modes + m); [|discriminate P]. destruct (nth_error modes (Z.to_nat (zlen modes + m))) eqn:E; [injection P as ->; exact (nth_error_In _ _ E)|discriminate P].
    + apply existsb_exists in F1 as ([c'|] & I1 & E1); [|discriminate E1]. cbn in E1. apply text_eqb_eq in E1. rewrite <- (same_by_name _ _ _ G (in_or_app _ _ _ (or_intror I1)) E1). exact I1.
  - apply orb_true_iff in F2 as [F2|F2]; [left; apply text_eqb_eq, F2|right; apply in_missing, F2].
Qed.
(* and there are no others (apart from mode 02, and the two marked unsupported in the tables) *)
Theorem C86_no_others : forall c, In c all_commands -> c_mode c <> Some 2 -> In (c_name c) (map d_name doc_rows) \/ In (c_name c) [str "MAX_VALUES"; str "EMISSION_REQ"].
Proof.
  intros c I N. assert (F : forallb (fun c => (match c_mode c with Some 2 => true | _ => false end) || existsb (text_eqb (c_name c)) (map d_name doc_rows ++ [str "MAX_VALUES"; str "EMISSION_REQ"])) all_commands = true) by (vm_compute; reflexivity).
  rewrite forallb_forall in F. specialize (F c I). apply orb_true_iff in F as [F|F]; [exfalso; apply N; destruct (c_mode c) as [[|[|[]|]|]|]; try discriminate F; reflexivity|]. apply in_missing, in_app_or in F. exact F.
Qed.
(* whatever is on the wire: a query for a documented command returns a value of the documented type, or none *)
Lemma typed c t cf port scan w t0 h o w1 force q o' w2 : In c all_commands -> fits c t = true -> session cf port scan w t0 h (o, w1) -> query c force (o, w1) = (Ok q, (o', w2)) -> r_value q = VNone \/ of_type t (r_value q).
Proof.
  intros I F S Q. pose proof (session_oinv _ _ _ _ _ _ _ _ S) as (OI & _). destruct (query_spec _ _ _ _ _ _ _ OI Q) as (t' & _ & R).
  destruct (query_value _ _ _ _ _ _ OI R) as [->|(p & lines & ms & G & C & K)]; [left; reflexivity|]. apply good_class_classes in G. apply classes_ok' in G.
  apply (call_type c t ms q (all_nonneg c I) F); [|exact K]. pose proof (call_bytes _ _ _ _ G C) as B. pose proof (call_frames p lines ms G C) as N. rewrite Forall_forall in *. auto.
Qed.
Theorem C86_types_partial : forall row c cf port scan w t0 h o w1 force q o' w2, In row doc_rows -> get_name (d_name row) = Ok c -> ~ In (d_name row) byte_strings ->
  session cf port scan w t0 h (o, w1) -> query c force (o, w1) = (Ok q, (o', w2)) -> r_value q = VNone \/ of_type (d_type row) (r_value q).
Proof.
  intros row c cf port scan w t0 h o w1 force q o' w2 I G N S Q. pose proof rows_ok as F. rewrite forallb_forall in F. specialize (F row I). unfold place_check in F. rewrite G in F.
  assert (Ic : In c all_commands) by (apply get_name_spec in G; tauto).
  assert (M : existsb (text_eqb (d_name row)) missing = false).
  { destruct (existsb (text_eqb (d_name row)) missing) eqn:E; [|reflexivity]. apply in_missing in E. exfalso. revert G. cbn in E. repeat (destruct E as [<-|E]; [vm_compute; discriminate|]). destruct E. }
  rewrite M in F. cbn [orb] in F. apply andb_true_iff in F as [F _]. apply andb_true_iff in F as [_ F]. apply orb_true_iff in F as [F|F]; [|apply in_missing in F; contradiction].
  exact (typed c _ _ _ _ _ _ _ _ _ _ _ _ _ Ic F S Q).
Qed.
(* the same in mode 02, under the name with DTC_ in front *)
Theorem C86_freeze_frame : forall row c cf port scan w t0 h o w1 force q o' w2, In row doc_rows -> d_mode row = Some 1 -> get_name (str "DTC_" ++ d_name row) = Ok c ->
  session cf port scan w t0 h (o, w1) -> query c force (o, w1) = (Ok q, (o', w2)) -> r_value q = VNone \/ of_type (d_type row) (r_value q).
Proof.
  intros row c cf port scan w t0 h o w1 force q o' w2 I Mo G S Q. pose proof rows_ok as F. rewrite forallb_forall in F. specialize (F row I). unfold place_check in F. rewrite G, Mo in F.
  assert (Ic : In c all_commands) by (apply get_name_spec in G; tauto).
  destruct (existsb (text_eqb (d_name row)) missing) eqn:M.
  { exfalso. apply in_missing in M. revert G. cbn in M. repeat (destruct M as [<-|M]; [vm_compute; discriminate|]). destruct M. }
  cbn [orb] in F. destruct (get_name (d_name row)); [|discriminate F]. apply andb_true_iff in F as [_ F]. exact (typed c _ _ _ _ _ _ _ _ _ _ _ _ _ Ic F S Q).
Qed.
Theorem C86_freeze_frame_there : forall row, In row doc_rows -> d_mode row = Some 1 -> exists c, get_name (str "DTC_" ++ d_name row) = Ok c.
Proof.
  intros row I Mo. assert (F : forallb (fun row => match d_mode row with Some 1 => match get_name (str "DTC_" ++ d_name row) with Ok _ => true | _ => false end | _ => true end) doc_rows = true) by (vm_compute; reflexivity).
  rewrite forallb_forall in F. specialize (F row I). rewrite Mo in F. destruct (get_name (str "DTC_" ++ d_name row)); [eauto|discriminate F].
Qed.
(* and whatever is on the wire, the values are the same, except that in mode 02 the lists of supported PIDs give none *)
Definition listings1 : list text := [str "PIDS_A"; str "PIDS_B"; str "PIDS_C"].
Definition freeze_row (row : doc_row) : bool := match d_mode row with Some 1 => negb (existsb (text_eqb (d_name row)) listings1) | _ => false end.
Definition essence (name : text) : option (decoder * Z * Z) := match get_name name with Ok c => Some (c_decode c, c_bytes c, c_ecu c) | Raise _ => None end.
Lemma freeze_rows : map (fun row => essence (str "DTC_" ++ d_name row)) (filter freeze_row doc_rows) = map (fun row => essence (d_name row)) (filter freeze_row doc_rows).
Proof. vm_compute. reflexivity. Qed.
Theorem C86_freeze_frame_same : forall row a b p lines q q', In row doc_rows -> d_mode row = Some 1 -> ~ In (d_name row) listings1 ->
  get_name (d_name row) = Ok a -> get_name (str "DTC_" ++ d_name row) = Ok b -> reading a p lines q -> reading b p lines q' -> r_value q' = r_value q.
Proof.
  intros row a b p lines q q' I Mo Nl Ga Gb Ra Rb.
  assert (X : In row (filter freeze_row doc_rows)).
  { apply filter_In. split; [exact I|]. unfold freeze_row. rewrite Mo. apply negb_true_iff. destruct (existsb (text_eqb (d_name row)) listings1) eqn:E; [|reflexivity].
    apply existsb_exists in E as (n & J & E). apply text_eqb_iff in E. rewrite <- E in J. contradiction. }
  pose proof (proj1 map_ext_in_iff freeze_rows row X) as F. cbv beta in F. unfold essence in F. rewrite Ga, Gb in F. assert (Fd : c_decode b = c_decode a /\ c_bytes b = c_bytes a /\ c_ecu b = c_ecu a) by (split; [|split]; congruence).
  destruct Fd as (Fd & Fb & Fe). clear F X I Ga Gb.
  destruct (reading_call _ _ _ _ Ra) as (_ & ms & C & V). destruct (reading_call _ _ _ _ Rb) as (_ & ms' & C' & V'). rewrite C in C'. assert (ms' = ms) by congruence. subst ms'.
  destruct V as [[-> ->]|[N V]], V' as [[E V']|[N' V']]; [rewrite V'; reflexivity|contradiction N'; reflexivity|contradiction|].
  unfold cmd_call in V, V'. rewrite Fd, Fb, Fe in V'. destruct (nonempty _); [|apply ok_inj in V; apply ok_inj in V'; rewrite <- V, <- V'; reflexivity].
  destruct (run_decoder (c_decode a) _) as [v|x]; cbn [rbind] in V, V'; [|discriminate V].
  assert (r_value q = v) by (apply ok_inj in V; rewrite <- V; reflexivity). assert (r_value q' = v) by (apply ok_inj in V'; rewrite <- V'; reflexivity). congruence.
Qed.
(* five documented commands do not exist *)
Theorem C86_missing_refuted : Forall (fun name => (exists row, In row doc_rows /\ d_name row = name) /\ get_name name = Raise KeyError /\ has_name name = false) missing.
Proof.
  assert (K : forall name, existsb (fun row => text_eqb (d_name row) name) doc_rows = true -> exists row, In row doc_rows /\ d_name row = name) by (intros name H; apply existsb_exists in H as (row & I & E); apply text_eqb_eq in E; eauto).
  repeat (apply Forall_cons; [split; [apply K; vm_compute; reflexivity|split; vm_compute; reflexivity]|]). apply Forall_nil.
Qed.
(* the VIN and the calibration id are documented as strings: they are bytearrays, always *)
Theorem C86_string_refuted : (exists row, In row doc_rows /\ d_name row = str "VIN" /\ d_type row = DocString) /\
  forall name c cf port scan w t0 h o w1 force q o' w2, In name byte_strings -> get_name name = Ok c -> session cf port scan w t0 h (o, w1) -> query c force (o, w1) = (Ok q, (o', w2)) ->
    r_value q = VNone \/ (exists d, r_value q = VBytes d) /\ ~ of_type DocString (r_value q).
Proof.
  split.
  - assert (E : existsb (fun row => text_eqb (d_name row) (str "VIN") && match d_type row with DocString => true | _ => false end) doc_rows = true) by (vm_compute; reflexivity).
    apply existsb_exists in E as (row & I & E). apply andb_true_iff in E as [E1 E2]. apply text_eqb_eq in E1. exists row. split; [exact I|]. split; [exact E1|]. destruct (d_type row); try discriminate E2. reflexivity.
  - intros name c cf port scan w t0 h o w1 force q o' w2 In0 G S Q. assert (D : exists n, c_decode c = D_encoded_string n).
    { cbn in In0. destruct In0 as [<-|[<-|[]]]; vm_compute in G; injection G as <-; eexists; reflexivity. }
    destruct D as (n & D). pose proof (session_oinv _ _ _ _ _ _ _ _ S) as (OI & _). destruct (query_spec _ _ _ _ _ _ _ OI Q) as (t' & _ & R).
    destruct (query_value _ _ _ _ _ _ OI R) as [->|(p & lines & ms & _ & _ & K)]; [left; reflexivity|]. unfold cmd_call in K. rewrite D in K. destruct (nonempty _); [|injection K as <-; auto].
    cbn [run_decoder] in K. unfold dec_encoded_string in K. destruct (decode_encoded_string _ _) as [[d|]|]; cbn [rbind] in K; [| |discriminate K]; injection K as <-; [|auto]. right. cbn [r_value]. split; [eauto|]. intros (s & E). discriminate E.
Qed.
Example C86_example : forall row c, In row doc_rows -> d_name row = str "RPM" -> get_name (str "RPM") = Ok c ->
  d_type row = DocUnit (str "rpm") /\ (exists n, match fst (query c true (snd (outcome (setup true) (fresh (up ++ [says (str "7E8 04 41 0C 1A F8")])) []))) with Ok q => r_value q = VQty n (str "rpm") | Raise _ => False end).
Proof.
  intros row c I E G. split; [|vm_compute in G; injection G as <-; eexists; vm_compute; reflexivity].
  assert (F : forallb (fun row => negb (text_eqb (d_name row) (str "RPM")) || match d_type row with DocUnit u => text_eqb u (str "rpm") | _ => false end) doc_rows = true) by (vm_compute; reflexivity).
  rewrite forallb_forall in F. specialize (F row I). rewrite E in F. cbn [negb orb] in F. change (text_eqb (str "RPM") (str "RPM")) with true in F. cbn [negb orb] in F. destruct (d_type row); try discriminate F. apply text_eqb_eq in F. subst u. reflexivity.
Qed.
