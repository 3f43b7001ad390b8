(* Properties C15-C18, C63, C64: commands and the command tables. *)
From Coq Require Import ZArith List Bool Lia String.
From Verif Require Import Py Num Utils Protocol Decoders Command CommandTable Commands SpecWire SpecBits SpecCmd PyFacts CommandThms Examples.
Import ListNotations.
Open Scope Z_scope.

(* ------------------------------------------------------------------ C15 *)
(* prepared c ms ms': ms' are the messages sharing an ECU bit with the command's filter, in order, each resized *)
Theorem C15_decoder_input : forall c ms ms' sel, 0 <= c_ecu c ->
  selects (fun m => common_bit (c_ecu c) (m_ecu m)) ms sel ->
  Forall2 (fun m m' => m_frames m' = m_frames m /\ m_ecu m' = m_ecu m /\ resized (c_bytes c) (m_data m) (m_data m')) sel ms' ->
  cmd_call c ms = match ms' with
                  | [] => Ok (mkResponse (Some c) [] VNone)
                  | _ => match run_decoder (c_decode c) ms' with
                         | Ok v => Ok (mkResponse (Some c) ms' v)
                         | Raise e => Raise e
                         end
                  end.
Proof. intros c ms ms' sel Hc S F. apply cmd_call_prepared; [exact Hc|exists sel; auto]. Qed.
(* such lists always exist and are unique, so the equation determines the call *)
Theorem C15_input_unique : forall c ms, 0 <= c_ecu c ->
  exists! ms', exists sel, selects (fun m => common_bit (c_ecu c) (m_ecu m)) ms sel /\
    Forall2 (fun m m' => m_frames m' = m_frames m /\ m_ecu m' = m_ecu m /\ resized (c_bytes c) (m_data m) (m_data m')) sel ms'.
Proof.
  intros c ms Hc. exists (map (constrain (c_bytes c)) (filter (fun m => 0 <? Z.land (c_ecu c) (m_ecu m)) ms)).
  split; [exact (prepared_ex c ms Hc)|]. intros ms' P. symmetry. exact (prepared_eq c ms ms' Hc P).
Qed.
(* messages are resized in place: evaluating the command again on them gives the same response *)
Theorem C15_repeatable : forall c ms r, cmd_call c ms = Ok r -> cmd_call c (r_messages r) = Ok r.
Proof. exact cmd_call_again. Qed.
(* a custom command whose decoder returns the number of messages *)
Definition counting : command :=
  mkCommand (str "COUNT") [] (str "0199") 4 (D_custom (fun ms => Ok (VCustom (Z.of_nat (List.length ms))))) ECU_ENGINE false ECU_HEADER_ENGINE.
Example C15_example : 0 <= c_ecu counting /\
  cmd_call counting [mkMessage [] ECU_ENGINE [1; 2]; mkMessage [] ECU_UNKNOWN [3]; mkMessage [] ECU_ENGINE [4; 5; 6; 7; 8]]
  = Ok (mkResponse (Some counting) [mkMessage [] ECU_ENGINE [1; 2; 0; 0]; mkMessage [] ECU_ENGINE [4; 5; 6; 7]] (VCustom 2)).
Proof.
  split; [vm_compute; congruence|].
  rewrite (C15_decoder_input counting _ [mkMessage [] ECU_ENGINE [1; 2; 0; 0]; mkMessage [] ECU_ENGINE [4; 5; 6; 7]]
             [mkMessage [] ECU_ENGINE [1; 2]; mkMessage [] ECU_ENGINE [4; 5; 6; 7; 8]]); [reflexivity|vm_compute; congruence| |].
  - constructor 2; [exists 1; auto|]. constructor 3; [intros (i & H1 & H2)|].
    + cbn in H1, H2. destruct i as [|[p|p|]|p]; try discriminate; destruct p; discriminate.
    + constructor 2; [exists 1; auto|constructor].
  - apply Forall2_cons; [|apply Forall2_cons; [|apply Forall2_nil]]; (split; [reflexivity|split; [reflexivity|]]);
      (split; [intros _; split; [reflexivity|]|cbn; lia]).
    + right. exists [0; 0]. repeat constructor.
    + left. exists [8]. reflexivity.
Qed.

(* ------------------------------------------------------------------ C16 *)
Theorem C16_null : forall c ms r, 0 <= c_ecu c -> cmd_call c ms = Ok r ->
  (is_null r = true <-> (forall m, In m ms -> ~ common_bit (c_ecu c) (m_ecu m)) \/ r_value r = VNone).
Proof.
  intros c ms r Hc H. destruct (prepared_ex c ms Hc) as (sel & S & F). pose proof (cmd_call_prepared c ms _ Hc (prepared_ex c ms Hc)) as E.
  rewrite H in E. clear H. set (ms' := map _ _) in *. assert (N : (forall m, In m ms -> ~ common_bit (c_ecu c) (m_ecu m)) <-> ms' = []).
  { subst ms'. split.
    - intros K. replace (filter _ ms) with (@nil message); [reflexivity|]. symmetry. clear -K Hc. induction ms as [|m ms IH]; [reflexivity|]. cbn.
      destruct (0 <? Z.land (c_ecu c) (m_ecu m)) eqn:L; [apply land_common in L; [|exact Hc]; exfalso; eapply K; [left; reflexivity|exact L]|].
      apply IH. intros x Hx. apply K. right; exact Hx.
    - intros K m Hm B. apply (land_common _ _ Hc) in B. assert (I : In (constrain (c_bytes c) m) (map (constrain (c_bytes c)) (filter (fun m => 0 <? Z.land (c_ecu c) (m_ecu m)) ms))).
      { apply in_map, filter_In. auto. }
      rewrite K in I. exact I. }
  rewrite N. destruct ms' as [|m1 ms'].
  - injection E as ->. cbn. tauto.
  - destruct (run_decoder (c_decode c) (m1 :: ms')) as [v|e]; [|discriminate]. injection E as ->. unfold is_null. cbn [r_messages r_value nonempty negb orb].
    destruct v; cbn; split; intros K; try tauto; try discriminate; destruct K; discriminate.
Qed.
Theorem C16_no_message : forall c ms, 0 <= c_ecu c -> (forall m, In m ms -> ~ common_bit (c_ecu c) (m_ecu m)) ->
  cmd_call c ms = Ok (mkResponse (Some c) [] VNone).
Proof.
  intros c ms Hc K. unfold cmd_call. replace (filter _ ms) with (@nil message); [reflexivity|].
  symmetry. induction ms as [|m ms IH]; [reflexivity|]. cbn.
  destruct (0 <? Z.land (c_ecu c) (m_ecu m)) eqn:L; [apply land_common in L; [|exact Hc]; exfalso; eapply K; [left; reflexivity|exact L]|].
  apply IH. intros x Hx. apply K. right; exact Hx.
Qed.
Example C16_example : cmd_call counting [mkMessage [] ECU_UNKNOWN [1]] = Ok (mkResponse (Some counting) [] VNone)
  /\ is_null (mkResponse (Some counting) [] VNone) = true.
Proof.
  split; [|reflexivity]. apply C16_no_message; [vm_compute; congruence|]. intros m [<-|[]] (i & H1 & H2).
  cbn in H1, H2. destruct i as [|[p|p|]|p]; try discriminate; destruct p; discriminate.
Qed.

(* ------------------------------------------------------------------ C17 *)
Theorem C17_equality : forall a b, cmd_eqb a b = true <-> c_command a = c_command b /\ c_header a = c_header b.
Proof. exact cmd_eqb_iff. Qed.
Theorem C17_equivalence :
  (forall a, cmd_eqb a a = true) /\ (forall a b, cmd_eqb a b = cmd_eqb b a)
  /\ (forall a b c, cmd_eqb a b = true -> cmd_eqb b c = true -> cmd_eqb a c = true).
Proof.
  split; [exact cmd_eqb_refl|]. split; [exact cmd_eqb_sym|]. intros a b c. rewrite !cmd_eqb_iff. intuition congruence.
Qed.
Theorem C17_hash : forall a b, cmd_eqb a b = true -> cmd_hash_key a = cmd_hash_key b.
Proof. intros a b H. apply cmd_eqb_iff in H. destruct H as [H1 H2]. unfold cmd_hash_key. rewrite H1, H2. reflexivity. Qed.
Theorem C17_lookup : forall (V : Type) (d : list (command * V)) l a b, cmd_eqb a b = true ->
  dict_get cmd_eqb d a = dict_get cmd_eqb d b /\ existsb (fun c => cmd_eqb c a) l = existsb (fun c => cmd_eqb c b) l.
Proof.
  intros V d l a b H. split; [apply cmd_dict_get; exact H|]. induction l as [|x l IH]; cbn; [reflexivity|].
  rewrite (cmd_eqb_congr a b x H), IH. reflexivity.
Qed.
Example C17_example : exists a b, In a all_commands /\ In b all_commands /\ cmd_eqb a b = false
  /\ cmd_eqb a (mkCommand [] [] (c_command a) 0 D_drop 0 false (c_header a)) = true.
Proof.
  exists (nth 0 all_commands counting), (nth 1 all_commands counting).
  split; [apply nth_In; vm_compute; lia|]. split; [apply nth_In; vm_compute; lia|]. vm_compute. auto.
Qed.

(* ------------------------------------------------------------------ C18 *)
Theorem C18_mode : forall c v, c_mode c = Some v <-> exists d1 d2 ds, writes (c_command c) (d1 :: d2 :: ds) /\ v = 16 * d1 + d2.
Proof. exact mode_spec. Qed.
Theorem C18_pid : forall c v, c_pid c = Some v <->
  exists d1 d2 ds, ds <> [] /\ writes (c_command c) (d1 :: d2 :: ds) /\ v = hex_number ds.
Proof. exact pid_spec. Qed.
Example C18_example : forall c, c_command c = str "01aF" -> c_mode c = Some 1 /\ c_pid c = Some 175.
Proof.
  intros c E.
  assert (W : writes (str "01aF") [0; 1; 10; 15]) by (unfold writes, digit_char; cbn; repeat (constructor; [lia|]); constructor).
  split.
  - apply C18_mode. exists 0, 1, [10; 15]. rewrite E. auto.
  - apply C18_pid. exists 0, 1, [10; 15]. rewrite E. repeat split; [discriminate|exact W].
Qed.

(* ------------------------------------------------------------------ C63 *)
(* every entry sits at its own mode and PID (03, 04 and 07 have no PID and sit at 0) *)
Theorem C63_positions : forall m l p c, nth_error modes m = Some l -> nth_error l p = Some (Some c) ->
  c_mode c = Some (Z.of_nat m) /\ match c_pid c with Some q => q | None => 0 end = Z.of_nat p.
Proof. exact table_positions. Qed.
Theorem C63_unique : NoDup (map c_name all_commands) /\ NoDup (map (fun c => (c_header c, c_command c)) all_commands).
Proof. split; [exact names_distinct|exact requests_distinct]. Qed.
Theorem C63_by_name : forall name c, get_name name = Ok c <-> In c all_commands /\ c_name c = name.
Proof. exact get_name_spec. Qed.
Theorem C63_has_name : forall name, has_name name = true <-> exists c, In c all_commands /\ c_name c = name.
Proof. exact has_name_spec. Qed.
Theorem C63_has_command : forall c, has_command c = true <->
  exists c', In c' all_commands /\ c_command c' = c_command c /\ c_header c' = c_header c.
Proof. exact has_command_spec. Qed.
Theorem C63_has_pid : forall m p, has_pid m p = true <->
  exists c l, In l modes /\ In (Some c) l /\ c_mode c = Some m /\ match c_pid c with Some q => q | None => 0 end = p.
Proof.
  intros m p. rewrite has_pid_spec. split.
  - intros (c & I & E). unfold moded in I. rewrite somes_In, in_concat in I. destruct I as (l & I1 & I2). exists c, l. auto.
  - intros (c & l & I1 & I2 & E). exists c. split; [|exact E]. unfold moded. rewrite somes_In, in_concat. eauto.
Qed.
Theorem C63_by_pid : forall m p c, has_pid m p = true -> get_pid m p = Some c ->
  In c all_commands /\ c_mode c = Some m /\ match c_pid c with Some q => q | None => 0 end = p.
Proof. intros m p c H Hc. destruct (proj1 (get_pid_spec m p c) (conj H Hc)) as (I & E). split; [apply moded_all; exact I|exact E]. Qed.
(* and the table found by mode and PID has the command under that very pair and under its name *)
Theorem C63_agree : forall c m, In c all_commands -> c_mode c = Some m ->
  has_pid m (match c_pid c with Some q => q | None => 0 end) = true
  /\ get_pid m (match c_pid c with Some q => q | None => 0 end) = Some c /\ get_name (c_name c) = Ok c /\ has_command c = true.
Proof.
  intros c m I E.
  assert (Im : In c moded).
  { unfold all_commands in I. apply in_app_or in I. destruct I as [I|I]; [exact I|exfalso].
    assert (F : forallb (fun c => match c_mode c with None => true | Some _ => false end) (somes misc) = true) by (vm_compute; reflexivity).
    rewrite forallb_forall in F. specialize (F c I). rewrite E in F. discriminate. }
  destruct (proj2 (get_pid_spec m (pid_or_0 c) c) (conj Im (conj E eq_refl))) as [H1 H2].
  split; [exact H1|]. split; [exact H2|]. split; [apply get_name_spec; auto|apply has_command_spec; exists c; auto].
Qed.
Example C63_example : length all_commands = 292%nat /\ has_pid 1 12 = true /\ has_pid 6 8 = true /\ has_pid 6 17 = false /\ has_pid (-1) 0 = false.
Proof. vm_compute. auto. Qed.

(* ------------------------------------------------------------------ C64 *)
Theorem C64_mode2_mirrors_mode1 : forall p, 0 <= p ->
  match get_pid 1 p, get_pid 2 p with
  | Some a, Some b =>
      (exists digits, c_command a = str "01" ++ digits /\ c_command b = str "02" ++ digits) /\ c_name b = str "DTC_" ++ c_name a
      /\ c_bytes b = c_bytes a /\ c_ecu b = c_ecu a /\ c_fast b = c_fast a /\ c_header b = c_header a
      /\ (c_decode a = D_pid /\ c_decode b = D_drop \/ c_decode a <> D_pid /\ c_decode b = c_decode a)
  | None, None => True
  | _, _ => False
  end.
Proof.
  intros p Hp. unfold get_pid. change (nth (Z.to_nat 1) modes []) with mode1. change (nth (Z.to_nat 2) modes []) with mode2.
  unfold mode2. rewrite (map_nth (option_map to_mode2) mode1 None). destruct (nth (Z.to_nat p) mode1 None) as [a|] eqn:E; cbn [option_map]; [|exact I].
  assert (F : forallb (fun o => match o with Some c => text_eqb (firstn 2 (c_command c)) (str "01") | None => true end) mode1 = true) by (vm_compute; reflexivity).
  assert (Ia : In (Some a) mode1).
  { destruct (Nat.ltb_spec (Z.to_nat p) (length mode1)) as [H|H]; [rewrite <- E; apply nth_In; exact H|rewrite nth_overflow in E by exact H; discriminate]. }
  rewrite forallb_forall in F. specialize (F _ Ia). cbn [option_map] in F. apply text_eqb_eq in F.
  split; [exists (skipn 2 (c_command a)); split; [rewrite <- F; symmetry; apply firstn_skipn|reflexivity]|].
  do 5 (split; [reflexivity|]). unfold to_mode2. cbn [c_decode]. destruct (c_decode a); cbn; auto; right; split; congruence.
Qed.
Example C64_example : exists a b, get_pid 1 12 = Some a /\ get_pid 2 12 = Some b /\ c_name a = str "RPM" /\ c_name b = str "DTC_RPM".
Proof. do 2 eexists. vm_compute. auto. Qed.

Print Assumptions C15_decoder_input.
Print Assumptions C15_input_unique.
Print Assumptions C15_repeatable.
Print Assumptions C16_null.
Print Assumptions C17_equality.
Print Assumptions C17_lookup.
Print Assumptions C18_mode.
Print Assumptions C18_pid.
Print Assumptions C63_positions.
Print Assumptions C63_unique.
Print Assumptions C63_has_pid.
Print Assumptions C63_agree.
Print Assumptions C64_mode2_mirrors_mode1.
