(* Properties C67-C72: whole readings, from the lines on the wire to the value of the response.
   C67_sensor and C71_closed_form_partial use the real numbers of the standard library (see DESIGN.md); the others do not. *)
From Coq Require Import ZArith List Bool Lia String Sorted Reals.
From Verif Require Import Py Num Utils Protocol Codes UasTable Decoders Command CommandTable Commands World Elm Obd SpecWire SpecBits SpecProto SpecCmd SpecElm SpecObd
  SpecNum SpecSensors SpecE2E PyFacts WireFacts CommandThms DecoderThms DecoderThms3 ElmFacts ElmThms ObdFacts ObdThms ObdThms2 Examples E2EThms E2EThms2 E2EThms3 E2EThms4 E2EThms5 E2EThms6 ObdThms8
  Properties_Protocol Properties_Decoders Properties_Numbers Properties_Elm Properties_Commands Properties_Obd.
Import ListNotations.
Open Scope string_scope. Open Scope list_scope. Open Scope Z_scope.
Ltac Zify.zify_post_hook ::= Z.div_mod_to_equations.

(* ------------------------------------------------------------------ C67 *)
(* what the decoder of c is given is what the first ECU heeded by c said, whatever else is on the wire *)
Theorem C67_payload : forall c p lines q payload, reading c p lines q -> speaks p (c_ecu c) lines payload -> (forall r, payload <> 67 :: r) ->
  exists ms m, call p lines = Ok ms /\ first_with (for_it c) ms m /\ m_data m = payload /\ cmd_call c ms = Ok q.
Proof. exact reading_payload. Qed.
(* the scalar sensors *)
Lemma sensor_lengths : forallb (fun s => forallb (fun c => negb (existsb (text_eqb (c_name c)) (map str (s_names s))) || (c_bytes c =? Z.of_nat (s_len s) + 2)) all_commands) sensors = true.
Proof. vm_compute. reflexivity. Qed.
Lemma sensor_length s c : In s sensors -> named (s_names s) c -> c_bytes c = Z.of_nat (s_len s) + 2.
Proof.
  intros I N. pose proof sensor_lengths as F. rewrite forallb_forall in F. specialize (F s I). apply Z.eqb_eq.
  exact (named_check (s_names s) (fun c => c_bytes c =? Z.of_nat (s_len s) + 2) c N F).
Qed.
Theorem C67_sensor : forall s c p lines q h1 h2 d, In s sensors -> named (s_names s) c -> reading c p lines q ->
  speaks p (c_ecu c) lines (h1 :: h2 :: d) -> h1 <> 67 -> List.length d = s_len s ->
  exists x, r_value q = VQty x (str (s_unit s)) /\ within (s_error s d) x (s_value s d) /\ (s_min s <= s_value s d <= s_max s)%R.
Proof.
  intros s c p lines q h1 h2 d Is N R S H L. pose proof (sensor_length s c Is N) as B.
  destruct (reading_answered c p lines q h1 h2 d R S H ltac:(lia)) as (ms & C & A & V).
  assert (Fd : Forall is_byte d) by (destruct S as (u & ls & _ & D & _); apply delivers_bytes in D; inversion D as [|? ? _ D']; subst; inversion D'; assumption).
  destruct (C24_sensors s c ms d Is N A Fd) as (x & (r & V' & Er) & W). exists x. split; [|exact W]. congruence.
Qed.
(* the commands for the engine heed the ECU the connection took for the engine, and (almost always) no other *)
Theorem C67_engine : forall p u mask, marked p u ECU_ENGINE -> mask = ECU_ENGINE \/ mask = ECU_ALL -> heeds mask p u.
Proof. intros p u mask M Hm. exists ECU_ENGINE. split; [|left; exact M]. exists 1. destruct Hm as [-> | ->]; split; reflexivity. Qed.
Theorem C67_not_engine : forall p u, marked p u ECU_UNKNOWN \/ marked p u ECU_TRANSMISSION \/ (forall k, ~ marked p u k) -> ~ heeds ECU_ENGINE p u.
Proof.
  intros p u H (k & B & M). assert (Hk : k = ECU_UNKNOWN \/ k = ECU_TRANSMISSION).
  { unfold marked in *. destruct M as [M|[_ ->]]; [|auto]. destruct H as [H|[H|H]]; [left; congruence|right; congruence|destruct (H k M)]. }
  destruct B as (i & B1 & B2). assert (i = 1).
  { destruct (Z.lt_ge_cases i 0) as [L|L]; [rewrite Z.testbit_neg_r in B1 by exact L; discriminate|].
    destruct (Z.eq_dec i 0) as [->|N0]; [discriminate|]. destruct (Z.eq_dec i 1) as [->|N1]; [reflexivity|].
    rewrite Z.bits_above_log2 in B1; [discriminate|unfold ECU_ENGINE; lia|change (Z.log2 ECU_ENGINE) with 1; lia]. }
  subst i. destruct Hk as [-> | ->]; discriminate B2.
Qed.
(* on a healthy port a permitted query does end, with its last line answered by what the port delivers *)
Theorem C67_answered : forall cf port scan w t0 h o w1 c force p chunks s rest lines, session cf port scan w t0 h (o, w1) ->
  obd_status o <> NOT_CONNECTED -> uses o p -> asleep o = false -> may_send o c force -> c_header c = o_last_header o ->
  w_writes w1 = [] -> w_reads w1 = map Some chunks ++ rest -> Forall (fun x => x <> []) chunks -> List.concat chunks = s ++ [PROMPT] -> ~ In PROMPT s ->
  answer_lines (s ++ [PROMPT]) lines -> lines <> [] ->
  exists r o' w2 t, query c force (o, w1) = (r, (o', w2)) /\ w_trace w2 = w_trace w1 ++ t /\ last_answer t lines
    /\ ((exists q, r = Ok q /\ reading c p lines q) \/ (exists x, call p lines = Raise x /\ r = Raise x) \/ exists ms x, call p lines = Ok ms /\ cmd_call c ms = Raise x).
Proof.
  intros cf port scan w t0 h o w1 c force p chunks s rest lines S Hn U Hl MS Hh Hw Hr F E N L Ne.
  pose proof S as S0. apply session_oinv in S0 as (OI & _). pose proof U as (e & Hi & Hp).
  assert (Hs : e_status e <> NOT_CONNECTED) by (unfold obd_status in Hn; rewrite Hi in Hn; exact Hn).
  assert (exists pt, e_port e = Some pt) as (pt & Hpt).
  { unfold oinv in OI. rewrite Hi in OI. destruct (e_port e) as [pt|] eqn:P; [eauto|]. exfalso. apply Hs, (proj1 OI), P. }
  unfold asleep in Hl. rewrite Hi in Hl.
  destruct (healthy_query o e c force w1 p pt chunks s rest lines OI Hi Hs Hpt Hl Hp MS Hh Hw Hr F E N L Ne) as (r & o' & w2 & t & Q & T & A & Er).
  exists r, o', w2, t. assert (La : last_answer t lines) by (exists [], t, (build_command_string o c); auto).
  split; [exact Q|]. split; [exact T|]. split; [exact La|].
  assert (G : forall q, r = Ok q -> reading c p lines q) by (intros q ->; exists cf, port, scan, w, t0, h, o, w1, force, o', w2, t; auto 10).
  destruct (call p lines) as [[|m ms]|x] eqn:C; [left; exists empty_response; auto| |right; left; eauto].
  destruct r as [q|x]; [left; eauto|]. right; right. symmetry in Er. eauto.
Qed.


(* sessions in which a query gets this answer, for examples and refutations: what matters about them *)
Definition demo_facts (w : world) (c : command) : res unit * status * option protocol * bool * bytes * list wres * list (option bytes) * option value :=
  let '(r, (o, w1)) := new_obd (setup true) (Some (str "p")) [] w in
  (r, obd_status o, match o_interface o with Some e => e_protocol e | None => None end, asleep o, o_last_header o, w_writes w1, w_reads w1,
   match fst (query c true (o, w1)) with Ok q => Some (r_value q) | Raise _ => None end).
Lemma demo w c p a v : w_trace w = [] -> demo_facts w c = (Ok tt, CAR_CONNECTED, Some p, false, c_header c, [], [Some (a ++ [PROMPT])], Some v) -> ~ In PROMPT a -> clean (a ++ [PROMPT]) <> [] ->
  exists q, reading c p (clean (a ++ [PROMPT])) q /\ r_value q = v.
Proof.
  intros T D Na Nc. unfold demo_facts in D. destruct (new_obd (setup true) (Some (str "p")) [] w) as [r [o w1]] eqn:N.
  destruct (query c true (o, w1)) as [rq [o' w2]] eqn:Q. cbn [fst] in D.
  do 7 (let H := fresh "H" in apply pair_equal_spec in D as [D H]). subst r. destruct rq as [q|]; [|discriminate H]. injection H as H.
  exists q. split; [|exact H].
  pose proof (play_session (setup true) w [] T ltac:(rewrite N; reflexivity)) as S. unfold outcome in S. rewrite N in S. cbn [snd fst play] in S.
  assert (U : uses o p) by (unfold uses; destruct (o_interface o) as [e|]; [eauto|discriminate H4]).
  destruct (C67_answered _ _ _ _ _ _ _ _ c true p [a ++ [PROMPT]] a [] (clean (a ++ [PROMPT])) S ltac:(congruence) U H3 (or_introl eq_refl) (eq_sym H2) H1 H0) as (r & o1 & w3 & t & Q' & T' & La & R).
  - constructor; [|constructor]. intros X. apply app_eq_nil in X as [_ X]. discriminate.
  - cbn [List.concat]. apply app_nil_r.
  - exact Na.
  - apply clean_lines.
  - exact Nc.
  - rewrite Q in Q'. apply pair_equal_spec in Q' as [Er E2]. apply pair_equal_spec in E2 as [E2 E3]. subst r o1 w3.
    exists (setup true), (Some (str "p")), [], w, (w_trace w1), [], o, w1, true, o', w2, t. auto.
Qed.
Lemma demo_says c p a v : demo_facts (fresh (up ++ [says a])) c = (Ok tt, CAR_CONNECTED, Some p, false, c_header c, [], [Some ((a ++ [13]) ++ [PROMPT])], Some v) ->
  forallb (fun x => negb (x =? PROMPT)) (a ++ [13]) = true -> clean ((a ++ [13]) ++ [PROMPT]) <> [] -> exists q, reading c p (clean ((a ++ [13]) ++ [PROMPT])) q /\ r_value q = v.
Proof.
  intros D F N. apply (demo _ _ _ _ _ (eq_refl : w_trace (fresh _) = []) D); [|exact N]. intros I. rewrite forallb_forall in F. specialize (F _ I). discriminate F.
Qed.
(* lines of an 11 bit CAN bus: the ECU, the data of the frame *)
Lemma can_from a b c l d : is_nibble a -> is_nibble b -> is_nibble c -> Forall is_byte d -> can_line (Id11 a b c) l d -> acceptable d -> is_from (FCan 11) (sender (Id11 a b c)) l.
Proof. intros A B C F L D. exists d, (Id11 a b c). repeat (split; [reflexivity || assumption || (cbn; tauto)|]). exact D. Qed.
Lemma text_from f u l : isHex (no_spaces l) = false -> ~ is_from f u l.
Proof.
  intros H (d & S). assert (X : hex_line l); [|apply hex_line_isHex in X; congruence].
  unfold sent_by in S. destruct f; try contradiction; [destruct S as (b1 & b2 & ck & _ & S & _)|destruct S as (h & _ & _ & _ & _ & S & _)]; eexists; exact S.
Qed.
Ltac from_other k dd := apply (not_from_other 11 _ (Id11 7 14 k) _ dd); [reflexivity|cbn; unfold is_nibble; lia|bytes_ok|show|try first [cbn; lia|discriminate]].
Ltac get_demo c p a ls :=
  let v := eval vm_compute in (match snd (demo_facts (fresh (up ++ [says a])) c) with Some v => v | None => VNone end) in
  let q := fresh "q" in let Rd := fresh "Rd" in let V := fresh "V" in let E := fresh "E" in
  destruct (demo_says c p a v) as (q & Rd & V); [vm_compute; reflexivity|vm_compute; reflexivity|vm_compute; discriminate|];
  match type of Rd with reading _ _ ?l _ => assert (E : l = ls) by (vm_compute; reflexivity) end; rewrite E in Rd; clear E.
Example C67_example : exists p lines q, reading (cmd "SPEED") p lines q /\ speaks p (c_ecu (cmd "SPEED")) lines [65; 13; 50]
  /\ lines = [str "7E9 03 41 0D 20"; str "BUS BUSY"; str "7E8 03 41 0D 32"].
Proof.
  get_demo (cmd "SPEED") can11 (str "7E9 03 41 0D 20" ++ [13] ++ str "BUS BUSY" ++ [13] ++ str "7E8 03 41 0D 32") [str "7E9 03 41 0D 20"; str "BUS BUSY"; str "7E8 03 41 0D 32"].
  exists can11, [str "7E9 03 41 0D 20"; str "BUS BUSY"; str "7E8 03 41 0D 32"], q. split; [exact Rd|]. split; [|reflexivity].
    exists 0, [str "7E8 03 41 0D 32"]. change (pc_family (p_class can11)) with (FCan 11). split; [|split; [|split]].
    + constructor 3; [from_other 9 [3; 65; 13; 32]|]. constructor 3; [apply text_from; vm_compute; reflexivity|]. constructor 2; [|constructor].
      apply (can_from 7 14 8 _ [3; 65; 13; 50]); try (unfold is_nibble; lia); [bytes_ok|show|]. split; [cbn; lia|]. left. cbn. lia.
    + apply (delivers_can_single (Id11 7 14 8) _ [65; 13; 50] []); [cbn; unfold is_nibble; lia|bytes_ok|constructor|discriminate|cbn; lia|show].
    + apply C67_engine; [reflexivity|left; vm_compute; reflexivity].
    + intros u' L (k & B & [M|[_ ->]]).
      * unfold marked in M. cbn in M. destruct u'; try discriminate M; lia.
      * exfalso. apply (C67_not_engine can11 u'); [|exists ECU_UNKNOWN; split; [exact B|]]; [right; right|right; split; [|reflexivity]]; intros k M; unfold marked in M; cbn in M; destruct u'; try discriminate M; lia.
Qed.

(* ------------------------------------------------------------------ C68 *)
(* the whole list: the codes of all reporting ECUs, in the order of their ids; nothing else, nothing twice, nothing dropped *)
Theorem C68_trouble_codes : forall mode c p lines q rs ps codes, (mode = 3 /\ named ["GET_DTC"] c) \/ (mode = 7 /\ named ["GET_CURRENT_DTC"] c /\ pc_family (p_class p) <> FLegacy) ->
  reading c p lines q ->
  (* the ECUs that report, in ascending order of their ids, and what they report *)
  StronglySorted Z.lt (map fst rs) -> rs <> [] ->
  (forall u codes, In (u, codes) rs -> exists ls, heard_from (pc_family (p_class p)) u lines ls /\ reports_codes (pc_family (p_class p)) mode u ls codes) ->
  (forall u, ~ In u (map fst rs) -> silent (pc_family (p_class p)) u lines) ->
  byte_pairs (List.concat (map snd rs)) ps -> selects real_code ps codes ->
  exists l, r_value q = VDtcs l /\ Forall2 (fun p e => fst e = dtc_text (fst p) (snd p) /\ described DTC (fst e) (snd e)) codes l.
Proof. exact trouble_codes. Qed.
Lemma named_one name c : get_name (str name) = Ok c -> named [name] c.
Proof. intros H. apply C63_by_name in H as [I N]. split; [exact I|]. left. symmetry. exact N. Qed.
(* two ECUs with a stored code each *)
Example C68_example : exists p lines q rs, reading (cmd "GET_DTC") p lines q /\ named ["GET_DTC"] (cmd "GET_DTC") /\ StronglySorted Z.lt (map fst rs) /\ rs = [(0, [1; 5]); (2, [67; 8])]
  /\ (forall u codes, In (u, codes) rs -> exists ls, heard_from (pc_family (p_class p)) u lines ls /\ reports_codes (pc_family (p_class p)) 3 u ls codes)
  /\ (forall u, ~ In u (map fst rs) -> silent (pc_family (p_class p)) u lines).
Proof.
  get_demo (cmd "GET_DTC") can11 (str "7EA 06 43 01 43 08 AA AA" ++ [13] ++ str "7E8 04 43 01 01 05") [str "7EA 06 43 01 43 08 AA AA"; str "7E8 04 43 01 01 05"].
  exists can11, [str "7EA 06 43 01 43 08 AA AA"; str "7E8 04 43 01 01 05"], q, [(0, [1; 5]); (2, [67; 8])]. split; [exact Rd|].
  split; [apply named_one; vm_compute; reflexivity|].
  change (pc_family (p_class can11)) with (FCan 11). cbn [map fst].
  split; [repeat constructor; lia|]. split; [reflexivity|]. split.
  - intros u codes [E|[E|[]]]; apply pair_equal_spec in E as [<- <-].
    + exists [str "7E8 04 43 01 01 05"]. split.
      * constructor 3; [from_other 10 [6; 67; 1; 67; 8; 170; 170]|]. constructor 2; [|constructor].
        apply (can_from 7 14 8 _ [4; 67; 1; 1; 5]); try (unfold is_nibble; lia); [bytes_ok|show|]. split; [cbn; lia|]. left. cbn. lia.
      * apply (reports_can_stored 11 0 _ 1 [1; 5] []); [|reflexivity].
        apply (delivers_can_single (Id11 7 14 8) _ [67; 1; 1; 5] []); [cbn; unfold is_nibble; lia|bytes_ok|constructor|discriminate|cbn; lia|show].
    + exists [str "7EA 06 43 01 43 08 AA AA"]. split.
      * constructor 2; [|constructor 3; [from_other 8 [4; 67; 1; 1; 5]|constructor]].
        apply (can_from 7 14 10 _ [6; 67; 1; 67; 8; 170; 170]); try (unfold is_nibble; lia); [bytes_ok|show|]. split; [cbn; lia|]. left. cbn. lia.
      * apply (reports_can_stored 11 2 _ 1 [67; 8] [170; 170]); [|reflexivity].
        apply (delivers_can_single (Id11 7 14 10) _ [67; 1; 67; 8; 170; 170] []); [cbn; unfold is_nibble; lia|bytes_ok|constructor|discriminate|cbn; lia|show].
  - clear Rd V. intros u N l [<-|[<-|[]]]; [from_other 10 [6; 67; 1; 67; 8; 170; 170]|from_other 8 [4; 67; 1; 1; 5]]; cbn in *; tauto.
Qed.

(* ------------------------------------------------------------------ C69 *)
(* a response tells what the last answer on the wire says: not when it was read, nor what was said before *)
Theorem C69_fresh : forall c p lines q q', reading c p lines q -> reading c p lines q' -> q = q'.
Proof.
  intros c p lines q q' R R'. destruct (reading_call _ _ _ _ R) as (_ & ms & C & V). destruct (reading_call _ _ _ _ R') as (_ & ms' & C' & V').
  rewrite C in C'. injection C' as <-. destruct V as [[-> V]|[N V]], V' as [[E V']|[N' V']]; congruence.
Qed.
(* and what it says is what the first ECU heeded says (the trouble codes come from all of them, and two commands are answered by the adapter) *)
Theorem C69_first_ecu : forall c p l1 l2 q1 q2 payload, In c all_commands -> ~ named ["GET_DTC"; "GET_CURRENT_DTC"; "ELM_VERSION"; "ELM_VOLTAGE"] c ->
  reading c p l1 q1 -> reading c p l2 q2 -> speaks p (c_ecu c) l1 payload -> speaks p (c_ecu c) l2 payload -> (forall r, payload <> 67 :: r) -> r_value q1 = r_value q2.
Proof.
  intros c p l1 l2 q1 q2 payload I N R1 R2 S1 S2 Np. apply (value_first c p l1 l2 q1 q2 payload); try assumption; [|apply all_nonneg, I].
  assert (F : forallb (fun c => existsb (text_eqb (c_name c)) (map str ["GET_DTC"; "GET_CURRENT_DTC"; "ELM_VERSION"; "ELM_VOLTAGE"]) || first_only (c_decode c)) all_commands = true) by (vm_compute; reflexivity).
  rewrite forallb_forall in F. specialize (F c I). apply orb_prop in F as [F|F]; [|exact F]. exfalso. apply N. split; [exact I|].
  apply existsb_exists in F as (x & X & E). apply text_eqb_iff in E. rewrite E. exact X.
Qed.

(* ------------------------------------------------------------------ C70 *)
(* nothing is made up: without a word from an ECU that c heeds, there is no value *)
Theorem C70_no_answer : forall c p lines q, In c all_commands -> c_ecu c = ECU_ENGINE -> reading c p lines q ->
  (forall u, heeds (c_ecu c) p u -> silent (pc_family (p_class p)) u lines) -> is_null q = true /\ r_value q = VNone.
Proof.
  intros c p lines q I E R Q. apply (no_value c p lines q R (all_nonneg c I)); [|exact Q]. rewrite E. intros (i & B1 & B2).
  destruct (Z.eq_dec i 0) as [->|N]; [discriminate B1|]. unfold ECU_UNKNOWN in B2. destruct i as [|i|i]; [contradiction|destruct i; discriminate B2|discriminate B2].
Qed.
(* full statement: only an answer to the request that was sent is decoded. False: an answer about another PID gives a value all the same *)
Theorem C70_refuted : exists p lines q, reading (cmd "SPEED") p lines q /\ lines = [str "7E8 03 41 05 32"] /\ exists x, r_value q = VQty x (str "kph").
Proof.
  get_demo (cmd "SPEED") can11 (str "7E8 03 41 05 32") [str "7E8 03 41 05 32"].
  exists can11, [str "7E8 03 41 05 32"], q. split; [exact Rd|]. split; [reflexivity|]. eexists. exact V.
Qed.
(* in mode 01 the two bytes that echo the request never matter *)
Theorem C70_echo_ignored_partial : forall c p l1 l2 q1 q2 h1 h2 h1' h2' d, In c all_commands -> c_mode c = Some 1 -> reading c p l1 q1 -> reading c p l2 q2 -> h1 <> 67 -> h1' <> 67 ->
  speaks p (c_ecu c) l1 (h1 :: h2 :: d) -> speaks p (c_ecu c) l2 (h1' :: h2' :: d) -> r_value q1 = r_value q2.
Proof.
  intros c p l1 l2 q1 q2 h1 h2 h1' h2' d I M R1 R2 N1 N2 S1 S2.
  assert (F : forallb (fun c => negb (oz_eqb (c_mode c) (Some 1)) || (body_only (c_decode c) && ((2 <=? c_bytes c) || (c_bytes c =? 0)))) all_commands = true) by (vm_compute; reflexivity).
  rewrite forallb_forall in F. specialize (F c I). rewrite M in F. cbn [oz_eqb] in F. rewrite Z.eqb_refl in F. cbn [negb orb] in F. apply andb_prop in F as [F1 F2].
  apply (echo_ignored c p l1 l2 q1 q2 h1 h2 h1' h2' d); try assumption; [apply all_nonneg, I|]. apply orb_prop in F2 as [F2|F2]; [left; apply Z.leb_le, F2|right; apply Z.eqb_eq, F2].
Qed.

(* ------------------------------------------------------------------ C71 *)
Definition freeze_frame_of (c1 c2 : command) : Prop := In c1 all_commands /\ In c2 all_commands /\ c_mode c1 = Some 1 /\ c_mode c2 = Some 2 /\ c_pid c2 = c_pid c1.
Lemma freeze_same c1 c2 : freeze_frame_of c1 c2 -> c_decode c1 <> D_pid -> c_bytes c2 = c_bytes c1 /\ c_ecu c2 = c_ecu c1 /\ c_decode c2 = c_decode c1.
Proof.
  intros (I1 & I2 & M1 & M2 & P) N. destruct (C63_agree c1 1 I1 M1) as (_ & G1 & _). destruct (C63_agree c2 2 I2 M2) as (_ & G2 & _). rewrite P in G2.
  set (pid := match c_pid c1 with Some q => q | None => 0 end) in *.
  assert (Hp : 0 <= pid).
  { assert (F : forallb (fun c => 0 <=? match c_pid c with Some q => q | None => 0 end) all_commands = true) by (vm_compute; reflexivity).
    rewrite forallb_forall in F. apply Z.leb_le, (F c1 I1). }
  pose proof (C64_mode2_mirrors_mode1 pid Hp) as E. rewrite G1, G2 in E. destruct E as (_ & _ & E1 & E2 & _ & _ & [[E3 _]|[_ E3]]); [contradiction|]. auto.
Qed.
Lemma sensor_no_listings : forallb (fun s => forallb (fun c => negb (existsb (text_eqb (c_name c)) (map str (s_names s))) || match c_decode c with D_pid => false | _ => true end) all_commands) sensors = true.
Proof. vm_compute. reflexivity. Qed.
Lemma sensor_no_listing s c : In s sensors -> named (s_names s) c -> c_decode c <> D_pid.
Proof.
  intros I N E. pose proof sensor_no_listings as F. rewrite forallb_forall in F. specialize (F s I).
  pose proof (named_check (s_names s) (fun c => match c_decode c with D_pid => false | _ => true end) c N F) as X. cbv beta in X. rewrite E in X. discriminate X.
Qed.
(* full statement: a freeze frame answer (mode 42, PID, frame number, data) is decoded from its data.
   False: the frame number is taken for the first data byte, and the last data byte is cut off. What comes out instead: *)
Theorem C71_closed_form_partial : forall s c1 c2 p lines q pid frame d, In s sensors -> named (s_names s) c1 -> freeze_frame_of c1 c2 -> reading c2 p lines q ->
  speaks p (c_ecu c2) lines (66 :: pid :: frame :: d) -> List.length d = s_len s ->
  let d' := firstn (s_len s) (frame :: d) in
  exists x, r_value q = VQty x (str (s_unit s)) /\ within (s_error s d') x (s_value s d').
Proof.
  intros s c1 c2 p lines q pid frame d Is N Fr Rd S L d'. pose proof (sensor_length s c1 Is N) as B.
  destruct (freeze_same c1 c2 Fr (sensor_no_listing s c1 Is N)) as (Eb & Ee & Ed).
  destruct (reading_payload c2 p lines q _ Rd S ltac:(congruence)) as (ms & m & C & W & Dm & V).
  assert (A : answered c1 ms d').
  { exists m, 66, pid. unfold for_it in *. rewrite <- Ee. split; [exact W|]. rewrite Dm, B. unfold d'. split; [intros _|intros X; lia]. split.
    - cbn [List.length]. rewrite firstn_length. cbn [List.length]. lia.
    - left. exists (skipn (s_len s) (frame :: d)). cbn [app]. rewrite firstn_skipn. reflexivity. }
  assert (Fd : Forall is_byte d').
  { destruct S as (u & ls & _ & D & _). apply delivers_bytes in D. inversion D as [|? ? _ D']; subst. inversion D' as [|? ? _ D'']; subst.
    unfold d'. rewrite <- (firstn_skipn (s_len s)) in D''. apply Forall_app in D''. apply D''. }
  destruct (C24_sensors s c1 ms d' Is N A Fd) as (x & Ev & W' & _). exists x. split; [|exact W'].
  apply (evaluates_same c1 c2 ms) in Ev; [|congruence..]. destruct Ev as (r & V' & Er). congruence.
Qed.
Lemma can11_speaks mask l payload k : mask = ECU_ENGINE \/ mask = ECU_ALL -> can_line (Id11 7 14 8) l (single_frame payload []) -> Forall is_byte payload -> payload <> [] -> (List.length payload <= 7)%nat ->
  0 <= k -> single_frame payload [] = k :: payload -> 1 <= k <= 7 -> speaks can11 mask [l] payload.
Proof.
  intros M L F Ne Lp K Ek Kr. exists 0, [l]. change (pc_family (p_class can11)) with (FCan 11).
  assert (Fr : is_from (FCan 11) 0 l).
  { apply (can_from 7 14 8 l (single_frame payload [])); try (unfold is_nibble; lia); [|exact L|].
    - rewrite Ek. constructor; [unfold is_byte; lia|exact F].
    - rewrite Ek. split; [cbn; destruct payload; [congruence|]; cbn in *; lia|]. destruct payload; [congruence|]. left. lia. }
  split; [constructor 2; [exact Fr|constructor]|]. split; [apply (delivers_can_single (Id11 7 14 8) l payload []); [cbn; unfold is_nibble; lia|exact F|constructor|exact Ne|cbn; lia|exact L]|].
  split; [apply C67_engine; [reflexivity|exact M]|]. intros u' Lu _ l' [<-|[]].
  apply (not_from_other 11 u' (Id11 7 14 8) l (single_frame payload [])); [reflexivity|cbn; unfold is_nibble; lia| |exact L|cbn; lia].
  rewrite Ek. constructor; [unfold is_byte; lia|exact F].
Qed.
Theorem C71_refuted : exists c1 c2 p lines q, named ["SPEED"] c1 /\ freeze_frame_of c1 c2 /\ reading c2 p lines q
  /\ speaks p (c_ecu c2) lines [66; 13; 0; 50] /\ r_value q = VQty (PyFloat (S754_zero false)) (str "kph").
Proof.
  exists (cmd "SPEED"), (cmd "DTC_SPEED"), can11. get_demo (cmd "DTC_SPEED") can11 (str "7E8 04 42 0D 00 32") [str "7E8 04 42 0D 00 32"].
  exists [str "7E8 04 42 0D 00 32"], q. assert (N1 : named ["SPEED"] (cmd "SPEED")) by (apply named_one; vm_compute; reflexivity). assert (N2 : named ["DTC_SPEED"] (cmd "DTC_SPEED")) by (apply named_one; vm_compute; reflexivity).
  split; [exact N1|]. split; [split; [apply N1|]; split; [apply N2|]; vm_compute; auto|]. split; [exact Rd|]. split; [|exact V].
  apply (can11_speaks _ _ _ 4); [left; vm_compute; reflexivity|show|bytes_ok|discriminate|cbn; lia|lia|reflexivity|lia].
Qed.

(* ------------------------------------------------------------------ C72 *)
(* what the accessors say *)
Record looks := mkLooks { l_status : status; l_connected : bool; l_port : text; l_id : res text; l_name : res text }.
Definition look (o : obd) : looks := mkLooks (obd_status o) (is_connected o) (obd_port_name o) (obd_protocol_id o) (obd_protocol_name o).
(* as long as there is a connection, the accessors say what they said before, and the same protocol object is used *)
Theorem C72_steady : forall cf port scan w t0 h o w1 h' o' w2, session cf port scan w t0 h (o, w1) -> history (o, w1) h' (o', w2) ->
  obd_status o' <> NOT_CONNECTED -> look o' = look o /\ forall p, uses o' p <-> uses o p.
Proof.
  intros cf port scan w t0 h o w1 h' o' w2 S H N. apply session_oinv in S as (OI & _). destruct (history_steady _ _ _ _ H OI) as [St _]. cbn [fst] in St.
  unfold steady in St. unfold look, is_connected, obd_status, obd_port_name, obd_protocol_id, obd_protocol_name, uses, elm_port_name, elm_protocol_id, elm_protocol_name in *.
  destruct (o_interface o) as [e|]; [|rewrite St in *; contradiction].
  inversion St as [E|e' A1 A2 A3 E|e' A1 A2 A3 E|e' (A1 & A2 & A3) E]; rewrite <- E in *; try contradiction.
  rewrite A1, A2, A3. split; [reflexivity|]. intros p. split; intros (x & X & Y); injection X as <-; eexists; (split; [reflexivity|congruence]).
Qed.
(* once there is none, there is no port *)
Theorem C72_gone : forall cf port scan w t0 h o w1, session cf port scan w t0 h (o, w1) -> obd_status o = NOT_CONNECTED -> obd_port_name o = [] /\ is_connected o = false.
Proof.
  intros cf port scan w t0 h o w1 S N. apply session_oinv in S as (OI & _). split; [|unfold is_connected; rewrite N; reflexivity].
  unfold obd_port_name, obd_status, oinv, elm_port_name in *. destruct (o_interface o) as [e|]; [|reflexivity]. apply (proj1 OI) in N. rewrite N. reflexivity.
Qed.
(* the id and the name are those of the documented table (or empty: no protocol was found) *)
Theorem C72_known : forall cf port scan w t0 h o w1, session cf port scan w t0 h (o, w1) -> obd_status o <> NOT_CONNECTED ->
  exists id name, obd_protocol_id o = Ok id /\ obd_protocol_name o = Ok name /\ (id = [] /\ name = [] \/ In (id, name) documented_protocols).
Proof.
  intros cf port scan w t0 h o w1 S N. apply session_origin in S. unfold origin, obd_status, obd_protocol_id, obd_protocol_name, elm_protocol_id, elm_protocol_name in *.
  destruct (o_interface o) as [e|]; [|contradiction]. destruct (S N) as (p & -> & Cf). exists (pc_id (p_class p)), (pc_name (p_class p)). split; [reflexivity|]. split; [reflexivity|].
  destruct Cf as [->|(id & c & lines & L & Np)]; [left; split; reflexivity|right]. rewrite (new_protocol_class _ _ _ Np). clear -L.
  assert (F : forallb (fun kv => text_eqb (fst kv) (pc_id (snd kv)) && existsb (fun d => text_eqb (fst d) (pc_id (snd kv)) && text_eqb (snd d) (pc_name (snd kv))) documented_protocols) supported_protocols = true) by (vm_compute; reflexivity).
  unfold lookup in L. revert F L. generalize supported_protocols as l. induction l as [|[k v] l IH]; intros F L; [discriminate L|]. cbn [forallb fst snd] in F. apply andb_prop in F as [F1 F2].
  cbn [dict_get] in L. destruct (text_eqb k id); [|exact (IH F2 L)]. injection L as <-. apply andb_prop in F1 as [_ F1].
  apply existsb_exists in F1 as ([d1 d2] & I & E). cbn [fst snd] in E. apply andb_prop in E as [E1 E2]. apply text_eqb_iff in E1, E2. subst. exact I.
Qed.
(* full statement: the accessors never raise. False: after a close() that failed, protocol_id() and protocol_name() do *)
Theorem C72_raises_refuted : exists o w1 o' w2, snd (outcome (setup true) (mkWorld [] (repeat WOk 9 ++ [WFailBefore]) up [] []) []) = (o, w1)
  /\ run_op OpClose (o, w1) = (Raise AttributeError, (o', w2)) /\ obd_protocol_id o' = Raise AttributeError /\ obd_protocol_name o' = Raise AttributeError.
Proof.
  destruct (snd (outcome (setup true) (mkWorld [] (repeat WOk 9 ++ [WFailBefore]) up [] []) [])) as [o w1] eqn:E. vm_compute in E. apply pair_equal_spec in E as [<- <-].
  eexists. eexists. eexists. eexists. split; [reflexivity|]. split; [vm_compute; reflexivity|]. split; reflexivity.
Qed.
(* ... and only then *)
Theorem C72_accessors_partial : forall cf port scan w t0 h o w1, session cf port scan w t0 h (o, w1) ->
  (forall x, In x h -> st_op x = OpClose -> st_result x = Ok None) -> exists id name, obd_protocol_id o = Ok id /\ obd_protocol_name o = Ok name.
Proof.
  intros cf port scan w t0 h o w1 S G. apply session_protocol in S; [|apply Forall_forall; exact G]. unfold has_protocol, obd_protocol_id, obd_protocol_name, elm_protocol_id, elm_protocol_name in *.
  destruct (o_interface o) as [e|]; [|eauto]. destruct (e_protocol e) as [p|]; [eauto|congruence].
Qed.
Example C72_example : exists o w1, snd (outcome (setup true) (fresh up) []) = (o, w1) /\ look o = mkLooks CAR_CONNECTED true (str "p") (Ok (str "6")) (Ok (str "ISO 15765-4 (CAN 11/500)")).
Proof. destruct (snd (outcome _ _ _)) as [o w1] eqn:E. vm_compute in E. apply pair_equal_spec in E as [<- <-]. eexists. eexists. split; reflexivity. Qed.
