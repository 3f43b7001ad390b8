(* C13, continued: which ECUs the engine's commands heed. *)
From Coq Require Import ZArith List Bool Lia String.
From Verif Require Import Py Num Utils Protocol Decoders Command World Elm Obd SpecWire SpecBits SpecProto SpecCmd SpecElm SpecObd SpecE2E
  PyFacts WireFacts ProtocolFacts UtilsThms EcuMapThms Properties_Protocol Properties_EndToEnd.
Import ListNotations.
Open Scope string_scope. Open Scope list_scope. Open Scope Z_scope.

Lemma match_others c t l : forall s, (forall m, In m l -> m_tx_id m <> Some t) -> dict_get oz_eqb (fst (fold_left (match_known c) l s)) (Some t) = dict_get oz_eqb (fst s) (Some t).
Proof.
  induction l as [|x l IH]; intros [m f] N; cbn [fold_left]; [reflexivity|]. rewrite IH by (intros y I; apply N; right; exact I). unfold match_known. cbn [fst].
  assert (Nx := N x (or_introl eq_refl)). destruct (m_tx_id x) as [u|]; [|reflexivity]. assert (Nu : oz_eqb (Some u) (Some t) = false) by (destruct (oz_eqb (Some u) (Some t)) eqn:E; [apply oz_eqb_eq in E; congruence|reflexivity]).
  destruct (oz_eqb (Some u) (tx_id_engine c)); [|destruct (oz_eqb (Some u) (tx_id_transmission c)); [|reflexivity]]; cbn [fst]; rewrite oz_dict_get_set, Nu; reflexivity.
Qed.
Lemma mark_others t l : forall m, (forall x, In x l -> m_tx_id x <> Some t) -> dict_get oz_eqb (fold_left mark_unknown l m) (Some t) = dict_get oz_eqb m (Some t).
Proof.
  induction l as [|x l IH]; intros m N; cbn [fold_left]; [reflexivity|]. rewrite IH by (intros y I; apply N; right; exact I). unfold mark_unknown.
  destruct (dict_mem oz_eqb m (m_tx_id x)); [reflexivity|]. rewrite oz_dict_get_set. destruct (oz_eqb (m_tx_id x) (Some t)) eqn:E; [apply oz_eqb_eq in E; destruct (N x (or_introl eq_refl) E)|reflexivity].
Qed.
Lemma most_bits_in l : forall t, most_bits l = Some t -> exists m, In m l /\ m_tx_id m = Some t.
Proof.
  intros t. unfold most_bits. assert (K : forall l st, snd (fold_left (fun (st : Z * option Z) m => let bits := num_set (ba_of (m_data m)) in if fst st <? bits then (bits, m_tx_id m) else st) l st) = Some t ->
    snd st = Some t \/ exists m, In m l /\ m_tx_id m = Some t).
  { clear. induction l as [|x l IH]; intros st H; cbn [fold_left] in H; [left; exact H|]. apply IH in H as [H|(m & I & E)]; [|right; exists m; split; [right; exact I|exact E]].
    cbv zeta in H. destruct (_ <? _); [right; exists x; split; [left; reflexivity|exact H]|left; exact H]. }
  intros H. apply K in H as [H|H]; [discriminate H|exact H].
Qed.
Lemma populate_others c m ms t : (forall x, In x (filter m_parsed ms) -> m_tx_id x <> Some t) -> dict_get oz_eqb (populate_ecu_map c m ms) (Some t) = dict_get oz_eqb m (Some t).
Proof.
  intros N. unfold populate_ecu_map. cbv zeta. destruct (filter m_parsed ms) as [|a [|b l]]; [reflexivity| |].
  - rewrite oz_dict_get_set. destruct (oz_eqb (m_tx_id a) (Some t)) eqn:E; [apply oz_eqb_eq in E; destruct (N a (or_introl eq_refl) E)|reflexivity].
  - set (ms' := a :: b :: l) in *. clearbody ms'. pose proof (match_others c t ms' (m, false) N) as M. destruct (fold_left (match_known c) ms' (m, false)) as [m1 f]. cbn [fst] in M.
    rewrite (mark_others t ms' _ N). destruct f; [exact M|]. rewrite oz_dict_get_set. destruct (oz_eqb (most_bits ms') (Some t)) eqn:E; [|exact M].
    apply oz_eqb_eq in E. destruct (most_bits_in _ _ E) as (x & I & X). destruct (N x I X).
Qed.

(* an ECU that did not answer 0100 has the mark its id has in this protocol, if any *)
Theorem C13_silent : forall c lines ms rs p t, In c protocol_classes ->
  call (mkProtocol c (initial_map c)) lines = Ok ms ->
  map (fun m => (m_tx_id m, m_data m)) (filter (fun m => nonempty (m_data m)) ms) = map (fun r => (Some (fst r), snd r)) rs ->
  new_protocol c lines = Ok p -> ~ In t (map fst rs) ->
  dict_get oz_eqb (p_map p) (Some t) = if t =? engine_id (pc_family c) then Some ECU_ENGINE else if oz_eqb (Some t) (transmission_id (pc_family c)) then Some ECU_TRANSMISSION else None.
Proof.
  intros c lines ms rs p t Hc H Hrs N Nt. destruct (classes_ok c Hc) as [H1 H2]. unfold new_protocol in N. cbv zeta in N. change (protocol_call c (initial_map c) lines) with (call (mkProtocol c (initial_map c)) lines) in N.
  rewrite H in N. cbn [rbind] in N. destruct (log_map _); cbn [rbind] in N; [|discriminate N]. injection N as <-. cbn [p_map].
  apply filter_responders in Hrs. rewrite populate_others.
  - unfold initial_map, tx_id_engine, tx_id_transmission, engine_id, transmission_id. destruct (pc_family c) as [| |b]; [congruence| |].
    + change (dict_set oz_eqb [] (Some 16) ECU_ENGINE) with [(Some 16, ECU_ENGINE)]. unfold dict_get, oz_eqb. rewrite (Z.eqb_sym t 16). destruct (16 =? t); reflexivity.
    + change (dict_set oz_eqb (dict_set oz_eqb [] (Some 0) ECU_ENGINE) (Some 1) ECU_TRANSMISSION) with [(Some 0, ECU_ENGINE); (Some 1, ECU_TRANSMISSION)].
      unfold dict_get, oz_eqb. rewrite (Z.eqb_sym t 0), (Z.eqb_sym t 1). destruct (0 =? t), (1 =? t); reflexivity.
  - intros x I E. apply Nt. apply (in_map (fun m => (m_tx_id m, m_data m))) in I. rewrite Hrs in I. apply in_map_iff in I. destruct I as (r & Er & I). injection Er as Er _. rewrite E in Er. injection Er as <-. apply in_map, I.
Qed.
(* so the commands of the engine's are given the messages of the ECU taken for the engine (C13_engine), and of the one with the engine's id if it did not answer 0100; of no other *)
Theorem C13_heeded : forall c lines ms rs e p, In c protocol_classes ->
  call (mkProtocol c (initial_map c)) lines = Ok ms ->
  map (fun m => (m_tx_id m, m_data m)) (filter (fun m => nonempty (m_data m)) ms) = map (fun r => (Some (fst r), snd r)) rs ->
  engine_of (engine_id (pc_family c)) rs e -> new_protocol c lines = Ok p ->
  forall u, heeds ECU_ENGINE p u <-> u = e \/ u = engine_id (pc_family c) /\ ~ In u (map fst rs).
Proof.
  intros c lines ms rs e p Hc H Hrs He N u. destruct (C13_engine c lines ms rs Hc H Hrs e He) as (p' & N' & _ & G). assert (p' = p) by congruence. subst p'.
  assert (Si : ~ In u (map fst rs) -> _) by exact (fun Nt => C13_silent c lines ms rs p u Hc H Hrs N Nt).
  assert (Ie : In e (map fst rs)) by (destruct He as [t d|rs L I|pre t d post L]; [left; reflexivity|exact I|rewrite map_app; apply in_or_app; right; left; reflexivity]).
  assert (Yes : marked p u ECU_ENGINE -> heeds ECU_ENGINE p u) by (intros M; apply C67_engine; auto).
  assert (No : marked p u ECU_UNKNOWN \/ marked p u ECU_TRANSMISSION \/ (forall k, ~ marked p u k) -> ~ heeds ECU_ENGINE p u) by (apply C67_not_engine).
  destruct (in_dec Z.eq_dec u (map fst rs)) as [I|I].
  - specialize (G u I). destruct (u =? e) eqn:Ee; [apply Z.eqb_eq in Ee; split; [auto|intros _; exact (Yes G)]|]. apply Z.eqb_neq in Ee.
    split; [|intros [X|(_ & X)]; contradiction]. intros Hh. exfalso. revert Hh. apply No. destruct (oz_eqb _ _); [right; left; exact G|left; exact G].
  - specialize (Si I). destruct (u =? engine_id (pc_family c)) eqn:Ee; [apply Z.eqb_eq in Ee; split; [auto|intros _; exact (Yes Si)]|]. apply Z.eqb_neq in Ee.
    split; [|intros [X|(X & _)]; [rewrite X in I|]; contradiction]. intros Hh. exfalso. revert Hh. apply No. destruct (oz_eqb _ _); [right; left; exact Si|]. right. right. intros k X. unfold marked in X. congruence.
Qed.
(* nothing answered 0100: the ECU with the engine's id *)
Theorem C13_heeded_none : forall c lines ms p, In c protocol_classes ->
  call (mkProtocol c (initial_map c)) lines = Ok ms -> filter (fun m => nonempty (m_data m)) ms = [] -> new_protocol c lines = Ok p ->
  forall u, heeds ECU_ENGINE p u <-> u = engine_id (pc_family c).
Proof.
  intros c lines ms p Hc H Hf N u. assert (Hrs : map (fun m => (m_tx_id m, m_data m)) (filter (fun m => nonempty (m_data m)) ms) = map (fun r : Z * bytes => (Some (fst r), snd r)) []) by (rewrite Hf; reflexivity).
  pose proof (C13_silent c lines ms [] p u Hc H Hrs N (fun X => X)) as Si. destruct (Z.eqb_spec u (engine_id (pc_family c))) as [->|Ne].
  - split; [reflexivity|]. intros _. apply C67_engine; auto.
  - split; [|intros X; contradiction]. intros Hh. exfalso. revert Hh. apply C67_not_engine. destruct (oz_eqb _ _); [right; left; exact Si|]. right. right. intros k X. unfold marked in X. congruence.
Qed.
(* three ECUs answer, not the one with the engine's id: the one with the most commands, and the engine's id *)
Example C13_heeded_example : let c := ISO_15765_4_11bit_500k in let lines := [str "7EA 06 41 00 BE 3E A8 13"; str "7EB 06 41 00 00 00 00 01"; str "7E9 06 41 00 80 00 00 01"] in
  exists ms p, In c protocol_classes /\ call (mkProtocol c (initial_map c)) lines = Ok ms
  /\ map (fun m => (m_tx_id m, m_data m)) (filter (fun m => nonempty (m_data m)) ms) = map (fun r => (Some (fst r), snd r)) [(1, [65; 0; 128; 0; 0; 1]); (2, [65; 0; 190; 62; 168; 19]); (3, [65; 0; 0; 0; 0; 1])]
  /\ engine_of (engine_id (pc_family c)) [(1, [65; 0; 128; 0; 0; 1]); (2, [65; 0; 190; 62; 168; 19]); (3, [65; 0; 0; 0; 0; 1])] 2 /\ new_protocol c lines = Ok p
  /\ heeds ECU_ENGINE p 2 /\ heeds ECU_ENGINE p 0 /\ ~ heeds ECU_ENGINE p 1.
Proof.
  cbv zeta. eexists _, _. split; [cbn; auto 20|]. split; [vm_compute; reflexivity|]. split; [vm_compute; reflexivity|].
  assert (E : engine_of (engine_id (pc_family ISO_15765_4_11bit_500k)) [(1, [65; 0; 128; 0; 0; 1]); (2, [65; 0; 190; 62; 168; 19]); (3, [65; 0; 0; 0; 0; 1])] 2).
  { apply (engine_most_bits _ [(1, [65; 0; 128; 0; 0; 1])] 2 [65; 0; 190; 62; 168; 19] [(3, [65; 0; 0; 0; 0; 1])]).
    - cbn. lia.
    - cbn. intros [X|[X|[X|[]]]]; discriminate X.
    - vm_compute. reflexivity.
    - intros r [<-|[]]. vm_compute. reflexivity.
    - intros r [<-|[]]. vm_compute. discriminate. }
  split; [exact E|]. split; [vm_compute; reflexivity|]. split; [apply C67_engine; [vm_compute; reflexivity|auto]|]. split; [apply C67_engine; [vm_compute; reflexivity|auto]|].
  apply C67_not_engine. right. left. vm_compute. reflexivity.
Qed.
