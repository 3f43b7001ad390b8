(* Commands: what a decoder is given, null responses, equality, mode and pid, the tables (C15-C18, C63, C64). *)
From Coq Require Import ZArith List Bool Lia String Permutation.
From Coq Require Import ZifyBool ZifyNat.
From Verif Require Import Py Num Utils Protocol Codes UasTable Decoders Command CommandTable Commands SpecWire SpecBits SpecCmd PyFacts WireFacts UtilsThms.
Import ListNotations.
Open Scope Z_scope.
Ltac Zify.zify_post_hook ::= Z.div_mod_to_equations.
Arguments Z.div : simpl never. Arguments Z.modulo : simpl never. Arguments Z.mul : simpl never. Arguments Z.add : simpl never. Arguments Z.sub : simpl never. Arguments Z.land : simpl never.

(* ------------------------------------------------------------------ *)
Lemma land_common a b : 0 <= a -> (0 <? Z.land a b) = true <-> common_bit a b.
Proof.
  intros Ha. assert (N : 0 <= Z.land a b) by (apply Z.land_nonneg; auto).
  rewrite Z.ltb_lt. split.
  - intros P. exists (Z.log2 (Z.land a b)). pose proof (Z.bit_log2 _ P) as H. rewrite Z.land_spec in H. apply andb_true_iff in H. exact H.
  - intros (i & H1 & H2). assert (H : Z.testbit (Z.land a b) i = true) by (rewrite Z.land_spec, H1, H2; reflexivity).
    destruct (Z.eq_dec (Z.land a b) 0) as [E|E]; [rewrite E, Z.bits_0 in H; discriminate|lia].
Qed.
Lemma selects_filter {A} (P : A -> Prop) (p : A -> bool) l : (forall x, p x = true <-> P x) -> selects P l (filter p l).
Proof.
  intros H. induction l as [|x l IH]; cbn; [constructor|]. destruct (p x) eqn:E.
  - constructor; [apply H; exact E|exact IH].
  - constructor 3; [rewrite <- H; congruence|exact IH].
Qed.
Lemma selects_eq {A} (P : A -> Prop) l a : selects P l a -> forall b, selects P l b -> a = b.
Proof.
  induction 1 as [|x l a Hx S IH|x l a Hx S IH]; intros b Hb; inversion Hb; subst; try reflexivity; try contradiction; [f_equal|]; auto.
Qed.
Lemma constrain_resized n m : m_frames (constrain n m) = m_frames m /\ m_ecu (constrain n m) = m_ecu m /\ resized n (m_data m) (m_data (constrain n m)).
Proof.
  unfold constrain, resized, zlen, upto. destruct (Z.ltb_spec 0 n) as [H|H].
  - destruct (Z.ltb_spec n (Z.of_nat (length (m_data m)))) as [H2|H2]; [|destruct (Z.ltb_spec (Z.of_nat (length (m_data m))) n) as [H3|H3]]; cbn [m_frames m_ecu m_data];
      split; try reflexivity; split; try reflexivity; split; try lia; intros _.
    + split; [rewrite firstn_length; lia|]. left. exists (skipn (Z.to_nat n) (m_data m)). symmetry. apply firstn_skipn.
    + split; [rewrite app_length, repeat_length; lia|]. right. eexists. split; [reflexivity|].
      apply Forall_forall. intros x Hx. apply repeat_spec in Hx. auto.
    + split; [lia|]. left. exists []. rewrite app_nil_r. reflexivity.
  - split; [reflexivity|]. split; [reflexivity|]. split; [lia|reflexivity].
Qed.
Lemma resized_fun n d d1 d2 : resized n d d1 -> resized n d d2 -> d1 = d2.
Proof.
  intros [A1 A2] [B1 B2]. destruct (Z.ltb_spec 0 n) as [H|H]; [|rewrite A2, B2; auto].
  destruct (A1 H) as [L1 C1], (B1 H) as [L2 C2].
  assert (G : forall a b p : bytes, a ++ p = b -> length a = length b -> a = b).
  { intros a b p E L. assert (p = []) by (destruct p; [reflexivity|]; rewrite <- E, app_length in L; cbn in L; lia). subst. rewrite app_nil_r. reflexivity. }
  assert (K : forall (k p q : bytes), Forall (eq 0) p -> Forall (eq 0) q -> length p = length q -> k ++ p = k ++ q).
  { intros k p q Fp Fq L. f_equal. clear - Fp Fq L. revert q Fq L. induction Fp; intros [|y q] Fq L; try discriminate; [reflexivity|].
    inversion Fq; subst. f_equal. apply IHFp; auto. }
  destruct C1 as [[c1 E1]|[p1 [E1 F1]]], C2 as [[c2 E2]|[p2 [E2 F2]]].
  - assert (L : length d1 = length d2) by lia. rewrite E1 in E2. clear - E2 L. revert d2 E2 L. induction d1 as [|x d1 IH]; intros [|y d2] E L; try discriminate; [reflexivity|].
    injection E as -> E. f_equal. apply IH; auto.
  - subst d2. assert (c1 = []).
    { destruct c1; [reflexivity|]. rewrite E1, !app_length in L2. cbn in L2. lia. }
    subst c1. rewrite app_nil_r in E1. subst d1. apply (G d (d ++ p2) p2); [reflexivity|]; rewrite ?app_length in *; lia.
  - subst d1. assert (c2 = []).
    { destruct c2; [reflexivity|]. rewrite E2, !app_length in L1. cbn in L1. lia. }
    subst c2. rewrite app_nil_r in E2. subst d2. symmetry. apply (G d (d ++ p1) p1); [reflexivity|]; rewrite ?app_length in *; lia.
  - subst. apply K; auto. rewrite !app_length in *. lia.
Qed.
Lemma constrain_idem n m : constrain n (constrain n m) = constrain n m.
Proof.
  destruct (constrain_resized n m) as (H1 & H2 & H3 & H4). unfold constrain at 1. destruct (0 <? n) eqn:E; [|reflexivity].
  destruct (H3 ltac:(lia)) as [L _]. unfold zlen. rewrite L. replace (n <? n) with false by lia. reflexivity.
Qed.

(* the messages handed on: those addressed, resized *)
Definition prepared (c : command) (ms ms' : list message) : Prop :=
  exists sel, selects (fun m => common_bit (c_ecu c) (m_ecu m)) ms sel
    /\ Forall2 (fun m m' => m_frames m' = m_frames m /\ m_ecu m' = m_ecu m /\ resized (c_bytes c) (m_data m) (m_data m')) sel ms'.
Lemma message_eq m m' : m_frames m = m_frames m' -> m_ecu m = m_ecu m' -> m_data m = m_data m' -> m = m'.
Proof. destruct m, m'; cbn; intros -> -> ->; reflexivity. Qed.
Lemma prepared_eq c ms ms' : 0 <= c_ecu c -> prepared c ms ms' ->
  ms' = map (constrain (c_bytes c)) (filter (fun m => 0 <? Z.land (c_ecu c) (m_ecu m)) ms).
Proof.
  intros Hc (sel & S & F).
  rewrite (selects_eq _ _ _ S _ (selects_filter _ (fun m => 0 <? Z.land (c_ecu c) (m_ecu m)) ms (fun m => land_common _ _ Hc))) in F.
  clear S sel. induction F as [|m m' l l' (H1 & H2 & H3) F IH]; cbn [map]; [reflexivity|]. f_equal; [|exact IH].
  destruct (constrain_resized (c_bytes c) m) as (K1 & K2 & K3). apply message_eq; [congruence|congruence|]. eapply resized_fun; eassumption.
Qed.
Lemma prepared_ex c ms : 0 <= c_ecu c -> prepared c ms (map (constrain (c_bytes c)) (filter (fun m => 0 <? Z.land (c_ecu c) (m_ecu m)) ms)).
Proof.
  intros Hc. exists (filter (fun m => 0 <? Z.land (c_ecu c) (m_ecu m)) ms). split; [apply selects_filter; intros; apply land_common; exact Hc|].
  induction (filter _ ms) as [|m l IH]; cbn; constructor; [apply constrain_resized|exact IH].
Qed.
Lemma cmd_call_prepared c ms ms' : 0 <= c_ecu c -> prepared c ms ms' ->
  cmd_call c ms = match ms' with
                  | [] => Ok (mkResponse (Some c) [] VNone)
                  | _ => match run_decoder (c_decode c) ms' with
                         | Ok v => Ok (mkResponse (Some c) ms' v)
                         | Raise e => Raise e
                         end
                  end.
Proof.
  intros Hc P. unfold cmd_call. rewrite <- (prepared_eq c ms ms' Hc P). destruct ms'; reflexivity.
Qed.
Lemma cmd_call_again c ms r : cmd_call c ms = Ok r -> cmd_call c (r_messages r) = Ok r.
Proof.
  unfold cmd_call. set (ms' := map _ _). destruct (nonempty ms') eqn:E.
  - destruct (run_decoder (c_decode c) ms') as [v|e] eqn:D; cbn; [|discriminate]. intros H. injection H as <-. cbn [r_messages].
    assert (G : map (constrain (c_bytes c)) (filter (fun m => 0 <? Z.land (c_ecu c) (m_ecu m)) ms') = ms').
    { subst ms'. rewrite forallb_filter_all.
      - rewrite map_map. apply map_ext. intros; apply constrain_idem.
      - intros x Hx. apply in_map_iff in Hx. destruct Hx as (m & <- & Hm). apply filter_In in Hm. destruct (constrain_resized (c_bytes c) m) as (_ & -> & _). tauto. }
    rewrite G, E, D. reflexivity.
  - intros H. injection H as <-. reflexivity.
Qed.

(* ------------------------------------------------------------------ C17 *)
Lemma cmd_eqb_iff a b : cmd_eqb a b = true <-> c_command a = c_command b /\ c_header a = c_header b.
Proof. unfold cmd_eqb. rewrite andb_true_iff, !text_eqb_eq. reflexivity. Qed.
Lemma cmd_eqb_refl a : cmd_eqb a a = true. Proof. apply cmd_eqb_iff; auto. Qed.
Lemma cmd_eqb_sym a b : cmd_eqb a b = cmd_eqb b a.
Proof. apply eq_true_iff_eq. rewrite !cmd_eqb_iff. intuition. Qed.
Lemma cmd_eqb_congr a b c : cmd_eqb a b = true -> cmd_eqb c a = cmd_eqb c b.
Proof. intros H. apply eq_true_iff_eq. rewrite !cmd_eqb_iff in *. intuition congruence. Qed.
Lemma cmd_dict_get {V} (d : list (command * V)) a b : cmd_eqb a b = true -> dict_get cmd_eqb d a = dict_get cmd_eqb d b.
Proof. intros H. induction d as [|[k v] d IH]; cbn; [reflexivity|]. rewrite (cmd_eqb_congr a b k H), IH. reflexivity. Qed.

(* ------------------------------------------------------------------ C18 *)
Lemma writes_digits l ds : writes l ds <-> digits_of l ds.
Proof. split; apply Forall2_imp; intros; [apply digit_char_hexval|apply hexval_digit_char]; assumption. Qed.
Lemma int16_from_value l ds acc : digits_of l ds -> int16_from acc l = Ok (fold_left (fun v d => 16 * v + d) ds acc).
Proof.
  intros H. revert acc. induction H as [|c d l ds Hc H IH]; intros acc; cbn [int16_from fold_left]; [reflexivity|].
  rewrite Hc. rewrite IH. do 2 f_equal. lia.
Qed.
Lemma int16_value l ds : digits_of l ds -> l <> [] -> int16 l = Ok (hex_number ds).
Proof. intros H N. unfold int16. destruct l; [congruence|]. apply int16_from_value. exact H. Qed.
Lemma digits_of_app_inv l ds n : digits_of l ds -> digits_of (firstn n l) (firstn n ds) /\ digits_of (skipn n l) (skipn n ds).
Proof.
  intros H. revert n. induction H as [|c d l ds Hc H IH]; intros [|n]; cbn; try (split; constructor; auto; fail).
  destruct (IH n). split; [constructor|]; auto.
Qed.
Lemma mode_spec c v : c_mode c = Some v <-> exists d1 d2 ds, writes (c_command c) (d1 :: d2 :: ds) /\ v = 16 * d1 + d2.
Proof.
  unfold c_mode, zlen, upto. split.
  - destruct (_ && _) eqn:E; [|discriminate]. apply andb_true_iff in E. destruct E as [E1 E2]. destruct (isHex_digits_of _ E2) as [ds D].
    pose proof (digits_of_length _ _ D) as L. destruct ds as [|d1 [|d2 ds]]; try (cbn in L; lia).
    destruct (digits_of_app_inv _ _ 2 D) as [D2 _]. rewrite (int16_value _ _ D2) by (destruct (c_command c); [cbn in E1; lia|discriminate]).
    intros H. injection H as <-. exists d1, d2, ds. split; [apply writes_digits; exact D|]. cbn. lia.
  - intros (d1 & d2 & ds & D & ->). apply writes_digits in D. rewrite (digits_of_isHex _ _ D).
    pose proof (digits_of_length _ _ D) as L. cbn [length] in L. replace (2 <=? _) with true by lia. cbn [andb].
    destruct (digits_of_app_inv _ _ 2 D) as [D2 _]. rewrite (int16_value _ _ D2) by (destruct (c_command c); [cbn in L; lia|discriminate]). reflexivity.
Qed.
Lemma pid_spec c v : c_pid c = Some v <-> exists d1 d2 ds, ds <> [] /\ writes (c_command c) (d1 :: d2 :: ds) /\ v = hex_number ds.
Proof.
  unfold c_pid, zlen, from. split.
  - destruct (_ && _) eqn:E; [|discriminate]. apply andb_true_iff in E. destruct E as [E1 E2]. destruct (isHex_digits_of _ E2) as [ds D].
    pose proof (digits_of_length _ _ D) as L. destruct ds as [|d1 [|d2 [|d3 ds]]]; try (cbn in L; lia).
    destruct (digits_of_app_inv _ _ 2 D) as [_ D2]. rewrite (int16_value _ _ D2) by (intros X; apply (f_equal (@length Z)) in X; rewrite skipn_length in X; cbn in X; lia).
    intros H. injection H as <-. exists d1, d2, (d3 :: ds). split; [discriminate|]. split; [apply writes_digits; exact D|]. reflexivity.
  - intros (d1 & d2 & ds & N & D & ->). apply writes_digits in D. rewrite (digits_of_isHex _ _ D).
    pose proof (digits_of_length _ _ D) as L. cbn [length] in L. assert (0 < length ds)%nat by (destruct ds; [congruence|cbn; lia]). replace (2 <? _) with true by lia. cbn [andb].
    destruct (digits_of_app_inv _ _ 2 D) as [_ D2]. rewrite (int16_value _ _ D2) by (intros X; apply (f_equal (@length Z)) in X; rewrite skipn_length in X; cbn in X; lia).
    reflexivity.
Qed.

(* ------------------------------------------------------------------ C63 *)
Fixpoint checki {A} (P : nat -> A -> bool) (i : nat) (l : list A) : bool :=
  match l with [] => true | x :: t => P i x && checki P (S i) t end.
Lemma checki_spec {A} (P : nat -> A -> bool) l : forall i, checki P i l = true -> forall k x, nth_error l k = Some x -> P (i + k)%nat x = true.
Proof.
  induction l as [|y l IH]; intros i H k x; [destruct k; discriminate|]. cbn in H. apply andb_true_iff in H. destruct H as [H1 H2].
  destruct k as [|k]; cbn; [intros E; injection E as <-; rewrite Nat.add_0_r; exact H1|].
  intros E. replace (i + S k)%nat with (S i + k)%nat by lia. apply (IH (S i) H2 k x E).
Qed.
Definition pid_or_0 (c : command) : Z := match c_pid c with Some p => p | None => 0 end.
Lemma table_positions m l p c : nth_error modes m = Some l -> nth_error l p = Some (Some c) ->
  c_mode c = Some (Z.of_nat m) /\ pid_or_0 c = Z.of_nat p.
Proof.
  pose (P := fun m p (oc : option command) => match oc with Some c => oz_eqb (c_mode c) (Some (Z.of_nat m)) && (pid_or_0 c =? Z.of_nat p) | None => true end).
  assert (H : checki (fun m l => checki (P m) 0 l) 0 modes = true) by (vm_compute; reflexivity).
  intros H1 H2. pose proof (checki_spec _ _ _ H _ _ H1) as H3. cbn in H3. pose proof (checki_spec _ _ _ H3 _ _ H2) as H4. cbn in H4.
  apply andb_true_iff in H4. destruct H4 as [H4 H5]. apply oz_eqb_eq in H4. apply Z.eqb_eq in H5. auto.
Qed.

Fixpoint distinct {A} (eqb : A -> A -> bool) (l : list A) : bool :=
  match l with [] => true | x :: t => negb (existsb (eqb x) t) && distinct eqb t end.
Lemma distinct_NoDup {A} (eqb : A -> A -> bool) l : (forall x, eqb x x = true) -> distinct eqb l = true -> NoDup l.
Proof.
  intros R. induction l as [|x l IH]; cbn; constructor; apply andb_true_iff in H; destruct H as [H1 H2]; [|auto].
  intros I. apply negb_true_iff in H1. assert (existsb (eqb x) l = true) by (apply existsb_exists; exists x; auto). congruence.
Qed.
Lemma names_distinct : NoDup (map c_name all_commands).
Proof. apply (distinct_NoDup text_eqb); [apply text_eqb_refl|vm_compute; reflexivity]. Qed.
Lemma requests_distinct : NoDup (map (fun c => (c_header c, c_command c)) all_commands).
Proof.
  apply (distinct_NoDup (fun x y => text_eqb (fst x) (fst y) && text_eqb (snd x) (snd y))); [intros; rewrite !text_eqb_refl; reflexivity|].
  vm_compute. reflexivity.
Qed.
Lemma text_dict_get_set {V} (d : list (text * V)) k v k' :
  dict_get text_eqb (dict_set text_eqb d k v) k' = if text_eqb k k' then Some v else dict_get text_eqb d k'.
Proof.
  assert (R : forall x, text_eqb x x = true) by apply text_eqb_refl.
  induction d as [|[k0 v0] d IH]; cbn; [reflexivity|]. destruct (text_eqb k0 k) eqn:E; cbn.
  - apply text_eqb_eq in E. subst. destruct (text_eqb k k'); reflexivity.
  - rewrite IH. destruct (text_eqb k0 k') eqn:E1; [|reflexivity]. destruct (text_eqb k k') eqn:E2; [|reflexivity].
    apply text_eqb_eq in E1, E2. subst. rewrite R in E. discriminate.
Qed.
Lemma text_dict_set_new {V} (d : list (text * V)) k v : ~ In k (map fst d) -> dict_set text_eqb d k v = d ++ [(k, v)].
Proof.
  induction d as [|[k0 v0] d IH]; cbn; [reflexivity|]. intros N. destruct (text_eqb k0 k) eqn:E; [apply text_eqb_eq in E; subst; tauto|].
  f_equal. apply IH. tauto.
Qed.
Lemma fold_names l : forall d, NoDup (map fst d ++ map c_name l) ->
  fold_left (fun d c => dict_set text_eqb d (c_name c) c) l d = d ++ map (fun c => (c_name c, c)) l.
Proof.
  induction l as [|c l IH]; intros d N; cbn; [rewrite app_nil_r; reflexivity|]. cbn [map] in N.
  rewrite text_dict_set_new; [|apply NoDup_remove_2 in N; intros I; apply N; apply in_or_app; left; exact I].
  rewrite IH; [rewrite <- app_assoc; reflexivity|]. rewrite map_app. cbn. rewrite <- app_assoc. exact N.
Qed.
Lemma by_name_eq : by_name = map (fun c => (c_name c, c)) all_commands.
Proof. unfold by_name. rewrite fold_names; [reflexivity|]. cbn [map app]. apply names_distinct. Qed.
Lemma dict_get_NoDup {V} (d : list (text * V)) k v : NoDup (map fst d) -> In (k, v) d -> dict_get text_eqb d k = Some v.
Proof.
  induction d as [|[k0 v0] d IH]; cbn; [tauto|]. intros N [E|I].
  - injection E as -> ->. rewrite text_eqb_refl. reflexivity.
  - inversion N; subst. destruct (text_eqb k0 k) eqn:E; [|auto]. apply text_eqb_eq in E. subst.
    exfalso. apply H1. apply (in_map fst) in I. exact I.
Qed.
Lemma by_name_get name c : dict_get text_eqb by_name name = Some c <-> In c all_commands /\ c_name c = name.
Proof.
  rewrite by_name_eq. split.
  - intros H. assert (G : forall l, dict_get text_eqb (map (fun c => (c_name c, c)) l) name = Some c -> In c l /\ c_name c = name).
    { induction l as [|x l IH]; cbn; [discriminate|]. destruct (text_eqb (c_name x) name) eqn:E; [intros K; injection K as ->; apply text_eqb_eq in E; auto|intuition]. }
    exact (G _ H).
  - intros [I <-]. apply dict_get_NoDup; [rewrite map_map; apply names_distinct|]. apply (in_map (fun c => (c_name c, c))) in I. exact I.
Qed.
Lemma get_name_spec name c : get_name name = Ok c <-> In c all_commands /\ c_name c = name.
Proof.
  rewrite <- by_name_get. unfold get_name. destruct (dict_get text_eqb by_name name); split; congruence.
Qed.
Lemma has_command_spec c : has_command c = true <-> exists c', In c' all_commands /\ c_command c' = c_command c /\ c_header c' = c_header c.
Proof.
  unfold has_command. rewrite by_name_eq, map_map. cbn [snd]. rewrite map_id, existsb_exists.
  split; intros (c' & I & E); exists c'; (split; [exact I|apply cmd_eqb_iff; exact E]).
Qed.
Lemma has_name_spec s : has_name s = true <-> exists c, In c all_commands /\ c_name c = s.
Proof.
  unfold has_name, dict_mem. split.
  - destruct (isupper s) eqn:U; cbn [andb]; [|discriminate]. destruct (dict_get text_eqb by_name s) as [c|] eqn:D; cbn [orb].
    + intros _. exists c. apply by_name_get. exact D.
    + intros H. apply text_eqb_eq in H. subst. discriminate U.
  - intros (c & I & <-). assert (U : isupper (c_name c) = true).
    { assert (F : forallb (fun c => isupper (c_name c)) all_commands = true) by (vm_compute; reflexivity).
      rewrite forallb_forall in F. apply F. exact I. }
    rewrite U. assert (D : dict_get text_eqb by_name (c_name c) = Some c) by (apply by_name_get; auto). rewrite D. reflexivity.
Qed.
Lemma get_pid_nth m p c : has_pid m p = true -> get_pid m p = Some c ->
  exists l, nth_error modes (Z.to_nat m) = Some l /\ nth_error l (Z.to_nat p) = Some (Some c) /\ 0 <= m /\ 0 <= p.
Proof.
  unfold has_pid, get_pid. destruct (_ || _) eqn:E; [discriminate|]. apply orb_false_iff in E. destruct E as [E1 E2].
  destruct (Z.leb_spec (zlen modes) m) as [H|H]; [discriminate|]. destruct (Z.leb_spec (zlen (nth (Z.to_nat m) modes [])) p) as [H2|H2]; [discriminate|].
  intros _ Hc. unfold zlen in *. exists (nth (Z.to_nat m) modes []). split; [apply nth_error_nth'; lia|]. split; [|lia].
  rewrite <- Hc. apply nth_error_nth'. lia.
Qed.
Lemma has_pid_some m p : has_pid m p = true -> exists c, get_pid m p = Some c.
Proof.
  unfold has_pid, get_pid. destruct (_ || _); [discriminate|]. destruct (zlen modes <=? m); [discriminate|].
  destruct (_ <=? p); [discriminate|]. destruct (nth (Z.to_nat p) _ None); [eauto|discriminate].
Qed.
Definition moded : list command := somes (List.concat modes).
Lemma somes_In {A} (l : list (option A)) x : In x (somes l) <-> In (Some x) l.
Proof.
  unfold somes. rewrite in_flat_map. split.
  - intros ([y|] & I & H); [destruct H as [->|[]]; exact I|destruct H].
  - intros H. exists (Some x). split; [exact H|left; reflexivity].
Qed.
Lemma moded_nth c : In c moded <-> exists m l p, nth_error modes m = Some l /\ nth_error l p = Some (Some c).
Proof.
  unfold moded. rewrite somes_In, in_concat. split.
  - intros (l & I1 & I2). apply In_nth_error in I1, I2. destruct I1 as [m I1], I2 as [p I2]. eauto.
  - intros (m & l & p & H1 & H2). exists l. split; eapply nth_error_In; eassumption.
Qed.
Lemma has_pid_spec m p : has_pid m p = true <-> exists c, In c moded /\ c_mode c = Some m /\ pid_or_0 c = p.
Proof.
  split.
  - intros H. destruct (has_pid_some _ _ H) as [c Hc]. destruct (get_pid_nth _ _ _ H Hc) as (l & H1 & H2 & H3 & H4).
    exists c. split; [apply moded_nth; eauto|]. destruct (table_positions _ _ _ _ H1 H2) as [E1 E2]. rewrite E1, E2. split; [f_equal; lia|lia].
  - intros (c & I & E1 & E2). apply moded_nth in I. destruct I as (m' & l & p' & H1 & H2). destruct (table_positions _ _ _ _ H1 H2) as [K1 K2].
    rewrite K1 in E1. injection E1 as <-. rewrite K2 in E2. subst p. unfold has_pid, zlen.
    assert (m' < length modes)%nat by (apply nth_error_Some; congruence). assert (p' < length l)%nat by (apply nth_error_Some; congruence).
    replace (_ || _) with false by lia. replace (_ <=? Z.of_nat m') with false by lia. rewrite !Nat2Z.id. rewrite (nth_error_nth _ _ [] H1).
    replace (_ <=? Z.of_nat p') with false by lia. rewrite (nth_error_nth _ _ None H2). reflexivity.
Qed.
Lemma get_pid_spec m p c : has_pid m p = true /\ get_pid m p = Some c <-> In c moded /\ c_mode c = Some m /\ pid_or_0 c = p.
Proof.
  split.
  - intros [H Hc]. destruct (get_pid_nth _ _ _ H Hc) as (l & H1 & H2 & H3 & H4).
    split; [apply moded_nth; eauto|]. destruct (table_positions _ _ _ _ H1 H2) as [E1 E2]. rewrite E1, E2. split; [f_equal; lia|lia].
  - intros (I & E1 & E2). split; [apply has_pid_spec; eauto|]. apply moded_nth in I. destruct I as (m' & l & p' & H1 & H2). destruct (table_positions _ _ _ _ H1 H2) as [K1 K2].
    rewrite K1 in E1. injection E1 as <-. rewrite K2 in E2. subst p. unfold get_pid. rewrite !Nat2Z.id, (nth_error_nth _ _ [] H1), (nth_error_nth _ _ None H2). reflexivity.
Qed.
Lemma moded_all c : In c moded -> In c all_commands.
Proof. intros H. unfold all_commands. apply in_or_app. left. exact H. Qed.
