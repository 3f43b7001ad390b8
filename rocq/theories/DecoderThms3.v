(* Decoders, continued: description table, monitors, strings, text-only answers. *)
From Coq Require Import ZArith List Bool Lia String Permutation.
From Coq Require Import ZifyBool ZifyNat.
From Verif Require Export SpecMonitor.
From Verif Require Import Py Num Utils Protocol Codes UasTable Decoders Command CommandTable Commands SpecWire SpecBits SpecCmd
  PyFacts WireFacts ProtocolFacts UtilsThms EcuMapThms CommandThms DecoderThms DecoderThms2.
Import ListNotations.
Open Scope Z_scope.
Ltac Zify.zify_post_hook ::= Z.div_mod_to_equations.
Arguments Z.div : simpl never. Arguments Z.modulo : simpl never. Arguments Z.mul : simpl never. Arguments Z.add : simpl never. Arguments Z.sub : simpl never. Arguments Z.land : simpl never.

(* ------------------------------------------------------------------ from the API to the decoder *)
Lemma first_answers c ms m h1 h2 d : 0 <= c_ecu c ->
  first_with (fun m => common_bit (c_ecu c) (m_ecu m)) ms m -> resized (c_bytes c) (m_data m) (h1 :: h2 :: d) -> answers c ms d.
Proof.
  intros Hc (before & after & -> & Hm & Hb) R.
  pose proof (prepared_ex c (before ++ m :: after) Hc) as P.
  assert (E : filter (fun m => 0 <? Z.land (c_ecu c) (m_ecu m)) (before ++ m :: after) = m :: filter (fun m => 0 <? Z.land (c_ecu c) (m_ecu m)) after).
  { clear -Hc Hm Hb. induction before as [|x b IH]; cbn [app filter].
    - apply (land_common _ _ Hc) in Hm. rewrite Hm. reflexivity.
    - inversion Hb as [|? ? Hx Hb']; subst. destruct (0 <? Z.land (c_ecu c) (m_ecu x)) eqn:L; [apply (land_common _ _ Hc) in L; tauto|]. exact (IH Hb'). }
  rewrite E in P. cbn [map] in P. exists (constrain (c_bytes c) m), (map (constrain (c_bytes c)) (filter (fun m => 0 <? Z.land (c_ecu c) (m_ecu m)) after)), h1, h2.
  split; [exact P|]. apply (resized_fun (c_bytes c) (m_data m)); [apply constrain_resized|exact R].
Qed.
Lemma first_prepared c ms m d : 0 <= c_ecu c ->
  first_with (fun m => common_bit (c_ecu c) (m_ecu m)) ms m -> resized (c_bytes c) (m_data m) d ->
  exists m' rest, prepared c ms (m' :: rest) /\ m_data m' = d.
Proof.
  intros Hc (before & after & -> & Hm & Hb) R.
  pose proof (prepared_ex c (before ++ m :: after) Hc) as P.
  assert (E : filter (fun m => 0 <? Z.land (c_ecu c) (m_ecu m)) (before ++ m :: after) = m :: filter (fun m => 0 <? Z.land (c_ecu c) (m_ecu m)) after).
  { clear -Hc Hm Hb. induction before as [|x b IH]; cbn [app filter].
    - apply (land_common _ _ Hc) in Hm. rewrite Hm. reflexivity.
    - inversion Hb as [|? ? Hx Hb']; subst. destruct (0 <? Z.land (c_ecu c) (m_ecu x)) eqn:L; [apply (land_common _ _ Hc) in L; tauto|]. exact (IH Hb'). }
  rewrite E in P. cbn [map] in P. exists (constrain (c_bytes c) m), (map (constrain (c_bytes c)) (filter (fun m => 0 <? Z.land (c_ecu c) (m_ecu m)) after)).
  split; [exact P|]. apply (resized_fun (c_bytes c) (m_data m)); [apply constrain_resized|exact R].
Qed.

(* ------------------------------------------------------------------ the description table *)
Fixpoint text_ltb (a b : text) : bool :=
  match a, b with
  | [], _ :: _ => true
  | _, [] => false
  | x :: a', y :: b' => if x =? y then text_ltb a' b' else x <? y
  end.
Lemma text_ltb_trans a : forall b c, text_ltb a b = true -> text_ltb b c = true -> text_ltb a c = true.
Proof.
  induction a as [|x a IH]; intros [|y b] [|z c]; cbn; try discriminate; auto.
  destruct (Z.eqb_spec x y), (Z.eqb_spec y z), (Z.eqb_spec x z); subst; try lia; eauto.
Qed.
Lemma text_ltb_irrefl a : text_ltb a a = false.
Proof. induction a as [|x a IH]; cbn; [reflexivity|]. rewrite Z.eqb_refl. exact IH. Qed.
Fixpoint ascending (l : list text) : bool :=
  match l with x :: ((y :: _) as t) => text_ltb x y && ascending t | _ => true end.
Lemma ascending_NoDup l : ascending l = true -> NoDup l.
Proof.
  assert (G : forall x l, ascending (x :: l) = true -> Forall (fun y => text_ltb x y = true) l).
  { clear. intros x l; revert x. induction l as [|y l IH]; intros x H; [constructor|]. cbn in H. apply andb_prop in H. destruct H as [H1 H2].
    constructor; [exact H1|]. eapply Forall_impl; [|exact (IH y H2)]. cbn. intros z. apply text_ltb_trans. exact H1. }
  induction l as [|x l IH]; intros H; constructor.
  - intros I. specialize (G x l H). rewrite Forall_forall in G. specialize (G x I). rewrite text_ltb_irrefl in G. discriminate.
  - apply IH. destruct l; [reflexivity|]. cbn in H. apply andb_prop in H. tauto.
Qed.
Lemma DTC_keys : NoDup (map fst DTC).
Proof. apply ascending_NoDup. vm_compute. reflexivity. Qed.
(* the byte pair of a code as listed *)
Definition unhex (c : Z) : Z := if c <? 65 then c - 48 else c - 55.
Definition code_bytes (code : text) : option (Z * Z) :=
  match code with
  | [l; d1; d2; d3; d4] =>
      let t := if l =? 80 then 0 else if l =? 67 then 1 else if l =? 66 then 2 else 3 in
      Some (64 * t + 16 * (d1 - 48) + unhex d2, 16 * unhex d3 + unhex d4)
  | _ => None
  end.
Definition has_upper (code : text) : bool := existsb (fun c => (65 <=? c) && (c <=? 70)) (tl code).
Definition entry_ok (e : text * text) : bool :=
  match code_bytes (fst e) with
  | Some (a, b) => (0 <=? a) && (a <? 256) && (0 <=? b) && (b <? 256) && (has_upper (fst e) || text_eqb (dtc_text a b) (fst e))
  | None => false
  end.
Lemma entries_ok : forallb entry_ok DTC = true. Proof. vm_compute. reflexivity. Qed.
Lemma has_upper_iff code : has_upper code = true <-> Exists upper_hex (tl code).
Proof.
  unfold has_upper. rewrite existsb_exists, Exists_exists. unfold upper_hex. split; intros (x & I & H); exists x; (split; [exact I|]); lia.
Qed.
Lemma listed_code code desc : In (code, desc) DTC -> ~ Exists upper_hex (tl code) ->
  exists a b, is_byte a /\ is_byte b /\ (a, b) <> (0, 0) /\ dtc_text a b = code /\ described DTC code desc.
Proof.
  intros I N. pose proof entries_ok as F. rewrite forallb_forall in F. specialize (F _ I). unfold entry_ok in F. cbn [fst] in F.
  destruct (code_bytes code) as [[a b]|]; [|discriminate].
  assert (U : has_upper code = false) by (destruct (has_upper code) eqn:E; [apply has_upper_iff in E; tauto|reflexivity]).
  rewrite U, orb_false_l in F. repeat (apply andb_prop in F; destruct F as [F ?]). exists a, b. unfold is_byte.
  assert (T : dtc_text a b = code) by (apply text_eqb_eq; assumption).
  split; [lia|]. split; [lia|]. split.
  { intros X. injection X as -> ->. rewrite <- T in I. 
    assert (Z0 : forallb (fun e => negb (text_eqb (fst e) (dtc_text 0 0))) DTC = true) by (vm_compute; reflexivity).
    rewrite forallb_forall in Z0. specialize (Z0 _ I). cbn [fst] in Z0. rewrite text_eqb_refl in Z0. discriminate. }
  split; [exact T|].
  apply in_split in I. destruct I as (l1 & l2 & E). apply (described_in _ l1 code desc l2 E).
  pose proof DTC_keys as ND. rewrite E, map_app in ND. cbn [map fst] in ND. apply NoDup_remove_2 in ND. intros X. apply ND. apply in_or_app. auto.
Qed.
Lemma lower_no_upper a b : is_byte a -> is_byte b -> ~ Exists upper_hex (tl (dtc_text a b)).
Proof.
  intros Ha Hb. unfold dtc_text. cbn [tl]. rewrite Exists_exists. intros (x & I & H). unfold upper_hex, is_byte, lower_digit in *.
  cbn [In] in I. repeat (destruct I as [<-|I]); try tauto; repeat match type of H with context [if ?b then _ else _] => destruct b eqn:? end; lia.
Qed.

(* ------------------------------------------------------------------ monitors *)
Lemma z_dict_get_set {V} (d : list (Z * V)) k v k' : dict_get Z.eqb (dict_set Z.eqb d k v) k' = if k =? k' then Some v else dict_get Z.eqb d k'.
Proof.
  induction d as [|[k1 v1] d IH]; cbn; [reflexivity|]. destruct (Z.eqb_spec k1 k) as [->|N]; cbn.
  - destruct (Z.eqb_spec k k'); reflexivity.
  - rewrite IH. destruct (Z.eqb_spec k1 k'), (Z.eqb_spec k k'); subst; congruence.
Qed.
Lemma z_dict_keys {V} (d : list (Z * V)) k v x : In x (map fst (dict_set Z.eqb d k v)) <-> x = k \/ In x (map fst d).
Proof.
  induction d as [|[k1 v1] d IH]; cbn; [intuition|]. destruct (Z.eqb_spec k1 k) as [->|N]; cbn; [intuition|]. rewrite IH. intuition.
Qed.
Lemma z_dict_NoDup {V} (d : list (Z * V)) k v : NoDup (map fst d) -> NoDup (map fst (dict_set Z.eqb d k v)).
Proof.
  induction d as [|[k1 v1] d IH]; cbn; intros H; [constructor; [tauto|constructor]|]. inversion H as [|? ? N H']; subst.
  destruct (Z.eqb_spec k1 k) as [->|Nk]; cbn; [constructor; assumption|]. constructor; [|auto]. rewrite z_dict_keys. intuition congruence.
Qed.
Lemma z_dict_In {V} (d : list (Z * V)) k v : NoDup (map fst d) -> (In (k, v) d <-> dict_get Z.eqb d k = Some v).
Proof.
  induction d as [|[k1 v1] d IH]; cbn; intros H; [split; [tauto|discriminate]|]. inversion H as [|? ? N H']; subst. destruct (Z.eqb_spec k1 k) as [->|Nk].
  - split; [intros [E|E]; [congruence|exfalso; apply N; apply in_map_iff; exists (k, v); auto]|intros E; left; congruence].
  - rewrite <- (IH H'). split; [intros [E|E]; [congruence|exact E]|auto].
Qed.

Definition names_of (tid : Z) : text * text :=
  match dict_get Z.eqb TEST_IDS tid with Some nd => nd | None => (str "Unknown", str "Unknown") end.
(* the test a block of 9 bytes stands for *)
Definition test_of (b : bytes) : option mtest :=
  match parse_monitor_test b with Ok t => t | Raise _ => None end.
Definition mon_step (mon : monitor_value) (b : bytes) : monitor_value := match test_of b with Some t => add_test mon t | None => mon end.
Lemma blocks9_concat d bs : blocks9 d bs -> exists rest, d = List.concat bs ++ rest /\ (length rest < 9)%nat /\ Forall (fun b => length b = 9%nat) bs.
Proof.
  induction 1 as [d H|b d bs Hb _ (rest & -> & L & F)]; [exists d; auto|]. exists rest. cbn [List.concat]. rewrite app_assoc. auto.
Qed.
Lemma concat9_length (bs : list bytes) : Forall (fun b => length b = 9%nat) bs -> length (List.concat bs) = (9 * length bs)%nat.
Proof. induction 1 as [|b bs Hb _ IH]; cbn [List.concat length]; [reflexivity|]. rewrite app_length. lia. Qed.
Lemma monitor_blocks_eq (bs : list bytes) : Forall (fun b => length b = 9%nat) bs -> forall mon,
  monitor_blocks (length bs) (List.concat bs) mon = Ok (fold_left mon_step bs mon).
Proof.
  induction 1 as [|b bs Hb _ IH]; intros mon; cbn [length monitor_blocks List.concat fold_left]; [reflexivity|].
  unfold upto, from. rewrite <- Hb. rewrite firstn_app, firstn_all, Nat.sub_diag, firstn_O, app_nil_r.
  rewrite skipn_app, skipn_all, Nat.sub_diag. cbn [app skipn]. unfold mon_step at 2, test_of.
  destruct (block_ok b Hb) as [t ->]. cbn [rbind]. apply IH.
Qed.
Lemma dec_monitor_eq m rest h d bs : m_data m = h :: d -> blocks9 d bs -> dec_monitor (m :: rest) = Ok (VMonitor (fold_left mon_step bs new_monitor)).
Proof.
  intros E B. unfold dec_monitor. cbn [get nth_error rbind]. rewrite E. change (from 1 (h :: d)) with d.
  destruct (blocks9_concat d bs B) as (r & -> & L & F). pose proof (concat9_length bs F) as C.
  assert (Q : (length (List.concat bs ++ r) - Nat.modulo (length (List.concat bs ++ r)) 9 = length (List.concat bs))%nat).
  { rewrite app_length, C. rewrite (Nat.add_comm _ (length r)), (Nat.mul_comm 9), Nat.mod_add by lia. rewrite Nat.mod_small by lia. lia. }
  rewrite Q. unfold upto. rewrite firstn_app, firstn_all, Nat.sub_diag, firstn_O, app_nil_r. rewrite C, (Nat.mul_comm 9), Nat.div_mul by lia.
  rewrite (monitor_blocks_eq bs F). reflexivity.
Qed.
Lemma UAS_keys : NoDup (map fst UAS_IDS).
Proof. apply (NoDup_map_inv (fun z => [z])). apply ascending_NoDup. vm_compute. reflexivity. Qed.
Lemma TEST_keys : NoDup (map fst TEST_IDS).
Proof. apply (NoDup_map_inv (fun z => [z])). apply ascending_NoDup. vm_compute. reflexivity. Qed.
Lemma dict_get_none_iff {V} (d : list (Z * V)) k : dict_get Z.eqb d k = None <-> ~ In k (map fst d).
Proof. induction d as [|[k1 v1] d IH]; cbn; [tauto|]. destruct (Z.eqb_spec k1 k); [subst; split; [discriminate|tauto]|]. rewrite IH. tauto. Qed.
Lemma names_test_iff tid name desc : names_test tid name desc <-> names_of tid = (name, desc).
Proof.
  unfold names_test, names_of. rewrite (z_dict_In TEST_IDS tid (name, desc) TEST_keys), <- dict_get_none_iff.
  destruct (dict_get Z.eqb TEST_IDS tid) as [nd|]; split.
  - intros [H|(H & _)]; congruence.
  - left. congruence.
  - intros [H|(_ & -> & ->)]; [discriminate|reflexivity].
  - intros H. right. injection H as <- <-. auto.
Qed.
Lemma block_test_iff b t : length b = 9%nat -> block_test b t <-> test_of b = Some t.
Proof.
  intros L. do 9 (destruct b as [|? b]; [discriminate|]). destruct b; [|discriminate].
  unfold test_of, parse_monitor_test. cbn [get nth_error rbind slice from skipn firstn Nat.sub].
  fold (names_of z0). destruct (names_of z0) as [nm ds] eqn:En.
  destruct (dict_get Z.eqb UAS_IDS z1) as [u|] eqn:Eu.
  - assert (H : forall x y, exists t, uas_call u [x; y] = Ok t).
    { intros x y. apply uas_ok. exists tt. split; [destruct u; [right; discriminate|exact I]|reflexivity]. }
    destruct (H z2 z3) as [t1 E1], (H z4 z5) as [t2 E2], (H z6 z7) as [t3 E3]. rewrite E1, E2, E3. cbn [rbind]. split.
    + intros (mid & tid & id & v1 & v2 & l1 & l2 & h1 & h2 & u' & name & desc & v & lo & hi & Eb & Iu & Nt & U1 & U2 & U3 & ->).
      injection Eb as <- <- <- <- <- <- <- <- <-. apply (z_dict_In _ _ _ UAS_keys) in Iu. apply names_test_iff in Nt. rewrite En in Nt. injection Nt as <- <-.
      rewrite Eu in Iu. injection Iu as <-. congruence.
    + intros X. injection X as <-. exists z, z0, z1, z2, z3, z4, z5, z6, z7, u, nm, ds, t1, t2, t3.
      split; [reflexivity|]. split; [apply (z_dict_In _ _ _ UAS_keys); exact Eu|]. split; [apply names_test_iff; exact En|]. auto.
  - cbn. split; [|discriminate].
    intros (mid & tid & id & v1 & v2 & l1 & l2 & h1 & h2 & u' & name & desc & v & lo & hi & Eb & Iu & _).
    injection Eb as <- <- <- <- <- <- <- <- <-. apply (z_dict_In _ _ _ UAS_keys) in Iu. congruence.
Qed.
Lemma test_of_usable b : length b = 9%nat ->
  match test_of b with Some t => t_tid t = Some (block_tid b) /\ usable (block_tid b) b /\ test_is_null t = false
                              /\ t_name t = Some (fst (names_of (block_tid b)))
                     | None => ~ In (block_uas b) (map fst UAS_IDS) end.
Proof.
  intros L. destruct (test_of b) as [t|] eqn:E.
  - apply (block_test_iff b t L) in E. destruct E as (mid & tid & id & v1 & v2 & l1 & l2 & h1 & h2 & u & name & desc & v & lo & hi & -> & Iu & Nt & _ & _ & _ & ->).
    split; [reflexivity|]. split; [split; [reflexivity|]; cbn [block_uas nth]; apply in_map_iff; exists (id, u); auto|]. split; [reflexivity|].
    cbn [t_name block_tid nth]. apply names_test_iff in Nt. rewrite Nt. reflexivity.
  - intros I. do 9 (destruct b as [|? b]; [discriminate|]). destruct b; [|discriminate]. cbn [block_uas nth] in I.
    apply in_map_iff in I. destruct I as ([id u] & Ei & Iu). cbn in Ei. subst id.
    assert (H : forall x y, exists t, uas_call u [x; y] = Ok t).
    { intros x y. apply uas_ok. exists tt. split; [destruct u; [right; discriminate|exact I]|reflexivity]. }
    destruct (H z2 z3) as [t1 E1], (H z4 z5) as [t2 E2], (H z6 z7) as [t3 E3]. destruct (names_of z0) as [nm ds] eqn:En.
    assert (B : block_test [z; z0; z1; z2; z3; z4; z5; z6; z7] (mkTest (Some z0) (Some nm) (Some ds) (Some t1) (Some t2) (Some t3))).
    { exists z, z0, z1, z2, z3, z4, z5, z6, z7, u, nm, ds, t1, t2, t3. apply names_test_iff in En. split; [reflexivity|]. split; [exact Iu|]. split; [exact En|]. auto. }
    apply (block_test_iff _ _ L) in B. congruence.
Qed.
(* the last usable block for a test id *)
Fixpoint last_usable (tid : Z) (bs : list bytes) (acc : option bytes) : option bytes :=
  match bs with
  | [] => acc
  | b :: t => last_usable tid t (if (block_tid b =? tid) && match test_of b with Some _ => true | None => false end then Some b else acc)
  end.
Lemma last_usable_app tid bs b : last_usable tid (bs ++ [b]) None =
  if (block_tid b =? tid) && match test_of b with Some _ => true | None => false end then Some b else last_usable tid bs None.
Proof. generalize (@None bytes). induction bs as [|x bs IH]; intros acc; cbn; [reflexivity|apply IH]. Qed.
Lemma usable_iff tid b : length b = 9%nat -> usable tid b <-> (block_tid b =? tid) && match test_of b with Some _ => true | None => false end = true.
Proof.
  intros L. pose proof (test_of_usable b L) as H. unfold usable. rewrite andb_true_iff, Z.eqb_eq. destruct (test_of b) as [t|].
  - destruct H as (_ & (_ & H) & _). tauto.
  - split; [tauto|]. intros [_ X]; discriminate.
Qed.
Lemma last_usable_spec tid bs b : Forall (fun b => length b = 9%nat) bs -> last_usable tid bs None = Some b <-> last_with (usable tid) bs b.
Proof.
  intros F. induction bs as [|x bs IH] using rev_ind.
  - cbn. split; [discriminate|]. intros (l1 & l2 & E & _). destruct l1; discriminate.
  - apply Forall_app in F. destruct F as [F Fx]. inversion Fx as [|? ? Lx _]; subst. rewrite last_usable_app. specialize (IH F).
    pose proof (usable_iff tid x Lx) as U. destruct (_ && _).
    + split.
      * intros E. injection E as <-. exists bs, []. split; [reflexivity|]. split; [tauto|constructor].
      * intros (l1 & l2 & E & Hb & Hn). destruct l2 as [|y l2 _] using rev_ind.
        -- apply app_inj_tail in E. destruct E as [_ ->]. reflexivity.
        -- rewrite app_comm_cons, app_assoc in E. apply app_inj_tail in E. destruct E as [_ ->]. apply Forall_app in Hn. destruct Hn as [_ Hn]. inversion Hn; subst. tauto.
    + rewrite IH. split.
      * intros (l1 & l2 & -> & Hb & Hn). exists l1, (l2 ++ [x]). split; [rewrite <- app_assoc; reflexivity|]. split; [exact Hb|]. apply Forall_app. split; [exact Hn|constructor; [|constructor]]. intros X. apply U in X. discriminate.
      * intros (l1 & l2 & E & Hb & Hn). destruct l2 as [|y l2 _] using rev_ind.
        -- apply app_inj_tail in E. destruct E as [_ ->]. apply U in Hb. discriminate.
        -- rewrite app_comm_cons, app_assoc in E. apply app_inj_tail in E. destruct E as [-> ->]. exists l1, l2. split; [reflexivity|]. split; [exact Hb|]. apply Forall_app in Hn. tauto.
Qed.
Definition get_test (o : option bytes) : mtest := match o with Some b => match test_of b with Some t => t | None => null_test end | None => null_test end.
Lemma init_tests tid : match dict_get Z.eqb (mon_tests new_monitor) tid with Some t => t | None => null_test end = null_test.
Proof.
  unfold new_monitor. cbn [mon_tests]. generalize TEST_IDS. intros l.
  assert (G : forall (l : list (Z * (text * text))) d, (match dict_get Z.eqb d tid with Some t => t | None => null_test end = null_test) ->
    match dict_get Z.eqb (fold_left (fun d kv => dict_set Z.eqb d (fst kv) null_test) l d) tid with Some t => t | None => null_test end = null_test).
  { clear l. induction l as [|kv l IH]; intros d H; cbn; [exact H|]. apply IH. rewrite z_dict_get_set. destruct (_ =? _); [reflexivity|exact H]. }
  apply G. reflexivity.
Qed.
Lemma init_names name : match dict_get text_eqb (mon_names new_monitor) name with Some t => t | None => null_test end = null_test.
Proof.
  unfold new_monitor. cbn [mon_names].
  assert (G : forall (l : list (Z * (text * text))) d, (match dict_get text_eqb d name with Some t => t | None => null_test end = null_test) ->
    match dict_get text_eqb (fold_left (fun d kv => dict_set text_eqb d (fst (snd kv)) null_test) l d) name with Some t => t | None => null_test end = null_test).
  { induction l as [|kv l IH]; intros d H; cbn; [exact H|]. apply IH. rewrite text_dict_get_set. destruct (text_eqb _ _); [reflexivity|exact H]. }
  apply G. reflexivity.
Qed.
Lemma get_tid_eq bs tid : Forall (fun b => length b = 9%nat) bs ->
  monitor_get_tid (fold_left mon_step bs new_monitor) tid = get_test (last_usable tid bs None).
Proof.
  induction bs as [|b bs IH] using rev_ind; intros F; [exact (init_tests tid)|].
  apply Forall_app in F. destruct F as [F Fx]. inversion Fx as [|? ? Lx _]; subst. rewrite fold_left_app, last_usable_app. cbn [fold_left].
  specialize (IH F). set (mon := fold_left mon_step bs new_monitor) in *. unfold mon_step. pose proof (test_of_usable b Lx) as U.
  destruct (test_of b) as [t|] eqn:E.
  - destruct U as (Ht & _). unfold monitor_get_tid, add_test. cbn [mon_tests]. rewrite Ht, z_dict_get_set. rewrite andb_true_r. destruct (block_tid b =? tid).
    + unfold get_test. rewrite E. reflexivity.
    + exact IH.
  - rewrite andb_false_r. exact IH.
Qed.
Lemma tests_NoDup bs : Forall (fun b => length b = 9%nat) bs -> NoDup (map fst (mon_tests (fold_left mon_step bs new_monitor))).
Proof.
  intros F. assert (H0 : NoDup (map fst (mon_tests new_monitor))).
  { unfold new_monitor. cbn [mon_tests]. generalize (NoDup_nil Z). change (@nil Z) with (map fst (@nil (Z * mtest))). generalize (@nil (Z * mtest)).
    induction TEST_IDS as [|kv l IH]; intros d H; cbn; [exact H|]. apply IH, z_dict_NoDup, H. }
  revert F H0. generalize new_monitor. induction bs as [|b bs IH]; intros mon F H; cbn; [exact H|]. inversion F; subst. apply IH; [assumption|].
  unfold mon_step. destruct (test_of b) as [t|]; [|exact H]. unfold add_test. cbn. destruct (t_tid t); [apply z_dict_NoDup|]; exact H.
Qed.
(* keys of the table of tests are the ids inside the tests *)
Lemma tests_keyed bs : Forall (fun b => length b = 9%nat) bs ->
  Forall (fun kv => test_is_null (snd kv) = true \/ t_tid (snd kv) = Some (fst kv)) (mon_tests (fold_left mon_step bs new_monitor)).
Proof.
  intros F.
  assert (S : forall (d : list (Z * mtest)) k v, Forall (fun kv => test_is_null (snd kv) = true \/ t_tid (snd kv) = Some (fst kv)) d ->
     (test_is_null v = true \/ t_tid v = Some k) -> Forall (fun kv => test_is_null (snd kv) = true \/ t_tid (snd kv) = Some (fst kv)) (dict_set Z.eqb d k v)).
  { clear. induction d as [|[k1 v1] d IH]; intros k v H Hv; cbn; [constructor; [exact Hv|constructor]|]. inversion H; subst.
    destruct (Z.eqb_spec k1 k) as [->|N]; constructor; auto. }
  assert (H0 : Forall (fun kv => test_is_null (snd kv) = true \/ t_tid (snd kv) = Some (fst kv)) (mon_tests new_monitor)).
  { unfold new_monitor. cbn [mon_tests]. assert (H : Forall (fun kv : Z * mtest => test_is_null (snd kv) = true \/ t_tid (snd kv) = Some (fst kv)) []) by constructor. revert H.
    generalize (@nil (Z * mtest)). induction TEST_IDS as [|kv l IH]; intros d H; cbn; [exact H|]. apply IH, S; auto. }
  revert F H0. generalize new_monitor. induction bs as [|b bs IH]; intros mon F H; cbn; [exact H|]. inversion F as [|? ? L F']; subst. apply IH; [assumption|].
  unfold mon_step. pose proof (test_of_usable b L) as U. destruct (test_of b) as [t|]; [|exact H]. unfold add_test. cbn. destruct U as (E & _). rewrite E. apply S; auto.
Qed.
Lemma tests_In bs t : Forall (fun b => length b = 9%nat) bs ->
  In t (monitor_tests (fold_left mon_step bs new_monitor)) <-> exists tid b, last_with (usable tid) bs b /\ block_test b t.
Proof.
  intros F. set (mon := fold_left mon_step bs new_monitor). unfold monitor_tests. rewrite filter_In, in_map_iff.
  pose proof (tests_NoDup bs F) as ND. fold mon in ND.
  assert (LW : forall tid b, last_with (usable tid) bs b -> length b = 9%nat).
  { intros tid b (l1 & l2 & -> & _). rewrite Forall_forall in F. apply F. apply in_or_app. right. left. reflexivity. }
  split.
  - intros (([k t'] & E & I) & Nn). cbn in E. subst t'. apply negb_true_iff in Nn.
    apply (z_dict_In _ _ _ ND) in I. pose proof (get_tid_eq bs k F) as G. fold mon in G. unfold monitor_get_tid in G. rewrite I in G.
    destruct (last_usable k bs None) as [b|] eqn:EL; cbn [get_test] in G; [|subst t; discriminate].
    apply (last_usable_spec k bs b F) in EL. exists k, b. split; [exact EL|]. apply (block_test_iff b t (LW k b EL)).
    destruct (test_of b); [congruence|subst t; discriminate].
  - intros (tid & b & LWb & B). pose proof (LW tid b LWb) as L. apply (block_test_iff b t L) in B. pose proof (test_of_usable b L) as U. rewrite B in U.
    destruct U as (_ & _ & Nn & _). split; [|rewrite Nn; reflexivity].
    apply (last_usable_spec tid bs b F) in LWb. pose proof (get_tid_eq bs tid F) as G. fold mon in G. rewrite LWb in G. cbn [get_test] in G. rewrite B in G.
    unfold monitor_get_tid in G. destruct (dict_get Z.eqb (mon_tests mon) tid) as [t'|] eqn:D; [|subst t; discriminate].
    exists (tid, t). split; [reflexivity|]. apply (z_dict_In _ _ _ ND). congruence.
Qed.
Lemma tests_ids_NoDup bs : Forall (fun b => length b = 9%nat) bs -> NoDup (map t_tid (monitor_tests (fold_left mon_step bs new_monitor))).
Proof.
  intros F. pose proof (tests_NoDup bs F) as ND. pose proof (tests_keyed bs F) as K. unfold monitor_tests.
  induction (mon_tests (fold_left mon_step bs new_monitor)) as [|[k v] d IH]; cbn; [constructor|]. inversion ND as [|? ? N ND']; subst. inversion K as [|? ? Kv K']; subst.
  destruct (test_is_null v) eqn:Ev; cbn; [auto|]. constructor; [|auto]. cbn in Kv. destruct Kv as [X|Kv]; [congruence|]. rewrite Kv.
  intros I. apply in_map_iff in I. destruct I as (t & Et & I). apply filter_In in I. destruct I as [I Nt]. apply in_map_iff in I. destruct I as ([k2 v2] & E2 & I2). cbn in E2; subst v2.
  rewrite Forall_forall in K'. specialize (K' _ I2). cbn in K'. destruct K' as [X|X]; [rewrite X in Nt; discriminate|].
  apply N. apply in_map_iff. exists (k2, t). split; [cbn; congruence|exact I2].
Qed.
(* look-up by name *)
Lemma names_nonunknown : Forall (fun e => fst (snd e) <> str "Unknown") TEST_IDS.
Proof.
  apply Forall_forall. intros e I. assert (F : forallb (fun e => negb (text_eqb (fst (snd e)) (str "Unknown"))) TEST_IDS = true) by (vm_compute; reflexivity).
  rewrite forallb_forall in F. specialize (F e I). apply negb_true_iff, text_eqb_neq in F. exact F.
Qed.
Lemma name_tid name1 tid1 d1 tid2 d2 : In (tid1, (name1, d1)) TEST_IDS -> In (tid2, (name1, d2)) TEST_IDS -> tid1 = tid2.
Proof.
  intros I1 I2.
  assert (F : forallb (fun e1 => forallb (fun e2 => negb (text_eqb (fst (snd e1)) (fst (snd e2))) || (fst e1 =? fst e2)) TEST_IDS) TEST_IDS = true) by (vm_compute; reflexivity).
  rewrite forallb_forall in F. specialize (F _ I1). cbv beta in F. rewrite forallb_forall in F. specialize (F _ I2). cbn in F. rewrite text_eqb_refl in F. cbn in F. lia.
Qed.
Lemma name_lookup bs tid name desc : Forall (fun b => length b = 9%nat) bs -> In (tid, (name, desc)) TEST_IDS ->
  monitor_get_name (fold_left mon_step bs new_monitor) name = monitor_get_tid (fold_left mon_step bs new_monitor) tid.
Proof.
  intros F I.
  assert (H0 : monitor_get_name new_monitor name = monitor_get_tid new_monitor tid).
  { transitivity null_test; [exact (init_names name)|symmetry; exact (init_tests tid)]. }
  revert F H0. generalize new_monitor. induction bs as [|b bs IH]; intros mon F H; cbn; [exact H|]. inversion F as [|? ? L F']; subst. apply IH; [assumption|].
  unfold mon_step. pose proof (test_of_usable b L) as U. destruct (test_of b) as [t|]; [|exact H]. destruct U as (Ht & _ & _ & Hn).
  unfold add_test, monitor_get_name, monitor_get_tid. cbn [mon_names mon_tests]. rewrite Ht, Hn, z_dict_get_set, text_dict_get_set.
  destruct (names_of (block_tid b)) as [nm ds] eqn:En. cbn [fst]. apply names_test_iff in En.
  destruct (Z.eqb_spec (block_tid b) tid) as [Eb|Nb].
  - assert (nm = name).
    { destruct En as [En|(En & _)]; [|exfalso; apply En; apply in_map_iff; exists (tid, (name, desc)); auto].
      subst tid. apply (z_dict_In _ _ _ TEST_keys) in En, I. congruence. }
    subst nm. rewrite text_eqb_refl. reflexivity.
  - destruct (text_eqb nm name) eqn:Ex; [|exact H]. apply text_eqb_eq in Ex. subst nm. exfalso. destruct En as [En|(_ & En & _)].
    + apply Nb. eapply name_tid; eassumption.
    + pose proof names_nonunknown as X. rewrite Forall_forall in X. apply (X _ I). exact En.
Qed.

(* ------------------------------------------------------------------ strings *)
Lemma drop_while_app {A} (f : A -> bool) p l : Forall (fun x => f x = true) p -> drop_while f (p ++ l) = drop_while f l.
Proof. induction 1 as [|x p Hx _ IH]; cbn; [reflexivity|]. rewrite Hx. exact IH. Qed.
Lemma drop_while_stop {A} (f : A -> bool) x l : f x = false -> drop_while f (x :: l) = x :: l.
Proof. intros H. cbn. rewrite H. reflexivity. Qed.
Lemma drop_while_all {A} (f : A -> bool) p : Forall (fun x => f x = true) p -> drop_while f p = [].
Proof. intros H. rewrite <- (app_nil_r p), (drop_while_app f p [] H). reflexivity. Qed.
Lemma strip_intro f p s q : Forall (fun x => f x = true) p -> Forall (fun x => f x = true) q ->
  (s = [] \/ ((exists x t, s = x :: t /\ f x = false) /\ exists t x, s = t ++ [x] /\ f x = false)) -> strip_by f (p ++ s ++ q) = s.
Proof.
  intros Hp Hq [->|((x & t & E & Hx) & t' & y & E' & Hy)]; unfold strip_by; rewrite (drop_while_app f p _ Hp).
  - cbn [app]. rewrite (drop_while_all f q Hq). reflexivity.
  - assert (D : drop_while f (s ++ q) = s ++ q) by (rewrite E; cbn [app]; apply drop_while_stop, Hx). rewrite D, rev_app_distr.
    rewrite drop_while_app by (apply Forall_rev; exact Hq). rewrite E', rev_app_distr. cbn [rev app]. rewrite (drop_while_stop f y _ Hy).
    cbn [rev]. rewrite rev_involutive. reflexivity.
Qed.
Lemma strip_ex f l : exists p q, l = p ++ strip_by f l ++ q /\ Forall (fun x => f x = true) p /\ Forall (fun x => f x = true) q
  /\ (strip_by f l = [] \/ ((exists x t, strip_by f l = x :: t /\ f x = false) /\ exists t x, strip_by f l = t ++ [x] /\ f x = false)).
Proof.
  assert (D : forall (l : list Z), exists p, l = p ++ drop_while f l /\ Forall (fun x => f x = true) p /\ (drop_while f l = [] \/ exists x t, drop_while f l = x :: t /\ f x = false)).
  { clear. induction l as [|x l (p & E & Fp & H)]; [exists []; cbn; auto|]. cbn. destruct (f x) eqn:Ex.
    - exists (x :: p). cbn. split; [congruence|]. auto.
    - exists []. cbn. split; [reflexivity|]. split; [constructor|]. right. eauto. }
  destruct (D l) as (p & E & Fp & H). destruct (D (rev (drop_while f l))) as (q & E' & Fq & H').
  assert (E2 : drop_while f l = strip_by f l ++ rev q).
  { unfold strip_by. rewrite <- rev_app_distr, <- E', rev_involutive. reflexivity. }
  exists p, (rev q). split; [rewrite <- E2; exact E|]. split; [exact Fp|]. split; [apply Forall_rev; exact Fq|].
  fold (strip_by f l). unfold strip_by in *. destruct H' as [H'|(x & t & H' & Hx)].
  - left. rewrite H'. reflexivity.
  - right. rewrite H' in *. cbn [rev] in *. split; [|exists (rev t), x; auto].
    destruct H as [H|(y & t' & H & Hy)]; [rewrite H in E2; destruct (rev t); discriminate|].
    rewrite H in E2. destruct (rev t) as [|z r]; cbn in *; injection E2 as <- E2; eauto.
Qed.
Lemma white_iff c : white c <-> bspace c = true.
Proof. unfold white, bspace. lia. Qed.
Definition strip_set (c : Z) : Prop := In c [0; 1; 2; 92; 120; 48; 49; 50].
Lemma strip_set_iff c : strip_set c <-> string_padding c = true.
Proof. unfold strip_set, string_padding. rewrite existsb_exists. split; [intros H; exists c; split; [exact H|apply Z.eqb_refl]|intros (x & I & E); apply Z.eqb_eq in E; subst; exact I]. Qed.
Lemma padded_text (w1 p1 s p2 w2 : bytes) : Forall white w1 -> Forall pad_byte p1 -> Forall pad_byte p2 -> Forall white w2 ->
  (exists x t, s = x :: t /\ ~ white x /\ ~ strip_set x) -> (exists t x, s = t ++ [x] /\ ~ white x /\ ~ strip_set x) ->
  strip_by string_padding (strip_by bspace (w1 ++ p1 ++ s ++ p2 ++ w2)) = s.
Proof.
  intros H1 H2 H3 H4 (x & t & Es & Wx & Px) (t' & y & Es' & Wy & Py).
  replace (strip_by bspace (w1 ++ p1 ++ s ++ p2 ++ w2)) with (p1 ++ s ++ p2).
  - apply strip_intro.
    + eapply Forall_impl; [|exact H2]. intros a Ha. apply strip_set_iff. unfold strip_set. cbn. unfold pad_byte in Ha. lia.
    + eapply Forall_impl; [|exact H3]. intros a Ha. apply strip_set_iff. unfold strip_set. cbn. unfold pad_byte in Ha. lia.
    + right. split; [exists x, t|exists t', y]; (split; [assumption|]); apply not_true_iff_false; rewrite <- strip_set_iff; assumption.
  - symmetry. replace (w1 ++ p1 ++ s ++ p2 ++ w2) with (w1 ++ (p1 ++ s ++ p2) ++ w2) by (rewrite <- !app_assoc; reflexivity). apply strip_intro.
    + eapply Forall_impl; [|exact H1]. intros a Ha. apply white_iff. exact Ha.
    + eapply Forall_impl; [|exact H4]. intros a Ha. apply white_iff. exact Ha.
    + right. split.
      * destruct p1 as [|z p1]; [exists x, (t ++ p2); split; [rewrite Es; reflexivity|]|exists z, (p1 ++ s ++ p2); split; [reflexivity|]].
        -- apply not_true_iff_false. rewrite <- white_iff. exact Wx.
        -- inversion H2 as [|? ? Hz _]; subst. unfold pad_byte in Hz. unfold bspace. lia.
      * destruct p2 as [|z p2 _] using rev_ind; [exists (p1 ++ t'), y; split; [rewrite app_nil_r, Es', app_assoc; reflexivity|]|exists (p1 ++ s ++ p2), z; split; [rewrite <- !app_assoc; reflexivity|]].
        -- apply not_true_iff_false. rewrite <- white_iff. exact Wy.
        -- apply Forall_app in H3. destruct H3 as [_ H3]. inversion H3 as [|? ? Hz _]; subst. unfold pad_byte in Hz. unfold bspace. lia.
Qed.

(* ------------------------------------------------------------------ text-only answers *)
Lemma text_only p lines : Forall (fun l => ~ hex_line l) lines -> call p lines = Ok (map (fun l => mkMessage [new_frame l] ECU_UNKNOWN []) lines).
Proof.
  intros F. unfold call, protocol_call.
  assert (F' : Forall (fun l => isHex (no_spaces l) = false) lines).
  { eapply Forall_impl; [|exact F]. cbn. intros l H. apply not_true_iff_false. intros X. apply H. apply hex_line_isHex. exact X. }
  assert (E1 : filter (fun l => isHex (no_spaces l)) lines = []).
  { clear -F'. induction F' as [|l ls H _ IH]; cbn; [reflexivity|]. rewrite H. exact IH. }
  assert (E2 : filter (fun l => negb (isHex (no_spaces l))) lines = lines).
  { clear -F'. induction F' as [|l ls H _ IH]; cbn; [reflexivity|]. rewrite H. cbn. rewrite IH. reflexivity. }
  rewrite E1, E2. reflexivity.
Qed.
(* the tables contain three kinds of commands *)
Lemma ecu_kinds c : In c all_commands -> c_ecu c = ECU_ENGINE \/ c_ecu c = ECU_UNKNOWN \/ c_ecu c = ECU_ALL.
Proof.
  intros I. assert (F : forallb (fun c => (c_ecu c =? ECU_ENGINE) || (c_ecu c =? ECU_UNKNOWN) || (c_ecu c =? ECU_ALL)) all_commands = true) by (vm_compute; reflexivity).
  rewrite forallb_forall in F. specialize (F c I). lia.
Qed.
Definition all_ecu_ok (c : command) : bool :=
  negb (c_ecu c =? ECU_ALL) ||
  match c_decode c with
  | D_drop => text_eqb (c_name c) (str "CLEAR_DTC")
  | D_dtc | D_monitor => (c_bytes c =? 0) && negb (text_eqb (c_name c) (str "CLEAR_DTC"))
  | D_pid | D_count => negb (text_eqb (c_name c) (str "CLEAR_DTC"))
  | D_cvn => (c_bytes c =? 10) && negb (text_eqb (c_name c) (str "CLEAR_DTC"))
  | D_encoded_string n => (n <=? c_bytes c - 2) && (2 <=? c_bytes c) && negb (text_eqb (c_name c) (str "CLEAR_DTC"))
  | _ => false
  end.
Lemma all_ecu_kinds c : In c all_commands -> c_ecu c = ECU_ALL -> all_ecu_ok c = true.
Proof.
  intros I _. assert (F : forallb all_ecu_ok all_commands = true) by (vm_compute; reflexivity). rewrite forallb_forall in F. exact (F c I).
Qed.
Lemma constrain_empty_len n f e : zlen (m_data (constrain n (mkMessage f e []))) = Z.max 0 n.
Proof.
  unfold constrain. cbn [m_data]. unfold zlen at 1. cbn [length]. destruct (Z.ltb_spec 0 n); [|cbn; unfold zlen; cbn; lia].
  unfold zlen. cbn [length]. destruct (Z.ltb_spec n (Z.of_nat 0)); [lia|]. destruct (Z.ltb_spec (Z.of_nat 0) n); [|lia]. cbn. rewrite repeat_length. lia.
Qed.
Lemma text_all c l lines : In c all_commands -> c_ecu c = ECU_ALL ->
  exists v, run_decoder (c_decode c) (map (constrain (c_bytes c)) (map (fun l => mkMessage [new_frame l] ECU_UNKNOWN []) (l :: lines))) = Ok v
    /\ (v = VNone <-> c_name c = str "CLEAR_DTC").
Proof.
  intros I E. pose proof (all_ecu_kinds c I E) as K. unfold all_ecu_ok in K. rewrite E in K. cbn [negb Z.eqb ECU_ALL orb] in K.
  change (negb (255 =? 255)) with false in K. cbn [orb] in K.
  set (m1 := constrain (c_bytes c) (mkMessage [new_frame l] ECU_UNKNOWN [])).
  cbn [map]. fold m1. set (rest := map _ (map _ lines)).
  destruct (c_decode c) eqn:D; try discriminate K; cbn [run_decoder].
  - apply text_eqb_eq in K. exists VNone. split; [reflexivity|]. tauto.
  - apply negb_true_iff, text_eqb_neq in K. eexists. split; [reflexivity|]. split; [discriminate|tauto].
  - apply negb_true_iff, text_eqb_neq in K. eexists. split; [reflexivity|]. split; [discriminate|tauto].
  - apply andb_prop in K. destruct K as [K1 K]. apply negb_true_iff, text_eqb_neq in K. apply Z.eqb_eq in K1.
    exists (VDtcs []). split; [|split; [discriminate|tauto]]. unfold dec_dtc.
    replace (List.concat (map (fun m => from 2 (m_data m)) (m1 :: rest))) with (@nil Z); [reflexivity|].
    subst m1 rest. rewrite K1. cbn. clear. induction lines as [|x xs IH]; cbn; [reflexivity|exact IH].
  - apply andb_prop in K. destruct K as [K1 K]. apply negb_true_iff, text_eqb_neq in K. apply Z.eqb_eq in K1.
    exists (VMonitor new_monitor). split; [|split; [discriminate|tauto]]. unfold dec_monitor. cbn [get nth_error rbind].
    subst m1. rewrite K1. reflexivity.
  - apply andb_prop in K. destruct K as [K1 K]. apply andb_prop in K1. destruct K1 as [K1 K2]. apply negb_true_iff, text_eqb_neq in K.
    unfold dec_encoded_string, decode_encoded_string, body. cbn [get nth_error rbind].
    pose proof (constrain_empty_len (c_bytes c) [new_frame l] ECU_UNKNOWN) as Z1. fold m1 in Z1.
    destruct (Z.ltb_spec (zlen (from 2 (m_data m1))) length_) as [X|X]; [|eexists; split; [reflexivity|split; [discriminate|tauto]]].
    exfalso. unfold zlen, from in *. rewrite skipn_length in X. lia.
  - apply andb_prop in K. destruct K as [K1 K]. apply negb_true_iff, text_eqb_neq in K. apply Z.eqb_eq in K1.
    unfold dec_cvn, decode_encoded_string, body. cbn [get nth_error rbind].
    pose proof (constrain_empty_len (c_bytes c) [new_frame l] ECU_UNKNOWN) as Z1. fold m1 in Z1. rewrite K1 in Z1.
    destruct (Z.ltb_spec (zlen (from 2 (m_data m1))) 4) as [X|X]; [|eexists; split; [reflexivity|split; [discriminate|tauto]]].
    exfalso. unfold zlen, from in *. rewrite skipn_length in X. lia.
Qed.
