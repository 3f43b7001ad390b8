(* C23, C27, C28 against tables that are not copied from the code (SpecUas, and the documentation in DocTables). *)
From Coq Require Import ZArith List Bool Lia Reals Lra String.
From Verif Require Import Py Num Utils Protocol Codes UasTable Decoders Command CommandTable Commands SpecWire SpecBits SpecProto SpecCmd SpecNum SpecMonitor SpecUas DocTables
  PyFacts DecoderThms DecoderThms3 Examples Properties_Protocol Properties_Decoders Properties_Numbers.
Import ListNotations.
Open Scope string_scope. Open Scope list_scope. Open Scope Z_scope.

Definition lit_frac (l : lit) : Z * Z := match l with LInt z => (z, 1) | LDec n d => (n, d) end.
Definition same_frac (a b : Z * Z) : bool := (fst a * snd b =? fst b * snd a) && negb (snd a =? 0) && negb (snd b =? 0).
Lemma same_frac_eq a b : same_frac a b = true -> frac a = frac b.
Proof.
  unfold same_frac, frac. rewrite !andb_true_iff, !negb_true_iff, Z.eqb_eq, !Z.eqb_neq. intros [[E Na] Nb].
  apply not_0_IZR in Na, Nb. apply (f_equal IZR) in E. rewrite !mult_IZR in E. field_simplify_eq; [|split; assumption]. lra.
Qed.
Lemma lit_frac_eq l : lit_real l = frac (lit_frac l).
Proof. destruct l; unfold frac; cbn; [field|reflexivity]. Qed.
Definition agrees (e : scaling) : bool :=
  match dict_get Z.eqb UAS_IDS (u_id e) with
  | Some (UAS s sc un off) => eqb s (128 <=? u_id e) && same_frac (lit_frac sc) (u_scale e) && same_frac (lit_frac off) (u_offset e) && text_eqb un (u_unit e)
  | _ => false
  end.
Lemma text_eqb_true a b : text_eqb a b = true -> a = b.
Proof.
  revert b. induction a as [|x a IH]; intros [|y b] H; try discriminate H; [reflexivity|]. cbn in H. apply andb_true_iff in H as [H1 H2]. apply Z.eqb_eq in H1. f_equal; auto.
Qed.
Lemma standard_entry e : In e standard_units -> exists sc off, In (u_id e, UAS (128 <=? u_id e) sc (u_unit e) off) UAS_IDS /\ lit_real sc = frac (u_scale e) /\ lit_real off = frac (u_offset e).
Proof.
  intros I. assert (T : forallb agrees standard_units = true) by (vm_compute; reflexivity). rewrite forallb_forall in T. specialize (T e I). unfold agrees in T.
  destruct (dict_get Z.eqb UAS_IDS (u_id e)) as [[s sc un off|]|] eqn:E; try discriminate T. rewrite !andb_true_iff in T. destruct T as [[[T1 T2] T3] T4].
  apply eqb_prop in T1. apply text_eqb_true in T4. subst s un. exists sc, off. split; [apply (z_dict_In UAS_IDS _ _ UAS_keys); exact E|].
  rewrite !lit_frac_eq, (same_frac_eq _ _ T2), (same_frac_eq _ _ T3). auto.
Qed.
Lemma standard_ids id : In id (map fst UAS_IDS) <-> In id (map u_id standard_units) \/ id = truth_id.
Proof.
  assert (T : forallb (fun i => existsb (Z.eqb i) (truth_id :: map u_id standard_units)) (map fst UAS_IDS) && forallb (fun i => existsb (Z.eqb i) (map fst UAS_IDS)) (truth_id :: map u_id standard_units) = true) by (vm_compute; reflexivity).
  apply andb_true_iff in T as [T1 T2]. rewrite forallb_forall in T1, T2. split; intros H.
  - apply T1, existsb_exists in H as (j & J & E). apply Z.eqb_eq in E. subst j. destruct J as [J|J]; auto.
  - assert (J : In id (truth_id :: map u_id standard_units)) by (destruct H; [right; assumption|left; congruence]). apply T2, existsb_exists in J as (j & J & E). apply Z.eqb_eq in E. subst j. exact J.
Qed.
Lemma about_usable tid b : about tid b <-> usable tid b.
Proof. unfold about, usable, block_tid, block_uas. rewrite standard_ids. reflexivity. Qed.

(* a number in a unit of the standard *)
Definition reads_as (e : scaling) (d : bytes) (x : num) : Prop :=
  let r := (IZR (raw_value (128 <=? u_id e) d) * frac (u_scale e))%R in
  within (powerRZ 2 (-51) * (Rabs r + Rabs (frac (u_offset e))))%R x (r + frac (u_offset e))%R.
Theorem C23_standard : forall e c ms d, In e standard_units -> c_decode c = D_uas (u_id e) -> 0 <= c_ecu c ->
  answered c ms d -> Forall is_byte d -> (1 <= List.length d <= 5)%nat ->
  exists x, evaluates c ms (VQty x (u_unit e)) /\ reads_as e d x.
Proof.
  intros e c ms d I D Hc A Fd L. destruct (standard_entry e I) as (sc & off & In' & Es & Eo).
  destruct (C23_linear _ _ _ _ _ c ms d In' D Hc A Fd L) as (x & Ev & W). rewrite Es, Eo in W. exists x. split; [exact Ev|exact W].
Qed.
(* the results of a monitor: for every test, the last nine bytes about it in a unit of the standard *)
Theorem C23_standard_monitor : forall c ms m h d bs, is_monitor c -> first_with (for_it c) ms m -> m_data m = h :: d -> blocks9 d bs ->
  exists mon, evaluates c ms (VMonitor mon)
    /\ (forall tid e mid v1 v2 l1 l2 h1 h2, In e standard_units -> Forall is_byte [v1; v2; l1; l2; h1; h2] -> last_with (about tid) bs [mid; tid; u_id e; v1; v2; l1; l2; h1; h2] ->
         exists x lo hi name desc, monitor_get_tid mon tid = mkTest (Some tid) (Some name) (Some desc) (Some (TQty x (u_unit e))) (Some (TQty lo (u_unit e))) (Some (TQty hi (u_unit e)))
           /\ reads_as e [v1; v2] x /\ reads_as e [l1; l2] lo /\ reads_as e [h1; h2] hi
           /\ (In (tid, (name, desc)) doc_tids \/ ~ In tid (map fst doc_tids) /\ name = str "Unknown" /\ desc = str "Unknown"))
    /\ (forall tid, Forall (fun b => ~ about tid b) bs -> monitor_get_tid mon tid = null_test).
Proof.
  intros c ms m h d bs Hm W E B. destruct (C28_monitor_results c ms m h d bs Hm W E B) as (mon & Ev & G & N & _). exists mon. split; [exact Ev|]. split.
  - intros tid e mid v1 v2 l1 l2 h1 h2 I Fd (bf & af & Eb & U & Af).
    assert (Lw : last_with (usable tid) bs [mid; tid; u_id e; v1; v2; l1; l2; h1; h2]).
    { exists bf, af. split; [exact Eb|]. split; [apply about_usable, U|]. apply Forall_forall. intros b Ib X. rewrite Forall_forall in Af. apply (Af b Ib), about_usable, X. }
    destruct (C28_block_test tid [mid; tid; u_id e; v1; v2; l1; l2; h1; h2] eq_refl ltac:(apply about_usable, U)) as (t & Bt & _).
    destruct (standard_entry e I) as (sc & off & In' & Es & Eo).
    pose proof (C23_monitor_values _ _ _ _ _ _ _ _ _ _ _ _ _ _ In' Fd Bt) as (Mv & Ml & Mh). cbv zeta in Mv, Ml, Mh.
    destruct Mv as (x & Ex & Wx), Ml as (lo & El & Wl), Mh as (hi & Eh & Wh). rewrite Es, Eo in Wx, Wl, Wh.
    destruct Bt as (mid' & tid' & id' & w1 & w2 & k1 & k2 & g1 & g2 & u' & nm & ds & tv & tl & th & Eq & Iu & Nt & Cv & Cl & Ch & Et).
    injection Eq as <- <- <- <- <- <- <- <- <-. exists x, lo, hi, nm, ds.
    rewrite (G tid _ t Lw ltac:(exists mid, tid, (u_id e), v1, v2, l1, l2, h1, h2, u', nm, ds, tv, tl, th; auto 10)).
    rewrite Et in Ex, El, Eh |- *. cbn [t_value t_min t_max] in Ex, El, Eh. rewrite Ex, El, Eh.
    split; [reflexivity|]. split; [exact Wx|]. split; [exact Wl|]. split; [exact Wh|].
    assert (Ed : TEST_IDS = doc_tids) by (vm_compute; reflexivity). unfold names_test in Nt. rewrite Ed in Nt. exact Nt.
  - intros tid F. apply N. apply Forall_forall. intros b I X. rewrite Forall_forall in F. apply (F b I), about_usable, X.
Qed.
Example C23_standard_example : In (mkScaling 57 (1, 100) (-32768, 100) (str "percent")) standard_units /\ last_with (about 1) [[1; 1; 57; 0; 1; 0; 0; 128; 0]; [1; 2; 46; 0; 0; 0; 0; 0; 1]] [1; 1; 57; 0; 1; 0; 0; 128; 0]
  /\ frac (-32768, 100) = (-327.68)%R.
Proof.
  split; [unfold standard_units; repeat (try (left; reflexivity); right)|]. split; [|unfold frac; cbn; lra].
  exists [], [[1; 2; 46; 0; 0; 0; 0; 0; 1]]. split; [reflexivity|]. split; [split; [reflexivity|left; vm_compute; auto 100]|]. constructor; [intros [X _]; discriminate X|constructor].
Qed.

(* ------------------------------------------------------------------ C27 *)
Definition numbered (l : list text) : list (Z * text) := combine (map Z.of_nat (seq 0 (List.length l))) l.
Lemma numbered_nth l : forall k t, In (Z.of_nat k, t) (numbered l) <-> nth_error l k = Some t.
Proof.
  intros k t. unfold numbered. assert (G : forall l n, In (Z.of_nat (n + k), t) (combine (map Z.of_nat (seq n (List.length l))) l) <-> nth_error l k = Some t).
  { clear l. revert k. intros k l. revert k. induction l as [|x l IH]; intros k n.
    - cbn [List.length seq map combine In]. split; [intros []|]. destruct k; discriminate.
    - cbn [List.length seq map combine In]. destruct k as [|k]; cbn [nth_error].
      + rewrite Nat.add_0_r. split; [intros [E|I]|intros E; left; congruence]; [congruence|]. exfalso. apply in_combine_l in I. apply in_map_iff in I as (j & Ej & J). apply in_seq in J. lia.
      + replace (n + S k)%nat with (S n + k)%nat by lia. rewrite IH. split; [intros [E|I]|intros E; right; exact E]; [|exact I]. injection E as E _. lia. }
  exact (G l 0%nat).
Qed.
(* the texts of the codes *)
Theorem C27_standard_compliance : forall c ms b, named ["OBD_COMPLIANCE"; "DTC_OBD_COMPLIANCE"] c -> is_byte b -> answered c ms [b] ->
  (forall t, In (b, t) standard_compliance -> evaluates c ms (VText t)) /\ (~ In b (map fst standard_compliance) -> evaluates c ms VNone).
Proof.
  intros c ms b Hn Hb A. pose proof (C27_obd_compliance c ms b Hn Hb A) as E. assert (T : standard_compliance = numbered OBD_COMPLIANCE) by (vm_compute; reflexivity). rewrite T.
  unfold is_byte in Hb. rewrite <- (Z2Nat.id b) by lia. split.
  - intros t I. apply numbered_nth in I. rewrite I in E. exact E.
  - intros N. destruct (nth_error OBD_COMPLIANCE (Z.to_nat b)) as [t|] eqn:Et; [|exact E]. apply numbered_nth in Et. destruct N. apply (in_map fst) in Et. exact Et.
Qed.
Theorem C27_standard_fuel : forall c ms b, named ["FUEL_TYPE"; "DTC_FUEL_TYPE"] c -> is_byte b -> answered c ms [b] ->
  (forall t, In (b, t) standard_fuels -> evaluates c ms (VText t)) /\ (~ In b (map fst standard_fuels) -> evaluates c ms VNone).
Proof.
  intros c ms b Hn Hb A. pose proof (C27_fuel_type c ms b Hn Hb A) as E. assert (T : standard_fuels = numbered FUEL_TYPES) by (vm_compute; reflexivity). rewrite T.
  unfold is_byte in Hb. rewrite <- (Z2Nat.id b) by lia. split.
  - intros t I. apply numbered_nth in I. rewrite I in E. exact E.
  - intros N. destruct (nth_error FUEL_TYPES (Z.to_nat b)) as [t|] eqn:Et; [|exact E]. apply numbered_nth in Et. destruct N. apply (in_map fst) in Et. exact Et.
Qed.
(* the texts of single bits *)
Theorem C27_standard_fuel_status : forall c ms a b, named ["FUEL_STATUS"; "DTC_FUEL_STATUS"] c -> is_byte a -> is_byte b -> answered c ms [a; b] ->
  let says x t := (exists k, x = 2 ^ k /\ In (k, t) standard_fuel_status) \/ (forall k, In k (map fst standard_fuel_status) -> x <> 2 ^ k) /\ t = [] in
  exists ta tb, says a ta /\ says b tb /\ evaluates c ms (match ta, tb with [], [] => VNone | _, _ => VPair ta tb end).
Proof.
  intros c ms a b Hn Ha Hb A says. destruct (C27_fuel_status c ms a b Hn Ha Hb A) as (ta & tb & Sa & Sb & E). exists ta, tb.
  assert (T : standard_fuel_status = numbered FUEL_STATUS) by (vm_compute; reflexivity).
  assert (G : forall x t, bit_text FUEL_STATUS x t -> says x t).
  { intros x t [(k & Ek & Nk)|(N & ->)]; unfold says; rewrite T.
    - left. exists (Z.of_nat k). split; [exact Ek|]. apply numbered_nth, Nk.
    - right. split; [|reflexivity]. intros k I. apply in_map_iff in I as ((k' & t) & <- & I). cbn [fst].
      assert (P : 0 <= k') by (unfold numbered in I; apply in_combine_l in I; apply in_map_iff in I as (j & <- & _); lia).
      rewrite <- (Z2Nat.id k' P) in I |- *. apply numbered_nth in I. exact (N _ _ I). }
  auto.
Qed.
Theorem C27_standard_air_status_partial : forall c ms b, named ["AIR_STATUS"; "DTC_AIR_STATUS"] c -> is_byte b -> answered c ms [b] ->
  (forall k t, In (k, t) standard_air_status -> b = 2 ^ k -> evaluates c ms (VText t)) /\ ((forall k, b <> 2 ^ Z.of_nat k) -> evaluates c ms VNone).
Proof.
  intros c ms b Hn Hb A. destruct (C27_air_status_partial c ms b Hn Hb A) as (H1 & H2 & _). split; [|exact H2].
  assert (T : standard_air_status = numbered AIR_STATUS) by (vm_compute; reflexivity). rewrite T. intros k t I E.
  assert (P : 0 <= k) by (unfold numbered in I; apply in_combine_l in I; apply in_map_iff in I as (j & <- & _); lia).
  rewrite <- (Z2Nat.id k P) in I, E. apply numbered_nth in I. exact (H1 _ _ E I).
Qed.
Example C27_standard_example : evaluates (cmd "FUEL_TYPE") [engine_message [65; 81; 4]] (VText (str "Diesel")) /\ evaluates (cmd "OBD_COMPLIANCE") [engine_message [65; 28; 6]] (VText (str "EOBD (Europe)")).
Proof. split; eexists; split; vm_compute; reflexivity. Qed.
