(* Whole readings and whole lists of trouble codes. *)
From Coq Require Import ZArith List Bool Lia Sorted.
From Verif Require Import Py Num Utils Protocol Decoders Command CommandTable Commands World Elm Obd SpecWire SpecProto SpecCmd SpecElm SpecObd SpecE2E
  PyFacts WireFacts CommandThms ObdFacts ObdThms ObdThms2 ObdThms7 EcuMapThms DecoderThms3 Properties_Protocol Properties_Decoders E2EThms E2EThms2.
Import ListNotations.
Open Scope Z_scope.

Lemma reading_call c p lines q : reading c p lines q -> (In (p_class p) protocol_classes \/ p_class p = UnknownProtocol) /\
  exists ms, call p lines = Ok ms /\ (ms = [] /\ q = empty_response \/ ms <> [] /\ cmd_call c ms = Ok q).
Proof.
  intros (cf & port & scan & w & t0 & h & o & w1 & force & o' & w2 & t & S & H & T & A & U). apply session_oinv in S as (OI & _).
  destruct (query_spec _ _ _ _ _ _ _ OI H) as (t' & T' & Q). rewrite T in T'. apply app_inv_head in T'. subst t'. split.
  - destruct U as (e & Hi & Hp). unfold oinv in OI. rewrite Hi in OI.
    assert (N : e_status e <> NOT_CONNECTED).
    { intros N. assert (Z0 : t = []).
      { inversion Q; subst; auto; exfalso; match goal with X : o_interface o = Some ?e0, Y : e_status ?e0 <> NOT_CONNECTED |- _ => rewrite Hi in X; injection X as <-; contradiction end. }
      subst t. destruct A as (a & b & s & E & k & rs & -> & _). apply (f_equal (@length _)) in E. rewrite app_length in E. cbn in E. lia. }
    destruct (proj2 OI N) as (p' & P' & G). rewrite Hp in P'. injection P' as <-. exact (good_class_classes _ G).
  - exact (query_answer _ _ _ _ _ _ _ _ OI Q A U).
Qed.
Lemma delivers_known p f u ls payload : pc_family (p_class p) = f -> delivers f u ls payload -> p_class p <> UnknownProtocol.
Proof. intros E D X. rewrite X in E. cbn in E. subst f. inversion D. Qed.
Lemma first_nonempty {A} (P : A -> Prop) l x : first_with P l x -> l <> [].
Proof. intros (a & b & -> & _) E. apply app_eq_nil in E as [_ E]. discriminate. Qed.
(* what the first ECU says is what the decoder sees *)
Lemma reading_payload c p lines q payload : reading c p lines q -> speaks p (c_ecu c) lines payload -> (forall r, payload <> 67 :: r) ->
  exists ms m, call p lines = Ok ms /\ first_with (for_it c) ms m /\ m_data m = payload /\ cmd_call c ms = Ok q.
Proof.
  intros R (u & ls & H & D & M & Q) N. destruct (reading_call _ _ _ _ R) as ([Hc|Hc] & ms & C & V); [|destruct (delivers_known p _ u ls payload eq_refl D Hc)].
  destruct (delivered p _ u ls payload eq_refl D ltac:(intros _; apply N) ltac:(intros _; exact N)) as (m & C1 & Dm & T).
  rewrite (dtc_cut_other payload N) in Dm.
  pose proof (first_heard (c_ecu c) p _ u lines ls ms m Hc eq_refl C H C1 T M Q) as W.
  exists ms, m. split; [exact C|]. split; [exact W|]. split; [exact Dm|].
  destruct V as [[-> _]|[_ V]]; [destruct (first_nonempty _ _ _ W eq_refl)|exact V].
Qed.
Lemma resized_same n d : (0 < n -> Z.of_nat (length d) = n) -> resized n d d.
Proof. intros H. split; [intros L; split; [exact (H L)|left; exists []; rewrite app_nil_r; reflexivity]|reflexivity]. Qed.
Lemma reading_answered c p lines q h1 h2 d : reading c p lines q -> speaks p (c_ecu c) lines (h1 :: h2 :: d) -> h1 <> 67 ->
  (0 < c_bytes c -> Z.of_nat (length d) + 2 = c_bytes c) ->
  exists ms, call p lines = Ok ms /\ answered c ms d /\ cmd_call c ms = Ok q.
Proof.
  intros R S N L. destruct (reading_payload c p lines q _ R S ltac:(congruence)) as (ms & m & C & W & Dm & V).
  exists ms. split; [exact C|]. split; [|exact V]. exists m, h1, h2. split; [exact W|]. rewrite Dm. apply resized_same. cbn [length]. lia.
Qed.
Lemma read_value c p lines q h1 h2 d v : reading c p lines q -> speaks p (c_ecu c) lines (h1 :: h2 :: d) -> h1 <> 67 ->
  (0 < c_bytes c -> Z.of_nat (length d) + 2 = c_bytes c) -> (forall ms, answered c ms d -> evaluates c ms v) -> r_value q = v.
Proof.
  intros R S N L E. destruct (reading_answered _ _ _ _ _ _ _ R S N L) as (ms & _ & A & V). destruct (E ms A) as (r & V' & <-). congruence.
Qed.
Lemma delivers_bytes f u ls payload : delivers f u ls payload -> Forall is_byte payload.
Proof.
  destruct 1 as [h l payload padding Hh Fp _ _ _ _|h ls payload frames Hh S _ F _|u l payload (b1 & b2 & ck & F & _)|u ls mode pid parts datas L P F].
  - exact Fp.
  - destruct S as [a rest frames La C]. inversion F as [|? ? F1 F2]; subst. inversion F1 as [|? ? _ F1']; subst. inversion F1' as [|? ? _ Fa]; subst.
    apply Forall_app. split; [exact Fa|]. clear -C F2. induction C as [i rest pad Ne Lr|i chunk rest frames Lc Ne C IH].
    + inversion F2 as [|? ? F3 _]; subst. inversion F3 as [|? ? _ F4]; subst. apply Forall_app in F4. apply F4.
    + inversion F2 as [|? ? F3 F5]; subst. inversion F3; subst. apply Forall_app. auto.
  - cbn [app] in F. inversion F as [|? ? _ F1]; subst. inversion F1 as [|? ? _ F2]; subst. inversion F2 as [|? ? _ F3]; subst. apply Forall_app in F3. apply F3.
  - assert (Fd : Forall (Forall is_byte) datas).
    { clear -F. induction F as [|l d ls datas (b1 & b2 & ck & F & _) _ IH]; constructor; [|exact IH]. cbn [app] in F.
      inversion F as [|? ? _ F1]; subst. inversion F1 as [|? ? _ F2]; subst. inversion F2 as [|? ? _ F3]; subst. apply Forall_app in F3. apply F3. }
    rewrite P in Fd. clear -Fd L.
    assert (G : forall parts k, Forall (Forall is_byte) (map (fun x => legacy_part mode pid (Z.of_nat (fst x)) (snd x)) (combine (seq k (length parts)) parts)) ->
      Forall is_byte (List.concat parts) /\ (parts <> [] -> is_byte mode /\ is_byte pid)).
    { clear. induction parts as [|a parts IH]; intros k F; [split; [constructor|congruence]|]. cbn [length seq combine map] in F. inversion F as [|? ? F1 F2]; subst.
      destruct (IH (S k) F2) as [I _]. unfold legacy_part in F1. cbn [snd] in F1. repeat match goal with X : Forall _ (_ :: _) |- _ => inversion X; clear X; subst end.
      split; [cbn; apply Forall_app; auto|auto]. }
    destruct (G parts 1%nat Fd) as [G1 G2]. destruct (G2 ltac:(intros ->; cbn in L; lia)) as [G3 G4]. auto.
Qed.

(* ---- trouble codes ---- *)
Lemma reported p f mode u ls codes : pc_family (p_class p) = f -> reports_codes f mode u ls codes -> f <> FLegacy \/ mode = 3 ->
  exists m, call p ls = Ok [m] /\ m_tx_id m = Some u /\ skipn 2 (m_data m) = codes /\ Nat.even (length codes) = true.
Proof.
  intros Ec R N. destruct R as [w u ls n codes padding D L|w u ls n codes D L|mode u ls datas Ne F Ev].
  - destruct (delivered p _ u ls _ Ec D ltac:(intros _; discriminate) ltac:(discriminate)) as (m & C & Dm & T).
    exists m. split; [exact C|]. split; [exact T|]. split; [|apply Nat.even_spec; exists (Z.to_nat n); lia].
    rewrite Dm. cbn [dtc_cut]. replace (Z.to_nat (2 + 2 * n)) with (2 + length codes)%nat by lia. cbn [firstn Nat.add skipn].
    rewrite firstn_app, firstn_all, Nat.sub_diag, firstn_O, app_nil_r. reflexivity.
  - destruct (delivered p _ u ls _ Ec D ltac:(intros _; discriminate) ltac:(discriminate)) as (m & C & Dm & T).
    exists m. split; [exact C|]. split; [exact T|]. split; [|apply Nat.even_spec; exists (Z.to_nat n); lia].
    rewrite Dm. reflexivity.
  - destruct N as [N| ->]; [congruence|]. change (64 + 3) with 67 in F.
    destruct (C11_legacy_trouble_codes p u ls datas Ec Ne F) as (m & C & Dm & T & _). exists m. split; [exact C|]. split; [exact T|]. rewrite Dm. auto.
Qed.
Lemma sorted_same (a : list Z) : forall b, StronglySorted Z.lt a -> StronglySorted Z.lt b -> (forall x, In x a <-> In x b) -> a = b.
Proof.
  induction a as [|x a IH]; intros [|y b] Sa Sb E.
  - reflexivity.
  - destruct (proj2 (E y) (or_introl eq_refl)).
  - destruct (proj1 (E x) (or_introl eq_refl)).
  - inversion Sa as [|? ? Sa' Fa]; subst. inversion Sb as [|? ? Sb' Fb]; subst. rewrite Forall_forall in Fa, Fb.
    assert (x = y) as <-.
    { destruct (proj1 (E x) (or_introl eq_refl)) as [->|I]; [reflexivity|]. destruct (proj2 (E y) (or_introl eq_refl)) as [->|J]; [reflexivity|].
      specialize (Fb x I). specialize (Fa y J). lia. }
    f_equal. apply IH; auto. intros z. split; intros I.
    + destruct (proj1 (E z) (or_intror I)) as [->|J]; [|exact J]. specialize (Fa z I). lia.
    + destruct (proj2 (E z) (or_intror I)) as [->|J]; [|exact J]. specialize (Fb z I). lia.
Qed.
Lemma pairs_app d1 : forall d2 p1 p2, Nat.even (length d1) = true -> byte_pairs d1 p1 -> byte_pairs d2 p2 -> byte_pairs (d1 ++ d2) (p1 ++ p2).
Proof.
  intros d2 p1 p2 E H. revert E. induction H as [|b|a b d ps H IH]; intros E H2; cbn [app]; [exact H2|discriminate E|]. constructor. apply IH; [exact E|exact H2].
Qed.
Lemma reported_messages p mode lines ms (rs : list (Z * bytes)) : In (p_class p) protocol_classes -> pc_family (p_class p) <> FLegacy \/ mode = 3 -> call p lines = Ok ms ->
  StronglySorted Z.lt (map fst rs) ->
  (forall u codes, In (u, codes) rs -> exists ls, heard_from (pc_family (p_class p)) u lines ls /\ reports_codes (pc_family (p_class p)) mode u ls codes) ->
  (forall u, ~ In u (map fst rs) -> silent (pc_family (p_class p)) u lines) ->
  exists obd texts, ms = obd ++ texts /\ map (fun m => skipn 2 (m_data m)) obd = map snd rs /\ Forall (fun m => m_data m = []) texts
    /\ map m_tx_id obd = map (fun r => Some (fst r)) rs
    /\ Forall (fun m => exists u, m_tx_id m = Some u /\ m_ecu m = match dict_get oz_eqb (p_map p) (Some u) with Some e => e | None => ECU_UNKNOWN end) obd
    /\ Forall (fun m => m_ecu m = ECU_UNKNOWN) texts.
Proof.
  intros Hc N C Sr Rs Q. destruct (C14_one_message_per_ecu p lines ms Hc C) as (obd & ts & texts & E & Et & S & Fe & Ft).
  exists obd, texts. split; [exact E|].
  assert (Fo : forall u, filter (fun m => oz_eqb (m_tx_id m) (Some u)) ms = filter (fun m => oz_eqb (m_tx_id m) (Some u)) obd).
  { intros u. rewrite E, filter_app, (texts_tx u lines texts Ft), app_nil_r. reflexivity. }
  assert (Fu : forall u codes, In (u, codes) rs -> exists m, filter (fun m => oz_eqb (m_tx_id m) (Some u)) obd = [m] /\ skipn 2 (m_data m) = codes).
  { intros u codes I. destruct (Rs u codes I) as (ls & H & R). destruct (reported p _ mode u ls codes eq_refl R N) as (m & C1 & T & D & _).
    exists m. split; [|exact D]. rewrite <- Fo. exact (heard_message p _ u lines ls ms m Hc eq_refl H C C1 T). }
  assert (Ets : ts = map fst rs).
  { apply sorted_same; [exact S|exact Sr|]. intros u. rewrite (filter_sorted ts obd u Et S). split.
    - intros Ne. destruct (in_dec Z.eq_dec u (map fst rs)) as [I|I]; [exact I|]. exfalso. apply Ne. rewrite <- Fo. exact (silent_message p _ u lines ms Hc eq_refl (Q u I) C).
    - intros I. apply in_map_iff in I as ([u' codes] & <- & I). cbn [fst]. destruct (Fu u' codes I) as (m & -> & _). discriminate. }
  split.
  - assert (NdT : NoDup (map m_tx_id obd)).
    { rewrite Et. apply FinFun.Injective_map_NoDup; [intros x y X; congruence|]. clear -S. induction S as [|x l S IH F]; constructor; [|exact IH].
      intros I. rewrite Forall_forall in F. specialize (F x I). lia. }
    rewrite Ets in Et. clear -Et Fu NdT.
    assert (G : forall o r, (forall m, In m o -> In m obd) -> (forall x, In x r -> In x rs) -> map m_tx_id o = map Some (map fst r) -> map (fun m => skipn 2 (m_data m)) o = map snd r).
    { induction o as [|m o IH]; intros [|[u codes] r] Io Ir X; try discriminate X; [reflexivity|]. cbn [map fst] in X. injection X as X1 X. cbn [map snd]. f_equal.
      - destruct (Fu u codes (Ir _ (or_introl eq_refl))) as (m' & F' & D').
        assert (I : In m (filter (fun m => oz_eqb (m_tx_id m) (Some u)) obd)) by (apply filter_In; split; [apply Io; left; reflexivity|rewrite X1; cbn; apply Z.eqb_refl]).
        rewrite F' in I. destruct I as [->|[]]. exact D'.
      - apply IH; [intros x Ix; apply Io; right; exact Ix|intros x Ix; apply Ir; right; exact Ix|exact X]. }
    apply G; auto.
  - split; [eapply Forall_impl; [|exact Ft]; intros m (l & _ & _ & ->); reflexivity|].
    split; [rewrite Et, Ets, map_map; reflexivity|].
    split; [|eapply Forall_impl; [|exact Ft]; intros m (l & _ & _ & ->); reflexivity].
    rewrite Forall_forall in Fe |- *. intros m I. assert (It : In (m_tx_id m) (map Some ts)) by (rewrite <- Et; apply in_map; exact I).
    apply in_map_iff in It as (u & Eu & _). exists u. split; [auto|]. rewrite (Fe m I), <- Eu. reflexivity.
Qed.
