(* Message data are bytes; which ECU is the engine: C13 *)
From Coq Require Import ZArith List Bool Lia Permutation Sorted.
From Coq Require Import ZifyBool ZifyNat.
From Verif Require Import Py Utils Protocol SpecWire SpecBits SpecProto PyFacts WireFacts ProtocolFacts CanFacts ProtocolThms CanThms LegacyThms UtilsThms.
Import ListNotations.
Open Scope Z_scope.
Ltac Zify.zify_post_hook ::= Z.div_mod_to_equations.
Arguments Z.div : simpl never.
Arguments Z.modulo : simpl never.
Arguments Z.mul : simpl never.
Arguments Z.add : simpl never.
Arguments Z.sub : simpl never.
Arguments Z.land : simpl never.

Lemma dtc_cut_bytes payload : Forall is_byte payload -> Forall is_byte (dtc_cut payload).
Proof.
  intros F. unfold dtc_cut. destruct payload as [|a [|b l]]; auto.
  - destruct a as [|q|q]; auto. repeat (destruct q as [q|q|]; auto).
  - destruct a as [|q|q]; auto. repeat (destruct q as [q|q|]; auto). apply Forall_firstn; exact F.
Qed.
Lemma legacy_message_bytes fs d : fs <> [] -> Forall (fun f => Forall is_byte (f_data f)) fs -> Forall (fun f => f_data f <> []) fs ->
  legacy_parse_message fs = Ok (Some d) -> Forall is_byte d.
Proof.
  intros Hne F Fn H. unfold legacy_parse_message in H.
  destruct fs as [|f fs]; [congruence|]. change (get (f :: fs) 0) with (Ok f) in H. cbn [rbind] in H.
  destruct (get (f_data f) 0) as [mode|]; cbn [rbind] in H; [|discriminate].
  destruct (rmap _ _) as [modes|]; cbn [rbind] in H; [|discriminate].
  destruct (negb _); [discriminate|]. destruct (mode =? 67).
  - rewrite fold_left_app_acc in H.
    match type of H with Ok (Some ?x) = _ => assert (Ed : d = x) by congruence end. rewrite Ed. clear H Ed. apply Forall_app. split; [repeat constructor; unfold is_byte; lia|].
    apply Forall_concat. apply Forall_forall. intros x Hx.
    apply in_map_iff in Hx. destruct Hx as (g & <- & Hg). apply Forall_skipn. rewrite Forall_forall in F. apply F; exact Hg.
  - assert (G : forall l : list frame, (forall x, In x l -> In x (f :: fs)) -> forall f0 rest, l = f0 :: rest ->
       Forall is_byte (fold_left (fun acc f => acc ++ from 3 (f_data f)) rest (pop_at 2 (f_data f0)))).
    { intros l Hl f0 rest ->. rewrite fold_left_app_acc. rewrite Forall_forall in F. apply Forall_app. split.
      - unfold pop_at. apply Forall_app. split; [apply Forall_firstn|apply Forall_skipn]; apply F, Hl; left; reflexivity.
      - apply Forall_concat. apply Forall_forall. intros x Hx. apply in_map_iff in Hx. destruct Hx as (g & <- & Hg).
        apply Forall_skipn. apply F, Hl. right; exact Hg. }
    destruct fs as [|g fs]; [injection H as <-; inversion F; assumption|].
    destruct (rmap order_byte _) as [keys|]; cbn [rbind] in H; [|discriminate]. destruct (negb _); [discriminate|].
    destruct (map snd _) as [|f0 rest] eqn:E; [discriminate|]. injection H as <-. refine (G _ _ _ _ E).
    intros x Hx. apply in_map_iff in Hx. destruct Hx as ((k & y) & <- & Hy).
    assert (Hy' : In (k, y) (combine keys (f :: g :: fs))) by (eapply Permutation_in; [apply (sort_by_perm fst)|exact Hy]).
    apply in_combine_r in Hy'. exact Hy'.
Qed.
Lemma frames_bytes c lines : class_ok c -> pc_family c <> FUnknown -> 
  Forall (fun f => Forall is_byte (f_data f) /\ f_data f <> []) (frames_of c lines).
Proof.
  intros Hc Hu. apply Forall_forall. intros f Hf. apply frames_of_In in Hf. destruct Hf as (l & _ & Hx & Hp).
  destruct (pc_family c) as [| |b] eqn:Ec; [congruence| |].
  - destruct (pf_legacy_ints c _ f Ec Hx Hp) as (b1 & b2 & tx & data & ck & Fb & _ & L & ->). cbn.
    split; [|destruct data; cbn in L; [lia|congruence]].
    apply Forall_app in Fb. destruct Fb as [_ Fb]. apply Forall_app in Fb. tauto.
  - destruct (pf_can_ints c b _ f Ec Hc Hx Hp) as (h & data & _ & _ & Fb & _ & Hf). apply can_frame_tx in Hf.
    destruct Hf as (_ & -> & _ & L). split; [exact Fb|]. destruct data; cbn in L; [lia|congruence].
Qed.
Lemma call_bytes c m lines ms : class_ok c -> protocol_call c m lines = Ok ms -> Forall (fun msg => Forall is_byte (m_data msg)) ms.
Proof.
  intros Hc H. rewrite call_eq in H by exact Hc.
  destruct (rmap _ _) as [r|] eqn:E; cbn in H; [|discriminate]. injection H as <-. apply Forall_app. split.
  2: { apply Forall_forall. intros x Hx. unfold text_messages in Hx. apply in_map_iff in Hx. destruct Hx as (l & <- & _). constructor. }
  apply Forall_forall. intros msg Hm.
  destruct (proj1 (rmap_concat_filter _ _ _ _ r E msg) Hm) as (k & d & Hk & Hp & ->). cbn.
  unfold parse_message in Hp. destruct (from_id_head _ _ Hk) as (f & tl' & Ef & Hf).
  destruct (pc_family c) as [| |w] eqn:Ec.
  - injection Hp as <-. constructor.
  - assert (Hu : pc_family c <> FUnknown) by congruence.
    pose proof (from_id_Forall _ k _ (frames_bytes c lines Hc Hu)) as F.
    eapply legacy_message_bytes; [| | |exact Hp]; [rewrite Ef; congruence| |]; eapply Forall_impl; [|exact F| |exact F]; cbv beta; tauto.
  - pose proof (can_message_inv (from_id k (frames_of c lines))) as Inv. rewrite Hp in Inv.
    destruct Inv as (payload & _ & Fp & _ & _ & ->).
    { apply from_id_Forall. eapply frames_wf; eassumption. }
    { rewrite Ef; congruence. }
    apply dtc_cut_bytes; exact Fp.
Qed.

(* ------------------------------------------------------------------ *)
Lemma oz_dict_get_set {V} (d : list (option Z * V)) k v k' :
  dict_get oz_eqb (dict_set oz_eqb d k v) k' = if oz_eqb k k' then Some v else dict_get oz_eqb d k'.
Proof.
  apply dict_get_set.
  - intros a b. destruct a, b; cbn; try reflexivity. apply Z.eqb_sym.
  - intros a b e' H1 H2. apply oz_eqb_eq in H1, H2. subst. apply oz_eqb_refl.
Qed.
Definition responders (ms : list message) : list (option Z * bytes) :=
  map (fun m => (m_tx_id m, m_data m)) (filter (fun m => nonempty (m_data m)) ms).
Definition known_ids (m : ecu_map) : Prop := Forall (fun kv => fst kv <> None) m.
Lemma known_set m k e : known_ids m -> known_ids (dict_set oz_eqb m (Some k) e).
Proof.
  unfold known_ids. induction 1 as [|[k0 v] m H F IH]; cbn; [constructor; [cbn; congruence|constructor]|].
  destruct (oz_eqb k0 (Some k)); constructor; cbn in *; auto.
Qed.
Lemma log_map_known m : known_ids m -> log_map m = Ok tt.
Proof.
  intros F. unfold log_map. assert (E : forallb (fun kv : option Z * Z => match fst kv with Some _ => true | None => false end) m = true).
  { apply forallb_forall. intros kv Hk. unfold known_ids in F. rewrite Forall_forall in F. specialize (F kv Hk). destruct (fst kv); congruence. }
  rewrite E. reflexivity.
Qed.
Lemma log_map_none m : (exists v, In (None, v) m) -> log_map m = Raise TypeError.
Proof.
  intros (v & H). unfold log_map. destruct (forallb _ m) eqn:E; [|reflexivity]. rewrite forallb_forall in E. apply E in H. cbn in H. discriminate.
Qed.
Lemma dict_set_In (m : ecu_map) k e : In (k, e) (dict_set oz_eqb m k e).
Proof.
  induction m as [|[k0 v] m IH]; cbn; [auto|]. destruct (oz_eqb k0 k) eqn:E; [apply oz_eqb_eq in E; subst; left; reflexivity|right; exact IH].
Qed.

Section Populate.
Variable c : pclass.
Variable eid : Z.
Hypothesis Heid : tx_id_engine c = Some eid.
Hypothesis Htr : tx_id_transmission c <> Some eid.
Variable rs : list (Z * bytes).
Variable ms : list message.
Hypothesis Hms : map (fun m => (m_tx_id m, m_data m)) ms = map (fun r => (Some (fst r), snd r)) rs.
Hypothesis Hb : Forall (fun r => Forall is_byte (snd r)) rs.

Definition is_tr (t : Z) : bool := oz_eqb (Some t) (tx_id_transmission c).

Lemma fold_match l (rl : list (Z * bytes)) m b :
  map (fun m => (m_tx_id m, m_data m)) l = map (fun r => (Some (fst r), snd r)) rl -> known_ids m ->
  let st := fold_left (match_known c) l (m, b) in
  snd st = b || existsb (fun r => fst r =? eid) rl /\ known_ids (fst st) /\
  forall t, dict_get oz_eqb (fst st) (Some t)
    = if existsb (fun r => fst r =? t) rl && (t =? eid) then Some ECU_ENGINE
      else if existsb (fun r => fst r =? t) rl && is_tr t then Some ECU_TRANSMISSION else dict_get oz_eqb m (Some t).
Proof.
  revert rl m b; induction l as [|x l IH]; intros [|[t0 d0] rl] m b E K; try discriminate.
  - cbn. rewrite orb_false_r. auto.
  - injection E as E0 _ E. cbn [fold_left existsb fst].
    assert (Em : match_known c (m, b) x = if t0 =? eid then (dict_set oz_eqb m (Some t0) ECU_ENGINE, true)
       else if is_tr t0 then (dict_set oz_eqb m (Some t0) ECU_TRANSMISSION, b) else (m, b)).
    { unfold match_known. rewrite E0, Heid. reflexivity. }
    rewrite Em. clear Em. cbv zeta.
    destruct (Z.eqb_spec t0 eid) as [->|N0].
    + destruct (IH rl (dict_set oz_eqb m (Some eid) ECU_ENGINE) true E (known_set _ _ _ K)) as (I1 & I2 & I3).
      split; [etransitivity; [exact I1|]; rewrite orb_true_r; reflexivity|]. split; [exact I2|]. intros t. etransitivity; [apply I3|]. rewrite oz_dict_get_set. cbn [oz_eqb].
      rewrite (Z.eqb_sym t eid). destruct (Z.eqb_spec eid t) as [<-|N]; cbn [orb andb].
      * rewrite andb_true_r. destruct (existsb _ rl); [reflexivity|]. cbn [andb]. reflexivity.
      * rewrite !andb_false_r. reflexivity.
    + destruct (is_tr t0) eqn:Et.
      * destruct (IH rl (dict_set oz_eqb m (Some t0) ECU_TRANSMISSION) b E (known_set _ _ _ K)) as (I1 & I2 & I3).
        split; [etransitivity; [exact I1|]; reflexivity|]. split; [exact I2|]. intros t. etransitivity; [apply I3|]. rewrite oz_dict_get_set. cbn [oz_eqb].
        destruct (Z.eqb_spec t0 t) as [<-|N]; cbn [orb andb].
        -- rewrite Et. destruct (Z.eqb_spec t0 eid); [congruence|]. rewrite !andb_false_r, !andb_true_r. destruct (existsb (fun r => fst r =? t0) rl); reflexivity.
        -- reflexivity.
      * destruct (IH rl m b E K) as (I1 & I2 & I3).
        split; [etransitivity; [exact I1|]; reflexivity|]. split; [exact I2|]. intros t. etransitivity; [apply I3|].
        destruct (Z.eqb_spec t0 t) as [<-|N]; cbn [orb andb]; [|reflexivity].
        rewrite Et, !andb_false_r. destruct (Z.eqb_spec t0 eid); [congruence|]. rewrite !andb_false_r. reflexivity.
Qed.
Lemma fold_mark l (rl : list (Z * bytes)) m : map (fun m => (m_tx_id m, m_data m)) l = map (fun r => (Some (fst r), snd r)) rl ->
  (known_ids m -> known_ids (fold_left mark_unknown l m)) /\
  (forall v, In (None, v) m -> In (None, v) (fold_left mark_unknown l m)) /\
  forall t, dict_get oz_eqb (fold_left mark_unknown l m) (Some t)
    = match dict_get oz_eqb m (Some t) with
      | Some e => Some e
      | None => if existsb (fun r => fst r =? t) rl then Some ECU_UNKNOWN else None
      end.
Proof.
  revert rl m; induction l as [|x l IH]; intros [|[t0 d0] rl] m E; try discriminate.
  - cbn. split; [auto|]. split; [auto|]. intros t; destruct (dict_get _ _ _); reflexivity.
  - injection E as E0 _ E. cbn [fold_left existsb fst].
    assert (Em : mark_unknown m x = match dict_get oz_eqb m (Some t0) with Some _ => m | None => dict_set oz_eqb m (Some t0) ECU_UNKNOWN end).
    { unfold mark_unknown. rewrite E0. unfold dict_mem. destruct (dict_get oz_eqb m (Some t0)); reflexivity. }
    rewrite Em. clear Em. cbv zeta.
    destruct (dict_get oz_eqb m (Some t0)) as [e|] eqn:Eg.
    + destruct (IH rl m E) as (I1 & I2 & I3). split; [exact I1|]. split; [exact I2|]. intros t. etransitivity; [apply I3|].
      destruct (Z.eqb_spec t0 t) as [<-|N]; cbn [orb]; [rewrite Eg; reflexivity|reflexivity].
    + destruct (IH rl (dict_set oz_eqb m (Some t0) ECU_UNKNOWN) E) as (I1 & I2 & I3).
      split; [intros K; apply I1, known_set, K|]. split.
      * intros v Hv. apply I2. rewrite (dict_set_new oz_eqb) by exact Eg. apply in_or_app; auto.
      * intros t. etransitivity; [apply I3|]. rewrite oz_dict_get_set. cbn [oz_eqb]. destruct (Z.eqb_spec t0 t) as [<-|N]; cbn [orb]; [rewrite Eg; reflexivity|reflexivity].
Qed.
Lemma most_bits_eq :
  (exists pre t d post, rs = pre ++ (t, d) :: post /\ most_bits ms = Some t /\ 0 < ones d
     /\ (forall r, In r pre -> ones (snd r) < ones d) /\ (forall r, In r post -> ones (snd r) <= ones d))
  \/ (most_bits ms = None /\ forall r, In r rs -> ones (snd r) = 0).
Proof.
  unfold most_bits. cbv zeta.
  assert (P0 : forall d, 0 <= ones d) by (intros; unfold ones; lia).
  assert (G : forall l rl (best : Z) (bt : option Z), 0 <= best ->
     map (fun m => (m_tx_id m, m_data m)) l = map (fun r => (Some (fst r), snd r)) rl -> Forall (fun r => Forall is_byte (snd r)) rl ->
     let st := fold_left (fun (st : Z * option Z) m => if fst st <? num_set (ba_of (m_data m)) then (num_set (ba_of (m_data m)), m_tx_id m) else st) l (best, bt) in
     (st = (best, bt) /\ forall r, In r rl -> ones (snd r) <= best) \/
     (exists pre t d post, rl = pre ++ (t, d) :: post /\ st = (ones d, Some t) /\ best < ones d
       /\ (forall r, In r pre -> ones (snd r) < ones d) /\ (forall r, In r post -> ones (snd r) <= ones d))).
  { induction l as [|x l IH]; intros [|[t d] rl] best bt B E F; try discriminate; cbv zeta in *; cbn [fold_left].
    - left. split; [reflexivity|]. intros r [].
    - injection E as E0 E1 E. pose proof (Forall_inv F) as F0. pose proof (Forall_inv_tail F) as F'. cbn in F0. cbn [fst]. rewrite E0, E1, num_set_eq by exact F0.
      destruct (Z.ltb_spec best (ones d)) as [L|L].
      + destruct (IH rl (ones d) (Some t) ltac:(lia) E F') as [[-> H]|(pre & t' & d' & post & -> & -> & Hb' & H1 & H2)].
        * right. exists [], t, d, rl. split; [reflexivity|]. split; [reflexivity|]. split; [exact L|]. split; [intros r []|exact H].
        * right. exists ((t, d) :: pre), t', d', post. split; [reflexivity|]. split; [reflexivity|]. split; [lia|]. split; [|exact H2].
          intros r [<-|Hr]; [exact Hb'|exact (H1 r Hr)].
      + destruct (IH rl best bt B E F') as [[-> H]|(pre & t' & d' & post & -> & -> & Hb' & H1 & H2)].
        * left. split; [reflexivity|]. intros r [<-|Hr]; [exact L|exact (H r Hr)].
        * right. exists ((t, d) :: pre), t', d', post. split; [reflexivity|]. split; [reflexivity|]. split; [lia|]. split; [|exact H2].
          intros r [<-|Hr]; [cbn [snd]; lia|exact (H1 r Hr)]. }
  destruct (G ms rs 0 None ltac:(lia) Hms Hb) as [[-> H]|(pre & t & d & post & E1 & E2 & H0 & H1 & H2)].
  - right. split; [reflexivity|]. intros r Hr. specialize (H r Hr). specialize (P0 (snd r)). lia.
  - left. exists pre, t, d, post. rewrite E2. auto.
Qed.
End Populate.

Definition engine_id (f : family) : Z := match f with FLegacy => 16 | _ => 0 end.
Definition transmission_id (f : family) : option Z := match f with FCan _ => Some 1 | _ => None end.
Definition role (f : family) (engine t : Z) : Z :=
  if t =? engine then ECU_ENGINE else if oz_eqb (Some t) (transmission_id f) then ECU_TRANSMISSION else ECU_UNKNOWN.


Lemma filter_responders ms (rs : list (Z * bytes)) : responders ms = map (fun r => (Some (fst r), snd r)) rs ->
  map (fun m => (m_tx_id m, m_data m)) (filter m_parsed ms) = map (fun r => (Some (fst r), snd r)) rs.
Proof. intros H. exact H. Qed.

Lemma existsb_fst (rs : list (Z * bytes)) t : existsb (fun r => fst r =? t) rs = true <-> In t (map fst rs).
Proof.
  rewrite existsb_exists, in_map_iff. split; intros (r & H1 & H2); exists r; [apply Z.eqb_eq in H2; auto|subst; split; [auto|apply Z.eqb_refl]].
Qed.

Lemma new_protocol_engine c lines ms rs : pc_family c <> FUnknown -> class_ok c ->
  protocol_call c (initial_map c) lines = Ok ms -> responders ms = map (fun r => (Some (fst r), snd r)) rs ->
  (rs = [] -> new_protocol c lines = Ok (mkProtocol c (initial_map c))) /\
  (forall e, engine_of (engine_id (pc_family c)) rs e ->
     exists p, new_protocol c lines = Ok p /\ p_class p = c /\
       forall t, In t (map fst rs) -> dict_get oz_eqb (p_map p) (Some t) = Some (role (pc_family c) e t)) /\
  ((2 <= length rs)%nat -> ~ In (engine_id (pc_family c)) (map fst rs) -> (forall r, In r rs -> ones (snd r) = 0) ->
     new_protocol c lines = Raise TypeError).
Proof.
  intros Hu Hc Hcall Hrs. unfold new_protocol. rewrite Hcall. cbn [rbind]. unfold populate_ecu_map.
  apply filter_responders in Hrs. pose proof (call_bytes _ _ _ _ Hc Hcall) as Fb.
  set (l := filter m_parsed ms) in *.
  assert (Fl : Forall (fun r : Z * bytes => Forall is_byte (snd r)) rs).
  { assert (Fb' : Forall (fun m => Forall is_byte (m_data m)) l) by (apply Forall_forall; intros x Hx; apply filter_In in Hx; rewrite Forall_forall in Fb; apply Fb; tauto).
    clear -Fb' Hrs. revert rs Hrs. induction l as [|x l IH]; intros [|r rs] E; try discriminate; constructor; inversion Fb'; subst; injection E as _ E1 E; [rewrite <- E1; assumption|auto]. }
  set (eid := engine_id (pc_family c)) in *.
  assert (Heid : tx_id_engine c = Some eid) by (unfold tx_id_engine, eid, engine_id; destruct (pc_family c); congruence).
  assert (Htr : tx_id_transmission c <> Some eid) by (unfold tx_id_transmission, eid, engine_id; destruct (pc_family c); congruence).
  assert (Etr : tx_id_transmission c = transmission_id (pc_family c)) by reflexivity.
  assert (K0 : known_ids (initial_map c)).
  { unfold initial_map, tx_id_engine, tx_id_transmission. destruct (pc_family c); cbn; repeat constructor; cbn; congruence. }
  assert (G0 : forall t, dict_get oz_eqb (initial_map c) (Some t) = if t =? eid then Some ECU_ENGINE else if is_tr c t then Some ECU_TRANSMISSION else None).
  { intros t. unfold initial_map, is_tr, tx_id_engine, tx_id_transmission, eid, engine_id. destruct (pc_family c) as [| |b]; [congruence| |].
    - change (dict_set oz_eqb [] (Some 16) ECU_ENGINE) with [(Some 16, ECU_ENGINE)]. unfold dict_get, oz_eqb. rewrite (Z.eqb_sym t 16).
      destruct (16 =? t); reflexivity.
    - change (dict_set oz_eqb (dict_set oz_eqb [] (Some 0) ECU_ENGINE) (Some 1) ECU_TRANSMISSION) with [(Some 0, ECU_ENGINE); (Some 1, ECU_TRANSMISSION)].
      unfold dict_get, oz_eqb. rewrite (Z.eqb_sym t 0), (Z.eqb_sym t 1). destruct (0 =? t), (1 =? t); reflexivity. }
  assert (Ll : length l = length rs).
  { rewrite <- (map_length (fun m => (m_tx_id m, m_data m)) l), Hrs, map_length. reflexivity. }
  split; [|split].
  - intros ->. destruct l; [|discriminate]. cbn [populate_ecu_map]. rewrite (log_map_known _ K0). reflexivity.
  - intros e He.
    destruct (Nat.le_gt_cases 2 (length rs)) as [L2|L2].
    2: { inversion He as [t d| |]; subst; try lia.
         destruct l as [|x [|]]; try discriminate. injection Hrs as Ex _. rewrite Ex.
         rewrite (log_map_known _ (known_set _ _ _ K0)). cbn [rbind]. eexists. split; [reflexivity|]. split; [reflexivity|].
         cbn [p_map map fst]. intros t0 [<-|[]]. rewrite oz_dict_get_set, oz_eqb_refl. unfold role. rewrite Z.eqb_refl. reflexivity. }
    destruct l as [|x [|y l']] eqn:El; [cbn in Ll; lia..|]. rewrite <- El in *. clear El x y l'.
    destruct (fold_match c eid Heid l rs (initial_map c) false Hrs K0) as (M1 & M2 & M3).
    destruct (fold_left (match_known c) l (initial_map c, false)) as [map1 found]. cbn [fst snd] in M1, M2, M3. cbn [orb] in M1.
    set (map2 := if found then map1 else dict_set oz_eqb map1 (most_bits l) ECU_ENGINE).
    assert (X : known_ids map2 /\ forall t, In t (map fst rs) -> dict_get oz_eqb map2 (Some t)
                = if t =? e then Some ECU_ENGINE else if is_tr c t then Some ECU_TRANSMISSION else None).
    { unfold map2. inversion He as [t d|rs' _ Hin|pre t d post _ Hnin Hpos H1 H2]; subst.
      - cbn in L2; lia.
      - apply existsb_fst in Hin. rewrite Hin. split; [exact M2|]. intros t Ht. rewrite M3, G0.
        apply existsb_fst in Ht. rewrite Ht. cbn [andb]. fold eid.
        destruct (t =? eid); [reflexivity|]. destruct (is_tr c t); reflexivity.
      - assert (E : existsb (fun r => fst r =? eid) (pre ++ (e, d) :: post) = false).
        { apply not_true_iff_false. rewrite existsb_fst. exact Hnin. }
        rewrite E.
        assert (Em : most_bits l = Some e).
        { destruct (most_bits_eq 0 (pre ++ (e, d) :: post) l Hrs Fl) as [(pre' & t' & d' & post' & E' & -> & Hp' & H1' & H2')|[_ Hz]].
          - f_equal. apply app_eq_app in E'. destruct E' as (q & [[Ea Eb]|[Ea Eb]]); destruct q as [|r q]; cbn in Eb.
            + injection Eb as -> _ _; reflexivity.
            + injection Eb as <- Eb. subst.
              
              assert (A2 : ones (snd (t', d')) < ones d) by (apply H1; apply in_or_app; right; left; reflexivity).
              cbn in A2. assert (ones d <= ones d') by (apply (H2' (e, d)); apply in_or_app; right; left; reflexivity). lia.
            + injection Eb as -> _ _; reflexivity.
            + injection Eb as <- Eb. subst.
              assert (A2 : ones (snd (e, d)) < ones d') by (apply H1'; apply in_or_app; right; left; reflexivity).
              cbn in A2. assert (ones d' <= ones d) by (apply (H2 (t', d')); apply in_or_app; right; left; reflexivity). lia.
          - exfalso. specialize (Hz (e, d) ltac:(apply in_or_app; right; left; reflexivity)). cbn in Hz. lia. }
        rewrite Em. split; [apply known_set; exact M2|]. intros t Ht. rewrite oz_dict_get_set. cbn [oz_eqb]. rewrite (Z.eqb_sym e t).
        destruct (Z.eqb_spec t e); [reflexivity|]. rewrite M3, G0. pose proof Ht as Ht'. apply existsb_fst in Ht'. rewrite Ht'. cbn [andb].
        destruct (Z.eqb_spec t eid) as [->|N]; [contradiction|]. destruct (is_tr c t); reflexivity. }
    destruct X as [X1 X2]. destruct (fold_mark l rs map2 Hrs) as (N1 & _ & N3).
    rewrite (log_map_known _ (N1 X1)). cbn [rbind]. eexists. split; [reflexivity|]. split; [reflexivity|]. cbn [p_map].
    intros t Ht. rewrite N3, (X2 t Ht). unfold role. pose proof Ht as Ht'. apply existsb_fst in Ht'. rewrite Ht'.
    unfold is_tr. rewrite Etr. destruct (t =? e); [reflexivity|]. destruct (oz_eqb (Some t) (transmission_id (pc_family c))); reflexivity.
  - intros L2 Hnin Hz.
    destruct l as [|x [|y l']] eqn:El; [cbn in Ll; lia..|]. rewrite <- El in *. clear El x y l'.
    destruct (fold_match c eid Heid l rs (initial_map c) false Hrs K0) as (M1 & M2 & M3).
    destruct (fold_left (match_known c) l (initial_map c, false)) as [map1 found]. cbn [fst snd] in M1, M2, M3. cbn [orb] in M1.
    assert (E : existsb (fun r => fst r =? eid) rs = false).
    { apply not_true_iff_false. rewrite existsb_fst. exact Hnin. }
    rewrite E in M1. rewrite M1.
    assert (Em : most_bits l = None).
    { destruct (most_bits_eq 0 rs l Hrs Fl) as [(pre & t & d & post & -> & _ & Hp & _)|[Hn _]]; [|exact Hn].
      specialize (Hz (t, d) ltac:(apply in_or_app; right; left; reflexivity)). cbn in Hz. lia. }
    rewrite Em. destruct (fold_mark l rs (dict_set oz_eqb map1 None ECU_ENGINE) Hrs) as (_ & N2 & _).
    rewrite log_map_none; [reflexivity|]. exists ECU_ENGINE. apply N2. apply dict_set_In.
Qed.

(* every answer falls in one of the cases *)
Lemma most_ones_split (rs : list (Z * bytes)) : (forall r, In r rs -> ones (snd r) = 0) \/
  exists pre t d post, rs = pre ++ (t, d) :: post /\ 0 < ones d
     /\ (forall r, In r pre -> ones (snd r) < ones d) /\ (forall r, In r post -> ones (snd r) <= ones d).
Proof.
  assert (P0 : forall d, 0 <= ones d) by (intros; unfold ones; lia).
  induction rs as [|[t d] rs [H|(pre & t' & d' & post & -> & H0 & H1 & H2)]].
  - left. intros r [].
  - destruct (Z.eq_dec (ones d) 0) as [E|E].
    + left. intros r [<-|Hr]; [exact E|auto].
    + right. exists [], t, d, rs. split; [reflexivity|]. pose proof (P0 d). split; [lia|]. split; [intros r []|].
      intros r Hr. rewrite (H r Hr). lia.
  - right. destruct (Z_lt_le_dec (ones d) (ones d')) as [L|L].
    + exists ((t, d) :: pre), t', d', post. split; [reflexivity|]. split; [exact H0|]. split; [|exact H2].
      intros r [<-|Hr]; [exact L|auto].
    + exists [], t, d, (pre ++ (t', d') :: post). split; [reflexivity|]. split; [lia|]. split; [intros r []|].
      intros r Hr. apply in_app_or in Hr. destruct Hr as [Hr|[<-|Hr]]; [specialize (H1 r Hr); lia|exact L|specialize (H2 r Hr); lia].
Qed.
Lemma engine_cases id rs : rs <> [] ->
  (exists e, engine_of id rs e) \/ ((2 <= length rs)%nat /\ ~ In id (map fst rs) /\ forall r, In r rs -> ones (snd r) = 0).
Proof.
  intros Hne. destruct rs as [|[t d] [|r2 rs']]; [congruence|left; exists t; constructor|].
  set (rs := (t, d) :: r2 :: rs') in *. assert (L : (2 <= length rs)%nat) by (unfold rs; cbn; lia).
  destruct (in_dec Z.eq_dec id (map fst rs)) as [I|I]; [left; exists id; constructor; assumption|].
  destruct (most_ones_split rs) as [H|(pre & t' & d' & post & E & H0 & H1 & H2)]; [right; auto|].
  left. exists t'. rewrite E in *. constructor; assumption.
Qed.
