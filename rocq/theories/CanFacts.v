(* Reassembly of CAN messages *)
From Coq Require Import ZArith List Bool Lia Permutation Sorted.
From Coq Require Import ZifyBool ZifyNat.
From Verif Require Import Py Utils Protocol SpecWire PyFacts WireFacts ProtocolFacts.
Import ListNotations.
Open Scope Z_scope.
Ltac Zify.zify_post_hook ::= Z.div_mod_to_equations.
Arguments Z.div : simpl never.
Arguments Z.modulo : simpl never.
Arguments Z.mul : simpl never.
Arguments Z.add : simpl never.
Arguments Z.sub : simpl never.
Arguments Z.land : simpl never.

(* s, s+1, ... *)
Definition zseq (s : Z) (n : nat) : list Z := map (fun i => s + Z.of_nat i) (seq 0 n).
Lemma zseq_S s n : zseq s (S n) = s :: zseq (s + 1) n.
Proof.
  unfold zseq. cbn [seq map]. f_equal; [lia|]. rewrite <- seq_shift, map_map. apply map_ext; intros; lia.
Qed.
Lemma zseq_length s n : length (zseq s n) = n.
Proof. unfold zseq. rewrite map_length, seq_length; reflexivity. Qed.
Lemma zseq_nth s n i : (i < n)%nat -> nth_error (zseq s n) i = Some (s + Z.of_nat i).
Proof.
  intros H. unfold zseq. rewrite nth_error_map. rewrite (nth_error_nth' _ 0%nat) by (rewrite seq_length; lia).
  rewrite seq_nth by lia. reflexivity.
Qed.
Lemma zseq_In s n x : In x (zseq s n) <-> s <= x < s + Z.of_nat n.
Proof.
  unfold zseq. rewrite in_map_iff. split.
  - intros (i & <- & Hi). apply in_seq in Hi; lia.
  - intros H. exists (Z.to_nat (x - s)). split; [lia|]. apply in_seq; lia.
Qed.
Lemma zseq_NoDup s n : NoDup (zseq s n).
Proof.
  revert s; induction n as [|n IH]; intros s; [constructor|]. rewrite zseq_S. constructor; [|apply IH].
  rewrite zseq_In; lia.
Qed.
Lemma zseq_sorted s n : StronglySorted (fun a b => a <= b) (zseq s n).
Proof.
  revert s; induction n as [|n IH]; intros s; [constructor|]. rewrite zseq_S. constructor; [apply IH|].
  apply Forall_forall. intros x Hx. apply zseq_In in Hx; lia.
Qed.
Lemma zseq_app s n m : zseq s (n + m) = zseq s n ++ zseq (s + Z.of_nat n) m.
Proof.
  revert s; induction n as [|n IH]; intros s; cbn [Nat.add].
  - cbn. f_equal. lia.
  - rewrite !zseq_S. cbn [app]. f_equal. rewrite IH. f_equal. f_equal. lia.
Qed.

Lemma contiguous_step x l : forallb (fun p => fst p + 1 =? snd p) (pairs (x :: l)) = true -> l = zseq (x + 1) (length l).
Proof.
  unfold pairs. cbn [tl]. revert x; induction l as [|y l IH]; intros x H; [reflexivity|].
  cbn in H. apply andb_true_iff in H. destruct H as [H1 H2]. apply Z.eqb_eq in H1. cbn [length]. rewrite zseq_S.
  rewrite H1. f_equal. apply IH. exact H2.
Qed.
Lemma zseq_pairs x n : forallb (fun p => fst p + 1 =? snd p) (pairs (x :: zseq (x + 1) n)) = true.
Proof.
  revert x; induction n as [|n IH]; intros x; [reflexivity|]. rewrite zseq_S. cbn. rewrite Z.eqb_refl. cbn. apply IH.
Qed.
Lemma zseq_last s n d : (0 < n)%nat -> last (zseq s n) d = s + Z.of_nat n - 1.
Proof.
  intros H. destruct n as [|n]; [lia|]. replace (S n) with (n + 1)%nat by lia. rewrite zseq_app.
  cbn. rewrite last_last. lia.
Qed.
Lemma contiguous_spec l s e : contiguous l s e = true <-> l <> [] /\ l = zseq s (length l) /\ e = s + zlen l - 1.
Proof.
  unfold contiguous. destruct l as [|x l]; [split; [congruence|tauto]|].
  split.
  - destruct (Z.eqb_spec x s) as [->|]; cbn [negb]; [|congruence].
    destruct (Z.eqb_spec (last (s :: l) 0) e) as [<-|]; cbn [negb]; [|congruence].
    intros H. apply contiguous_step in H. split; [congruence|].
    assert (E : s :: l = zseq s (length (s :: l))) by (cbn [length]; rewrite zseq_S; congruence).
    split; [exact E|]. rewrite E at 1. rewrite zseq_last by (cbn; lia). unfold zlen. reflexivity.
  - intros (_ & E & ->). cbn [length] in E. rewrite zseq_S in E. injection E as -> E.
    rewrite Z.eqb_refl. cbn [negb].
    assert (E2 : last (s :: l) 0 = s + zlen (s :: l) - 1).
    { replace (s :: l) with (zseq s (length (s :: l))) at 1 by (cbn [length]; rewrite zseq_S; congruence).
      rewrite zseq_last by (cbn; lia). reflexivity. }
    rewrite E2, Z.eqb_refl. cbn [negb]. rewrite E. apply zseq_pairs.
Qed.

(* ------------------------------------------------------------------ *)
(* sequence numbers *)
Lemma land_not15 p : Z.land p (Z.lnot 15) = p - p mod 16.
Proof.
  replace (Z.land p (Z.lnot 15)) with (Z.ldiff p (Z.ones 4)) by (rewrite Z.ldiff_land; reflexivity).
  rewrite Z.ldiff_ones_r by lia. rewrite Z.shiftl_mul_pow2, Z.shiftr_div_pow2 by lia. change (2 ^ 4) with 16. lia.
Qed.
(* the number given to a frame numbered d (0..15) that arrives after one with number p *)
Definition next_seq (p d : Z) : Z :=
  let s := p - p mod 16 + d in if s <? p - 7 then s + 16 else s.
Fixpoint seqs_from (p : Z) (ds : list Z) : list Z :=
  match ds with [] => [] | d :: t => next_seq p d :: seqs_from (next_seq p d) t end.
Definition seqs (ds : list Z) : list Z := match ds with [] => [] | d :: t => d :: seqs_from d t end.
Lemma seqs_from_length p ds : length (seqs_from p ds) = length ds.
Proof. revert p; induction ds as [|d ds IH]; intros p; cbn; auto. Qed.
Lemma seqs_length ds : length (seqs ds) = length ds.
Proof. destruct ds; cbn; [reflexivity|]. rewrite seqs_from_length; reflexivity. Qed.
Definition renumber (p : Z * frame) : frame := set_seq (snd p) (fst p).
Lemma unwrap_from_eq p cf : unwrap_from p cf = map renumber (combine (seqs_from p (map f_seq cf)) cf).
Proof.
  revert p; induction cf as [|f cf IH]; intros p; cbn; [reflexivity|].
  rewrite land_not15. fold (next_seq p (f_seq f)). unfold renumber at 1. cbn. f_equal. apply IH.
Qed.
Lemma set_seq_id f : set_seq f (f_seq f) = f.
Proof. destruct f; reflexivity. Qed.
Lemma unwrap_eq cf : unwrap cf = map renumber (combine (seqs (map f_seq cf)) cf).
Proof.
  destruct cf as [|f cf]; cbn; [reflexivity|]. unfold renumber at 1. cbn. rewrite set_seq_id. f_equal. apply unwrap_from_eq.
Qed.
Lemma next_seq_mod p d : next_seq p d mod 16 = d mod 16.
Proof. unfold next_seq. destruct (_ <? _); lia. Qed.
Lemma seqs_from_mod p ds : Forall2 (fun s d => s mod 16 = d mod 16) (seqs_from p ds) ds.
Proof. revert p; induction ds as [|d ds IH]; intros p; cbn; constructor; auto using next_seq_mod. Qed.
Lemma seqs_mod ds : Forall2 (fun s d => s mod 16 = d mod 16) (seqs ds) ds.
Proof. destruct ds as [|d ds]; cbn; constructor; auto using seqs_from_mod. Qed.

(* arrival of frame c right after frame p: the true numbers are recovered exactly when *)
Definition recoverable (p c : Z) : Prop := (c / 16 = p / 16 /\ p - 7 <= c) \/ (c / 16 = p / 16 + 1 /\ c <= p + 8).
Lemma next_seq_recoverable p c : next_seq p (c mod 16) = c <-> recoverable p c.
Proof.
  unfold next_seq, recoverable. destruct (Z.ltb_spec (p - p mod 16 + c mod 16) (p - 7)); split; intros; lia.
Qed.
Lemma seqs_from_true p cs : (forall a b l r, p :: cs = l ++ a :: b :: r -> recoverable a b) ->
  seqs_from p (map (fun c => c mod 16) cs) = cs.
Proof.
  revert p; induction cs as [|c cs IH]; intros p H; cbn; [reflexivity|].
  assert (E : next_seq p (c mod 16) = c) by (apply next_seq_recoverable, (H p c [] cs); reflexivity).
  rewrite E. f_equal. apply IH. intros a b l r El. apply (H a b (p :: l) r). cbn. congruence.
Qed.
Lemma seqs_true cs :
  (forall c t, cs = c :: t -> 0 <= c <= 15) -> (forall a b l r, cs = l ++ a :: b :: r -> recoverable a b) ->
  seqs (map (fun c => c mod 16) cs) = cs.
Proof.
  destruct cs as [|c cs]; cbn; intros H1 H2; [reflexivity|].
  specialize (H1 c cs eq_refl). replace (c mod 16) with c by lia. f_equal. apply seqs_from_true. exact H2.
Qed.

(* ------------------------------------------------------------------ *)
(* frames that came out of parse_frame *)
Definition wf (f : frame) : Prop := exists h s, Forall is_byte (f_data f) /\ can_frame h s (f_data f) = Some f.
Definition isSF := is_type FRAME_TYPE_SF.
Definition isFF := is_type FRAME_TYPE_FF.
Definition isCF := is_type FRAME_TYPE_CF.
Lemma wf_facts f : wf f ->
  acceptable (f_data f)
  /\ isSF f = (frame_type (f_data f) =? 0) /\ isFF f = (frame_type (f_data f) =? 1) /\ isCF f = (frame_type (f_data f) =? 2)
  /\ (isCF f = true -> f_seq f = number (f_data f))
  /\ (isSF f = true -> f_data_len f = Some (number (f_data f)))
  /\ (isFF f = true -> exists pci lo d, f_data f = pci :: lo :: d /\ f_data_len f = Some (256 * (pci mod 16) + lo)).
Proof.
  intros (h & s & Fb & H). pose proof (can_frame_tx _ _ _ _ H) as (_ & _ & _ & Hl).
  unfold can_frame in H. destruct (_ || _); [congruence|].
  destruct (f_data f) as [|pci [|lo d]] eqn:Ed; try congruence.
  inversion Fb as [|? ? Hp Fb']; subst. inversion Fb' as [|? ? Hlo _]; subst. unfold is_byte in *.
  unfold acceptable, isSF, isFF, isCF, is_type, FRAME_TYPE_SF, FRAME_TYPE_FF, FRAME_TYPE_CF, frame_type, number.
  destruct (Z.eqb_spec (pci / 16) 0) as [E0|N0].
  { destruct (Z.eqb_spec (pci mod 16) 0); [congruence|]. injection H as <-. rewrite E0. cbn [f_type f_seq f_data_len oz_eqb].
    cbn [length] in Hl. repeat split; try (cbn; congruence); cbn [length]; try lia. }
  destruct (Z.eqb_spec (pci / 16) 1) as [E1|N1].
  { destruct (Z.eqb_spec (256 * (pci mod 16) + lo) 0); [congruence|]. injection H as <-. rewrite E1. cbn [f_type f_seq f_data_len oz_eqb].
    cbn [length] in Hl. repeat split; try (cbn; congruence); cbn [length]; try lia.
    intros _. exists pci, lo, d. auto. }
  destruct (Z.eqb_spec (pci / 16) 2) as [E2|N2]; [|congruence].
  injection H as <-. rewrite E2. cbn [f_type f_seq f_data_len oz_eqb].
  cbn [length] in Hl. repeat split; try (cbn; congruence); cbn [length]; try lia.
Qed.

Lemma filter_data (P : bytes -> bool) (Q : frame -> bool) fs :
  Forall (fun f => Q f = P (f_data f)) fs -> map f_data (filter Q fs) = filter P (map f_data fs).
Proof.
  induction 1 as [|f fs H F IH]; cbn; [reflexivity|]. rewrite <- H. destruct (Q f); cbn; rewrite IH; reflexivity.
Qed.

Lemma trim_dtc_ok d : d <> [] -> d <> [67] -> Forall is_byte d -> trim_dtc d = Ok (dtc_cut d).
Proof.
  intros H1 H2 F. destruct d as [|a [|b d]]; [congruence| |].
  - unfold trim_dtc, get. cbn [nth_error rbind]. destruct (Z.eqb_spec a 67) as [->|N]; [congruence|].
    f_equal. unfold dtc_cut. destruct a as [|p|p]; auto. repeat (destruct p as [p|p|]; auto).
  - unfold trim_dtc, get. cbn [nth_error rbind]. destruct (Z.eqb_spec a 67) as [->|N].
    + unfold upto, dtc_cut. do 3 f_equal. lia.
    + f_equal. unfold dtc_cut. destruct a as [|p|p]; auto. repeat (destruct p as [p|p|]; auto; try congruence).
Qed.
Lemma trim_dtc_raise d e : trim_dtc d = Raise e -> (d = [] \/ d = [67]) /\ e = IndexError.
Proof.
  unfold trim_dtc, get. destruct d as [|a [|b d]]; cbn [nth_error rbind].
  - intros H; injection H as <-; auto.
  - destruct (Z.eqb_spec a 67) as [->|N]; intros H; [injection H as <-; auto|congruence].
  - destruct (Z.eqb_spec a 67); congruence.
Qed.

Lemma sorted_frames cf :
  sort_by f_seq (unwrap cf) = map renumber (sort_by fst (combine (seqs (map f_seq cf)) cf)).
Proof.
  rewrite unwrap_eq, sort_by_map. f_equal.
Qed.
Lemma map_snd_combine {A B} (a : list A) (b : list B) : length a = length b -> map snd (combine a b) = b.
Proof. revert b; induction a as [|x a IH]; destruct b as [|y b]; cbn; intros H; try congruence; f_equal; auto. Qed.
Lemma map_fst_combine {A B} (a : list A) (b : list B) : length a = length b -> map fst (combine a b) = a.
Proof. revert b; induction a as [|x a IH]; destruct b as [|y b]; cbn; intros H; try congruence; f_equal; auto. Qed.

(* the consecutive frames in the order in which their data is used, and the assembled bytes before trimming *)
Definition in_order (cf : list frame) : list frame := map snd (sort_by fst (combine (seqs (map f_seq cf)) cf)).
Definition numbers (cf : list frame) : list Z := map fst (sort_by fst (combine (seqs (map f_seq cf)) cf)).
Lemma in_order_perm cf : Permutation (in_order cf) cf.
Proof.
  unfold in_order. rewrite (Permutation_map snd (sort_by_perm fst _)).
  rewrite map_snd_combine; [reflexivity|]. rewrite seqs_length, map_length; reflexivity.
Qed.
Definition multi_bytes (f0 : frame) (cf : list frame) : bytes :=
  from 2 (f_data f0) ++ List.concat (map (fun f => from 1 (f_data f)) (in_order cf)).

Lemma can_parse_multi frames : (length frames <> 1)%nat ->
  can_parse_message frames =
  match filter isFF frames with
  | [f0] =>
      let cf := filter isCF frames in
      if negb (nonempty cf) then Ok None
      else if negb (contiguous (numbers cf) 1 (zlen cf)) then Ok None
      else let! n := len_of f0 in let! d := trim_dtc (upto n (multi_bytes f0 cf)) in Ok (Some d)
  | _ => Ok None
  end.
Proof.
  intros H. unfold can_parse_message, isFF, isCF.
  assert (G : forall cf f0, 
     (if negb (contiguous (map f_seq (sort_by f_seq (unwrap cf))) 1 (zlen (sort_by f_seq (unwrap cf)))) then Ok None
      else let data := fold_left (fun acc f => acc ++ from 1 (f_data f)) (sort_by f_seq (unwrap cf)) (from 2 (f_data f0)) in
           let! n := len_of f0 in let! d := trim_dtc (upto n data) in Ok (Some d))
     = (if negb (contiguous (numbers cf) 1 (zlen cf)) then Ok None
        else let! n := len_of f0 in let! d := trim_dtc (upto n (multi_bytes f0 cf)) in Ok (Some d))).
  { intros cf f0. rewrite sorted_frames, map_map. 
    assert (E1 : map (fun x => f_seq (renumber x)) (sort_by fst (combine (seqs (map f_seq cf)) cf)) = numbers cf)
      by (apply map_ext; reflexivity).
    assert (E2 : zlen (map renumber (sort_by fst (combine (seqs (map f_seq cf)) cf))) = zlen cf).
    { unfold zlen. rewrite map_length, (Permutation_length (sort_by_perm _ _)), combine_length, seqs_length, map_length, Nat.min_id; reflexivity. }
    rewrite E1, E2. rewrite fold_left_app_acc. unfold multi_bytes, in_order. rewrite !map_map. reflexivity. }
  destruct frames as [|f [|g frames]]; [reflexivity|cbn in H; congruence|].
  destruct (filter (is_type FRAME_TYPE_FF) (f :: g :: frames)) as [|f0 [|]]; [reflexivity| |reflexivity].
  cbv zeta. destruct (negb (nonempty (filter (is_type FRAME_TYPE_CF) (f :: g :: frames)))); [reflexivity|].
  rewrite <- G. reflexivity.
Qed.

Lemma combine_perm_In {A B} (a : list A) (b : list B) x y : In (x, y) (combine a b) -> exists i, nth_error a i = Some x /\ nth_error b i = Some y.
Proof.
  revert b; induction a as [|u a IH]; intros b H; [destruct H|]. destruct b as [|v b]; [destruct H|].
  destruct H as [E|H]; [injection E as <- <-; exists 0%nat; auto|].
  destruct (IH b H) as (i & ? & ?). exists (S i); auto.
Qed.
Lemma Forall2_nth {A B} (R : A -> B -> Prop) a b i x y : Forall2 R a b -> nth_error a i = Some x -> nth_error b i = Some y -> R x y.
Proof. intros H; revert i; induction H; intros [|i] Ha Hb; cbn in *; try congruence. eauto. Qed.

Lemma in_order_numbers cf : Forall (fun f => 0 <= f_seq f < 16) cf -> contiguous (numbers cf) 1 (zlen cf) = true ->
  forall i f, nth_error (in_order cf) i = Some f -> f_seq f = Z.of_nat (i + 1) mod 16.
Proof.
  intros F H i f Hi. apply contiguous_spec in H. destruct H as (_ & E & _).
  unfold in_order in Hi. unfold numbers in E.
  set (S0 := sort_by fst (combine (seqs (map f_seq cf)) cf)) in *.
  rewrite nth_error_map in Hi. destruct (nth_error S0 i) as [[s g]|] eqn:Es; cbn in Hi; [|congruence].
  injection Hi as ->.
  assert (Hs : s = 1 + Z.of_nat i).
  { assert (nth_error (map fst S0) i = Some s) by (rewrite nth_error_map, Es; reflexivity).
    rewrite E in H. rewrite zseq_nth in H; [congruence|]. rewrite map_length. apply nth_error_Some. congruence. }
  assert (Hin : In (s, f) (combine (seqs (map f_seq cf)) cf)).
  { eapply Permutation_in; [apply (sort_by_perm fst)|]. eapply nth_error_In; exact Es. }
  apply combine_perm_In in Hin. destruct Hin as (j & Hj & Hf).
  assert (Hm : s mod 16 = f_seq f mod 16).
  { eapply (Forall2_nth (fun s d => s mod 16 = d mod 16) _ _ j); [apply (seqs_mod (map f_seq cf))|exact Hj|]. rewrite nth_error_map, Hf; reflexivity. }
  rewrite Forall_forall in F. specialize (F f (nth_error_In _ _ Hf)). lia.
Qed.

Lemma from_tl {A} (d : list A) : from 1 d = tl d.
Proof. destruct d; reflexivity. Qed.
Lemma Forall_In_perm {A} (P : A -> Prop) l1 l2 : Permutation l1 l2 -> Forall P l1 -> Forall P l2.
Proof. intros; eapply Permutation_Forall; eassumption. Qed.
Lemma Forall_concat {A} (P : A -> Prop) ls : Forall (Forall P) ls -> Forall P (List.concat ls).
Proof. induction 1; cbn; [constructor|]. apply Forall_app; split; assumption. Qed.
Lemma Forall_tl {A} (P : A -> Prop) l : Forall P l -> Forall P (tl l).
Proof. destruct 1; [constructor|assumption]. Qed.
Lemma Forall_firstn {A} (P : A -> Prop) n l : Forall P l -> Forall P (firstn n l).
Proof. intros H. revert n; induction H; intros [|n]; cbn; constructor; auto. Qed.
Lemma Forall_skipn {A} (P : A -> Prop) n l : Forall P l -> Forall P (skipn n l).
Proof. revert n; induction l as [|x l IH]; intros [|n] H; cbn; auto. inversion H; auto. Qed.

(* C03, C09: whatever comes out was reassembled; the only way to raise is a payload of the single byte 43 *)
Lemma can_message_inv frames : Forall wf frames -> frames <> [] ->
  match can_parse_message frames with
  | Ok None => True
  | Ok (Some d) => exists payload, reassembled (map f_data frames) payload /\ Forall is_byte payload /\ payload <> []
                                   /\ payload <> [67] /\ d = dtc_cut payload
  | Raise e => e = IndexError /\ reassembled (map f_data frames) [67]
  end.
Proof.
  intros W Hne.
  assert (Wb : Forall (fun f => Forall is_byte (f_data f)) frames)
    by (eapply Forall_impl; [|exact W]; intros f (h & s & Fb & _); exact Fb).
  assert (Wf : Forall (fun f => _) frames) by (eapply Forall_impl; [|exact W]; exact wf_facts). cbv beta in Wf.
  assert (T : forall d payload, d = payload -> reassembled (map f_data frames) payload -> Forall is_byte payload -> payload <> [] ->
     match (let! d := trim_dtc d in Ok (Some d)) with
     | Ok None => True
     | Ok (Some d) => exists payload, reassembled (map f_data frames) payload /\ Forall is_byte payload /\ payload <> []
                                   /\ payload <> [67] /\ d = dtc_cut payload
     | Raise e => e = IndexError /\ reassembled (map f_data frames) [67]
     end).
  { intros d payload -> R Fp Np. destruct (trim_dtc payload) as [d'|e] eqn:E; cbn.
    - exists payload. assert (N : payload <> [67]) by (intros ->; cbn in E; discriminate).
      rewrite (trim_dtc_ok payload Np N Fp) in E. injection E as <-. auto 10.
    - apply trim_dtc_raise in E. destruct E as [[->| ->] ->]; [congruence|auto]. }
  destruct (Nat.eq_dec (length frames) 1) as [L|L].
  - destruct frames as [|f [|]]; cbn in L; try congruence. inversion Wf as [|? ? (Acc & ES & _ & _ & _ & EL & _) _]; subst.
    inversion Wb as [|? ? Fb _]; subst.
    unfold can_parse_message. fold isSF. change (is_type FRAME_TYPE_SF f) with (isSF f).
    destruct (isSF f) eqn:Sf; cbn [negb]; [|exact I].
    symmetry in ES. apply Z.eqb_eq in ES. specialize (EL eq_refl).
    unfold len_of. rewrite EL. cbn [rbind]. unfold acceptable, number, frame_type in *.
    destruct (f_data f) as [|pci [|lo d]] eqn:Ed; [cbn in Acc; tauto..|].
    destruct Acc as [_ Acc]. assert (Hp : pci mod 16 <> 0) by lia. assert (Hq : pci mod 16 = pci) by lia.
    inversion Fb as [|? ? Hpci Fb']; subst. unfold is_byte in Hpci.
    rewrite Hq. apply (T _ (firstn (Z.to_nat pci) (lo :: d))).
    + unfold slice. cbn [skipn]. f_equal. lia.
    + cbn [map]. rewrite Ed. apply reassembled_single. lia.
    + apply Forall_firstn; exact Fb'.
    + destruct (Z.to_nat pci) eqn:En; [lia|]. cbn; congruence.
  - rewrite can_parse_multi by exact L.
    destruct (filter isFF frames) as [|f0 [|]] eqn:Eff; [exact I| |exact I].
    cbv zeta. destruct (nonempty (filter isCF frames)) eqn:Ecf; cbn [negb]; [|exact I].
    destruct (contiguous _ _ _) eqn:Ec; cbn [negb]; [|exact I].
    assert (H0 : In f0 (filter isFF frames)) by (rewrite Eff; left; reflexivity).
    apply filter_In in H0. destruct H0 as [H0 Hff].
    rewrite Forall_forall in Wf, Wb. pose proof (Wf f0 H0) as (Acc0 & _ & _ & _ & _ & _ & EL).
    destruct (EL Hff) as (pci & lo & d0 & Ed0 & Elen).
    unfold len_of. rewrite Elen. cbn [rbind].
    set (ord := map f_data (in_order (filter isCF frames))).
    assert (Pm : Permutation ord (map f_data (filter isCF frames))) by (apply Permutation_map, in_order_perm).
    assert (Oin : forall f, In f (in_order (filter isCF frames)) -> In f frames /\ isCF f = true).
    { intros f Hf. apply filter_In. eapply Permutation_in; [apply in_order_perm|exact Hf]. }
    apply (T _ (firstn (Z.to_nat (256 * (pci mod 16) + lo)) (d0 ++ List.concat (map (@tl Z) ord)))).
    + unfold upto, multi_bytes. f_equal. rewrite Ed0. cbn [from skipn]. f_equal. f_equal. unfold ord. rewrite map_map.
      apply map_ext; intros; apply from_tl.
    + apply reassembled_multi.
      * rewrite map_length. destruct frames as [|? [|]]; cbn in *; try congruence; lia.
      * rewrite <- (filter_data (fun x => frame_type x =? 1) isFF).
        -- rewrite Eff. cbn. rewrite Ed0. reflexivity.
        -- apply Forall_forall. intros f Hf. apply (Wf f Hf).
      * rewrite <- (filter_data (fun x => frame_type x =? 2) isCF).
        -- exact Pm.
        -- apply Forall_forall. intros f Hf. apply (Wf f Hf).
      * intros E. rewrite E in Pm. apply Permutation_nil in Pm. destruct (filter isCF frames); cbn in *; congruence.
      * intros i x Hi. unfold ord in Hi. rewrite nth_error_map in Hi.
        destruct (nth_error (in_order (filter isCF frames)) i) as [f|] eqn:Ei; cbn in Hi; [|congruence]. injection Hi as <-.
        pose proof (Oin f (nth_error_In _ _ Ei)) as [Hf Hcf].
        destruct (Wf f Hf) as (Acc & _ & _ & _ & Es & _). rewrite <- (Es Hcf).
        refine (in_order_numbers (filter isCF frames) _ Ec i f Ei).
        apply Forall_forall. intros g Hg. apply filter_In in Hg. destruct Hg as [Hg Hcg].
        destruct (Wf g Hg) as (Ag & _ & _ & _ & Eg & _). rewrite (Eg Hcg). unfold number, acceptable in *.
        destruct (f_data g); [tauto|]. lia.
    + apply Forall_firstn, Forall_app. pose proof (Wb f0 H0) as Fb0. rewrite Ed0 in Fb0. split.
      * inversion Fb0 as [|? ? _ F1]; subst. inversion F1; assumption.
      * apply Forall_concat. apply Forall_forall. intros x Hx. apply in_map_iff in Hx. destruct Hx as (y & <- & Hy).
        apply Forall_tl. unfold ord in Hy. apply in_map_iff in Hy. destruct Hy as (f & <- & Hf). apply Wb. apply Oin; exact Hf.
    + assert (Hn : 256 * (pci mod 16) + lo > 0).
      { unfold acceptable in Acc0. rewrite Ed0 in Acc0. destruct Acc0 as [_ Acc0].
        pose proof (Wb f0 H0) as Fb0. rewrite Ed0 in Fb0. inversion Fb0 as [|? ? Hp F1]; subst. inversion F1 as [|? ? Hlo _]; subst.
        unfold is_byte in *. pose proof Hff as Hff'. destruct (Wf f0 H0) as (_ & _ & E1 & _).
        rewrite Hff in E1. symmetry in E1. apply Z.eqb_eq in E1. unfold frame_type in E1. rewrite Ed0 in E1. lia. }
      destruct (Z.to_nat (256 * (pci mod 16) + lo)) eqn:En; [lia|].
      enough (d0 ++ List.concat (map (@tl Z) ord) <> []) as Hx by (destruct (d0 ++ List.concat (map (@tl Z) ord)); cbn; congruence).
      intros E. apply app_eq_nil in E. destruct E as [_ E].
      unfold ord in E. destruct (in_order (filter isCF frames)) as [|f t] eqn:Eo.
      * pose proof (in_order_perm (filter isCF frames)) as P. rewrite Eo in P. apply Permutation_nil in P. rewrite P in Ecf. cbn in Ecf. congruence.
      * cbn in E. apply app_eq_nil in E. destruct E as [E _].
        assert (Hf : In f frames) by (apply Oin; left; reflexivity).
        destruct (Wf f Hf) as ([[Hl _] _] & _). destruct (f_data f) as [|? [|]]; cbn in *; try lia. congruence.
Qed.

Lemma sorted_map_key {A} (key : A -> Z) l : StronglySorted (fun a b => key a <= key b) l -> StronglySorted (fun a b => a <= b) (map key l).
Proof.
  induction 1 as [|p l S IH Fp]; cbn; constructor; [assumption|].
  apply Forall_forall. intros x Hx. apply in_map_iff in Hx. destruct Hx as (q & <- & Hq).
  rewrite Forall_forall in Fp. apply Fp; exact Hq.
Qed.
(* completeness: when the true numbers are recovered and are 1..n, in any order *)
Lemma seqs_sorted_unique cs n : Permutation cs (zseq 1 n) -> forall (cf : list frame) (dat : Z -> bytes), 
  Forall2 (fun f c => f_data f = dat c) cf cs ->
  map fst (sort_by fst (combine cs cf)) = zseq 1 n
  /\ map f_data (map snd (sort_by fst (combine cs cf))) = map dat (zseq 1 n).
Proof.
  intros P cf dat F.
  assert (E : map fst (sort_by fst (combine cs cf)) = zseq 1 n).
  { assert (L : length cs = length cf) by (symmetry; eapply Forall2_length; exact F).
    assert (P2 : Permutation (map fst (sort_by fst (combine cs cf))) (zseq 1 n)).
    { rewrite <- P. rewrite (Permutation_map fst (sort_by_perm fst _)). rewrite map_fst_combine by exact L. reflexivity. }
    apply (sorted_unique (fun x => x)).
    - apply sorted_map_key, sort_by_sorted.
    - apply zseq_sorted.
    - exact P2.
    - rewrite map_id. eapply Permutation_NoDup; [symmetry; exact P2|apply zseq_NoDup]. }
  split; [exact E|]. rewrite <- E, !map_map. apply map_ext_in. intros [c f] Hin.
  assert (Hin' : In (c, f) (combine cs cf)) by (eapply Permutation_in; [apply (sort_by_perm fst)|exact Hin]).
  apply combine_perm_In in Hin'. destruct Hin' as (i & Hc & Hf). cbn.
  exact (Forall2_nth (fun f c => f_data f = dat c) _ _ i f c F Hf Hc).
Qed.
Lemma can_parse_complete fs f0 cs dat n : (length fs <> 1)%nat ->
  filter isFF fs = [f0] -> Forall2 (fun f c => f_data f = dat c) (filter isCF fs) cs ->
  seqs (map f_seq (filter isCF fs)) = cs -> Permutation cs (zseq 1 n) -> (0 < n)%nat ->
  can_parse_message fs =
  let! m := len_of f0 in
  let! d := trim_dtc (upto m (from 2 (f_data f0) ++ List.concat (map (fun c => tl (dat c)) (zseq 1 n)))) in Ok (Some d).
Proof.
  intros L Eff F Es P Hn. rewrite can_parse_multi, Eff by exact L. cbv zeta.
  destruct (seqs_sorted_unique cs n P (filter isCF fs) dat F) as [E1 E2].
  assert (Lc : length (filter isCF fs) = n).
  { rewrite (Forall2_length _ _ _ F), (Permutation_length P), zseq_length; reflexivity. }
  assert (Ne : nonempty (filter isCF fs) = true) by (apply nonempty_true; intros E; rewrite E in Lc; cbn in Lc; lia).
  rewrite Ne. cbn [negb].
  assert (C : contiguous (numbers (filter isCF fs)) 1 (zlen (filter isCF fs)) = true).
  { apply contiguous_spec. unfold numbers. rewrite Es, E1. unfold zlen. rewrite zseq_length, Lc.
    repeat split; [|lia]. destruct n; [lia|]. rewrite zseq_S; congruence. }
  rewrite C. cbn [negb]. unfold multi_bytes, in_order. rewrite Es.
  rewrite <- (map_map f_data (from 1)), E2, map_map.
  rewrite (map_ext (fun x => from 1 (dat x)) (fun c => tl (dat c))) by (intros; apply from_tl). reflexivity.
Qed.
(* if the numbers given to the frames are not 1..n, the message is dropped *)
Lemma can_parse_gap fs : (length fs <> 1)%nat ->
  ~ Permutation (seqs (map f_seq (filter isCF fs))) (zseq 1 (length (filter isCF fs))) ->
  can_parse_message fs = Ok None.
Proof.
  intros L N. rewrite can_parse_multi by exact L.
  destruct (filter isFF fs) as [|f0 [|]]; auto. cbv zeta.
  destruct (nonempty (filter isCF fs)); cbn [negb]; [|reflexivity].
  destruct (contiguous _ _ _) eqn:C; cbn [negb]; [|reflexivity]. exfalso; apply N.
  apply contiguous_spec in C. destruct C as (_ & E & _).
  assert (Ll : length (seqs (map f_seq (filter isCF fs))) = length (filter isCF fs)) by (rewrite seqs_length, map_length; reflexivity).
  assert (P : Permutation (numbers (filter isCF fs)) (seqs (map f_seq (filter isCF fs)))).
  { unfold numbers. rewrite (Permutation_map fst (sort_by_perm fst _)). rewrite map_fst_combine by exact Ll. reflexivity. }
  rewrite <- P. rewrite E. rewrite (Permutation_length P), Ll. reflexivity.
Qed.
