(* From the wire to the value: composition of the layers. *)
From Coq Require Import ZArith List Bool Lia Permutation Sorted.
From Verif Require Import Py Num Utils Protocol Decoders Command CommandTable Commands World Elm Obd SpecWire SpecProto SpecCmd SpecElm SpecObd SpecE2E
  PyFacts WireFacts CommandThms ElmFacts ElmThms ObdFacts ObdThms ObdThms2 ObdThms5 ChopThms ProtocolThms CanThms LegacyThms.
Import ListNotations.
Open Scope Z_scope.

(* ---- the last answer is determined ---- *)
Lemma holds_app m a b : holds m a -> holds m (a ++ b).
Proof. intros (x & y & ->). exists x, (y ++ b). rewrite <- !app_assoc. reflexivity. Qed.
Lemma app_prefix {A} (a b c d : list A) : a ++ b = c ++ d -> (length a <= length c)%nat -> exists e, c = a ++ e /\ b = e ++ d.
Proof.
  revert c. induction a as [|x a IH]; intros c E L; [exists c; auto|]. destruct c as [|y c]; [cbn in L; lia|].
  cbn in E. injection E as <- E. cbn in L. destruct (IH c E ltac:(lia)) as (e & -> & ->). exists e. auto.
Qed.
Lemma map_Some_prefix (c : list bytes) : forall a e, map Some c = a ++ e -> exists c1 c2, c = c1 ++ c2 /\ a = map Some c1 /\ e = map Some c2.
Proof.
  induction c as [|x c IH]; intros a e E.
  - symmetry in E. apply app_eq_nil in E as [-> ->]. exists [], []. auto.
  - destruct a as [|y a]; [exists [], (x :: c); cbn in E; subst e; auto|]. cbn in E. injection E as <- E.
    destruct (IH a e E) as (c1 & c2 & -> & -> & ->). exists (x :: c1), c2. auto.
Qed.
Lemma attempt_prefix m r1 b1 r2 b2 x y : attempt m r1 b1 -> attempt m r2 b2 -> r1 ++ x = r2 ++ y -> (length r1 <= length r2)%nat -> r1 = r2.
Proof.
  intros H1 H2 E L. destruct (app_prefix r1 x r2 y E L) as (e & E2 & _). clear E L x y.
  destruct e as [|e0 e]; [rewrite app_nil_r in E2; auto|]. exfalso.
  (* r1 is a proper prefix of r2; the last element of r2 ends it *)
  assert (K : forall c2 z, quiet m c2 -> map Some c2 ++ [z] = r1 ++ e0 :: e -> False).
  { intros c2 z [Q1 Q2] E. destruct (@exists_last _ (e0 :: e) ltac:(discriminate)) as (e' & z' & E'). rewrite E', app_assoc in E.
    apply app_inj_tail in E as [E _]. destruct (map_Some_prefix _ _ _ E) as (ca & cb & -> & Er & _).
    destruct H1 as [chunks last _ _ Hm|chunks _].
    - apply Q2. rewrite concat_app. apply holds_app.
      assert (ca = chunks ++ [last]) as ->; [|exact Hm]. clear -Er. revert ca Er. generalize (chunks ++ [last]). induction l as [|q l IH]; intros [|p ca] E; try discriminate E; [reflexivity|].
      cbn in E. injection E as -> E. f_equal. apply IH, E.
    - apply Forall_app in Q1 as [Q1 _]. assert (I : In (Some []) (map Some ca)) by (rewrite <- Er; apply in_or_app; right; left; reflexivity).
      apply in_map_iff in I as (q & Eq & I). injection Eq as ->. rewrite Forall_forall in Q1. exact (Q1 [] I eq_refl). }
  destruct H2 as [chunks last Q _ _|chunks Q].
  - rewrite map_app in E2. cbn [map] in E2. exact (K _ _ Q E2).
  - exact (K _ _ Q E2).
Qed.
Lemma attempt_same m r1 b1 r2 b2 x y : attempt m r1 b1 -> attempt m r2 b2 -> r1 ++ x = r2 ++ y -> r1 = r2 /\ x = y /\ b1 = b2.
Proof.
  intros H1 H2 E. assert (r1 = r2) as <-.
  { destruct (Nat.le_ge_cases (length r1) (length r2)) as [L|L]; [exact (attempt_prefix _ _ _ _ _ _ _ H1 H2 E L)|].
    symmetry. symmetry in E. exact (attempt_prefix _ _ _ _ _ _ _ H2 H1 E L). }
  split; [reflexivity|]. split; [exact (app_inv_head _ _ _ E)|]. rewrite (attempt_bytes _ _ _ H1), (attempt_bytes _ _ _ H2). reflexivity.
Qed.
Lemma answer_same s l1 l2 : answer_lines s l1 -> answer_lines s l2 -> l1 = l2.
Proof. intros H1 H2. apply answer_lines_fun in H1, H2. congruence. Qed.
Lemma attempt_nonempty m rs bs : attempt m rs bs -> rs <> [].
Proof. intros [chunks last _ _ _|chunks _] E; [rewrite map_app in E|]; apply app_eq_nil in E as [_ E]; discriminate. Qed.
Lemma heard_nonempty m n rs l : heard m n rs l -> rs <> [].
Proof. intros [rs0 bs lines A _|rs0 bs n0 rest lines A _ _]; [exact (attempt_nonempty _ _ _ A)|]. intros E. apply app_eq_nil in E as [E _]. exact (attempt_nonempty _ _ _ A E). Qed.
Lemma heard_same m n1 rs l1 : heard m n1 rs l1 -> forall n2 l2, heard m n2 rs l2 -> n1 = n2 /\ l1 = l2.
Proof.
  induction 1 as [rs bs lines A L|rs bs n rest lines A L H IH]; intros n2 l2 H2; inversion H2 as [rs' bs' lines' A' L'|rs' bs' n' rest' lines' A' L' H' E0 E1]; subst.
  - destruct (attempt_same m rs bs rs bs' [] [] A A' eq_refl) as (_ & _ & <-). split; [reflexivity|]. exact (answer_same _ _ _ L L').
  - exfalso. destruct (attempt_same m (rs' ++ rest') bs rs' bs' [] rest' A A') as (_ & E & _); [rewrite app_nil_r; reflexivity|]. exact (heard_nonempty _ _ _ _ H' (eq_sym E)).
  - exfalso. destruct (attempt_same m rs bs (rs ++ rest) bs' rest [] A A') as (_ & E & _); [rewrite app_nil_r; reflexivity|]. exact (heard_nonempty _ _ _ _ H E).
  - destruct (attempt_same m rs bs rs' bs' rest rest' A A' (eq_sym E1)) as (<- & <- & _). destruct (IH _ _ H') as [-> ->]. auto.
Qed.
Lemma asks_same n s1 s2 t l1 l2 : asks n s1 t l1 -> asks n s2 t l2 -> l1 = l2.
Proof.
  intros (k1 & r1 & E1 & H1 & _) (k2 & r2 & E2 & H2 & _). rewrite E1 in E2. injection E2 as _ E2. apply map_read_inj in E2. subst r2.
  exact (proj2 (heard_same _ _ _ _ H1 _ _ H2)).
Qed.
Lemma last_answer_same t l1 l2 : last_answer t l1 -> last_answer t l2 -> l1 = l2.
Proof.
  intros (a1 & b1 & s1 & E1 & H1) (a2 & b2 & s2 & E2 & H2).
  assert (b1 = b2) as <-.
  { destruct H1 as (k1 & r1 & -> & _), H2 as (k2 & r2 & -> & _). rewrite E1 in E2. clear -E2.
    assert (G : forall a1 a2 w1 w2 (r1 r2 : list (option bytes)), a1 ++ EvWrite w1 :: map EvRead r1 = a2 ++ EvWrite w2 :: map EvRead r2 -> (length a1 <= length a2)%nat -> EvWrite w1 :: map EvRead r1 = EvWrite w2 :: map EvRead r2).
    { intros a1' a2' w1 w2 r1' r2' E L. destruct (app_prefix _ _ _ _ E L) as (e & _ & E'). destruct e as [|e0 e]; [exact E'|]. exfalso.
      cbn in E'. injection E' as _ E'. assert (I : In (EvWrite w2) (map EvRead r1')) by (rewrite E'; apply in_or_app; right; left; reflexivity).
      apply in_map_iff in I as (q & D & _). discriminate D. }
    destruct (Nat.le_ge_cases (length a1) (length a2)) as [L|L]; [exact (G _ _ _ _ _ _ E2 L)|symmetry; exact (G _ _ _ _ _ _ (eq_sym E2) L)]. }
  exact (asks_same _ _ _ _ _ _ H1 H2).
Qed.
Lemma last_answer_no_close t lines : last_answer t lines -> forall t', t <> t' ++ [EvClose].
Proof.
  intros (a & b & s & -> & k & rs & -> & H & _) t' E.
  destruct (@exists_last _ rs (heard_nonempty _ _ _ _ H)) as (r0 & x & ->). rewrite map_app in E. cbn [map] in E.
  change (a ++ EvWrite (s ++ [CR]) :: map EvRead r0 ++ [EvRead x]) with (a ++ (EvWrite (s ++ [CR]) :: map EvRead r0) ++ [EvRead x]) in E.
  rewrite app_assoc in E. apply app_inj_tail in E as [_ E]. discriminate E.
Qed.
Lemma sends_last a cmd t lines t1 : sends a cmd t lines -> last_answer (t1 ++ t) lines.
Proof. intros (x & y & -> & _ & A). exists (t1 ++ x), y, cmd. rewrite app_assoc. auto. Qed.
(* a query that returned, in terms of the last answer *)
Lemma query_answer o c force t q o' lines p : oinv o -> query_run o c force t (Ok q) o' -> last_answer t lines -> uses o p ->
  exists ms, call p lines = Ok ms /\ (ms = [] /\ q = empty_response \/ ms <> [] /\ cmd_call c ms = Ok q).
Proof.
  intros OI Q A (e & Hi & Hp).
  assert (NC : t = [] -> False).
  { intros ->. destruct A as (a & b & s & E & k & rs & -> & _). apply (f_equal (@length _)) in E. rewrite app_length in E. cbn in E. lia. }
  remember (Ok q) as r. destruct Q as [N|N M|e' p' t x o1 I S P M H|e' p' t o1 I S P M H N|e' p' t1 o1 e1 t2 I S P M H I1 S1 C|e' p' t1 o1 e1 t2 l x I S P M H I1 S1 B C|e' p' t1 o1 e1 t2 l ms I S P M H I1 S1 B C].
  - destruct (NC eq_refl).
  - destruct (NC eq_refl).
  - discriminate Heqr.
  - exfalso. rewrite Hi in I. injection I as <-.
    inversion H; subst; cbn [obd_status o_interface with_header with_elm awake e_status] in N; try (unfold obd_status in N; rewrite Hi in N; contradiction); try contradiction.
    match goal with X : cut_short _ _ _ |- _ => destruct X as (_ & (t' & E) & _) end. exact (last_answer_no_close _ _ A t' E).
  - exfalso. destruct C as (_ & (t' & ->) & _). rewrite app_assoc in A. exact (last_answer_no_close _ _ A _ eq_refl).
  - discriminate Heqr.
  - rewrite Hi in I. injection I as <-. rewrite Hp in P. injection P as <-.
    rewrite (last_answer_same _ _ _ A (sends_last _ _ _ _ t1 B)). exists ms. split; [exact C|].
    destruct ms as [|m0 ms]; [left|right]; split; try reflexivity; congruence.
Qed.
