(* A stretch of an answer (SpecSlow) consists of its first lines and possibly a part of the next one. *)
From Coq Require Import ZArith List Bool Lia.
From Verif Require Import Py Num Utils World Elm SpecElm SpecSlow PyFacts ElmFacts ChopThms.
Import ListNotations.
Open Scope Z_scope.

Lemma utf8_ascii_app x y : ascii x -> utf8_ignore (x ++ y) = x ++ utf8_ignore y.
Proof. induction 1 as [|c x Hc F IH]; [reflexivity|]. cbn [app utf8_ignore]. apply Z.ltb_lt in Hc. rewrite Hc, IH. reflexivity. Qed.
Lemma utf8_ascii x : ascii x -> utf8_ignore x = x.
Proof. intros F. rewrite <- (app_nil_r x) at 1. rewrite (utf8_ascii_app x [] F). cbn. apply app_nil_r. Qed.

Definition nz (s : bytes) : bytes := filter (fun c => negb (c =? 0)) s.
Lemma nz_app x y : nz (x ++ y) = nz x ++ nz y. Proof. apply filter_app. Qed.
Lemma nz_ascii x : ascii x -> ascii (nz x).
Proof. intros F. apply Forall_forall. intros c I. apply filter_In in I. destruct I as [I _]. revert c I. apply Forall_forall. exact F. Qed.
Lemma nz_In x c : In c (nz x) -> In c x. Proof. intros I. apply filter_In in I. tauto. Qed.
Lemma body_plain x : ~ In PROMPT x -> body x = nz x.
Proof.
  intros N. unfold body. fold (nz x). destruct (rev (nz x)) as [|c r] eqn:E; [reflexivity|]. destruct (Z.eqb_spec c PROMPT) as [->|_]; [|reflexivity].
  destruct N. apply nz_In. apply in_rev. rewrite E. left. reflexivity.
Qed.
Lemma body_prompt x : body (x ++ [PROMPT]) = nz x.
Proof. unfold body. fold (nz (x ++ [PROMPT])). rewrite nz_app. change (nz [PROMPT]) with [PROMPT]. rewrite rev_app_distr. cbn [rev app]. rewrite Z.eqb_refl, rev_involutive. reflexivity. Qed.

(* white space around a prefix *)
Lemma last_not_white (t : text) : t = [] \/ (exists c t', t = t' ++ [c] /\ ~ In c white) \/ exists c t', t = t' ++ [c] /\ In c white.
Proof. destruct t as [|c t _] using rev_ind; [left; reflexivity|]. right. destruct (in_dec Z.eq_dec c white); [right|left]; eauto. Qed.
Lemma stripped_prefix p q lp l : stripped p lp -> stripped (p ++ q) l -> exists r, l = lp ++ r.
Proof.
  intros (a1 & b1 & E1 & Fa1 & Fb1 & [->|((c1 & t1 & Et1 & N1) & (d1 & u1 & Eu1 & M1))]) S2; [exists l; reflexivity|].
  destruct S2 as (a2 & b2 & E2 & Fa2 & Fb2 & D2). rewrite E1 in E2. rewrite <- !app_assoc in E2.
  assert (Ea : a1 = a2 /\ lp ++ b1 ++ q = l ++ b2).
  { destruct D2 as [->|((c2 & t2 & Et2 & N2) & _)].
    - exfalso. cbn [app] in E2. assert (In c1 (a2 ++ b2)) by (rewrite <- E2, Et1; apply in_or_app; right; left; reflexivity).
      apply N1. apply in_app_iff in H. rewrite Forall_forall in Fa2, Fb2. destruct H; auto.
    - clear - E2 Fa1 Fa2 Et1 N1 Et2 N2. subst. revert a2 Fa2 E2. induction a1 as [|x a1 IH]; intros [|y a2] Fa2 E2; cbn in E2.
      + auto.
      + injection E2 as -> _. inversion Fa2; subst. contradiction.
      + injection E2 as -> _. inversion Fa1; subst. contradiction.
      + injection E2 as -> E2. inversion Fa1; inversion Fa2; subst. destruct (IH H2 a2 H6 E2) as [-> E]. auto. }
  destruct Ea as [_ E]. clear E2. 
  assert (L : (length lp <= length l)%nat).
  { destruct (Nat.le_gt_cases (length lp) (length l)) as [|G]; [assumption|]. exfalso. apply M1.
    assert (exists m, b2 = m ++ b1 ++ q /\ lp = l ++ m) as (m & Eb & El).
    { exists (skipn (length l) lp). pose proof (f_equal (skipn (length l)) E) as Sk. rewrite (skipn_app (length l) l), skipn_all, Nat.sub_diag in Sk. cbn [app skipn] in Sk.
      rewrite skipn_app in Sk. replace (length l - length lp)%nat with O in Sk by lia. cbn [skipn] in Sk. split; [symmetry; exact Sk|].
      pose proof (f_equal (firstn (length l)) E) as Fk. rewrite (firstn_app (length l) l), firstn_all, Nat.sub_diag in Fk. cbn [firstn] in Fk. rewrite app_nil_r in Fk.
      rewrite firstn_app in Fk. replace (length l - length lp)%nat with O in Fk by lia. cbn [firstn] in Fk. rewrite app_nil_r in Fk. rewrite <- Fk at 1. symmetry. apply firstn_skipn. }
    rewrite Forall_forall in Fb2. apply Fb2. rewrite Eb. apply in_or_app. left.
    destruct m as [|z m _] using rev_ind; [rewrite app_nil_r in El; subst; lia|]. rewrite Eu1, app_assoc in El. apply app_inj_tail in El. destruct El as [_ ->]. apply in_or_app. right. left. reflexivity. }
  exists (skipn (length lp) l). pose proof (f_equal (firstn (length lp)) E) as Fk. rewrite (firstn_app (length lp) lp), firstn_all, Nat.sub_diag in Fk. cbn [firstn] in Fk. rewrite app_nil_r in Fk.
  rewrite firstn_app in Fk. replace (length lp - length l)%nat with O in Fk by lia. cbn [firstn] in Fk. rewrite app_nil_r in Fk. rewrite Fk at 1. symmetry. apply firstn_skipn.
Qed.

Definition text_lines (x : text) (lines : list text) : Prop := exists ps, pieces x ps /\ Forall2 stripped ps lines.
Lemma cut_nil full : cut_of full []. Proof. exists O. left. reflexivity. Qed.
Lemma cut_all full : cut_of full full. Proof. exists (length full). left. symmetry. apply firstn_all. Qed.
Lemma cut_cons l full lines : cut_of full lines -> cut_of (l :: full) (l :: lines).
Proof.
  intros (k & [->|(x & r & E & ->)]); exists (S k); [left; reflexivity|right]. exists x, r. split; [exact E|reflexivity].
Qed.
Lemma text_lines_fun x l1 l2 : text_lines x l1 -> text_lines x l2 -> l1 = l2.
Proof.
  intros (p1 & P1 & F1) (p2 & P2 & F2). apply pieces_fun in P1, P2. assert (E : p2 = p1) by congruence. rewrite E in F2. clear P1 P2 E p2.
  revert l2 F2. induction F1 as [|p a ps l S F IH]; intros l2 F2; inversion F2; subst; [reflexivity|]. f_equal; [eapply stripped_fun; eassumption|auto].
Qed.
Lemma text_lines_exists x : exists l, text_lines x l.
Proof. eexists. eexists. split; [apply pieces_split|]. apply Forall2_map_r. exact strip_stripped. Qed.
Lemma end_lines c x l : In c [10; 13] -> text_lines (c :: x) l -> text_lines x l.
Proof.
  intros Hc H. destruct (text_lines_exists x) as (l' & T). assert (T' : text_lines (c :: x) l') by (destruct T as (ps & P & F); exists ps; split; [constructor; assumption|exact F]).
  rewrite (text_lines_fun _ _ _ H T'). exact T.
Qed.
Lemma ends_lines e x l : Forall (fun c => In c [10; 13]) e -> text_lines (e ++ x) l -> text_lines x l.
Proof. induction 1 as [|c e Hc F IH]; [auto|]. intros H. apply IH. exact (end_lines c _ _ Hc H). Qed.
Lemma lines_cut x ps lx y l : pieces x ps -> Forall2 stripped ps lx -> text_lines (x ++ y) l -> cut_of l lx.
Proof.
  intros P. revert lx l. induction P as [|c s ps Hc P IH|p Np F|p c s ps Np F Hc P IH]; intros lx l S T.
  - inversion S; subst. apply cut_nil.
  - apply (IH lx l S). exact (end_lines c _ _ Hc T).
  - inversion S as [|? lp ? ? Sp Sn]; subst. inversion Sn; subst. destruct (split_first y) as (q & r & -> & Fq & G).
    assert (Npq : p ++ q <> []) by (destruct p; [congruence|discriminate]). assert (Fpq : Forall (fun c => ~ In c [10; 13]) (p ++ q)) by (apply Forall_app; auto).
    destruct (text_lines_exists (p ++ q)) as (lpq & ps & P & Fs). 
    assert (exists lq, stripped (p ++ q) lq) as (lq & Sq) by (eexists; apply strip_stripped).
    assert (exists rest, l = lq :: rest) as (rest & ->).
    { destruct G as [->|(c & t & -> & Hc)].
      - exists []. rewrite app_nil_r in T. apply (text_lines_fun _ _ _ T). exists [p ++ q]. split; [constructor; assumption|constructor; [exact Sq|constructor]].
      - destruct (text_lines_exists t) as (lt & pt & Pt & Ft). exists lt. apply (text_lines_fun _ _ _ T). exists ((p ++ q) :: pt). rewrite app_assoc. split; [constructor; assumption|constructor; assumption]. }
    destruct (stripped_prefix p q lp lq Sp Sq) as (r0 & ->). exists O. right. exists lp, r0. auto.
  - inversion S as [|? lp ? ls Sp Sn]; subst. destruct (text_lines_exists (s ++ y)) as (lt & Tt). specialize (IH ls lt Sn Tt).
    assert (l = lp :: lt) as ->.
    { apply (text_lines_fun _ _ _ T). destruct Tt as (pt & Pt & Ft). exists (p :: pt). rewrite <- app_assoc. cbn [app]. split; [constructor; assumption|constructor; assumption]. }
    apply cut_cons, IH.
Qed.
Lemma no_lines x : text_lines x [] -> Forall (fun c => In c [10; 13]) x.
Proof.
  intros (ps & P & F). inversion F; subst. clear F. remember [] as l eqn:E. revert E. induction P as [|c s l Hc P IH|p Np Fp|p c s l Np Fp Hc P IH]; intros E; [constructor| |discriminate E..].
  constructor; auto.
Qed.

Lemma snoc_split (x y o : list Z) c : x ++ y = o ++ [c] -> y = [] /\ x = o ++ [c] \/ exists y', y = y' ++ [c] /\ o = x ++ y'.
Proof.
  destruct y as [|z y _] using rev_ind; intros E; [left; rewrite app_nil_r in E; auto|]. right. rewrite app_assoc in E. apply app_inj_tail in E. destruct E as [<- ->]. eauto.
Qed.
Lemma answer_text s l : answer_lines s l -> text_lines (utf8_ignore (body s)) l. Proof. auto. Qed.
Theorem stretch_cut rd full lines : stretch_in rd full lines -> ascii rd -> cut_of full lines.
Proof.
  intros (out & us & v & w & Lf & No & E & Fu & Lv & ->) A. apply Forall_app in A. destruct A as [Au Av]. symmetry in E. rewrite app_assoc in E.
  apply answer_text in Lf, Lv. rewrite body_prompt in Lf.
  destruct (snoc_split _ _ _ _ E) as [(-> & E1)|(w' & -> & Eo)].
  - destruct (snoc_split _ _ _ _ E1) as [(-> & E2)|(v' & -> & Eo)].
    + (* nothing is left *) assert (lines = []) as ->; [|apply cut_nil]. apply (text_lines_fun _ _ _ Lv). exists []. split; constructor.
    + rewrite body_prompt in Lv. rewrite Eo, nz_app in Lf.
      assert (Fe : Forall (fun c => In c [10; 13]) (nz (concat us))).
      { assert (N : ~ In PROMPT (concat us)) by (intros X; apply No; rewrite Eo; apply in_or_app; left; exact X). clear - Fu N Au.
        induction us as [|u us IH]; [constructor|]. inversion Fu as [|? ? Hu Fu']; subst. cbn [concat] in *. apply Forall_app in Au. destruct Au as [A1 A2]. rewrite nz_app. apply Forall_app. split.
        - apply answer_text in Hu. rewrite body_plain in Hu by (intros X; apply N; apply in_or_app; left; exact X). rewrite (utf8_ascii _ (nz_ascii _ A1)) in Hu. exact (no_lines _ Hu).
        - apply IH; auto. intros X. apply N. apply in_or_app. right. exact X. }
      rewrite (utf8_ascii_app _ _ (nz_ascii _ Au)) in Lf. apply (ends_lines _ _ _ Fe) in Lf. rewrite (text_lines_fun _ _ _ Lv Lf). apply cut_all.
  - assert (N : ~ In PROMPT (concat us) /\ ~ In PROMPT v).
    { split; intros X; apply No; rewrite Eo; apply in_or_app; left; apply in_or_app; [left|right]; exact X. }
    destruct N as [N Nv]. rewrite (body_plain v Nv), (utf8_ascii _ (nz_ascii _ Av)) in Lv.
    assert (Fe : Forall (fun c => In c [10; 13]) (nz (concat us))).
    { clear - Fu N Au. induction us as [|u us IH]; [constructor|]. inversion Fu as [|? ? Hu Fu']; subst. cbn [concat] in *. apply Forall_app in Au. destruct Au as [A1 A2]. rewrite nz_app. apply Forall_app. split.
      - apply answer_text in Hu. rewrite body_plain in Hu by (intros X; apply N; apply in_or_app; left; exact X). rewrite (utf8_ascii _ (nz_ascii _ A1)) in Hu. exact (no_lines _ Hu).
      - apply IH; auto. intros X. apply N. apply in_or_app. right. exact X. }
    rewrite Eo, !nz_app, <- app_assoc, (utf8_ascii_app _ _ (nz_ascii _ Au)), (utf8_ascii_app _ _ (nz_ascii _ Av)) in Lf. apply (ends_lines _ _ _ Fe) in Lf.
    destruct Lv as (ps & P & F). exact (lines_cut _ ps lines _ full P F Lf).
Qed.
