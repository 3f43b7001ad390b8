(* Binding of arguments. *)
From Coq Require Import ZArith List Bool Lia String.
From Verif Require Import Py Num Utils Protocol Decoders Command CommandTable Commands World Elm Obd Async Timed Args SpecArgs PyFacts ElmThms.
Import ListNotations.
Open Scope string_scope. Open Scope list_scope. Open Scope Z_scope.

Definition sig_of (sg : doc_sig) : signature := map (fun e => (str (fst e), snd e)) sg.
Lemma lookup_some kw n v : once kw -> keyword n kw = Some v <-> In (n, v) kw.
Proof.
  intros O. induction kw as [|[k x] kw IH]; cbn; [split; [discriminate|intros []]|]. inversion O as [|? ? N O']; subst. destruct (text_eqb k n) eqn:E.
  - apply text_eqb_iff in E. subst k. split; [intros X; injection X as ->; auto|]. intros [X|X]; [congruence|]. destruct N. apply (in_map fst) in X. exact X.
  - rewrite IH by exact O'. split; [auto|]. intros [X|X]; [|exact X]. injection X as -> ->. rewrite (proj2 (text_eqb_iff _ _) eq_refl) in E. discriminate E.
Qed.
Lemma lookup_none kw n : keyword n kw = None <-> forall v, ~ In (n, v) kw.
Proof.
  induction kw as [|[k x] kw IH]; cbn; [split; [intros _ v []|reflexivity]|]. destruct (text_eqb k n) eqn:E.
  - apply text_eqb_iff in E. subst k. split; [discriminate|]. intros H. destruct (H x). auto.
  - rewrite IH. split; [intros H v [X|X]; [injection X as -> ->; rewrite (proj2 (text_eqb_iff _ _) eq_refl) in E; discriminate E|exact (H v X)]|]. intros H v X. exact (H v (or_intror X)).
Qed.
(* without regard to unknown keywords *)
Definition filled (sg : doc_sig) (pos : list arg) (kw : list (text * arg)) (vs : list arg) : Prop :=
  (List.length pos <= List.length sg)%nat
  /\ (forall k p d, nth_error sg k = Some (p, d) -> (k < List.length pos)%nat -> forall x, ~ given kw p x)
  /\ (forall k p, nth_error sg k = Some (p, None) -> (List.length pos <= k)%nat -> exists v, given kw p v)
  /\ List.length vs = List.length sg /\ forall k v, nth_error vs k = Some v -> gives sg pos kw k v.
Lemma gives_step e sg v pos kw k x : gives (e :: sg) (v :: pos) kw (S k) x <-> gives sg pos kw k x.
Proof.
  split; intros H; inversion H; subst; cbn in *; try (constructor; assumption).
  - eapply by_name; [lia|eassumption|assumption].
  - eapply by_default; [lia|eassumption|assumption].
  - eapply by_name; [cbn; lia|eassumption|assumption].
  - eapply by_default; [cbn; lia|eassumption|assumption].
Qed.
Lemma gives_step0 e sg kw k x : gives (e :: sg) [] kw (S k) x <-> gives sg [] kw k x.
Proof.
  split; intros H; inversion H; subst; cbn in *.
  all: try (destruct k; discriminate).
  - eapply by_name; [cbn; lia|eassumption|assumption].
  - eapply by_default; [cbn; lia|eassumption|assumption].
  - eapply by_name; [cbn; lia|eassumption|assumption].
  - eapply by_default; [cbn; lia|eassumption|assumption].
Qed.
Lemma fill_spec kw : once kw -> forall sg pos vs, fill (sig_of sg) pos kw = Ok vs <-> filled sg pos kw vs.
Proof.
  intros O. induction sg as [|[p d] sg IH]; intros pos vs.
  - destruct pos as [|v pos]; cbn.
    + split; [intros H; injection H as <-|].
      * split; [cbn; lia|]. split; [intros [|k] ? ?; discriminate|]. split; [intros [|k] ?; discriminate|]. split; [reflexivity|]. intros [|k] ?; discriminate.
      * intros (_ & _ & _ & L & _). destruct vs; [reflexivity|discriminate L].
    + split; [discriminate|]. intros (L & _). cbn in L. lia.
  - destruct pos as [|v pos]; cbn [sig_of map fst snd fill].
    + fold (sig_of sg). destruct (keyword (str p) kw) as [v|] eqn:L; [|destruct d as [v|]].
      * apply (lookup_some _ _ _ O) in L. destruct (fill (sig_of sg) [] kw) as [l|e] eqn:F; cbn [rbind].
        -- apply IH in F. split; [intros H; injection H as <-|].
           ++ destruct F as (A & B & C & D & E). split; [cbn; lia|]. split; [intros k q d' _ X; cbn in X; lia|]. split; [intros [|k] q X Y; [cbn in X; injection X as <- ->; eauto|exact (C k q X (Nat.le_0_l _))]|]. split; [cbn; lia|].
              intros [|k] x X; cbn in X; [injection X as <-; apply (by_name _ _ _ 0 p d); [cbn; lia|reflexivity|exact L]|]. apply gives_step0. exact (E k x X).
           ++ intros (A & B & C & D & E). destruct vs as [|x vs]; [discriminate D|]. f_equal. f_equal.
              ** pose proof (E 0%nat x eq_refl) as G. inversion G as [? X|? ? ? _ X Y|? ? _ X Y]; subst; [discriminate X| |]; cbn in X; injection X as <- ?.
                 { apply (lookup_some _ _ _ O) in L. apply (lookup_some _ _ _ O) in Y. congruence. }
                 { destruct (Y _ L). }
              ** assert (G : fill (sig_of sg) [] kw = Ok l) by (apply IH; exact F). assert (G' : fill (sig_of sg) [] kw = Ok vs).
                 { apply IH. split; [cbn; lia|]. split; [intros k q d' _ X; cbn in X; lia|]. split; [intros k q X _; exact (C (S k) q X (Nat.le_0_l _))|]. split; [cbn in D; lia|]. intros k y Y. apply (gives_step0 (p, d)). exact (E (S k) y Y). }
                 congruence.
        -- split; [discriminate|]. intros (A & B & C & D & E). destruct vs as [|x vs]; [discriminate D|]. exfalso. assert (G' : fill (sig_of sg) [] kw = Ok vs).
           { apply IH. split; [cbn; lia|]. split; [intros k q d' _ X; cbn in X; lia|]. split; [intros k q X _; exact (C (S k) q X (Nat.le_0_l _))|]. split; [cbn in D; lia|]. intros k y Y. apply (gives_step0 (p, d)). exact (E (S k) y Y). }
           congruence.
      * pose proof (proj1 (lookup_none _ _) L) as N. destruct (fill (sig_of sg) [] kw) as [l|e] eqn:F; cbn [rbind].
        -- apply IH in F. split; [intros H; injection H as <-|].
           ++ destruct F as (A & B & C & D & E). split; [cbn; lia|]. split; [intros k q d' _ X; cbn in X; lia|]. split; [intros [|k] q X Y; [cbn in X; injection X as _ X; discriminate X|exact (C k q X (Nat.le_0_l _))]|]. split; [cbn; lia|].
              intros [|k] x X; cbn in X; [injection X as <-; apply (by_default _ _ _ 0 p); [cbn; lia|reflexivity|exact N]|]. apply gives_step0. exact (E k x X).
           ++ intros (A & B & C & D & E). destruct vs as [|x vs]; [discriminate D|]. f_equal. f_equal.
              ** pose proof (E 0%nat x eq_refl) as G. inversion G as [? X|? ? ? _ X Y|? ? _ X Y]; subst; [discriminate X| |]; cbn in X; injection X as <- ?; [destruct (N _ Y)|congruence].
              ** assert (G : fill (sig_of sg) [] kw = Ok l) by (apply IH; exact F). assert (G' : fill (sig_of sg) [] kw = Ok vs).
                 { apply IH. split; [cbn; lia|]. split; [intros k q d' _ X; cbn in X; lia|]. split; [intros k q X _; exact (C (S k) q X (Nat.le_0_l _))|]. split; [cbn in D; lia|]. intros k y Y. apply (gives_step0 (p, Some v)). exact (E (S k) y Y). }
                 congruence.
        -- split; [discriminate|]. intros (A & B & C & D & E). destruct vs as [|x vs]; [discriminate D|]. exfalso. assert (G' : fill (sig_of sg) [] kw = Ok vs).
           { apply IH. split; [cbn; lia|]. split; [intros k q d' _ X; cbn in X; lia|]. split; [intros k q X _; exact (C (S k) q X (Nat.le_0_l _))|]. split; [cbn in D; lia|]. intros k y Y. apply (gives_step0 (p, Some v)). exact (E (S k) y Y). }
           congruence.
      * split; [discriminate|]. intros (_ & _ & C & _). destruct (C 0%nat p eq_refl (Nat.le_0_l _)) as [v X]. destruct (proj1 (lookup_none _ _) L v X).
    + fold (sig_of sg). destruct (keyword (str p) kw) as [y|] eqn:L.
      * split; [discriminate|]. intros (_ & B & _). apply (lookup_some _ _ _ O) in L. destruct (B 0%nat p d eq_refl ltac:(cbn; lia) y L).
      * pose proof (proj1 (lookup_none _ _) L) as N.
        assert (Up : forall l, filled sg pos kw l -> filled ((p, d) :: sg) (v :: pos) kw (v :: l)).
        { intros l (A & B & C & D & E). split; [cbn; lia|]. split; [intros [|k] q d' X Y x; cbn in X; [injection X as <- <-; apply N|apply (B k q d' X); cbn in Y; lia]|].
          split; [intros [|k] q X Y; cbn in Y; [lia|apply (C k q X); lia]|]. split; [cbn; lia|]. intros [|k] x X; cbn in X; [injection X as <-; apply by_position; reflexivity|apply gives_step; exact (E k x X)]. }
        assert (Dn : forall x l, filled ((p, d) :: sg) (v :: pos) kw (x :: l) -> x = v /\ filled sg pos kw l).
        { intros x l (A & B & C & D & E). split.
          - pose proof (E 0%nat x eq_refl) as G. inversion G as [? X|? ? ? X _ _|? ? X _ _]; subst; cbn in X; [congruence|lia|lia].
          - split; [cbn in A; lia|]. split; [intros k q d' X Y; apply (B (S k) q d' X); cbn; lia|]. split; [intros k q X Y; apply (C (S k) q X); cbn; lia|]. split; [cbn in D; lia|]. intros k y Y. apply (gives_step (p, d) sg v). exact (E (S k) y Y). }
        destruct (fill (sig_of sg) pos kw) as [l|e] eqn:F; cbn [rbind].
        -- apply IH in F. split; [intros H; injection H as <-; apply Up, F|]. intros H. destruct vs as [|x vs]; [destruct H as (_ & _ & _ & D & _); discriminate D|].
           apply Dn in H as [-> H]. apply IH in H. apply IH in F. congruence.
        -- split; [discriminate|]. intros H. destruct vs as [|x vs]; [destruct H as (_ & _ & _ & D & _); discriminate D|]. apply Dn in H as [_ H]. apply IH in H. congruence.
Qed.
Definition names_differ (sg : doc_sig) : Prop := NoDup (map (fun e => str (fst e)) sg).
Lemma nth_name (sg : doc_sig) k p d : nth_error sg k = Some (p, d) -> nth_error (map (fun e : string * option arg => str (fst e)) sg) k = Some (str p).
Proof. intros H. rewrite nth_error_map, H. reflexivity. Qed.
Lemma known_iff (sg : doc_sig) (kw : list (text * arg)) : forallb (fun k => existsb (text_eqb (fst k)) (map fst (sig_of sg))) kw = true <-> forall n v, In (n, v) kw -> exists k p d, nth_error sg k = Some (p, d) /\ n = str p.
Proof.
  rewrite forallb_forall. split.
  - intros H n v I. specialize (H _ I). cbn [fst] in H. apply existsb_exists in H as (m & Im & E). apply text_eqb_iff in E. subst m. unfold sig_of in Im. rewrite map_map in Im. cbn [fst] in Im.
    apply in_map_iff in Im as ([p d] & E & Im). apply In_nth_error in Im as [k Im]. exists k, p, d. cbn in E. auto.
  - intros H [n v] I. destruct (H n v I) as (k & p & d & E & ->). cbn [fst]. apply existsb_exists. exists (str p). split; [|apply text_eqb_iff; reflexivity].
    unfold sig_of. rewrite map_map. cbn [fst]. apply nth_error_In with (n := k). exact (nth_name _ _ _ _ E).
Qed.
Theorem call_spec sg pos kw vs : names_differ sg -> once kw -> call_args (sig_of sg) pos kw = Ok vs <-> means sg pos kw vs.
Proof.
  intros Nd O. unfold call_args. destruct (forallb (fun k => existsb (text_eqb (fst k)) (map fst (sig_of sg))) kw) eqn:K.
  - rewrite (fill_spec kw O). rewrite known_iff in K. split.
    + intros (A & B & C & D & E). split; [|auto]. split; [exact A|]. split; [|exact C]. intros n v I. destruct (K n v I) as (k & p & d & Ek & ->). exists k, p, d. split; [exact Ek|]. split; [reflexivity|].
      destruct (Nat.le_gt_cases (List.length pos) k) as [X|X]; [exact X|]. destruct (B k p d Ek X v I).
    + intros ((A & B & C) & D & E). split; [exact A|]. split; [|auto]. intros k p d Ek L x G. destruct (B _ _ G) as (k' & p' & d' & Ek' & Es & L').
      assert (k = k'). { apply (proj1 (NoDup_nth_error _) Nd); [apply nth_error_Some; rewrite (nth_name _ _ _ _ Ek); discriminate|]. rewrite (nth_name _ _ _ _ Ek), (nth_name _ _ _ _ Ek'). congruence. } lia.
  - split; [discriminate|]. intros ((_ & B & _) & _). exfalso. rewrite <- not_true_iff_false in K. apply K, known_iff. intros n v I. destruct (B n v I) as (k & p & d & Ek & Es & _). eauto.
Qed.
Lemma fill_raises sg : forall pos kw, (exists vs, fill sg pos kw = Ok vs) \/ fill sg pos kw = Raise TypeError.
Proof.
  induction sg as [|[n d] sg IH]; intros pos kw; destruct pos as [|v pos]; cbn; eauto.
  - destruct (keyword n kw); [|destruct d]; auto; (destruct (IH [] kw) as [[l ->]| ->]; cbn; eauto).
  - destruct (keyword n kw); auto. destruct (IH pos kw) as [[l ->]| ->]; cbn; eauto.
Qed.
Theorem call_raises sg pos kw : names_differ sg -> once kw -> (forall vs, ~ means sg pos kw vs) -> call_args (sig_of sg) pos kw = Raise TypeError.
Proof.
  intros Nd O N. assert (X : (exists vs, call_args (sig_of sg) pos kw = Ok vs) \/ call_args (sig_of sg) pos kw = Raise TypeError) by (unfold call_args; destruct (forallb (fun k => existsb (text_eqb (fst k)) (map fst (sig_of sg))) kw); [apply fill_raises|auto]).
  destruct X as [[vs X]|X]; [|exact X]. apply call_spec in X; [|exact Nd|exact O]. destruct (N _ X).
Qed.
(* only the parameters without positional arguments need their names *)
Theorem means_like sg sg' pos kw vs : List.length sg = List.length sg' -> (forall k, (List.length pos <= k)%nat -> nth_error sg k = nth_error sg' k) -> means sg pos kw vs -> means sg' pos kw vs.
Proof.
  intros L H ((A & B & C) & D & E). split; [|split].
  - split; [lia|]. split.
    + intros n v I. destruct (B n v I) as (k & p & d & Ek & Es & Lk). exists k, p, d. rewrite <- H by exact Lk. auto.
    + intros k p Ek Lk. apply (C k p); [rewrite H by exact Lk; exact Ek|exact Lk].
  - lia.
  - intros k v X. destruct (E k v X) as [v X'|n d v Lk Ek G|n v Lk Ek G]; [apply by_position; exact X'|eapply by_name|eapply by_default]; try (rewrite <- H by exact Lk); eassumption.
Qed.
(* the meaning is unique *)
Theorem means_one sg pos kw vs vs' : names_differ sg -> once kw -> means sg pos kw vs -> means sg pos kw vs' -> vs = vs'.
Proof. intros Nd O H H'. apply call_spec in H; [|exact Nd|exact O]. apply call_spec in H'; [|exact Nd|exact O]. congruence. Qed.
Ltac differ := unfold names_differ; repeat (constructor; [vm_compute; intuition discriminate|]); constructor.
Lemma obd_differ : names_differ doc_obd. Proof. differ. Qed.
(* the code's signature of Async() *)
Definition code_async : doc_sig :=
  [("portstr", Some PNone); ("baudrate", Some PNone); ("protocol", Some PNone); ("fast", Some (PBool true)); ("timeout", Some (PSeconds 100)); ("check_voltage", Some (PBool true)); ("start_low_power", Some (PBool false)); ("delay_cmds", Some (PSeconds 250))].
Lemma code_async_is : sig_of code_async = async_sig. Proof. reflexivity. Qed.
Lemma async_differ : names_differ code_async. Proof. differ. Qed.
Definition code_query : doc_sig := [("cmd", None); ("force", Some (PBool false))].
Definition code_async_query : doc_sig := [("c", None); ("force", Some (PBool false))].
Definition code_watch : doc_sig := [("c", None); ("callback", Some PNone); ("force", Some (PBool false))].
Definition code_unwatch : doc_sig := [("c", None); ("callback", Some PNone)].
Definition code_command : doc_sig :=
  [("name", None); ("desc", None); ("command", None); ("_bytes", None); ("decoder", None); ("ecu", Some (PInt 255)); ("fast", Some (PBool false)); ("header", Some (PBytes (str "7E0")))].
Lemma means_iff_like sg sg' pos kw vs : names_differ sg' -> once kw -> List.length sg = List.length sg' -> (forall k, (List.length pos <= k)%nat -> nth_error sg k = nth_error sg' k) ->
  call_args (sig_of sg') pos kw = Ok vs <-> means sg pos kw vs.
Proof.
  intros Nd O L H. rewrite call_spec by assumption. split; apply means_like; auto. intros k X. symmetry. apply H, X.
Qed.
Lemma means_length sg pos kw vs : means sg pos kw vs -> List.length vs = List.length sg. Proof. intros (_ & L & _). exact L. Qed.

(* ---- constructors ---- *)
Ltac seven vs L := destruct vs as [|? [|? [|? [|? [|? [|? [|? [|? ?]]]]]]]]; cbn in L; try discriminate L; try lia.
Lemma obd_new_values p b pr f t cv lp : obd_passes_on [p; b; pr; f; t; cv; lp] = Ok [p; b; pr; t; cv; lp].
Proof. reflexivity. Qed.
Theorem obd_new_spec pos kw : once kw -> (forall p b pr f t cv lp, means doc_obd pos kw [p; b; pr; f; t; cv; lp] -> obd_new pos kw = Ok (f, [p; b; pr; t; cv; lp])) /\ ((forall vs, ~ means doc_obd pos kw vs) -> obd_new pos kw = Raise TypeError).
Proof.
  intros O. unfold obd_new. change obd_sig with (sig_of doc_obd). split.
  - intros p b pr f t cv lp M. apply call_spec in M; [|exact obd_differ|exact O]. rewrite M. reflexivity.
  - intros N. rewrite (call_raises _ _ _ obd_differ O N). reflexivity.
Qed.
Lemma async_new_values pos kw p b pr f t cv lp d : call_args (sig_of code_async) pos kw = Ok [p; b; pr; f; t; cv; lp; d] -> async_new pos kw = Ok (f, [p; b; pr; t; cv; lp], d).
Proof. intros H. unfold async_new. rewrite <- code_async_is, H. cbn [rbind]. reflexivity. Qed.
Theorem async_as_obd pos kw p b pr f t cv lp : once kw -> means doc_obd pos kw [p; b; pr; f; t; cv; lp] -> async_new pos kw = Ok (f, [p; b; pr; t; cv; lp], PSeconds 250).
Proof.
  intros O ((A & B & C) & D & E). apply async_new_values, call_spec; [exact async_differ|exact O|]. cbn [List.length doc_obd] in *.
  assert (Nk : forall k e, nth_error doc_obd k = Some e -> nth_error code_async k = Some e /\ (k < 7)%nat).
  { intros k e. do 7 (destruct k as [|k]; [cbn; intros X; split; [exact X|lia]|]). destruct k; discriminate. }
  split; [|split].
  - split; [cbn; lia|]. split.
    + intros n v I. destruct (B n v I) as (k & q & d & Ek & Es & Lk). apply Nk in Ek as [Ek _]. eauto 6.
    + intros k q Ek Lk. do 8 (destruct k as [|k]; [discriminate Ek|]). destruct k; discriminate Ek.
  - reflexivity.
  - intros k v X. destruct (Nat.lt_ge_cases k 7) as [L|L].
    + assert (X' : nth_error [p; b; pr; f; t; cv; lp] k = Some v) by (do 7 (destruct k as [|k]; [exact X|]); lia).
      destruct (E k v X') as [v Y|n d v Lk Ek G|n v Lk Ek G]; [apply by_position; exact Y|apply Nk in Ek as [Ek _]; eapply by_name; eassumption|apply Nk in Ek as [Ek _]; eapply by_default; eassumption].
    + do 7 (destruct k as [|k]; [lia|]). destruct k as [|k]; [|destruct k; discriminate X]. cbn in X. injection X as <-. apply (by_default _ _ _ 7 "delay_cmds"); [cbn; lia|reflexivity|].
      intros x G. destruct (B _ _ G) as (k & q & d & Ek & Es & _). do 7 (destruct k as [|k]; [cbn in Ek; injection Ek as <- <-; vm_compute in Es; discriminate Es|]). destruct k; discriminate Ek.
Qed.
Theorem async_documented pos kw p b pr f t cv d : once kw -> (List.length pos <= 6)%nat -> means doc_async pos kw [p; b; pr; f; t; cv; d] -> async_new pos kw = Ok (f, [p; b; pr; t; cv; PBool false], d).
Proof.
  intros O Six ((A & B & C) & D & E). apply async_new_values, call_spec; [exact async_differ|exact O|]. cbn [List.length doc_async] in *.
  assert (Nk : forall k e, nth_error doc_async k = Some e -> (k < 6)%nat /\ nth_error code_async k = Some e \/ k = 6%nat /\ e = ("delay_cmds", Some (PSeconds 250))).
  { intros k e. do 6 (destruct k as [|k]; [cbn; intros X; left; split; [lia|exact X]|]). destruct k as [|k]; [cbn; intros X; right; split; [reflexivity|congruence]|]. destruct k; discriminate. }
  split; [|split].
  - split; [cbn; lia|]. split.
    + intros n v I. destruct (B n v I) as (k & q & dd & Ek & Es & Lk). apply Nk in Ek as [[_ Ek]|[-> Ek]]; [eauto 6|]. injection Ek as -> ->. exists 7%nat, "delay_cmds", (Some (PSeconds 250)). split; [reflexivity|]. split; [exact Es|lia].
    + intros k q Ek Lk. do 8 (destruct k as [|k]; [discriminate Ek|]). destruct k; discriminate Ek.
  - reflexivity.
  - intros k v X. destruct (Nat.lt_ge_cases k 6) as [L|L].
    + assert (X' : nth_error [p; b; pr; f; t; cv; d] k = Some v) by (do 6 (destruct k as [|k]; [exact X|]); lia).
      destruct (E k v X') as [v Y|n dd v Lk Ek G|n v Lk Ek G]; [apply by_position; exact Y| |]; (apply Nk in Ek as [[_ Ek]|[-> _]]; [|lia]); [eapply by_name|eapply by_default]; eassumption.
    + do 6 (destruct k as [|k]; [lia|]). destruct k as [|k]; [|destruct k as [|k]; [|destruct k; discriminate X]]; cbn in X; injection X as <-.
      * apply (by_default _ _ _ 6 "start_low_power"); [exact Six|reflexivity|]. intros x G. destruct (B _ _ G) as (k & q & dd & Ek & Es & _).
        do 7 (destruct k as [|k]; [cbn in Ek; injection Ek as <- <-; vm_compute in Es; discriminate Es|]). destruct k; discriminate Ek.
      * destruct (E 6%nat d eq_refl) as [v Y|n dd v Lk Ek G|n v Lk Ek G].
        -- exfalso. assert (6 < List.length pos)%nat by (apply nth_error_Some; rewrite Y; discriminate). lia.
        -- apply Nk in Ek as [[X _]|[_ Ek]]; [lia|]. injection Ek as -> ->. apply (by_name _ _ _ 7 "delay_cmds" (Some (PSeconds 250))); [lia|reflexivity|exact G].
        -- apply Nk in Ek as [[X _]|[_ Ek]]; [lia|]. injection Ek as -> ->. apply (by_default _ _ _ 7 "delay_cmds"); [lia|reflexivity|exact G].
Qed.
