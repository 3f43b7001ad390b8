(* Facts about reading, writing and sending in the model of elm327.py. *)
From Coq Require Import ZArith List Bool Lia.
From Verif Require Import Py Num Utils Protocol World Elm SpecElm.
Import ListNotations.
Open Scope Z_scope.
Ltac Zify.zify_post_hook ::= Z.div_mod_to_equations.

Lemma startswith_iff p l : startswith p l = true <-> exists b, l = p ++ b.
Proof.
  revert l. induction p as [|x p IH]; intros l; cbn.
  - split; [intros _; exists l; reflexivity|reflexivity].
  - destruct l as [|y l]; [split; [discriminate|intros [b H]; discriminate H]|].
    rewrite andb_true_iff, Z.eqb_eq, IH. split.
    + intros [-> [b ->]]. exists b. reflexivity.
    + intros [b H]. injection H as -> ->. split; [reflexivity|exists b; reflexivity].
Qed.
Lemma contains_iff m s : contains m s = true <-> holds m s.
Proof.
  induction s as [|x s IH]; cbn [contains].
  - rewrite orb_false_r, startswith_iff. unfold holds. split.
    + intros [b H]. exists [], b. exact H.
    + intros (a & b & H). destruct a; [exists b; exact H|discriminate H].
  - rewrite orb_true_iff, startswith_iff, IH. unfold holds. split.
    + intros [[b H]|(a & b & H)]; [exists [], b; exact H|exists (x :: a), b; rewrite H; reflexivity].
    + intros (a & b & H). destruct a as [|y a]; [left; exists b; exact H|right]. injection H as -> H. exists a, b. exact H.
Qed.
Lemma contains_false m s : contains m s = false <-> ~ holds m s.
Proof. rewrite <- contains_iff. destruct (contains m s); split; try congruence; intros H; exfalso; apply H; reflexivity. Qed.

(* ---------------------------------------------------------------- lines *)
Lemma uspace_white c : uspace c = true <-> In c white.
Proof.
  unfold uspace, white. cbn [In]. rewrite !orb_true_iff, !andb_true_iff, !Z.leb_le, !Z.eqb_eq. lia.
Qed.
Lemma uspace_not_white c : uspace c = false <-> ~ In c white.
Proof. rewrite <- uspace_white. destruct (uspace c); split; congruence. Qed.
Lemma drop_while_split {A} (f : A -> bool) l :
  exists a, l = a ++ drop_while f l /\ Forall (fun c => f c = true) a
    /\ (drop_while f l = [] \/ exists c t, drop_while f l = c :: t /\ f c = false).
Proof.
  induction l as [|x l (a & E & F & G)]; cbn.
  - exists []. auto.
  - destruct (f x) eqn:Ex.
    + exists (x :: a). cbn. rewrite <- E. auto.
    + exists []. cbn. split; [reflexivity|]. split; [constructor|]. right. exists x, l. auto.
Qed.
Lemma strip_stripped s : stripped s (strip_by uspace s).
Proof.
  unfold strip_by.
  destruct (drop_while_split uspace s) as (a & Ea & Fa & Ga). set (u := drop_while uspace s) in *.
  destruct (drop_while_split uspace (rev u)) as (b & Eb & Fb & Gb). set (v := drop_while uspace (rev u)) in *.
  exists a, (rev b). split; [|split; [|split]].
  - rewrite Ea. f_equal. rewrite <- rev_app_distr, <- Eb, rev_involutive. reflexivity.
  - eapply Forall_impl; [|exact Fa]. intros c H. apply uspace_white, H.
  - apply Forall_rev. eapply Forall_impl; [|exact Fb]. intros c H. apply uspace_white, H.
  - destruct Gb as [Gb|(c & t & Ec & Hc)].
    + left. rewrite Gb. reflexivity.
    + right. split.
      * assert (Eu : u = rev v ++ rev b) by (rewrite <- rev_app_distr, <- Eb, rev_involutive; reflexivity).
        destruct Ga as [Ga|(d & t' & Ed & Hd)].
        { rewrite Ga in Eu. symmetry in Eu. apply app_eq_nil in Eu. destruct Eu as [Eu _]. rewrite Ec in Eu. cbn in Eu.
          apply app_eq_nil in Eu. destruct Eu; discriminate. }
        destruct (rev v) as [|d' t''] eqn:Ev.
        { apply (f_equal (@rev Z)) in Ev. rewrite rev_involutive in Ev. cbn in Ev. congruence. }
        rewrite Ed in Eu. injection Eu as <- _. exists d, t''. split; [reflexivity|]. apply uspace_not_white, Hd.
      * rewrite Ec. cbn. exists c, (rev t). split; [reflexivity|]. apply uspace_not_white, Hc.
Qed.
Lemma split_crlf_nil s : split_crlf s <> [].
Proof. destruct s as [|c s]; cbn; [discriminate|]. destruct ((c =? 13) || (c =? 10)); [discriminate|]. destruct (split_crlf s); discriminate. Qed.
Lemma crlf_in c : (c =? 13) || (c =? 10) = true <-> In c [10; 13].
Proof. cbn. rewrite orb_true_iff, !Z.eqb_eq. lia. Qed.
Lemma split_crlf_head p s : Forall (fun c => ~ In c [10; 13]) p ->
  split_crlf (p ++ s) = match split_crlf s with q :: ps => (p ++ q) :: ps | [] => [] end.
Proof.
  induction p as [|c p IH]; intros F; cbn.
  - destruct (split_crlf s) eqn:E; [destruct (split_crlf_nil _ E)|reflexivity].
  - inversion F; subst. destruct ((c =? 13) || (c =? 10)) eqn:Ec; [apply crlf_in in Ec; contradiction|].
    rewrite (IH H2). destruct (split_crlf s) eqn:E; [destruct (split_crlf_nil _ E)|reflexivity].
Qed.
Lemma split_first s : exists p r, s = p ++ r /\ Forall (fun c => ~ In c [10; 13]) p /\ (r = [] \/ exists c t, r = c :: t /\ In c [10; 13]).
Proof.
  induction s as [|c s (p & r & E & F & G)].
  - exists [], []. auto.
  - destruct ((c =? 13) || (c =? 10)) eqn:Ec.
    + exists [], (c :: s). split; [reflexivity|]. split; [constructor|]. right. exists c, s. split; [reflexivity|]. apply crlf_in, Ec.
    + exists (c :: p), r. cbn. rewrite E. split; [reflexivity|]. split; [|exact G]. constructor; [|exact F].
      intros H. apply crlf_in in H. congruence.
Qed.
Lemma pieces_split s : pieces s (filter nonempty (split_crlf s)).
Proof.
  remember (length s) as n eqn:En. revert s En. induction n as [n IH] using lt_wf_ind. intros s En.
  destruct (split_first s) as (p & r & E & F & G). subst s. rewrite (split_crlf_head p r F).
  destruct G as [->|(c & t & -> & Hc)].
  - cbn. rewrite app_nil_r. destruct p as [|x p]; cbn; [constructor|]. apply pieces_last; [discriminate|exact F].
  - cbn [split_crlf]. rewrite (proj2 (crlf_in c) Hc). rewrite app_nil_r. cbn [filter].
    assert (Ht : pieces t (filter nonempty (split_crlf t))).
    { apply (IH (length t)); [|reflexivity]. rewrite En, app_length. cbn. lia. }
    destruct p as [|x p]; cbn; [apply pieces_end; assumption|].
    apply (pieces_cons (x :: p) c t); [discriminate|assumption..].
Qed.
Lemma Forall2_map_r {A B} (R : A -> B -> Prop) f l : (forall x, R x (f x)) -> Forall2 R l (map f l).
Proof. intros H. induction l; cbn; constructor; auto. Qed.
Lemma clean_lines s : answer_lines s (clean s).
Proof.
  unfold answer_lines, clean.
  replace (if endswith1 62 (remove_char 0 s) then removelast (remove_char 0 s) else remove_char 0 s) with (body s).
  - eexists. split; [apply pieces_split|]. apply Forall2_map_r, strip_stripped.
  - unfold body, remove_char, endswith1, PROMPT. set (f := filter _ s). clearbody f.
    destruct (rev f) as [|c r] eqn:E; [reflexivity|]. destruct (c =? 62); [|reflexivity].
    rewrite <- (rev_involutive f), E. cbn. rewrite removelast_last. reflexivity.
Qed.

(* ---------------------------------------------------------------- reading *)
Definition consumed (reads used rest : list (option bytes)) : Prop :=
  reads = used ++ rest \/ (rest = [] /\ used = reads ++ [Some []]).
Lemma read_loop_spec m reads : forall pre r rest evs, quiet m pre ->
  read_loop m (concat pre) reads = (r, rest, evs) ->
  exists rs, evs = map EvRead rs
    /\ match r with
       | Some bs => attempt m (map Some pre ++ rs) bs
       | None => broken m (map Some pre ++ rs)
       end.
Proof.
  induction reads as [|x reads IH]; intros pre r rest evs Q H; cbn in H.
  - injection H as <- <- <-. exists [Some []]. split; [reflexivity|]. apply attempt_timeout, Q.
  - destruct x as [[|b data]|]; cbn in H.
    + injection H as <- <- <-. exists [Some []]. split; [reflexivity|]. apply attempt_timeout, Q.
    + set (d := b :: data) in *.
      destruct (contains m (concat pre ++ d)) eqn:E.
      * injection H as <- <- <-. exists [Some d]. split; [reflexivity|].
        apply contains_iff in E.
        replace (concat pre ++ d) with (concat (pre ++ [d])) in * by (rewrite concat_app; cbn; rewrite app_nil_r; reflexivity).
        replace (map Some pre ++ [Some d]) with (map Some (pre ++ [d])) by (rewrite map_app; reflexivity).
        apply attempt_marker; [exact Q|discriminate|exact E].
      * destruct (read_loop m (concat pre ++ d) reads) as [[r' rest'] evs'] eqn:E'. injection H as <- <- <-.
        replace (concat pre ++ d) with (concat (pre ++ [d])) in * by (rewrite concat_app; cbn; rewrite app_nil_r; reflexivity).
        apply IH in E'.
        -- destruct E' as (rs & -> & A). exists (Some d :: rs). split; [reflexivity|].
           rewrite map_app in A. rewrite <- app_assoc in A. exact A.
        -- split; [apply Forall_app; split; [apply Q|repeat constructor; discriminate]|]. apply contains_false, E.
    + injection H as <- <- <-. exists [None]. split; [reflexivity|]. constructor. exact Q.
Qed.

(* the object after an I/O error *)
Definition dead (e : elm) : elm := mkElm NOT_CONNECTED None (e_protocol e) (e_low_power e) (e_timeout e).
Lemma io_failure_eq e w : io_failure (e, w) = (Ok tt, (dead e, emit EvClose w)).
Proof. reflexivity. Qed.

Lemma quiet_nil m : m <> [] -> quiet m [].
Proof. intros H. split; [constructor|]. intros (a & b & E). cbn in E. symmetry in E. apply app_eq_nil in E as [_ E]. apply app_eq_nil in E as [E _]. auto. Qed.

Lemma elm_read_none m e w : e_port e = None -> elm_read m (e, w) = (Ok [], (e, w)).
Proof. intros H. unfold elm_read. rewrite H. reflexivity. Qed.
Lemma elm_read_spec m e w p r e' w' : m <> [] -> e_port e = Some p -> elm_read m (e, w) = (r, (e', w')) ->
  (exists rs bs lines, r = Ok lines /\ e' = e /\ w_trace w' = w_trace w ++ map EvRead rs /\ attempt m rs bs /\ answer_lines bs lines)
  \/ (exists rs, r = Ok [] /\ e' = dead e /\ w_trace w' = w_trace w ++ map EvRead rs ++ [EvClose] /\ broken m rs).
Proof.
  intros Hm Hp H. unfold elm_read in H. rewrite Hp in H.
  destruct (read_loop m [] (w_reads w)) as [[r0 rest] evs] eqn:E.
  apply (read_loop_spec m (w_reads w) [] r0 rest evs (quiet_nil m Hm)) in E. destruct E as (rs & -> & A). cbn in A.
  destruct r0 as [bs|].
  - injection H as <- <- <-. left. exists rs, bs, (clean bs). repeat split; auto using clean_lines.
  - unfold bind in H. rewrite io_failure_eq in H. injection H as <- <- <-. right. exists rs.
    cbn. rewrite <- app_assoc. auto.
Qed.

Lemma read_again_spec m e p max : m <> [] -> e_port e = Some p -> forall k n rs lines r e' w w',
  heard m n rs lines -> (n + k = max)%nat ->
  read_again k m lines (e, w) = (r, (e', w')) ->
  (exists n' rs' lines', r = Ok lines' /\ e' = e /\ w_trace w' = w_trace w ++ map EvRead rs'
      /\ heard m n' (rs ++ rs') lines' /\ (n' <= max)%nat /\ (lines' <> [] \/ n' = max))
  \/ (exists n' rs0 rs1, r = Ok [] /\ e' = dead e /\ w_trace w' = w_trace w ++ map EvRead (rs0 ++ rs1) ++ [EvClose]
      /\ heard m n' (rs ++ rs0) [] /\ (n' < max)%nat /\ broken m rs1).
Proof.
  intros Hm Hp. assert (Snoc : forall n rs l0, heard m n rs l0 -> l0 = [] -> forall rs1 bs lines, attempt m rs1 bs -> answer_lines bs lines ->
     heard m (S n) (rs ++ rs1) lines).
  { intros n rs l0 Hh. induction Hh as [rs bs l A L|rs bs n rest l A L Hh IH]; intros -> rs1 bs1 lines A1 L1.
    - eapply heard_more; [exact A|exact L|]. eapply heard_last; eassumption.
    - rewrite <- app_assoc. eapply heard_more; [exact A|exact L|]. eapply IH; [reflexivity|exact A1|exact L1]. }
  induction k as [|k IH]; intros n rs lines r e' w w' Hh Hk H.
  - cbn in H. injection H as <- <- <-. left. exists n, [], lines. cbn. rewrite !app_nil_r. repeat split; auto; [lia|right; lia].
  - cbn [read_again] in H. destruct lines as [|l ls]; cbn [nonempty] in H.
    + unfold bind in H. destruct (elm_read m (e, w)) as [r1 [e1 w1]] eqn:E.
      destruct (elm_read_spec m e w p r1 e1 w1 Hm Hp E) as [(rs1 & bs & l1 & -> & -> & T & A & L)|(rs1 & -> & -> & T & B)].
      * assert (Hh' : heard m (S n) (rs ++ rs1) l1) by (eapply Snoc; [exact Hh|reflexivity|exact A|exact L]).
        apply (IH _ _ _ _ _ _ _ Hh') in H; [|lia].
        destruct H as [(n' & rs' & l' & -> & -> & T' & Hh2 & Hn & D)|(n' & rs0 & rs2 & -> & -> & T' & Hh2 & Hn & B)].
        -- left. exists n', (rs1 ++ rs'), l'. rewrite T', T, map_app, !app_assoc. repeat split; auto.
        -- right. exists n', (rs1 ++ rs0), rs2. rewrite T', T. rewrite !map_app, <- !app_assoc. rewrite <- app_assoc in Hh2. repeat split; auto.
      * destruct (read_again k m [] (dead e, w1)) as [r2 [e2 w2]] eqn:E2.
        assert (forall k w, read_again k m [] (dead e, w) = (Ok [], (dead e, w))).
        { clear. induction k; intros w; [reflexivity|]. cbn [read_again nonempty]. unfold bind. rewrite elm_read_none by reflexivity. apply IHk. }
        rewrite H0 in E2. injection E2 as <- <- <-. injection H as <- <- <-.
        right. exists n, [], rs1. rewrite app_nil_r. cbn [app]. repeat split; auto. lia.
    + injection H as <- <- <-. left. exists n, [], (l :: ls). cbn [map]. rewrite !app_nil_r. repeat split; auto; [lia|left; discriminate].
Qed.

Lemma elm_write_none cmd e w : e_port e = None -> elm_write cmd (e, w) = (Ok tt, (e, w)).
Proof. intros H. unfold elm_write. rewrite H. reflexivity. Qed.
Lemma elm_write_spec cmd e w p r e' w' : e_port e = Some p -> elm_write cmd (e, w) = (r, (e', w')) ->
  r = Ok tt /\ w_reads w' = w_reads w /\
  ((e' = e /\ w_trace w' = w_trace w ++ [EvWrite (cmd ++ [CR])])
   \/ (e' = dead e /\ (w_trace w' = w_trace w ++ [EvFail; EvClose] \/ w_trace w' = w_trace w ++ [EvWrite (cmd ++ [CR]); EvFail; EvClose]))).
Proof.
  intros Hp H. unfold elm_write in H. rewrite Hp in H. unfold port_write in H.
  destruct (match w_writes w with o :: _ => o | [] => WOk end); try rewrite io_failure_eq in H; injection H as <- <- <-; cbn.
  - auto 10.
  - split; [reflexivity|]. split; [reflexivity|]. right. split; [reflexivity|]. left. rewrite <- app_assoc. reflexivity.
  - split; [reflexivity|]. split; [reflexivity|]. right. split; [reflexivity|]. right. rewrite <- !app_assoc. reflexivity.
Qed.
Lemma read_again_dead k m e w : e_port e = None -> read_again k m [] (e, w) = (Ok [], (e, w)).
Proof. intros H. revert w. induction k; intros w; [reflexivity|]. cbn [read_again nonempty]. unfold bind. rewrite elm_read_none by exact H. apply IHk. Qed.

Lemma elm_send_gen_none m cmd d e w : e_port e = None -> elm_send_gen cmd d m (e, w) = (Ok [], (e, w)).
Proof. intros H. unfold elm_send_gen, bind. rewrite elm_write_none, elm_read_none by exact H. apply read_again_dead, H. Qed.
Definition tries (d : bool) : nat := S (retries d).
Lemma elm_send_gen_spec m cmd d e w p r e' w' : m <> [] -> e_port e = Some p -> elm_send_gen cmd d m (e, w) = (r, (e', w')) ->
  exists t, w_trace w' = w_trace w ++ t /\
  ((exists lines, r = Ok lines /\ e' = e /\ exchange m (tries d) cmd t lines)
   \/ (r = Ok [] /\ e' = dead e /\ failed_exchange m (tries d) cmd t)).
Proof.
  intros Hm Hp H. unfold elm_send_gen, bind in H.
  destruct (elm_write cmd (e, w)) as [r1 [e1 w1]] eqn:E1.
  destruct (elm_write_spec cmd e w p r1 e1 w1 Hp E1) as (-> & _ & [(-> & T1)|(-> & T1)]).
  - destruct (elm_read m (e, w1)) as [r2 [e2 w2]] eqn:E2.
    destruct (elm_read_spec m e w1 p r2 e2 w2 Hm Hp E2) as [(rs & bs & lines & -> & -> & T2 & A & L)|(rs & -> & -> & T2 & B)].
    + destruct (read_again_spec m e p (tries d) Hm Hp (retries d) 1 rs lines r e' w2 w' (heard_last m rs bs lines A L) eq_refl H)
        as [(n & rs' & l' & -> & -> & T3 & Hh & Hn & D)|(n & rs0 & rs1 & -> & -> & T3 & Hh & Hn & B)].
      * exists (EvWrite (cmd ++ [CR]) :: map EvRead (rs ++ rs')). rewrite T3, T2, T1, map_app, <- !app_assoc. split; [reflexivity|].
        left. exists l'. repeat split. exists n, (rs ++ rs'). rewrite map_app. auto.
      * exists (EvWrite (cmd ++ [CR]) :: map EvRead ((rs ++ rs0) ++ rs1) ++ [EvClose]). split.
        { rewrite T3, T2, T1, !map_app, <- !app_assoc. reflexivity. }
        right. repeat split. eapply failed_later; eassumption.
    + rewrite read_again_dead in H by reflexivity. injection H as <- <- <-.
      exists (EvWrite (cmd ++ [CR]) :: map EvRead rs ++ [EvClose]). rewrite T2, T1, <- !app_assoc. split; [reflexivity|].
      right. repeat split. constructor. exact B.
  - rewrite elm_read_none in H by reflexivity. rewrite read_again_dead in H by reflexivity. injection H as <- <- <-.
    destruct T1 as [T1|T1]; rewrite T1; eexists; (split; [reflexivity|]); right; repeat split; constructor.
Qed.
Lemma tries_false : tries false = 12%nat. Proof. vm_compute. reflexivity. Qed.
Lemma tries_true : tries true = 1%nat. Proof. vm_compute. reflexivity. Qed.
