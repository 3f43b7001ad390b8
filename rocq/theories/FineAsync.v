(* Every run of the fine-grained model is one of Async.v. *)
From Coq Require Import ZArith List Bool Lia.
From Verif Require Import Py Num Utils Protocol Decoders Command CommandTable Commands World Elm Obd Async Fine SpecObd SpecAsync SpecFine ObdFacts ObdThms AsyncFacts AsyncThms AsyncThms3 AsyncThms4 FineThms.
Import ListNotations.
Open Scope nat_scope.

Lemma upd_own s : upd_obd (a_obd s, a_world s) s = s. Proof. destruct s; reflexivity. Qed.
Lemma upd_twice x y s : upd_obd x (upd_obd y s) = upd_obd x s. Proof. reflexivity. Qed.
Lemma conn_upd x s : (a_obd (upd_obd x s), a_world (upd_obd x s)) = x. Proof. destruct x; reflexivity. Qed.
Lemma same_upd x s : same_apart_from_connection (upd_obd x s) s. Proof. unfold same_apart_from_connection. cbn. auto 20. Qed.

Lemma conn_mk x s a b c d : f_conn (mkF (upd_obd x s) a b c d) = x. Proof. destruct x; reflexivity. Qed.
Inductive sim (f : fstate) (s : astate) : Prop :=
| sim_rest : at_rest f -> f_a f = s -> sim f s
| sim_ask i c it p : pc_of s i = Some (T_query c it) -> f_asks f i = Some p -> (forall j, j <> i -> f_asks f j = None) -> f_closes f = None -> f_power f = None ->
    f_a f = upd_obd (f_conn f) s -> run p (f_conn f) = query c true (a_obd s, a_world s) -> sim f s
| sim_close p : a_pc s = M_close2 -> (forall j, f_asks f j = None) -> f_closes f = Some p -> f_power f = None ->
    f_a f = upd_obd (f_conn f) s -> run p (f_conn f) = obd_close (a_obd s, a_world s) -> sim f s.

Ltac fin := cbn [f_power f_closes f_asks f_a f_upd put_ask put_close put_power]; first [assumption | reflexivity | congruence].
Lemma ask_same i x f : f_asks (put_ask i x f) i = x. Proof. cbn. rewrite Nat.eqb_refl. reflexivity. Qed.
Lemma ask_other i x f j : j <> i -> f_asks (put_ask i x f) j = f_asks f j. Proof. intros N. cbn. destruct (Nat.eqb_spec i j); [congruence|reflexivity]. Qed.
Local Opaque watch_table unwatch_table query f_query f_obd_close obd_close.
(* the user's steps that do not look at the connection *)
Lemma main_blind x s : a_pc s <> M_start1 -> a_pc s <> M_close2 -> (forall c cb b, a_pc s <> M_watch c cb b) ->
  main_step (upd_obd x s) = option_map (upd_obd x) (main_step s).
Proof.
  intros N1 N2 N3. unfold main_step. cbn [upd_obd a_pc a_prog a_thread a_cmds a_cbs a_running a_was_running a_op a_threads a_gen].
  destruct (a_pc s) eqn:P; try congruence.
  - destruct (a_prog s) as [|o rest]; [reflexivity|]. destruct o; cbn [option_map]; try reflexivity; cbn [upd_prog upd_obd a_running]; destruct (a_running s); reflexivity.
  - destruct (nonempty (a_cmds s)); reflexivity.
  - destruct (a_thread s); reflexivity.
  - reflexivity.
  - reflexivity.
  - destruct (a_thread s); reflexivity.
  - destruct (a_thread s); [reflexivity|destruct k; reflexivity].
  - reflexivity.
  - destruct (a_thread s); reflexivity.
  - unfold ended. cbn [upd_obd a_threads]. destruct (nth_error (a_threads s) id) as [[]|]; reflexivity.
  - destruct k; reflexivity.
  - reflexivity.
  - destruct (a_running s); reflexivity.
  - destruct (a_was_running s); reflexivity.
  - destruct (unwatch_table c cb (a_cmds s, a_cbs s)); reflexivity.
  - reflexivity.
Qed.
Lemma main_threads s s' : main_step s = Some s' -> a_pc s <> M_start5 -> a_pc s <> M_start6 -> a_threads s' = a_threads s.
Proof.
  unfold main_step. intros H N5 N6. destruct (a_pc s); try congruence;
  repeat match type of H with
   | context [match ?x with _ => _ end] => destruct x
   end; try discriminate H; injection H as <-; try reflexivity.
Qed.
Lemma asking_user s i c it : ainv s -> pc_of s i = Some (T_query c it) ->
  async_connected s = true /\ a_cmds s <> [] /\ a_thread s = Some i /\ a_pc s <> M_start5 /\ a_pc s <> M_start6 /\ a_pc s <> M_close2 /\ (forall c cb b, a_pc s <> M_watch c cb b).
Proof.
  intros V P. pose proof (I_ok _ V _ _ P) as (Ne & _ & C). pose proof (I_one _ V _ _ P eq_refl) as Th. pose proof (I_main _ V) as M. unfold main_ok in M.
  repeat (split; [assumption|]). split; [|split; [|split]].
  - intros E. rewrite E in M. destruct M as (_ & M & _). congruence.
  - intros E. rewrite E in M. destruct M as (_ & _ & j & M1 & M2). assert (j = i) by congruence. subst j. congruence.
  - intros E. rewrite E in M. congruence.
  - intros d cb b E. rewrite E in M. destruct (I_stopped _ V M _ _ P eq_refl) as [D|D]; [discriminate D|]. rewrite E in D. discriminate D.
Qed.
Lemma asking_alone s i c it j b x : ainv s -> pc_of s i = Some (T_query c it) -> j <> i -> thread_step j b (upd_obd x s) = None.
Proof.
  intros V P N. unfold thread_step. cbn [upd_obd a_threads]. fold (pc_of s j). destruct (pc_of s j) as [q|] eqn:Q; [|reflexivity].
  destruct (others_not_looping _ _ _ V P eq_refl _ _ Q N) as [->|[->|[e ->]]]; try reflexivity.
  exfalso. pose proof (I_ok _ V _ _ Q) as X. pose proof (I_ok _ V _ _ P) as (_ & _ & Y). cbn in X. congruence.
Qed.
Lemma sim_step ch f s : ainv s -> sim f s -> (forall low, ch <> FPower low) -> exists l, sim (fstep ch f) (arun l s).
Proof.
  intros V R NP. destruct ch as [|j b|low]; [| |exfalso; exact (NP low eq_refl)]; unfold fstep.
  - (* the user's thread *)
    destruct R as [(R1 & R2 & R3) R|i c it p P A1 A2 A3 A4 E Q|p P A2 A3 A4 E Q].
    + unfold f_main. rewrite R3. assert (G : a_pc s <> M_close2 -> exists l, sim (match option_map (fun a => f_upd a f) (main_step (f_a f)) with Some f' => f' | None => f end) (arun l s)).
      { intros _. rewrite R. destruct (main_step s) as [s'|] eqn:M; cbn [option_map].
        - exists [CMain]. apply sim_rest; [split; [exact R1|split; fin]|]. cbn. unfold astep. rewrite M. reflexivity.
        - exists []. apply sim_rest; [split; auto|exact R]. }
      rewrite R in *. destruct (a_pc s) eqn:P; try (apply G; discriminate). rewrite R2. exists []. cbn [arun fold_left].
      eapply sim_close; [exact P|exact R1|fin|fin| |]; unfold f_conn; cbn [f_a put_close]; rewrite R; [symmetry; apply upd_own|apply close_agrees].
    + destruct (asking_user _ _ _ _ V P) as (C & Ne & Th & N5 & N6 & N2 & N3). unfold f_main. rewrite A4.
      assert (Pc : a_pc (f_a f) = a_pc s) by (rewrite E; reflexivity). rewrite Pc.
      assert (G : a_pc s <> M_start1 -> exists l, sim (match option_map (fun a => f_upd a f) (main_step (f_a f)) with Some f' => f' | None => f end) (arun l s)).
      { intros N1. rewrite E, main_blind by assumption. destruct (main_step s) as [s'|] eqn:M; cbn [option_map].
        - exists [CMain]. assert (Es : arun [CMain] s = s') by (cbn; unfold astep; rewrite M; reflexivity). rewrite Es.
          assert (Ob : a_obd s' = a_obd s /\ a_world s' = a_world s).
          { pose proof (main_blind (a_obd s, a_world s) s N1 N2 N3) as B. rewrite upd_own, M in B. cbn [option_map] in B. injection B as B. rewrite B. split; reflexivity. }
          destruct Ob as [O1 O2]. eapply (sim_ask _ _ i c it p).
          + unfold pc_of. rewrite (main_threads _ _ M N5 N6). exact P.
          + exact A1.
          + exact A2.
          + exact A3.
          + fin.
          + unfold f_upd. rewrite conn_mk. reflexivity.
          + unfold f_upd. rewrite conn_mk, O1, O2. exact Q.
        - exists []. exact (sim_ask _ _ i c it p P A1 A2 A3 A4 E Q). }
      destruct (a_pc s) eqn:Ep; try (apply G; discriminate); [|congruence].
      (* start() looks at the connection: if it is lost, start() ends, as it would, finding the loop running *)
      rewrite E. unfold main_step. cbn [upd_obd a_pc]. rewrite Ep. unfold async_connected at 1. destruct (is_connected (a_obd (upd_obd (f_conn f) s))) eqn:D; cbn [negb option_map].
      * exists [CMain]. assert (Es : arun [CMain] s = upd_pc M_start2 s) by (cbn; unfold astep, main_step; rewrite Ep, C; reflexivity). rewrite Es.
        eapply (sim_ask _ _ i c it p); [exact P|exact A1|exact A2|exact A3|fin| |].
        -- destruct (f_conn f); reflexivity.
        -- unfold f_conn at 1. cbn [f_a]. destruct (f_conn f); exact Q.
      * exists [CMain; CMain; CMain].
        assert (Es : arun [CMain; CMain; CMain] s = finish (match a_op s with AExit => OBool false | _ => ODone end) (upd_pc M_start3 (upd_pc M_start2 s))).
        { cbn [arun fold_left]. unfold astep at 3, main_step. rewrite Ep, C. cbn [negb]. unfold astep at 2, main_step. cbn [upd_pc a_pc a_cmds].
          destruct (a_cmds s) as [|x l] eqn:Ec; [congruence|]. cbn [nonempty]. unfold astep, main_step. cbn [upd_pc a_pc a_thread]. rewrite Th. reflexivity. }
        rewrite Es. eapply (sim_ask _ _ i c it p); [exact P|exact A1|exact A2|exact A3|fin| |].
        -- destruct (f_conn f); reflexivity.
        -- unfold f_conn at 1. cbn [f_a]. destruct (f_conn f); exact Q.
    + unfold f_main. rewrite A4. assert (Pc : a_pc (f_a f) = M_close2) by (rewrite E; exact P). rewrite Pc, A3. destruct p as [r|g k].
      * exists [CMain]. apply sim_rest; [split; [exact A2|split; fin]|]. cbn [f_a]. cbn [run] in Q.
        cbn [arun fold_left]. unfold astep, main_step. rewrite P, <- Q. cbn. rewrite E. reflexivity.
      * exists []. cbn [arun fold_left]. eapply sim_close; [exact P|exact A2|fin|fin| |]; unfold put_close, f_upd; cbn [f_a f_asks f_closes f_power f_powers]; rewrite conn_mk; cbn [f_a].
        -- rewrite E. apply upd_twice.
        -- exact Q.
  - (* an update thread *)
    unfold f_thread. destruct R as [(R1 & R2 & R3) R|i c it p P A1 A2 A3 A4 E Q|p P A2 A3 A4 E Q].
    + rewrite R. assert (G : exists l, sim (match option_map (fun a => f_upd a f) (thread_step j b s) with Some f' => f' | None => f end) (arun l s)).
      { destruct (thread_step j b s) as [s'|] eqn:M; cbn [option_map].
        - exists [CThread j b]. apply sim_rest; [split; [exact R1|split; assumption]|]. cbn. unfold astep. rewrite M. reflexivity.
        - exists []. apply sim_rest; [split; auto|exact R]. }
      destruct (nth_error (a_threads s) j) as [q|] eqn:P; [|exact G]. destruct q; try exact G. rewrite R1. exists []. cbn [arun fold_left].
      eapply (sim_ask _ _ j c it); [exact P|apply ask_same| |exact R2|exact R3| |]; unfold f_conn; cbn [f_a put_ask]; rewrite ?R.
      * intros k N. rewrite ask_other by exact N. apply R1.
      * symmetry. apply upd_own.
      * apply query_agrees.
    + assert (Pt : nth_error (a_threads (f_a f)) j = pc_of s j) by (rewrite E; reflexivity). rewrite Pt. destruct (Nat.eq_dec j i) as [->|N].
      * rewrite P, A1. destruct p as [r|g k].
        -- exists [CThread i b]. apply sim_rest.
           ++ split; [|split; [exact A3|exact A4]]. intros k. destruct (Nat.eq_dec k i) as [->|N]; [apply ask_same|rewrite ask_other by exact N; apply A2, N].
           ++ cbn [f_a]. cbn [run] in Q. cbn [arun fold_left]. unfold astep, thread_step. unfold pc_of in P. rewrite P, <- Q. cbn. rewrite E. reflexivity.
        -- exists []. cbn [arun fold_left]. eapply (sim_ask _ _ i c it); [exact P|apply ask_same| |exact A3|exact A4| |]; try (unfold put_ask, f_upd; cbn [f_a f_asks f_closes f_power f_powers]; rewrite conn_mk; cbn [f_a]).
           ++ intros k' N. rewrite ask_other by exact N. apply A2, N.
           ++ rewrite E. apply upd_twice.
           ++ exact Q.
      * exists []. cbn [arun fold_left]. pose proof (asking_alone s i c it j b (f_conn f) V P N) as Z. rewrite <- E in Z.
        assert (K : match pc_of s j with Some (T_query _ _) => False | _ => True end).
        { destruct (pc_of s j) as [q|] eqn:X; [|exact Logic.I]. destruct (others_not_looping _ _ _ V P eq_refl _ _ X N) as [->|[->|[e ->]]]; exact Logic.I. }
        destruct (pc_of s j) as [[]|]; try contradiction; rewrite Z; exact (sim_ask _ _ i c it p P A1 A2 A3 A4 E Q).
    + assert (Pt : nth_error (a_threads (f_a f)) j = pc_of s j) by (rewrite E; reflexivity). rewrite Pt.
      pose proof (I_main _ V) as M. unfold main_ok in M. rewrite P in M.
      assert (Oth : forall q, pc_of s j = Some q -> q = T_return \/ q = T_done \/ exists e, q = T_dead e).
      { intros q X. destruct q; auto; try (pose proof (I_one _ V _ _ X eq_refl); congruence); [|right; right; eauto]. destruct (I_new _ V _ X). congruence. }
      destruct (pc_of s j) as [q|] eqn:X.
      2:{ exists []. unfold thread_step. rewrite Pt. exact (sim_close _ _ p P A2 A3 A4 E Q). }
      destruct (Oth _ eq_refl) as [->|[->|[e ->]]]; unfold thread_step; rewrite Pt; cbn [option_map].
      * exists [CThread j b]. cbn [arun fold_left]. unfold astep, thread_step. unfold pc_of in X. rewrite X.
        eapply sim_close; [exact P|exact A2|exact A3|exact A4| |]; unfold f_conn; cbn [f_a]; rewrite ?E; destruct (f_conn f) eqn:Fc; [reflexivity|exact Q].
      * exists []. exact (sim_close _ _ p P A2 A3 A4 E Q).
      * exists []. exact (sim_close _ _ p P A2 A3 A4 E Q).
Qed.
