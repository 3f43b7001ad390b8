(* The fine-grained model with power calls made while no loop is running. *)
From Coq Require Import ZArith List Bool Lia.
From Verif Require Import Py Num Utils Protocol Decoders Command CommandTable Commands World Elm Obd Async Fine SpecObd SpecAsync SpecFine ObdFacts ObdThms AsyncFacts AsyncThms AsyncThms3 AsyncThms4 FineThms FineAsync.
Import ListNotations.
Open Scope nat_scope.

Local Opaque watch_table unwatch_table query f_query f_obd_close obd_close obd_low_power obd_normal_power f_obd_low_power f_obd_normal_power.
Definition empowered (f : fstate) (s : astate) : Prop :=
  exists low p, a_pc s = M_idle /\ (forall i, ~ in_loop s i) /\ (forall j, f_asks f j = None) /\ f_closes f = None /\ f_power f = Some (low, p) /\
    f_a f = upd_obd (f_conn f) s /\ run p (f_conn f) = power low (a_obd s, a_world s).
Definition simp (f : fstate) (x : astate * list (bool * res unit)) : Prop := f_powers f = snd x /\ (sim f (fst x) \/ empowered f (fst x)).

Lemma wrun_app a b x : wrun (a ++ b) x = wrun b (wrun a x). Proof. apply fold_left_app. Qed.
Lemma wrun_steps l : forall s ps, wrun (map Step l) (s, ps) = (arun l s, ps).
Proof. induction l as [|ch l IH]; intros s ps; [reflexivity|]. cbn [map wrun fold_left wstep]. apply IH. Qed.
Lemma powers_kept ch f : (forall low, ch <> FPower low) -> f_powers (fstep ch f) = f_powers f /\ f_power (fstep ch f) = f_power f.
Proof.
  intros N. destruct ch as [|i b|low]; [| |congruence]; unfold fstep, f_main, f_thread.
  - destruct (f_power f) eqn:E; [auto|]. destruct (a_pc (f_a f)); try (destruct (main_step (f_a f)); cbn; auto; fail). destruct (f_closes f) as [[]|]; cbn; auto.
  - destruct (nth_error (a_threads (f_a f)) i) as [q|]; [destruct q|]; try (destruct (thread_step i b (f_a f)); cbn; auto; fail). destruct (f_asks f i) as [[]|]; cbn; auto.
Qed.
Lemma sim_power f s : sim f s -> f_power f = None.
Proof. intros [(_ & _ & R) _|i c it p P A1 A2 A3 A4 E Q|p P A2 A3 A4 E Q]; assumption. Qed.
Lemma sim_a f s : sim f s -> exists x, f_a f = upd_obd x s.
Proof. intros [_ E|i c it p P A1 A2 A3 A4 E Q|p P A2 A3 A4 E Q]; eauto. exists (a_obd s, a_world s). rewrite upd_own. exact E. Qed.
Lemma loop_upd x s i : in_loop (upd_obd x s) i <-> in_loop s i. Proof. reflexivity. Qed.

Lemma power_keeps low o w r o' w' : oinv o -> power low (o, w) = (r, (o', w')) -> oinv o' /\ (is_connected o' = true -> is_connected o = true).
Proof.
  intros OI H. destruct low; cbn [power] in H.
  - destruct (obd_low_spec _ _ _ _ _ OI H) as (_ & t & _ & R). split; [apply (low_run_inv _ _ _ OI R)|]. unfold is_connected, obd_status. destruct R as [S|e t0 ls Hi S X|e t0 Hi S X]; [auto| |]; rewrite Hi; cbn [with_elm o_interface].
    + destruct (existsb (text_eqb (str "OK")) ls); auto.
    + discriminate.
  - destruct (obd_normal_spec _ _ _ _ _ OI H) as (_ & t & _ & R). split; [apply (normal_run_inv _ _ _ OI R)|]. unfold is_connected, obd_status. destruct R as [S|e t0 ls Hi S X|e t0 Hi S X]; [auto| |]; rewrite Hi; cbn; [auto|discriminate].
Qed.
Lemma power_inv low s : ainv s -> a_pc s = M_idle -> (forall i, ~ in_loop s i) -> ainv (upd_obd (snd (power low (a_obd s, a_world s))) s).
Proof.
  intros V Pc NL. destruct (power low (a_obd s, a_world s)) as [r [o' w']] eqn:H. destruct (power_keeps _ _ _ _ _ _ (I_oinv _ V) H) as (OI & C). cbn [snd].
  assert (NL' : forall i p, pc_of s i = Some p -> looping p = false). { intros i p P. specialize (NL i). unfold in_loop in NL. unfold pc_of in P. rewrite P in NL. destruct p; try reflexivity; exfalso; apply NL; exact Logic.I. }
  constructor.
  - exact OI.
  - intros i p P L. exact (I_one _ V _ _ P L).
  - intros i P. exact (I_new _ V _ P).
  - intros i p P. pose proof (NL' _ _ P) as L. pose proof (I_ok _ V _ _ P) as X. destruct p; try discriminate L; try exact X. cbn in *. unfold async_connected in *. cbn. destruct (is_connected o'); [specialize (C eq_refl); congruence|reflexivity].
  - intros i Th. exact (I_thread _ V _ Th).
  - intros Rn i p P L. exact (I_stopped _ V Rn _ _ P L).
  - intros Rn. exact (I_running _ V Rn).
  - unfold main_ok. cbn [upd_obd a_pc]. rewrite Pc. exact Logic.I.
  - exact (I_table _ V).
Qed.

Lemma simp_step ch f x : ainv (fst x) -> simp f x -> careful_step ch f -> exists l, ainv (fst (wrun l x)) /\ simp (fstep ch f) (wrun l x).
Proof.
  destruct x as [s ps]. intros V (Ps & R) C. cbn [fst snd] in *. destruct R as [R|R].
  - assert (D : (forall low, ch <> FPower low) \/ exists low, ch = FPower low) by (destruct ch; [left; discriminate|left; discriminate|right; eauto]). destruct D as [D|(low & ->)].
    + destruct (sim_step ch f s V R D) as (l & K). exists (map Step l). rewrite wrun_steps. cbn [fst]. split; [apply arun_inv, V|]. split; [|left; exact K]. cbn [snd]. rewrite (proj1 (powers_kept _ _ D)). exact Ps.
    + exists []. cbn [wrun fold_left fst]. split; [exact V|]. pose proof (sim_power _ _ R) as Np. destruct (sim_a _ _ R) as (y & Ey). cbn in C. destruct C as [C|C]; [contradiction|].
      unfold fstep, f_do_power. assert (Pc : a_pc (f_a f) = a_pc s) by (rewrite Ey; reflexivity). rewrite Pc. destruct (a_pc s) eqn:P; try (split; [exact Ps|left; exact R]).
      rewrite Np. split; [exact Ps|]. right. destruct R as [(R1 & R2 & R3) R|i c it p P1 A1 A2 A3 A4 E Q|p P1 A2 A3 A4 E Q].
      * cbn [fst]. subst s. exists low, (if low then f_obd_low_power else f_obd_normal_power). split; [exact P|]. split; [exact C|]. split; [exact R1|]. split; [exact R2|]. split; [reflexivity|].
        unfold f_conn. cbn [put_power f_a]. split; [symmetry; apply upd_own|]. destruct low; [apply low_agrees|apply normal_agrees].
      * exfalso. apply (C i). rewrite Ey. unfold in_loop. cbn [upd_obd a_threads]. unfold pc_of in P1. rewrite P1. exact Logic.I.
      * congruence.
  - destruct R as (low & p & Pc & NL & A & Cl & Pw & E & Q). cbn [fst] in *. assert (Pc' : a_pc (f_a f) = M_idle) by (rewrite E; exact Pc). destruct ch as [|j b|lw]; unfold fstep.
    + unfold f_main. rewrite Pw. exists []. split; [exact V|]. split; [exact Ps|]. right. exists low, p. auto 10.
    + unfold f_thread. assert (Pt : nth_error (a_threads (f_a f)) j = pc_of s j) by (rewrite E; reflexivity). rewrite Pt. specialize (NL j) as NLj. unfold in_loop in NLj. fold (pc_of s j) in NLj.
      assert (Stay : exists l, ainv (fst (wrun l (s, ps))) /\ simp f (wrun l (s, ps))). { exists []. split; [exact V|]. split; [exact Ps|]. right. exists low, p. auto 10. }
      unfold thread_step. rewrite Pt. destruct (pc_of s j) as [q|] eqn:X; [|exact Stay]. destruct q; try (exfalso; apply NLj; exact Logic.I); try exact Stay. cbn [option_map].
      exists [Step (CThread j b)]. cbn [wrun fold_left wstep]. assert (Es : astep (CThread j b) s = set_tpc j T_done s). { unfold astep, thread_step. unfold pc_of in X. rewrite X. reflexivity. }
      split; [apply astep_inv, V|]. rewrite Es. split; [exact Ps|]. right. cbn [fst]. exists low, p. split; [exact Pc|]. split.
      { intros i. unfold in_loop. cbn [set_tpc upd_threads a_threads]. destruct (Nat.eq_dec i j) as [->|N].
        - rewrite nth_set, Nat.eqb_refl. unfold pc_of in X. rewrite X. auto.
        - rewrite nth_set. destruct (Nat.eqb_spec j i); [congruence|exact (NL i)]. }
      split; [exact A|]. split; [exact Cl|]. split; [exact Pw|]. split; [rewrite E; destruct (f_conn f); reflexivity|].
      unfold f_conn at 1. cbn [f_upd f_a set_tpc upd_threads a_obd a_world]. exact Q.
    + unfold f_do_power. rewrite Pc', Pw. destruct p as [r|g k].
      * exists [Power low]. cbn [run] in Q. assert (Es : wrun [Power low] (s, ps) = (upd_obd (f_conn f) s, ps ++ [(low, r)])) by (cbn [wrun fold_left wstep]; rewrite Pc, <- Q; reflexivity). rewrite Es. cbn [fst].
        split. { pose proof (power_inv low s V Pc NL) as Y. rewrite <- Q in Y. exact Y. }
        split; [cbn; rewrite Ps; reflexivity|]. left. apply sim_rest; [split; [exact A|split; [exact Cl|reflexivity]]|exact E].
      * exists []. split; [exact V|]. split; [exact Ps|]. right. cbn [wrun fold_left fst]. exists low, (k (f_conn f)). split; [exact Pc|]. split; [exact NL|]. split; [exact A|]. split; [exact Cl|]. split; [reflexivity|].
        unfold put_power, f_upd. cbn [f_a f_asks f_closes f_power f_powers]. rewrite conn_mk. split; [rewrite E; apply upd_twice|exact Q].
Qed.
Lemma frun_app a b f : frun (a ++ b) f = frun b (frun a f). Proof. apply fold_left_app. Qed.
Lemma careful_app a b f : careful (a ++ b) f <-> careful a f /\ careful b (frun a f).
Proof. revert f. induction a as [|ch a IH]; intros f; cbn [app careful frun fold_left]; [tauto|]. rewrite IH. tauto. Qed.
Lemma simp_run sched : forall f x, ainv (fst x) -> simp f x -> careful sched f -> exists l, ainv (fst (wrun l x)) /\ simp (frun sched f) (wrun l x).
Proof.
  induction sched as [|ch sched IH]; intros f x V S C.
  - exists []. auto.
  - destruct C as [C1 C2]. destruct (simp_step ch f x V S C1) as (l1 & V1 & S1). destruct (IH _ _ V1 S1 C2) as (l2 & V2 & S2). exists (l1 ++ l2). rewrite wrun_app. auto.
Qed.
Lemma sim_new s : sim (new_fine s) s. Proof. apply sim_rest; [repeat split|reflexivity]. Qed.
Lemma created_ainv prog s0 : created prog s0 -> ainv s0.
Proof. intros C. apply (proj1 (reachable_inv s0 (ex_intro _ prog (ex_intro _ s0 (ex_intro _ [] (conj C eq_refl)))))). Qed.
Definition fok (f : fstate) : Prop := exists x, ainv (fst x) /\ simp f x.
Lemma carefully_ok f : carefully_reached f -> fok f.
Proof. intros (prog & s0 & sched & C & K & ->). destruct (simp_run sched (new_fine s0) (s0, [])) as (l & V & S); [exact (created_ainv _ _ C)|split; [reflexivity|left; apply sim_new]|exact K|]. exists (wrun l (s0, [])). auto. Qed.
Lemma fok_step ch f : fok f -> careful_step ch f -> fok (fstep ch f).
Proof. intros (x & V & S) C. destruct (simp_step ch f x V S C) as (l & V' & S'). exists (wrun l x). auto. Qed.
