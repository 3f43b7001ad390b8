(* The theorems about the fine-grained model. *)
From Coq Require Import ZArith List Bool Lia.
From Verif Require Import Py Num Utils Protocol Decoders Command CommandTable Commands World Elm Obd Async Fine SpecObd SpecAsync SpecFine ObdFacts ObdThms AsyncFacts AsyncThms AsyncThms3 AsyncThms4 FineThms FineAsync FineAsync2.
Import ListNotations.
Open Scope nat_scope.

Local Opaque watch_table unwatch_table query f_query f_obd_close obd_close obd_low_power obd_normal_power f_obd_low_power f_obd_normal_power.

(* ---- the run with whole calls ---- *)
Theorem as_whole prog s0 sched : created prog s0 -> careful sched (new_fine s0) -> let f := frun sched (new_fine s0) in exists l, let w := wrun l (s0, []) in
  same_apart_from_connection (f_a f) (fst w) /\ f_powers f = snd w /\ (at_rest f -> f_a f = fst w).
Proof.
  intros C K f. destruct (simp_run sched (new_fine s0) (s0, [])) as (l & V & Ps & S); [exact (created_ainv _ _ C)|split; [reflexivity|left; apply sim_new]|exact K|]. fold f in Ps, S. exists l. cbv zeta.
  destruct S as [S|(low & p & Pc & NL & A & Cl & Pw & E & Q)].
  - destruct (sim_a _ _ S) as (x & E). split; [rewrite E; apply same_upd|]. split; [exact Ps|]. intros (R1 & R2 & R3). destruct S as [_ S|i c it p P A1 A2 A3 A4 E1 Q|p P A2 A3 A4 E1 Q]; [exact S|rewrite R1 in A1; discriminate A1|congruence].
  - split; [rewrite E; apply same_upd|]. split; [exact Ps|]. intros (_ & _ & R3). congruence.
Qed.
Theorem as_steps prog s0 sched : created prog s0 -> no_power sched -> let f := frun sched (new_fine s0) in exists l,
  same_apart_from_connection (f_a f) (arun l s0) /\ (at_rest f -> f_a f = arun l s0).
Proof.
  intros C NP f. assert (G : exists l, sim f (arun l s0)).
  { assert (K : forall f s, ainv s -> sim f s -> exists l, sim (frun sched f) (arun l s)).
    { clear f C. induction sched as [|ch sched IH]; intros f s V S; [exists []; exact S|].
      destruct (sim_step ch f s V S) as (l1 & S1). { intros low ->. apply (NP low). left. reflexivity. }
      destruct (IH (fun low I => NP low (or_intror I)) _ _ (arun_inv l1 s V) S1) as (l2 & S2). exists (l1 ++ l2). rewrite arun_app. exact S2. }
    apply K; [exact (created_ainv _ _ C)|apply sim_new]. }
  destruct G as (l & S). exists l. destruct (sim_a _ _ S) as (x & E). split; [rewrite E; apply same_upd|]. intros (R1 & R2 & R3). destruct S as [_ S|i c it p P A1 A2 A3 A4 E1 Q|p P A2 A3 A4 E1 Q]; [exact S|rewrite R1 in A1; discriminate A1|congruence].
Qed.

(* ---- one at a time ---- *)
Theorem one_user f u v : fok f -> using_it f u -> using_it f v -> u = v.
Proof.
  intros (x & V & Ps & [S|(low & p & Pc & NL & A & Cl & Pw & E & Q)]) U W.
  - destruct S as [(R1 & R2 & R3) S|i c it p P A1 A2 A3 A4 E1 Q|p P A2 A3 A4 E1 Q]; destruct u as [j|], v as [k|]; cbn in U, W; try congruence; try (exfalso; first [apply U, R1 | apply W, R1 | apply U, A2 | apply W, A2]; fail); try (destruct U; congruence); try (destruct W; congruence).
    + destruct (Nat.eq_dec j i) as [->|N1]; [|exfalso; apply U, A2, N1]. destruct (Nat.eq_dec k i) as [->|N2]; [reflexivity|exfalso; apply W, A2, N2].
  - destruct u as [j|], v as [k|]; cbn in U, W; try reflexivity; exfalso; first [apply U, A | apply W, A].
Qed.
Lemma main_keeps s s' : main_step s = Some s' -> a_pc s <> M_close2 -> (a_obd s', a_world s') = (a_obd s, a_world s).
Proof.
  unfold main_step. intros H N. destruct (a_pc s); try congruence;
  repeat match type of H with
   | context [match ?x with _ => _ end] => destruct x
   end; try discriminate H; injection H as <-; try reflexivity.
Qed.
(* while thread i asks, or is about to *)
Lemma asking_stays f i c it ch : fok f -> careful_step ch f -> nth_error (a_threads (f_a f)) i = Some (T_query c it) -> by_thread i ch = false ->
  nth_error (a_threads (f_a (fstep ch f))) i = Some (T_query c it) /\ f_asks (fstep ch f) i = f_asks f i /\ f_conn (fstep ch f) = f_conn f.
Proof.
  intros ([s ps] & V & Ps & S) C P B. cbn [fst snd] in *. assert (Ea : exists x, f_a f = upd_obd x s).
  { destruct S as [S|(low & p & Pc & NL & A & Cl & Pw & E & Q)]; [exact (sim_a _ _ S)|eauto]. }
  destruct Ea as (x & Ea). assert (P' : pc_of s i = Some (T_query c it)) by (rewrite Ea in P; exact P).
  assert (Np : f_power f = None). { destruct S as [S|(low & p & Pc & NL & _)]; [exact (sim_power _ _ S)|]. exfalso. apply (NL i). unfold in_loop. unfold pc_of in P'. rewrite P'. exact Logic.I. }
  destruct (asking_user _ _ _ _ V P') as (_ & _ & _ & N5 & N6 & N2 & N3).
  destruct ch as [|j b|low]; unfold fstep.
  - unfold f_main. rewrite Np. assert (Pc : a_pc (f_a f) = a_pc s) by (rewrite Ea; reflexivity).
    assert (G : nth_error (a_threads (f_a (match option_map (fun a => f_upd a f) (main_step (f_a f)) with Some f' => f' | None => f end))) i = Some (T_query c it) /\ f_asks (match option_map (fun a => f_upd a f) (main_step (f_a f)) with Some f' => f' | None => f end) i = f_asks f i /\ f_conn (match option_map (fun a => f_upd a f) (main_step (f_a f)) with Some f' => f' | None => f end) = f_conn f).
    { destruct (main_step (f_a f)) as [a'|] eqn:M; cbn [option_map]; [|auto]. split; [|split; [reflexivity|]].
      - cbn [f_upd f_a]. rewrite (main_threads _ _ M) by congruence. exact P.
      - unfold f_conn. cbn [f_upd f_a]. apply main_keeps; [exact M|congruence]. }
    rewrite Pc in *. destruct (a_pc s); try exact G. congruence.
  - cbn in B. assert (N : j <> i) by (intros ->; rewrite Nat.eqb_refl in B; discriminate B). unfold f_thread.
    assert (Pt : nth_error (a_threads (f_a f)) j = pc_of s j) by (rewrite Ea; reflexivity). rewrite Pt. pose proof (asking_alone s i c it j b x V P' N) as Z. rewrite <- Ea in Z.
    destruct (pc_of s j) as [q|] eqn:X; [|rewrite Z; auto]. destruct (others_not_looping _ _ _ V P' eq_refl _ _ X N) as [->|[->|[e ->]]]; rewrite Z; auto.
  - cbn in C. destruct C as [C|C]; [congruence|]. exfalso. apply (C i). unfold in_loop. rewrite P. exact Logic.I.
Qed.
(* while the user's thread closes, or is about to *)
Lemma closing_stays f ch : fok f -> careful_step ch f -> a_pc (f_a f) = M_close2 -> by_calls ch = false ->
  a_pc (f_a (fstep ch f)) = M_close2 /\ f_closes (fstep ch f) = f_closes f /\ f_conn (fstep ch f) = f_conn f /\ a_op (f_a (fstep ch f)) = a_op (f_a f) /\ f_power (fstep ch f) = f_power f.
Proof.
  intros ([s ps] & V & Ps & S) C P B. cbn [fst snd] in *. assert (Ea : exists x, f_a f = upd_obd x s).
  { destruct S as [S|(low & p & Pc & NL & A & Cl & Pw & E & Q)]; [exact (sim_a _ _ S)|eauto]. }
  destruct Ea as (x & Ea). assert (P' : a_pc s = M_close2) by (rewrite Ea in P; exact P).
  destruct ch as [|j b|low]; [discriminate B| |]; unfold fstep.
  - unfold f_thread. assert (Pt : nth_error (a_threads (f_a f)) j = pc_of s j) by (rewrite Ea; reflexivity). unfold thread_step. rewrite Pt.
    pose proof (I_main _ V) as M. unfold main_ok in M. rewrite P' in M.
    destruct (pc_of s j) as [q|] eqn:X; [|auto 10]. destruct q; try (pose proof (I_one _ V _ _ X eq_refl); congruence); cbn [option_map]; auto 10.
  - unfold f_do_power. rewrite P. auto 10.
Qed.
(* while the user's thread is in a power call *)
Lemma powering_stays f ch lp : fok f -> careful_step ch f -> f_power f = Some lp -> by_powers ch = false ->
  f_power (fstep ch f) = Some lp /\ f_powers (fstep ch f) = f_powers f /\ f_conn (fstep ch f) = f_conn f.
Proof.
  intros ([s ps] & V & Ps & S) C P B. cbn [fst snd] in *. destruct S as [S|(low & p & Pc & NL & A & Cl & Pw & E & Q)]; [pose proof (sim_power _ _ S); congruence|].
  destruct ch as [|j b|lw]; [| |discriminate B]; unfold fstep.
  - unfold f_main. rewrite P. auto.
  - unfold f_thread. assert (Pt : nth_error (a_threads (f_a f)) j = pc_of s j) by (rewrite E; reflexivity). specialize (NL j). unfold in_loop in NL. fold (pc_of s j) in NL.
    unfold thread_step. rewrite Pt. destruct (pc_of s j) as [q|]; [|auto]. destruct q; try (exfalso; apply NL; exact Logic.I); cbn [option_map]; auto.
Qed.

Section Isolated.
  Context {A : Type} (mine : fchoice -> bool) (cur : fstate -> option (code A)) (here : fstate -> Prop) (over : res A -> fstate -> fstate -> Prop) (start : code A).
  Hypothesis stay : forall f ch, fok f -> careful_step ch f -> here f -> mine ch = false -> here (fstep ch f) /\ cur (fstep ch f) = cur f /\ f_conn (fstep ch f) = f_conn f.
  Hypothesis begins : forall f ch, here f -> mine ch = true -> cur f = None -> here (fstep ch f) /\ cur (fstep ch f) = Some start /\ f_conn (fstep ch f) = f_conn f.
  Hypothesis goes : forall f ch g k, here f -> mine ch = true -> cur f = Some (Act g k) -> here (fstep ch f) /\ cur (fstep ch f) = Some (k (f_conn f)) /\ f_conn (fstep ch f) = g (f_conn f).
  Hypothesis ends : forall f ch r, here f -> mine ch = true -> cur f = Some (Done r) -> over r f (fstep ch f) /\ f_conn (fstep ch f) = f_conn f.
  Definition done_by (y : res A * conn) (sched : list fchoice) (f : fstate) : Prop :=
    exists s1 ch s2, sched = s1 ++ ch :: s2 /\ mine ch = true /\ here (frun s1 f) /\ over (fst y) (frun s1 f) (frun (s1 ++ [ch]) f) /\ f_conn (frun (s1 ++ [ch]) f) = snd y.
  Lemma done_cons y ch sched f : done_by y sched (fstep ch f) -> done_by y (ch :: sched) f.
  Proof. intros (s1 & c & s2 & -> & M & H & O & E). exists (ch :: s1), c, s2. auto. Qed.
  Lemma alone_from sched : forall f p, fok f -> careful sched f -> here f -> cur f = Some p -> S (steps p (f_conn f)) <= times mine sched -> done_by (run p (f_conn f)) sched f.
  Proof using stay goes ends. clear begins start.
    induction sched as [|ch sched IH]; intros f p F C H Cu L; [cbn in L; lia|]. destruct C as [C1 C2]. pose proof (fok_step _ _ F C1) as F1. unfold times in L. cbn [filter] in L. destruct (mine ch) eqn:M.
    - destruct p as [r|g k].
      + exists [], ch, sched. cbn [app]. split; [reflexivity|]. split; [exact M|]. split; [exact H|]. exact (ends f ch r H M Cu).
      + destruct (goes f ch g k H M Cu) as (H1 & Cu1 & E1). apply done_cons. cbn [run]. rewrite <- E1. apply IH; auto. cbn [length steps] in L. rewrite E1. unfold times. lia.
    - destruct (stay f ch F C1 H M) as (H1 & Cu1 & E1). apply done_cons. rewrite <- E1. apply IH; auto; [congruence|]. rewrite E1. exact L.
  Qed.
  Lemma alone_to sched : forall f, fok f -> careful sched f -> here f -> cur f = None -> 2 + steps start (f_conn f) <= times mine sched -> done_by (run start (f_conn f)) sched f.
  Proof.
    induction sched as [|ch sched IH]; intros f F C H Cu L; [cbn in L; lia|]. destruct C as [C1 C2]. pose proof (fok_step _ _ F C1) as F1. unfold times in L. cbn [filter] in L. destruct (mine ch) eqn:M.
    - destruct (begins f ch H M Cu) as (H1 & Cu1 & E1). apply done_cons. rewrite <- E1. apply alone_from; auto. cbn [length] in L. rewrite E1. unfold times. lia.
    - destruct (stay f ch F C1 H M) as (H1 & Cu1 & E1). apply done_cons. rewrite <- E1. apply IH; auto; [congruence|]. rewrite E1. exact L.
  Qed.
End Isolated.

Theorem query_alone f i c it : fok f -> nth_error (a_threads (f_a f)) i = Some (T_query c it) -> f_asks f i = None ->
  exists k, forall sched, careful sched f -> k <= times (by_thread i) sched -> exists s1 b s2, sched = s1 ++ FThread i b :: s2 /\
    let f1 := frun s1 f in let f2 := frun (s1 ++ [FThread i b]) f in
    nth_error (a_threads (f_a f1)) i = Some (T_query c it) /\
    a_events (f_a f2) = a_events (f_a f1) ++ [AEv_query i c (fst (query c true (f_conn f)))] /\ f_conn f2 = snd (query c true (f_conn f)).
Proof.
  intros F P A. exists (2 + steps (f_query c true) (f_conn f)). intros sched C L.
  pose (here := fun f => nth_error (a_threads (f_a f)) i = Some (T_query c it)). pose (cur := fun f => f_asks f i).
  pose (over := fun (r : res response) f1 f2 => a_events (f_a f2) = a_events (f_a f1) ++ [AEv_query i c r]).
  assert (Mi : forall ch, by_thread i ch = true -> exists b, ch = FThread i b). { intros [|j b|low] M; try discriminate M. cbn in M. apply Nat.eqb_eq in M. subst j. eauto. }
  pose proof (query_agrees c true (f_conn f)) as Ag.
  destruct (alone_to (by_thread i) cur here over (f_query c true)) with (sched := sched) (f := f) as (s1 & ch & s2 & E & M & H & O & Co); try assumption.
  - intros g ch Fg Cg H M. exact (asking_stays g i c it ch Fg Cg H M).
  - intros g ch H M Cu. destruct (Mi _ M) as [b ->]. unfold here, cur in *. unfold fstep, f_thread. rewrite H, Cu. split; [exact H|]. split; [apply ask_same|reflexivity].
  - intros g ch g0 k H M Cu. destruct (Mi _ M) as [b ->]. unfold here, cur in *. unfold fstep, f_thread. rewrite H, Cu. split; [exact H|]. split; [apply ask_same|]. unfold put_ask, f_upd. cbn [f_a f_asks f_closes f_power f_powers]. apply conn_mk.
  - intros g ch r H M Cu. destruct (Mi _ M) as [b ->]. unfold here, cur, over in *. unfold fstep, f_thread. rewrite H, Cu. split; reflexivity.
  - destruct (Mi _ M) as [b ->]. exists s1, b, s2. split; [exact E|]. cbv zeta. split; [exact H|]. rewrite <- Ag. split; assumption.
Qed.
Theorem close_alone f : fok f -> a_pc (f_a f) = M_close2 -> f_closes f = None ->
  exists k, forall sched, careful sched f -> k <= times by_calls sched -> exists s1 s2, sched = s1 ++ FMain :: s2 /\
    let f1 := frun s1 f in let f2 := frun (s1 ++ [FMain]) f in
    a_events (f_a f2) = a_events (f_a f1) ++ [AEv_return (a_op (f_a f)) (match fst (obd_close (f_conn f)) with Ok _ => ODone | Raise e => ORaised e end)] /\ f_conn f2 = snd (obd_close (f_conn f)).
Proof.
  intros F P A. exists (2 + steps f_obd_close (f_conn f)). intros sched C L.
  pose (here := fun g => a_pc (f_a g) = M_close2 /\ a_op (f_a g) = a_op (f_a f) /\ f_power g = None).
  pose (over := fun (r : res unit) f1 f2 => a_events (f_a f2) = a_events (f_a f1) ++ [AEv_return (a_op (f_a f)) (match r with Ok _ => ODone | Raise e => ORaised e end)]).
  assert (Mi : forall ch, by_calls ch = true -> ch = FMain) by (intros [|j b|low] M; try discriminate M; reflexivity).
  pose proof (close_agrees (f_conn f)) as Ag.
  assert (Np : f_power f = None). { destruct F as ([s ps] & V & Ps & S). destruct S as [S|(low & p & Pc & NL & A' & Cl & Pw & E & Q)]; [exact (sim_power _ _ S)|]. cbn [fst] in *. rewrite E in P. cbn in P. congruence. }
  destruct (alone_to by_calls f_closes here over f_obd_close) with (sched := sched) (f := f) as (s1 & ch & s2 & E & M & H & O & Co); try assumption.
  - intros g ch Fg Cg (H1 & H2 & H3) M. destruct (closing_stays g ch Fg Cg H1 M) as (K1 & K2 & K3 & K4 & K5). unfold here. rewrite K4, K5. auto.
  - intros g ch (H1 & H2 & H3) M Cu. rewrite (Mi _ M). unfold fstep, f_main. rewrite H3, H1, Cu. split; [split; [exact H1|split; [exact H2|exact H3]]|split; reflexivity].
  - intros g ch g0 k (H1 & H2 & H3) M Cu. rewrite (Mi _ M). unfold fstep, f_main. rewrite H3, H1, Cu. split; [split; [exact H1|split; [exact H2|exact H3]]|split; [reflexivity|]]. unfold put_close, f_upd. cbn [f_a f_asks f_closes f_power f_powers]. apply conn_mk.
  - intros g ch r (H1 & H2 & H3) M Cu. rewrite (Mi _ M). unfold fstep, f_main, over. rewrite H3, H1, Cu. cbn [put_close f_upd f_a]. rewrite <- H2. split; reflexivity.
  - split; [exact P|split; [reflexivity|exact Np]].
  - rewrite (Mi _ M) in *. exists s1, s2. split; [exact E|]. cbv zeta. rewrite <- Ag. split; assumption.
Qed.
Theorem power_alone f low : fok f -> a_pc (f_a f) = M_idle -> f_power f = None -> (forall i, ~ in_loop (f_a f) i) ->
  exists k, forall sched, careful sched (fstep (FPower low) f) -> k <= times by_powers sched -> exists s1 lw s2, sched = s1 ++ FPower lw :: s2 /\
    let f2 := frun (FPower low :: s1 ++ [FPower lw]) f in
    f_powers f2 = f_powers f ++ [(low, fst (power low (f_conn f)))] /\ f_conn f2 = snd (power low (f_conn f)).
Proof.
  intros F P A NL. set (p0 := if low then f_obd_low_power else f_obd_normal_power). exists (1 + steps p0 (f_conn f)). intros sched C L.
  assert (E0 : fstep (FPower low) f = put_power (Some (low, p0)) f) by (unfold fstep, f_do_power; rewrite P, A; reflexivity).
  assert (F1 : fok (fstep (FPower low) f)) by (apply fok_step; [exact F|right; exact NL]).
  pose (here := fun g => exists p, f_power g = Some (low, p) /\ f_powers g = f_powers f). pose (cur := fun g => match f_power g with Some (_, p) => Some p | None => None end).
  pose (over := fun (r : res unit) (f1 f2 : fstate) => f_powers f2 = f_powers f ++ [(low, r)]).
  assert (Mi : forall ch, by_powers ch = true -> exists l, ch = FPower l) by (intros [|j b|l] M; try discriminate M; eauto).
  assert (Ag : run p0 (f_conn f) = power low (f_conn f)) by (unfold p0; destruct low; [apply low_agrees|apply normal_agrees]).
  assert (Idle : forall g, fok g -> f_power g <> None -> a_pc (f_a g) = M_idle).
  { intros g ([s ps] & V & Ps & [S|(lw & p & Pc & _ & _ & _ & Pw & E & Q)]) N; [pose proof (sim_power _ _ S); congruence|]. cbn [fst] in *. rewrite E. exact Pc. }
  pose (here' := fun g => here g /\ a_pc (f_a g) = M_idle).
  assert (Co0 : f_conn (fstep (FPower low) f) = f_conn f) by (rewrite E0; reflexivity).
  destruct (alone_from by_powers cur here' over) with (sched := sched) (f := fstep (FPower low) f) (p := p0) as (s1 & ch & s2 & E & M & H & O & Co); try assumption.
  - intros g ch Fg Cg ((p & Hp & Hs) & Hi) M. destruct (powering_stays g ch _ Fg Cg Hp M) as (K1 & K2 & K3). unfold here', here, cur. split.
    + split; [exists p; rewrite K2; auto|]. apply Idle; [apply fok_step; assumption|congruence].
    + rewrite K1, Hp. auto.
  - intros g ch g0 k ((p & Hp & Hs) & Hi) M Cu. destruct (Mi _ M) as [l ->]. unfold cur in *. rewrite Hp in Cu. injection Cu as ->. unfold fstep, f_do_power. rewrite Hi, Hp.
    split; [split; [exists (k (f_conn g)); split; [reflexivity|exact Hs]|exact Hi]|]. split; [reflexivity|]. unfold put_power, f_upd. cbn [f_a f_asks f_closes f_power f_powers]. apply conn_mk.
  - intros g ch r ((p & Hp & Hs) & Hi) M Cu. destruct (Mi _ M) as [l ->]. unfold cur in *. rewrite Hp in Cu. injection Cu as ->. unfold fstep, f_do_power. rewrite Hi, Hp. unfold over. cbn. rewrite Hs. split; reflexivity.
  - rewrite E0. split; [exists p0; split; reflexivity|exact P].
  - unfold cur. rewrite E0. reflexivity.
  - rewrite Co0. exact L.
  - destruct (Mi _ M) as [l ->]. exists s1, l, s2. split; [exact E|]. cbv zeta. rewrite Co0, Ag in O, Co. cbn [frun fold_left]. split; [exact O|exact Co].
Qed.

(* ---- every run with whole calls is one ---- *)
Lemma frun_cons ch l f : frun (ch :: l) f = frun l (fstep ch f). Proof. reflexivity. Qed.
Lemma ask_whole p : forall f i c it, nth_error (a_threads (f_a f)) i = Some (T_query c it) -> f_asks f i = Some p ->
  exists l, no_power l /\ let f' := frun l f in f_a f' = (let '(r, x) := run p (f_conn f) in set_tpc i (match r with Ok r => T_store c r it | Raise e => T_dead e end) (add_event (AEv_query i c r) (upd_obd x (f_a f)))) /\
    f_asks f' i = None /\ (forall j, j <> i -> f_asks f' j = f_asks f j) /\ f_closes f' = f_closes f /\ f_power f' = f_power f.
Proof.
  induction p as [r|g k IH]; intros f i c it P A.
  - exists [FThread i false]. split; [intros low [D|[]]; discriminate D|]. cbv zeta. rewrite frun_cons. cbn [frun fold_left run]. unfold fstep, f_thread. rewrite P, A. rewrite ask_same. split; [|split; [reflexivity|split; [intros j N; rewrite ask_other by exact N; reflexivity|split; reflexivity]]].
    cbn [put_ask f_upd f_a]. unfold f_conn. rewrite upd_own. reflexivity.
  - set (f1 := fstep (FThread i false) f). assert (E1 : f1 = put_ask i (Some (k (f_conn f))) (f_upd (upd_obd (g (f_conn f)) (f_a f)) f)) by (unfold f1, fstep, f_thread; rewrite P, A; reflexivity).
    assert (C1 : f_conn f1 = g (f_conn f)). { rewrite E1. unfold put_ask, f_upd. cbn [f_a f_asks f_closes f_power f_powers]. apply conn_mk. }
    assert (P1 : nth_error (a_threads (f_a f1)) i = Some (T_query c it)) by (rewrite E1; exact P). assert (A1 : f_asks f1 i = Some (k (f_conn f))) by (rewrite E1; apply ask_same).
    destruct (IH _ f1 i c it P1 A1) as (l & N & H1 & H2 & H3 & H4 & H5). exists (FThread i false :: l). split; [intros low [D|D]; [discriminate D|exact (N low D)]|]. cbv zeta. rewrite frun_cons. fold f1. cbn [run]. rewrite C1 in H1.
    split; [rewrite H1; destruct (run (k (f_conn f)) (g (f_conn f))) as [r x]; rewrite E1; cbn [put_ask f_upd f_a]; rewrite upd_twice; reflexivity|]. split; [exact H2|]. split; [intros j Nj; rewrite (H3 j Nj), E1; rewrite ask_other by exact Nj; reflexivity|].
    split; [rewrite H4, E1; reflexivity|rewrite H5, E1; reflexivity].
Qed.
Lemma close_whole p : forall f, a_pc (f_a f) = M_close2 -> f_closes f = Some p -> f_power f = None ->
  exists l, no_power l /\ let f' := frun l f in f_a f' = (let '(r, x) := run p (f_conn f) in finish (match r with Ok _ => ODone | Raise e => ORaised e end) (upd_obd x (f_a f))) /\
    f_closes f' = None /\ (forall j, f_asks f' j = f_asks f j) /\ f_power f' = None.
Proof.
  induction p as [r|g k IH]; intros f P A W.
  - exists [FMain]. split; [intros low [D|[]]; discriminate D|]. cbv zeta. rewrite frun_cons. cbn [frun fold_left run]. unfold fstep, f_main. rewrite W, P, A. split; [|split; [reflexivity|split; [reflexivity|exact W]]].
    cbn [put_close f_upd f_a]. unfold f_conn. rewrite upd_own. reflexivity.
  - set (f1 := fstep FMain f). assert (E1 : f1 = put_close (Some (k (f_conn f))) (f_upd (upd_obd (g (f_conn f)) (f_a f)) f)) by (unfold f1, fstep, f_main; rewrite W, P, A; reflexivity).
    assert (C1 : f_conn f1 = g (f_conn f)). { rewrite E1. unfold put_close, f_upd. cbn [f_a f_asks f_closes f_power f_powers]. apply conn_mk. }
    destruct (IH (f_conn f) f1) as (l & N & H1 & H2 & H3 & H4); [rewrite E1; exact P|rewrite E1; reflexivity|rewrite E1; exact W|]. exists (FMain :: l). split; [intros low [D|D]; [discriminate D|exact (N low D)]|]. cbv zeta. rewrite frun_cons. fold f1. cbn [run]. rewrite C1 in H1.
    split; [rewrite H1; destruct (run (k (f_conn f)) (g (f_conn f))) as [r x]; rewrite E1; cbn [put_close f_upd f_a]; rewrite upd_twice; reflexivity|]. split; [exact H2|]. split; [intros j; rewrite (H3 j), E1; reflexivity|exact H4].
Qed.
Lemma no_power_app a b : no_power a -> no_power b -> no_power (a ++ b).
Proof. intros A B low I. apply in_app_or in I as [I|I]; [exact (A low I)|exact (B low I)]. Qed.
Lemma whole_step ch f : at_rest f -> exists l, no_power l /\ at_rest (frun l f) /\ f_a (frun l f) = astep ch (f_a f).
Proof.
  intros (R1 & R2 & R3). destruct ch as [|i b].
  - assert (G : a_pc (f_a f) <> M_close2 -> exists l, no_power l /\ at_rest (frun l f) /\ f_a (frun l f) = astep CMain (f_a f)).
    { intros N. exists [FMain]. split; [intros low [D|[]]; discriminate D|]. rewrite frun_cons. cbn [frun fold_left]. unfold fstep, f_main, astep. rewrite R3.
      assert (X : at_rest (match option_map (fun a => f_upd a f) (main_step (f_a f)) with Some f' => f' | None => f end) /\ f_a (match option_map (fun a => f_upd a f) (main_step (f_a f)) with Some f' => f' | None => f end) = match main_step (f_a f) with Some s' => s' | None => f_a f end).
      { destruct (main_step (f_a f)); cbn [option_map]; (split; [split; [exact R1|split; [exact R2|exact R3]]|reflexivity]). }
      destruct (a_pc (f_a f)); try exact X. congruence. }
    destruct (a_pc (f_a f)) eqn:P; try (apply G; discriminate). clear G.
    set (f1 := fstep FMain f). assert (E1 : f1 = put_close (Some f_obd_close) f) by (unfold f1, fstep, f_main; rewrite R3, P, R2; reflexivity).
    destruct (close_whole f_obd_close f1) as (l & N & H1 & H2 & H3 & H4); [rewrite E1; exact P|rewrite E1; reflexivity|rewrite E1; exact R3|]. exists (FMain :: l). split; [intros low [D|D]; [discriminate D|exact (N low D)]|]. rewrite frun_cons. fold f1.
    split; [split; [intros i; rewrite H3, E1; apply R1|split; [exact H2|exact H4]]|]. rewrite H1, E1. unfold astep, main_step. rewrite P. rewrite (close_agrees (f_conn f) : run f_obd_close (f_conn (put_close (Some f_obd_close) f)) = obd_close (a_obd (f_a f), a_world (f_a f))). destruct (obd_close (a_obd (f_a f), a_world (f_a f))). reflexivity.
  - assert (G : (forall c it, nth_error (a_threads (f_a f)) i <> Some (T_query c it)) -> exists l, no_power l /\ at_rest (frun l f) /\ f_a (frun l f) = astep (CThread i b) (f_a f)).
    { intros N. exists [FThread i b]. split; [intros low [D|[]]; discriminate D|]. rewrite frun_cons. cbn [frun fold_left]. unfold fstep, f_thread, astep.
      assert (X : at_rest (match option_map (fun a => f_upd a f) (thread_step i b (f_a f)) with Some f' => f' | None => f end) /\ f_a (match option_map (fun a => f_upd a f) (thread_step i b (f_a f)) with Some f' => f' | None => f end) = match thread_step i b (f_a f) with Some s' => s' | None => f_a f end).
      { destruct (thread_step i b (f_a f)); cbn [option_map]; (split; [split; [exact R1|split; [exact R2|exact R3]]|reflexivity]). }
      destruct (nth_error (a_threads (f_a f)) i) as [q|] eqn:Pq; [|exact X]. destruct q; try exact X. exfalso. exact (N _ _ eq_refl). }
    destruct (nth_error (a_threads (f_a f)) i) as [q|] eqn:P; [|apply G; discriminate]. destruct q; try (apply G; discriminate). clear G.
    set (f1 := fstep (FThread i b) f). assert (E1 : f1 = put_ask i (Some (f_query c true)) f) by (unfold f1, fstep, f_thread; rewrite P, R1; reflexivity).
    destruct (ask_whole (f_query c true) f1 i c it) as (l & N & H1 & H2 & H3 & H4 & H5); [rewrite E1; exact P|rewrite E1; apply ask_same|]. exists (FThread i b :: l). split; [intros low [D|D]; [discriminate D|exact (N low D)]|]. rewrite frun_cons. fold f1.
    split; [split; [|split; [rewrite H4, E1; exact R2|rewrite H5, E1; exact R3]]|].
    + intros j. destruct (Nat.eq_dec j i) as [->|Nj]; [exact H2|]. rewrite (H3 j Nj), E1, ask_other by exact Nj. apply R1.
    + rewrite H1, E1. unfold astep, thread_step. rewrite P. rewrite (query_agrees c true (f_conn f) : run (f_query c true) (f_conn (put_ask i (Some (f_query c true)) f)) = query c true (a_obd (f_a f), a_world (f_a f))). destruct (query c true (a_obd (f_a f), a_world (f_a f))). reflexivity.
Qed.
Theorem every_run s0 l : exists sched, no_power sched /\ at_rest (frun sched (new_fine s0)) /\ f_a (frun sched (new_fine s0)) = arun l s0.
Proof.
  assert (K : forall l f, at_rest f -> exists sched, no_power sched /\ at_rest (frun sched f) /\ f_a (frun sched f) = arun l (f_a f)).
  { clear. induction l as [|ch l IH]; intros f R; [exists []; split; [intros low []|split; [exact R|reflexivity]]|].
    destruct (whole_step ch f R) as (s1 & N1 & R1 & E1). destruct (IH _ R1) as (s2 & N2 & R2 & E2). exists (s1 ++ s2). rewrite frun_app. split; [apply no_power_app; assumption|]. split; [exact R2|]. rewrite E2, E1. reflexivity. }
  destruct (K l (new_fine s0)) as (sched & H); [repeat split|]. exists sched. exact H.
Qed.
