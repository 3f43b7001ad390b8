(* The pace of the update loop. *)
From Coq Require Import ZArith List Bool Lia.
From Verif Require Import Py Num Utils Protocol Decoders Command CommandTable Commands World Elm Obd Async Async2 Timed SpecElm SpecObd SpecAsync SpecAsync2 SpecPorts SpecScan SpecTimed
  PyFacts CommandThms ElmFacts ElmThms ObdFacts ObdThms ObdThms2 ObdThms3 ObdThms4 AsyncFacts AsyncThms AsyncThms2 AsyncThms3 AsyncThms4 AsyncThms5 AsyncThms6 AsyncPorts AsyncHistory.
Import ListNotations.
Open Scope Z_scope.
Local Opaque watch_table unwatch_table obd_close query.

(* thread i may still ask c before it sleeps *)
Definition will (p : tpc) (c : command) : Prop :=
  match p with
  | T_new | T_while | T_len | T_for | T_sleep | T_idle => True
  | T_next it => In c (it_keys it)
  | T_conn c0 it | T_query c0 it => c = c0 \/ In c (it_keys it)
  | T_store _ _ it | T_cbs _ _ it | T_call _ _ _ it => In c (it_keys it)
  | _ => False
  end.
Definition over (p : tpc) : bool := match p with T_disc1 | T_disc2 | T_return | T_done => true | _ => false end.
Definition waits_ok (d : Z) (t : timed) : Prop := forall i, tm_wake t i <= tm_now t \/ pc_of (tm_s t) i = Some T_sleep /\ tm_wake t i <= tm_now t + d.
Definition past_ok (d : Z) (t : timed) : Prop := forall x i c r, In (x, AEv_query i c r) (tm_log t) -> x <= tm_now t /\ exists p, pc_of (tm_s t) i = Some p /\ p <> T_new
  /\ (x + d <= tm_wake t i \/ forall c', cmd_eqb c c' = true -> ~ will p c')
  /\ (over p = true -> x + d <= tm_now t \/ async_connected (tm_s t) = false).
Definition dead (s : astate) (i : nat) : Prop := ended_by_exception s i.
Definition pace_ok (d : Z) (t : timed) : Prop := forall a b x y i j c c', (a < b)%nat -> asked_at (tm_log t) a x i c -> asked_at (tm_log t) b y j c' -> cmd_eqb c c' = true ->
  x + d <= y \/ i <> j /\ dead (tm_s t) i.
Definition tinv (d : Z) (t : timed) : Prop := ainv (tm_s t) /\ waits_ok d t /\ past_ok d t /\ pace_ok d t.

Lemma skipn_new {A} (l n : list A) : skipn (length l) (l ++ n) = n.
Proof. rewrite skipn_app, skipn_all, Nat.sub_diag. reflexivity. Qed.
Lemma at_time_new now s s' n : a_events s' = a_events s ++ n -> at_time now s s' = map (fun e => (now, e)) n.
Proof. intros E. unfold at_time. rewrite E, skipn_new. reflexivity. Qed.
Lemma at_time_self now s : at_time now s s = [].
Proof. unfold at_time. rewrite skipn_all. reflexivity. Qed.
Lemma asked_old l n k x i c : asked_at (l ++ n) k x i c -> (k < length l)%nat -> asked_at l k x i c.
Proof. intros [r H] L. exists r. rewrite nth_error_app1 in H by exact L. exact H. Qed.
Lemma asked_in l k x i c : asked_at l k x i c -> exists r, In (x, AEv_query i c r) l /\ (k < length l)%nat.
Proof. intros [r H]. exists r. split; [exact (nth_error_In _ _ H)|]. apply nth_error_Some. rewrite H. discriminate. Qed.

(* time passes *)
Lemma pass_inv d dt t : 0 <= d -> tinv d t -> tinv d (mkT (tm_s t) (tm_now t + Z.max 0 dt) (tm_wake t) (tm_log t)).
Proof.
  intros D (V & W & P & Q). split; [exact V|]. split; [|split].
  - intros i. cbn. destruct (W i) as [X|[X Y]]; [left; lia|right; split; [exact X|lia]].
  - intros x i c r H. destruct (P x i c r H) as (L & p & A & B & C & E). cbn. split; [lia|]. exists p. split; [exact A|]. split; [exact B|]. split; [exact C|].
    intros O. destruct (E O) as [X|X]; [left; lia|right; exact X].
  - exact Q.
Qed.
Lemma main_connected s s1 : ainv s -> main_step s = Some s1 -> async_connected s1 = true -> async_connected s = true.
Proof.
  intros V M C. unfold async_connected in *. destruct (main_conn _ _ M) as [(E & _)|(_ & _ & E)].
  - unfold conn in E. injection E as E _. congruence.
  - unfold conn in E. destruct (obd_close (a_obd s, a_world s)) as [r [o w]] eqn:Cl. cbn [snd] in E. injection E as E _. rewrite E in C.
    exact (proj2 (close_status _ _ _ _ _ (I_oinv _ V) Cl) C).
Qed.
(* the user's thread *)
Lemma main_tinv d t : tinv d t -> tinv d (mkT (astep CMain (tm_s t)) (tm_now t) (tm_wake t) (tm_log t ++ at_time (tm_now t) (tm_s t) (astep CMain (tm_s t)))).
Proof.
  intros (V & W & P & Q). pose proof (astep_inv CMain _ V) as V1. unfold astep in *. destruct (main_step (tm_s t)) as [s1|] eqn:M.
  2:{ rewrite at_time_self, app_nil_r. split; [exact V|]. auto. }
  destruct (main_frame _ _ V M) as ((es & E & Nq) & K). rewrite (at_time_new _ _ _ _ E).
  assert (No : forall x i c r, ~ In (x, AEv_query i c r) (map (fun e => (tm_now t, e)) es)).
  { intros x i c r H. apply in_map_iff in H as (e & X & H). injection X as _ ->. pose proof (Nq i) as F. unfold done_by in F.
    assert (In (AEv_query i c r) (filter (by_thread i) es)) by (apply filter_In; split; [exact H|cbn; apply Nat.eqb_refl]). rewrite F in H0. exact H0. }
  split; [exact V1|]. split; [|split].
  - intros i. cbn. destruct (W i) as [X|[X Y]]; [left; exact X|right]. split; [|exact Y]. apply K; [exact X|discriminate].
  - intros x i c r H. cbn in H. apply in_app_or in H as [H|H]; [|destruct (No _ _ _ _ H)]. destruct (P x i c r H) as (L & p & A & B & C & F). cbn. split; [exact L|].
    exists p. split; [apply K; assumption|]. split; [exact B|]. split; [exact C|]. intros O. destruct (F O) as [X|X]; [left; exact X|right].
    destruct (async_connected s1) eqn:Y; [|reflexivity]. rewrite (main_connected _ _ V M Y) in X. discriminate X.
  - intros a b x y i j c c' Lt A B S. cbn in A, B. assert (Lb : (b < length (tm_log t))%nat).
    { destruct B as [r B]. destruct (Nat.lt_ge_cases b (length (tm_log t))) as [?|G]; [assumption|]. rewrite nth_error_app2 in B by exact G. destruct (No _ _ _ _ (nth_error_In _ _ B)). }
    destruct (Q a b x y i j c c' Lt) as [X|[X [e Y]]].
    + apply (asked_old _ _ _ _ _ _ A). lia.
    + apply (asked_old _ _ _ _ _ _ B Lb).
    + exact S.
    + left. exact X.
    + right. split; [exact X|]. exists e. apply K; [exact Y|discriminate].
Qed.
Lemma pc_set i p s j q : pc_of s i = Some q -> pc_of (set_tpc i p s) j = if Nat.eqb i j then Some p else pc_of s j.
Proof. intros H. unfold pc_of in *. cbn. rewrite AsyncFacts.nth_set, H. reflexivity. Qed.


Lemma suffix_distinct c l m : suffix_of (c :: l) m -> distinct m -> forall c', cmd_eqb c c' = true -> ~ In c' l.
Proof.
  intros [q ->] D c' E H. induction q as [|k q IH]; cbn in D; destruct D as [D1 D2]; [|exact (IH D2)]. rewrite (D1 _ H) in E. discriminate E.
Qed.
Lemma thread_connected i b s s1 : ainv s -> thread_step i b s = Some s1 -> async_connected s1 = true -> async_connected s = true.
Proof.
  intros V H C. unfold async_connected in *. destruct (thread_conn _ _ _ _ H) as (_ & _ & [E|(c & it & P & E)]).
  - unfold conn in E. injection E as E _. congruence.
  - unfold conn in E. destruct (query c true (a_obd s, a_world s)) as [r [o w]] eqn:Q. cbn [snd] in E. injection E as E _. rewrite E in C.
    exact (proj2 (query_status _ _ _ _ _ _ (I_oinv _ V) Q) C).
Qed.
Lemma thread_frame i b s s1 : ainv s -> thread_step i b s = Some s1 -> exists p p', pc_of s i = Some p /\ pc_of s1 i = Some p' /\ (p <> T_new /\ (forall e, p <> T_dead e) /\ p' <> T_new)
  /\ (forall j, j <> i -> pc_of s1 j = pc_of s j)
  /\ (forall c, will p' c -> will p c \/ p' = T_sleep)
  /\ (over p' = true -> over p = true \/ p = T_while \/ async_connected s = false)
  /\ ((exists es, a_events s1 = a_events s ++ es /\ forall j c r, ~ In (AEv_query j c r) es)
      \/ exists c it r, p = T_query c it /\ a_events s1 = a_events s ++ [AEv_query i c r] /\ async_connected s = true /\ over p' = false /\ forall c', cmd_eqb c c' = true -> ~ will p' c').
Proof.
  intros V H. destruct (thread_step_spec _ _ _ _ V H) as (p & P & U). exists p.
  assert (Go : forall p' s2, s1 = set_tpc i p' s2 -> a_threads s2 = a_threads s -> pc_of s1 i = Some p' /\ forall j, j <> i -> pc_of s1 j = pc_of s j).
  { intros p' s2 -> T. assert (P2 : pc_of s2 i = Some p) by (unfold pc_of in *; rewrite T; exact P). split; [rewrite (pc_set _ _ _ _ _ P2), Nat.eqb_refl; reflexivity|].
    intros j N. rewrite (pc_set _ _ _ _ _ P2). destruct (Nat.eqb_spec i j) as [->|]; [contradiction|]. unfold pc_of. rewrite T. reflexivity. }
  pose proof (I_ok _ V _ _ P) as Tk. pose proof (I_table _ V) as (Dk & _ & _). cbn [fst] in Dk.
  assert (Simple : forall p' s2, s1 = set_tpc i p' s2 -> a_threads s2 = a_threads s -> (exists es, a_events s2 = a_events s ++ es /\ forall j c r, ~ In (AEv_query j c r) es) -> p <> T_new /\ (forall e, p <> T_dead e) /\ p' <> T_new ->
    (forall c, will p' c -> will p c \/ p' = T_sleep) -> (over p' = true -> over p = true \/ p = T_while \/ async_connected s = false) -> exists p', pc_of s i = Some p /\ pc_of s1 i = Some p' /\ (p <> T_new /\ (forall e, p <> T_dead e) /\ p' <> T_new)
  /\ (forall j, j <> i -> pc_of s1 j = pc_of s j)
  /\ (forall c, will p' c -> will p c \/ p' = T_sleep)
  /\ (over p' = true -> over p = true \/ p = T_while \/ async_connected s = false)
  /\ ((exists es, a_events s1 = a_events s ++ es /\ forall j c r, ~ In (AEv_query j c r) es)
      \/ exists c it r, p = T_query c it /\ a_events s1 = a_events s ++ [AEv_query i c r] /\ async_connected s = true /\ over p' = false /\ forall c', cmd_eqb c c' = true -> ~ will p' c')).
  { intros p' s2 E T Ev N Wi Ov. exists p'. destruct (Go _ _ E T) as [A B]. split; [exact P|]. split; [exact A|]. split; [exact N|]. split; [exact B|]. split; [exact Wi|]. split; [exact Ov|].
    left. rewrite E. exact Ev. }
  assert (Nil : exists es : list aevent, a_events s = a_events s ++ es /\ forall j c r, ~ In (AEv_query j c r) es) by (exists []; split; [symmetry; apply app_nil_r|intros ? ? ? []]).
  clear H. destruct p; cbn [undisturbed_step] in U; try contradiction.
  - destruct (a_running s); (eapply Simple; [exact U|reflexivity|exact Nil|repeat split; discriminate|cbn; auto|cbn; auto]).
  - eapply Simple; [exact U|reflexivity|exact Nil|repeat split; discriminate|cbn; auto|cbn; auto].
  - eapply Simple; [exact U|reflexivity|exact Nil|repeat split; discriminate|cbn; auto|cbn; auto].
  - destruct (it_keys it) eqn:K; (eapply Simple; [exact U|reflexivity|exact Nil|repeat split; discriminate|cbn; rewrite K; cbn; auto|cbn; auto]). intros c' [->|X]; auto.
  - destruct (async_connected s) eqn:Co; (eapply Simple; [exact U|reflexivity|exact Nil|repeat split; discriminate|cbn; auto|cbn; auto]); tauto.
  - eapply Simple; [exact U|reflexivity|exact Nil|repeat split; discriminate|cbn; auto|cbn; auto].
  - eapply Simple; [exact U|reflexivity|exact Nil|repeat split; discriminate|cbn; auto|cbn; auto].
  - eapply Simple; [exact U|reflexivity|exact Nil|repeat split; discriminate|cbn; auto|cbn; auto].
  - destruct U as (r & ow & Q & E). destruct Tk as (_ & (_ & _ & Su) & Co).
    assert (Nw : forall p', p' = match r with Ok r => T_store c r it | Raise e => T_dead e end -> p' <> T_new /\ over p' = false /\ (forall c', will p' c' -> In c' (it_keys it))).
    { intros p' ->. destruct r; repeat split; try discriminate; cbn; tauto. }
    destruct (Nw _ eq_refl) as (N1 & N2 & N3). destruct (Go _ _ E eq_refl) as [A B]. eexists. split; [exact P|]. split; [exact A|]. split; [repeat split; [discriminate|discriminate|exact N1]|]. split; [exact B|].
    split; [intros c' X; left; right; apply N3, X|]. split; [rewrite N2; discriminate|]. right. exists c, it, r. split; [reflexivity|]. split; [rewrite E; reflexivity|]. split; [exact Co|]. split; [exact N2|].
    intros c' X Y. exact (suffix_distinct _ _ _ Su Dk _ X (N3 _ Y)).
  - eapply Simple; [exact U|reflexivity|exact Nil|repeat split; discriminate|cbn; auto|cbn; auto].
  - destruct U as (l & _ & U). eapply Simple; [exact U|reflexivity|exact Nil|repeat split; discriminate|cbn; auto|cbn; auto].
  - destruct cbs as [|f fs].
    + eapply Simple; [exact U|reflexivity|exact Nil|repeat split; discriminate|cbn; auto|cbn; auto].
    + assert (Ev : exists es : list aevent, a_events (add_event (AEv_fire i c f r) s) = a_events s ++ es /\ forall j c r, ~ In (AEv_query j c r) es) by (exists [AEv_fire i c f r]; split; [reflexivity|intros ? ? ? [X|[]]; discriminate X]).
      destruct b; (eapply Simple; [exact U|reflexivity|exact Ev|repeat split; discriminate|cbn; auto|cbn; auto; try discriminate]); tauto.
  - eapply Simple; [exact U|reflexivity|exact Nil|repeat split; discriminate|cbn; auto|cbn; auto].
Qed.
Lemma thread_tinv d i b t : 0 <= d -> tinv d t -> tm_wake t i <= tm_now t ->
  tinv d (mkT (astep (CThread i b) (tm_s t)) (tm_now t) (fun j => if Nat.eqb j i then tm_now t + thread_sleeps d i (astep (CThread i b) (tm_s t)) else tm_wake t j)
    (tm_log t ++ at_time (tm_now t) (tm_s t) (astep (CThread i b) (tm_s t)))).
Proof.
  intros D (V & W & P & Q) Aw. pose proof (astep_inv (CThread i b) _ V) as V1. unfold astep in *. destruct (thread_step i b (tm_s t)) as [s1|] eqn:M.
  2:{ rewrite at_time_self, app_nil_r. assert (Z0 : thread_sleeps d i (tm_s t) = 0).
      { unfold thread_sleeps. unfold thread_step in M. destruct (nth_error (a_threads (tm_s t)) i) as [p|]; [|reflexivity].
        destruct p; try discriminate M; try reflexivity. }
      rewrite Z0, Z.add_0_r. split; [exact V|]. split; [|split; [|exact Q]].
      - intros j. cbn. destruct (Nat.eqb_spec j i) as [->|N]; [left; lia|apply W].
      - intros x j c r H. destruct (P x j c r H) as (L & p & A & B & C & F). cbn. split; [exact L|]. exists p. split; [exact A|]. split; [exact B|]. split; [|exact F].
        destruct (Nat.eqb_spec j i) as [->|N]; [|exact C]. destruct C as [C|C]; [left; lia|right; exact C]. }
  destruct (thread_frame _ _ _ _ V M) as (p & p' & Pi & Pi1 & (N1 & N2 & N3) & Oth & Wi & Ov & Ev).
  assert (Sl : thread_sleeps d i s1 = Timed.sleeps d p') by (unfold thread_sleeps; unfold pc_of in Pi1; rewrite Pi1; reflexivity).
  assert (S0 : p' = T_sleep /\ Timed.sleeps d p' = d \/ p' <> T_sleep /\ Timed.sleeps d p' = 0).
  { pose proof (I_ok _ V1 _ _ Pi1) as T. destruct p'; cbn [Timed.sleeps]; auto; try (right; split; [discriminate|reflexivity]). destruct T. }
  rewrite Sl. assert (Cn : async_connected (tm_s t) = false -> async_connected s1 = false).
  { intros X. destruct (async_connected s1) eqn:Y; [|reflexivity]. rewrite (thread_connected _ _ _ _ V M Y) in X. discriminate X. }
  split; [exact V1|]. split; [|split].
  - intros j. cbn [tm_wake tm_now tm_s]. destruct (Nat.eqb_spec j i) as [->|N].
    + destruct S0 as [[E ->]|[_ ->]]; [right; split; [congruence|lia]|left; lia].
    + rewrite (Oth _ N). apply W.
  - assert (Old : forall x k c r, In (x, AEv_query k c r) (tm_log t) -> x <= tm_now t /\ exists q, pc_of s1 k = Some q /\ q <> T_new
      /\ (x + d <= (if Nat.eqb k i then tm_now t + Timed.sleeps d p' else tm_wake t k) \/ (forall c', cmd_eqb c c' = true -> ~ will q c'))
      /\ (over q = true -> x + d <= tm_now t \/ async_connected s1 = false)).
    { intros x k c r H. destruct (P x k c r H) as (L & q & A & B & C & F). split; [exact L|]. destruct (Nat.eqb_spec k i) as [->|N].
      - rewrite Pi in A. injection A as <-. exists p'. split; [exact Pi1|]. split; [exact N3|]. split.
        + destruct C as [C|C]; [left; destruct S0 as [[_ ->]|[_ ->]]; lia|]. destruct S0 as [[_ ->]|[S0 _]]; [left; lia|right]. intros c' E X. destruct (Wi _ X) as [Y|Y]; [exact (C _ E Y)|exact (S0 Y)].
        + intros O. destruct (Ov O) as [X|[->|X]]; [|left|right; auto].
          * destruct (F X) as [Y|Y]; auto.
          * destruct C as [C|C]; [lia|]. destruct (C c (cmd_eqb_refl c) Logic.I).
      - rewrite (Oth _ N). exists q. split; [exact A|]. split; [exact B|]. split; [exact C|]. intros O. destruct (F O) as [X|X]; auto. }
    intros x k c r H. cbn [tm_log tm_now tm_s tm_wake] in *. apply in_app_or in H as [H|H]; [exact (Old _ _ _ _ H)|].
    destruct Ev as [(es & E & No)|(c0 & it & r0 & Ep & E & Co & No & Nw)]; rewrite (at_time_new _ _ _ _ E) in H; apply in_map_iff in H as (e & X & H).
    + injection X as _ ->. destruct (No _ _ _ H).
    + injection X as <- ->. destruct H as [H|[]]. injection H as <- <- <-. split; [lia|]. exists p'. split; [exact Pi1|]. split; [exact N3|]. split; [right; exact Nw|rewrite No; discriminate].
  - intros a n x y k j c c' Lt A B S. cbn [tm_log tm_s] in *.
    assert (Dd : forall k, dead (tm_s t) k -> dead s1 k).
    { intros k0 [e X]. exists e. fold (pc_of s1 k0). fold (pc_of (tm_s t) k0) in X. destruct (Nat.eq_dec k0 i) as [->|N]; [|rewrite (Oth _ N); exact X]. rewrite Pi in X. injection X as ->. destruct (N2 e eq_refl). }
    destruct (Nat.lt_ge_cases n (length (tm_log t))) as [Ln|Ln].
    { destruct (Q a n x y k j c c' Lt) as [X|[X Y]]; [apply (asked_old _ _ _ _ _ _ A); lia|apply (asked_old _ _ _ _ _ _ B Ln)|exact S|left; exact X|right; auto]. }
    destruct B as [r B]. rewrite nth_error_app2 in B by exact Ln.
    destruct Ev as [(es & E & No)|(c0 & it & r0 & Ep & E & Co & No & Nw)]; rewrite (at_time_new _ _ _ _ E) in A, B.
    { apply nth_error_In, in_map_iff in B as (e & X & H). injection X as _ ->. destruct (No _ _ _ H). }
    cbn [map] in A, B. destruct (n - length (tm_log t))%nat as [|z] eqn:Zn; [|destruct z; discriminate B]. cbn in B. injection B as <- <- <- <-. subst p.
    assert (La : (a < length (tm_log t))%nat) by lia. apply asked_old in A; [|exact La]. destruct (asked_in _ _ _ _ _ A) as (ra & Ia & _).
    destruct (P _ _ _ _ Ia) as (L & q & Aq & Bq & C & F). destruct (Nat.eq_dec k i) as [->|N].
    + rewrite Pi in Aq. injection Aq as <-. destruct C as [C|C]; [left; lia|]. destruct (C c0 S). cbn. auto.
    + destruct (others_not_looping _ _ _ V Pi eq_refl _ _ Aq N) as [->|[->|[e ->]]].
      * destruct (F eq_refl) as [X|X]; [left; exact X|congruence].
      * destruct (F eq_refl) as [X|X]; [left; exact X|congruence].
      * right. split; [exact N|]. apply Dd. exists e. exact Aq.
Qed.
Lemma tstep_inv d m t : 0 <= d -> tinv d t -> tinv d (tstep d m t).
Proof.
  intros D I. destruct m as [dt ch]. unfold tstep. cbn [fst snd]. pose proof (pass_inv d dt t D I) as I1. set (t1 := mkT _ _ _ _) in I1. destruct ch as [|i b].
  - exact (main_tinv d t1 I1).
  - destruct (tm_now t + Z.max 0 dt <? tm_wake t i) eqn:E; [exact I1|]. apply (thread_tinv d i b t1 D I1). cbn. lia.
Qed.
Lemma trun_inv d sched : forall t, 0 <= d -> tinv d t -> tinv d (trun d sched t).
Proof. induction sched as [|m sched IH]; intros t D I; [exact I|]. apply IH; [exact D|apply tstep_inv; assumption]. Qed.
Lemma new_tinv d prog s0 t0 : created prog s0 -> 0 <= d -> tinv d (new_timed s0 t0).
Proof.
  intros C D. split; [apply reachable_inv; exists prog, s0, []; auto|]. split; [|split].
  - intros i. left. cbn. lia.
  - intros x i c r [].
  - intros a b x y i j c c' _ [r A]. cbn in A. destruct a; discriminate A.
Qed.
Lemma comes_inv d t : 0 <= d -> comes_to d t -> tinv d t.
Proof. intros D (prog & s0 & t0 & sched & C & ->). apply trun_inv; [exact D|]. apply (new_tinv d prog); assumption. Qed.

(* ---- with and without time ---- *)
Lemma tstep_untimed d m t : exists l, tm_s (tstep d m t) = arun l (tm_s t).
Proof.
  destruct m as [dt ch]. unfold tstep. cbn [fst snd]. destruct ch as [|i b]; [exists [CMain]; reflexivity|]. destruct (_ <? _); [exists []; reflexivity|exists [CThread i b]; reflexivity].
Qed.
Lemma trun_untimed d sched : forall t, exists l, tm_s (trun d sched t) = arun l (tm_s t).
Proof.
  induction sched as [|m sched IH]; intros t; [exists []; reflexivity|]. destruct (IH (tstep d m t)) as [l2 E2]. destruct (tstep_untimed d m t) as [l1 E1].
  exists (l1 ++ l2). rewrite arun_app, <- E1. exact E2.
Qed.
Lemma trun_app d a b t : trun d (a ++ b) t = trun d b (trun d a t).
Proof. unfold trun. apply fold_left_app. Qed.
Lemma timed_again d sched : forall t, 0 <= d -> tinv d t -> tm_s (trun d (map (fun ch => (d, ch)) sched) t) = arun sched (tm_s t).
Proof.
  induction sched as [|ch sched IH]; intros t D I; [reflexivity|]. cbn [map]. change (tm_s (trun d (map (fun ch => (d, ch)) sched) (tstep d (d, ch) t)) = arun sched (astep ch (tm_s t))).
  rewrite IH by (try apply tstep_inv; assumption). f_equal. unfold tstep. cbn [fst snd]. destruct ch as [|i b]; [reflexivity|].
  assert (E : (tm_now t + Z.max 0 d <? tm_wake t i) = false) by (destruct I as (_ & W & _); destruct (W i) as [X|[_ X]]; lia). rewrite E. reflexivity.
Qed.
(* the events, without their times *)
Lemma astep_events ch s : ainv s -> exists es, a_events (astep ch s) = a_events s ++ es.
Proof.
  intros V. unfold astep. destruct ch as [|i b].
  - destruct (main_step s) as [s1|] eqn:M; [|exists []; symmetry; apply app_nil_r]. destruct (main_frame _ _ V M) as ((es & E & _) & _). eauto.
  - destruct (thread_step i b s) as [s1|] eqn:M; [|exists []; symmetry; apply app_nil_r].
    destruct (thread_frame _ _ _ _ V M) as (p & p' & _ & _ & _ & _ & _ & _ & [(es & E & _)|(c & it & r & _ & E & _)]); eauto.
Qed.
Lemma tstep_log d m t : ainv (tm_s t) -> map snd (tm_log t) = a_events (tm_s t) -> map snd (tm_log (tstep d m t)) = a_events (tm_s (tstep d m t)).
Proof.
  intros V E. destruct m as [dt ch]. unfold tstep. cbn [fst snd].
  assert (G : forall now s', (exists es, a_events s' = a_events (tm_s t) ++ es) -> map snd (tm_log t ++ at_time now (tm_s t) s') = a_events s').
  { intros now s' [es H]. rewrite (at_time_new _ _ _ _ H), map_app, map_map, map_id, E, H. reflexivity. }
  destruct ch as [|i b]; [apply G, astep_events, V|]. destruct (_ <? _); [exact E|]. apply G, astep_events, V.
Qed.
Lemma tstep_later d m t : tm_now t <= tm_now (tstep d m t).
Proof. destruct m as [dt ch]. unfold tstep. cbn [fst snd]. destruct ch as [|i b]; [cbn; lia|]. destruct (_ <? _); cbn; lia. Qed.
Lemma trun_log d sched : forall t, 0 <= d -> tinv d t -> map snd (tm_log t) = a_events (tm_s t) -> map snd (tm_log (trun d sched t)) = a_events (tm_s (trun d sched t)).
Proof. induction sched as [|m sched IH]; intros t D I E; [exact E|]. apply IH; [exact D|apply tstep_inv; assumption|]. apply tstep_log; [apply I|exact E]. Qed.
Lemma rounds_always s i rest sched : reachable s -> a_events (astep CMain s) = a_events s ++ AEv_start i :: rest -> rounds i (subscriptions s) (arun sched (astep CMain s)).
Proof.
  intros Re H. destruct (reachable_inv _ Re) as [V _]. pose proof (astep_inv CMain s V) as V1. apply arun_rounds; [exact V1|].
  assert (G : a_pc s = M_start6 /\ a_thread s = Some i).
  { unfold astep in H. destruct (main_step s) as [s'|] eqn:M; [|rewrite <- (app_nil_r (a_events s)) in H at 1; apply app_inv_head in H; discriminate H].
    destruct (main_events _ _ M) as [E|[(out & E & _)|(k & out & Pc & Th & E & _)]]; rewrite E in H.
    - rewrite <- (app_nil_r (a_events s)) in H at 1. apply app_inv_head in H. discriminate H.
    - apply app_inv_head in H. discriminate H.
    - apply app_inv_head in H. injection H as -> _. auto. }
  destruct G as [G Th]. pose proof (I_main _ V) as Mn. unfold main_ok in Mn. rewrite G in Mn. destruct Mn as (Ne & _ & j & Th' & P). rewrite Th in Th'. injection Th' as <-.
  assert (X : astep CMain s = finish (match a_op s with AExit => OBool false | _ => ODone end) (add_event (AEv_start i) (set_tpc i T_while s))) by (unfold astep, main_step; rewrite G, Th; reflexivity).
  exists T_while, [], [], []. rewrite X. split; [unfold pc_of in *; cbn; rewrite AsyncFacts.nth_set, Nat.eqb_refl, P; reflexivity|]. split.
  - cbn [a_events finish upd_pc add_event set_tpc upd_threads]. rewrite !done_by_app. cbn. rewrite !app_nil_r.
    destruct (done_by i (a_events s)) as [|e l] eqn:D; [reflexivity|]. exfalso. assert (I : In e (done_by i (a_events s))) by (rewrite D; left; reflexivity). apply filter_In in I as [I B].
    destruct (reachable_started s Re i e I B) as (p & Pp & N). congruence.
  - split; [reflexivity|]. split; [|reflexivity]. split; [reflexivity|]. exists 0%nat. reflexivity.
Qed.
Lemma comes_reachable d t : comes_to d t -> reachable (tm_s t).
Proof. intros (prog & s0 & t0 & sched & C & ->). destruct (trun_untimed d sched (new_timed s0 t0)) as [l E]. exists prog, s0, l. auto. Qed.
Lemma comes_run d t sched : comes_to d t -> comes_to d (trun d sched t).
Proof. intros (prog & s0 & t0 & sc & C & ->). exists prog, s0, t0, (sc ++ sched). split; [exact C|]. symmetry. apply trun_app. Qed.
(* a sleeping thread has finished a round *)
Theorem sleeping_after_round d t dt sched i rest : 0 <= d -> comes_to d t -> a_events (astep CMain (tm_s t)) = a_events (tm_s t) ++ AEv_start i :: rest ->
  let t' := trun d ((dt, CMain) :: sched) t in sleeping t' i ->
  tm_wake t' i <= tm_now t' + d /\ exists answers q, turns i (subscriptions (tm_s t)) 0 answers (done_by i (a_events (tm_s t'))) /\ length answers = (q * length (subscriptions (tm_s t)))%nat.
Proof.
  intros D C St t' Sl. assert (I : tinv d t') by (apply comes_inv; [exact D|apply comes_run, C]). destruct I as (_ & W & _). unfold sleeping in Sl.
  destruct (W i) as [X|[Pc X]]; [lia|]. split; [exact X|].
  assert (E : tm_s (tstep d (dt, CMain) t) = astep CMain (tm_s t)) by reflexivity.
  destruct (trun_untimed d sched (tstep d (dt, CMain) t)) as [l El]. rewrite E in El. fold t' in El. change (trun d sched (tstep d (dt, CMain) t)) with t' in El.
  destruct (rounds_always _ _ _ l (comes_reachable _ _ C) St) as (p & answers & l1 & l2 & P & Ed & T & R & _). rewrite <- El in P, Ed. rewrite P in Pc. injection Pc as ->. cbn in R. destruct R as [-> [q Q]].
  rewrite app_nil_r in Ed. exists answers, q. rewrite Ed. split; [exact T|]. cbn in Q. lia.
Qed.
Theorem pace d t a b x y i j c c' : 0 <= d -> comes_to d t -> (a < b)%nat -> asked_at (tm_log t) a x i c -> asked_at (tm_log t) b y j c' -> same_cmd c c' ->
  x + d <= y \/ i <> j /\ ended_by_exception (tm_s t) i.
Proof. intros D C L A B S. destruct (comes_inv _ _ D C) as (_ & _ & _ & Q). apply (Q a b x y i j c c' L A B). apply cmd_eqb_same. exact S. Qed.
Theorem same_events d t : 0 <= d -> comes_to d t -> map snd (tm_log t) = a_events (tm_s t).
Proof.
  intros D (prog & s0 & t0 & sched & C & ->). apply trun_log; [exact D|apply (new_tinv d prog); assumption|]. destruct C as (cf & port & scan & w & o & w1 & _ & ->). reflexivity.
Qed.
(* the events are in the order of their times, and none is in the future *)
Definition ordered (t : timed) : Prop := forall l1 x e l2, tm_log t = l1 ++ (x, e) :: l2 -> x <= tm_now t /\ forall y f, In (y, f) l2 -> x <= y.
Lemma ordered_more (l n : list (Z * aevent)) now now' : (forall l1 x e l2, l = l1 ++ (x, e) :: l2 -> x <= now /\ forall y f, In (y, f) l2 -> x <= y) -> now <= now' -> Forall (fun m => fst m = now') n ->
  forall l1 x e l2, l ++ n = l1 ++ (x, e) :: l2 -> x <= now' /\ forall y f, In (y, f) l2 -> x <= y.
Proof.
  intros H Le F l1 x e l2 E. rewrite Forall_forall in F. apply app_eq_app in E as (k & [[-> E]|[-> E]]).
  - destruct k as [|m k].
    + cbn in E. subst n. assert (x = now') by (apply (F (x, e)); left; reflexivity). split; [lia|]. intros y f I. pose proof (F (y, f) (or_intror I)). cbn in *. lia.
    + injection E as <- ->. destruct (H l1 x e k eq_refl) as [A B]. split; [lia|]. intros y f I. apply in_app_or in I as [I|I]; [exact (B _ _ I)|]. pose proof (F _ I). cbn in *. lia.
  - assert (x = now'). { apply (F (x, e)). rewrite E. apply in_or_app. right. left. reflexivity. } split; [lia|]. intros y f I.
    assert (In (y, f) n) by (rewrite E; apply in_or_app; right; right; exact I). pose proof (F _ H1). cbn in *. lia.
Qed.
Lemma at_time_all now s s' : Forall (fun m => fst m = now) (at_time now s s').
Proof. unfold at_time. apply Forall_forall. intros m I. apply in_map_iff in I as (e & <- & _). reflexivity. Qed.
Lemma tstep_ordered d m t : ordered t -> ordered (tstep d m t).
Proof.
  intros O. destruct m as [dt ch]. unfold ordered, tstep. cbn [fst snd].
  assert (G : forall s', forall l1 x e l2, tm_log t ++ at_time (tm_now t + Z.max 0 dt) (tm_s t) s' = l1 ++ (x, e) :: l2 -> x <= tm_now t + Z.max 0 dt /\ forall y f, In (y, f) l2 -> x <= y).
  { intros s'. apply (ordered_more _ _ (tm_now t)); [exact O|lia|apply at_time_all]. }
  destruct ch as [|i b]; [apply G|]. destruct (_ <? _); [|apply G]. cbn [tm_log tm_now]. intros l1 x e l2 E. destruct (O _ _ _ _ E) as [A B]. split; [lia|exact B].
Qed.
Theorem in_order d t : comes_to d t -> ordered t.
Proof.
  intros (prog & s0 & t0 & sched & _ & ->). assert (G : forall t, ordered t -> ordered (trun d sched t)); [|apply G; intros l1 x e l2 E; destruct l1; discriminate E].
  induction sched as [|m sched IH]; intros t O; [exact O|]. apply IH, tstep_ordered, O.
Qed.
(* how often a command is asked *)
Lemma same_sym c c' : same_cmd c c' -> same_cmd c' c. Proof. unfold same_cmd. intros [-> ->]. auto. Qed.
Lemma same_trans a b c : same_cmd a b -> same_cmd b c -> same_cmd a c. Proof. unfold same_cmd. intros [-> ->] [-> ->]. auto. Qed.
Lemma asked_times_in c l ts : asked_times c l ts -> forall x, In x ts -> exists n i c', asked_at l n x i c' /\ same_cmd c c'.
Proof.
  intros H. induction H as [|x i c' r l ts S H IH|x e l ts N H IH]; intros y I.
  - destruct I.
  - destruct I as [->|I]; [exists 0%nat, i, c'; split; [exists r; reflexivity|exact S]|]. destruct (IH _ I) as (n & j & c2 & A & B). exists (Datatypes.S n), j, c2. auto.
  - destruct (IH _ I) as (n & j & c2 & A & B). exists (Datatypes.S n), j, c2. auto.
Qed.
Lemma last_default {A} (z : A) l a b : last (z :: l) a = last (z :: l) b.
Proof. revert z. induction l as [|y l IH]; intros z; [reflexivity|]. exact (IH y). Qed.
Definition apart (d : Z) (l : list (Z * aevent)) : Prop := forall a b x y i j c c', (a < b)%nat -> asked_at l a x i c -> asked_at l b y j c' -> same_cmd c c' -> x + d <= y.
Theorem how_often d c l ts : apart d l -> asked_times c l ts -> forall x ts' y, ts = x :: ts' -> last ts x = y -> Z.of_nat (length ts') * d <= y - x.
Proof.
  intros Ap H. induction H as [|x i c' r l ts Sm H IH|x e l ts N H IH]; intros x0 ts' y E L; [discriminate E| |].
  - injection E as <- <-. assert (Ap' : apart d l) by (intros a b u v k j c1 c2 Lt A B; apply (Ap (Datatypes.S a) (Datatypes.S b) u v k j c1 c2); [lia|exact A|exact B]).
    destruct ts as [|x1 ts1]; [cbn in *; lia|].
    assert (L' : last (x1 :: ts1) x1 = y). { rewrite <- L. change (last (x :: x1 :: ts1) x) with (last (x1 :: ts1) x). apply last_default. }
    pose proof (IH Ap' x1 ts1 y eq_refl L') as Q. destruct (asked_times_in _ _ _ H x1 (or_introl eq_refl)) as (n & j & c2 & A & B).
    assert (X : x + d <= x1). { apply (Ap 0%nat (Datatypes.S n) x x1 i j c' c2); [lia|exists r; reflexivity|exact A|]. apply (same_trans _ c); [apply same_sym, Sm|exact B]. }
    cbn [length]. lia.
  - assert (Ap' : apart d l) by (intros a b u v k j c1 c2 Lt A B; apply (Ap (Datatypes.S a) (Datatypes.S b) u v k j c1 c2); [lia|exact A|exact B]).
    exact (IH Ap' x0 ts' y E L).
Qed.
