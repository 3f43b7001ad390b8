(* Callbacks that make any calls: whose thread is whose, and what stop(), close() and paused() do in a callback. *)
From Coq Require Import ZArith List Bool Lia.
From Verif Require Import Py Num Utils Protocol Decoders Command CommandTable Commands World Elm Obd Async Async2 SpecElm SpecObd SpecAsync SpecAsync2
  PyFacts CommandThms ElmFacts ElmThms ObdFacts ObdThms ObdThms2 ObdThms3 ObdThms4 AsyncFacts AsyncThms AsyncThms2 AsyncCb.
Import ListNotations.
Open Scope nat_scope.
Local Opaque watch_table unwatch_table.

Definition main_fine (s : astate) : Prop :=
  match a_pc s with
  | M_start4 | M_start5 => a_thread s = None
  | M_start6 => exists i, a_thread s = Some i /\ pc_of s i = Some T_new
  | M_stop4 i _ => (a_thread s = Some i \/ a_thread s = None) /\ exists p, pc_of s i = Some p /\ p <> T_new
  | M_stop5 _ => forall i p, pc_of s i = Some p -> looping p = false
  | _ => True
  end.
(* where a callback of thread i can be *)
Definition calm (i : nat) (pc : mpc) (op : aop) (s : astate) : Prop :=
  match pc with
  | M_start4 | M_start5 | M_start6 | M_stop5 _ | M_close2 => False
  | M_idle => True
  | M_enter1 | M_stop1 _ | M_stop2 _ => waits op
  | M_stop3 _ => waits op /\ a_running s = false
  | M_stop4 j _ => waits op /\ a_running s = false /\ j = i
  | _ => ~ waits op
  end.
Record jinv (s : bstate) : Prop := {
  J_one : forall i p, pc_of (b_a s) i = Some p -> looping p = true -> a_thread (b_a s) = Some i;
  J_new : forall i, pc_of (b_a s) i = Some T_new -> a_pc (b_a s) = M_start6 /\ a_thread (b_a s) = Some i;
  J_thread : forall i, a_thread (b_a s) = Some i -> exists p, pc_of (b_a s) i = Some p;
  J_main : main_fine (b_a s);
  J_in : forall i pc op, b_in s i = Some (pc, op) -> (exists c r fs it, pc_of (b_a s) i = Some (T_call c r fs it)) /\ calm i pc op (b_a s);
  J_log : forall i o out, In (i, o, out) (b_log s) -> waits o -> out = ORaised RuntimeError }.

Ltac fin := unfold pc_of, main_fine, calm in *; cbn [b_a b_in b_log] in *.
(* the user's thread *)
Lemma j_main s s1 : jinv s -> main_step (b_a s) = Some s1 -> jinv (mkB s1 (b_in s) (b_log s)).
Proof.
  intros [A B C D E F] H. destruct s as [a fin log]. cbn [b_a b_in b_log] in *.
  (* steps that keep the threads and __thread *)
  assert (G : forall a', a_thread a' = a_thread a -> a_threads a' = a_threads a -> (a_running a' = a_running a \/ a_running a' = false) -> a_pc a <> M_start6 -> main_fine a' -> jinv (mkB a' fin log)).
  { intros a' Et Eh Er N Mf. constructor; cbn [b_a b_in b_log].
    - intros i p P L. unfold pc_of in *. rewrite Eh in P. rewrite Et. exact (A _ _ P L).
    - intros i P. unfold pc_of in P. rewrite Eh in P. destruct (B _ P) as [X _]. contradiction.
    - intros i P. rewrite Et in P. unfold pc_of. rewrite Eh. exact (C _ P).
    - exact Mf.
    - intros i pc op P. destruct (E _ _ _ P) as [E1 E2]. unfold pc_of in *. rewrite Eh. split; [exact E1|]. unfold calm in *. destruct Er as [->| ->]; [exact E2|]. destruct pc; tauto.
    - exact F. }
  unfold main_step in H. unfold main_fine in D. destruct (a_pc a) eqn:Pc.
  - destruct (a_prog a) as [|o l]; [discriminate H|]. injection H as <-.
    destruct o; cbn zeta; cbn [a_running upd_prog]; try (apply G; try reflexivity; auto; try congruence; exact Logic.I); destruct (a_running a) eqn:R; (apply G; try reflexivity; auto; try congruence; exact Logic.I).
  - destruct (negb (async_connected a)); injection H as <-; (apply G; try reflexivity; auto; try congruence; exact Logic.I).
  - destruct (nonempty (a_cmds a)); injection H as <-; (apply G; try reflexivity; auto; try congruence; exact Logic.I).
  - destruct (a_thread a) eqn:T; injection H as <-; (apply G; try reflexivity; auto; try congruence; try exact Logic.I).
  - injection H as <-. assert (NL : forall i p, pc_of a i = Some p -> looping p = false) by (intros i p P; destruct (looping p) eqn:L; [pose proof (A _ _ P L); congruence|reflexivity]).
    constructor; cbn [b_a b_in b_log a_thread upd_pc upd_running a_pc]; try assumption.
    + intros i P. destruct (B _ P) as [X _]. congruence.
    + intros i pc op P. destruct (E _ _ _ P) as [(c & r & fs & it & X) _]. apply NL in X. discriminate X.
  - injection H as <-. assert (NL : forall i p, pc_of a i = Some p -> looping p = false) by (intros i p P; destruct (looping p) eqn:L; [pose proof (A _ _ P L); congruence|reflexivity]).
    assert (P1 : forall j, nth_error (a_threads a ++ [T_new]) j = if Nat.eqb j (length (a_threads a)) then Some T_new else pc_of a j) by (intros j; apply nth_app_new).
    constructor; cbn [b_a b_in b_log a_thread upd_pc upd_thread upd_threads a_threads a_pc]; unfold pc_of; cbn [a_threads upd_pc upd_thread upd_threads].
    + intros i p P L. rewrite P1 in P. destruct (Nat.eqb i (length (a_threads a))); [injection P as <-; discriminate L|]. rewrite (NL _ _ P) in L. discriminate L.
    + intros i P. rewrite P1 in P. destruct (Nat.eqb_spec i (length (a_threads a))) as [El|]; [rewrite El; auto|]. destruct (B _ P) as [X _]. congruence.
    + intros i P. injection P as <-. rewrite P1, Nat.eqb_refl. eauto.
    + unfold main_fine, pc_of. cbn. eexists. split; [reflexivity|]. rewrite P1, Nat.eqb_refl. reflexivity.
    + intros i pc op P. destruct (E _ _ _ P) as [(c & r & fs & it & X) _]. apply NL in X. discriminate X.
    + exact F.
  - destruct D as (i & T & P). rewrite T in H. injection H as <-.
    assert (P1 : forall j, nth_error (set_nth i T_while (a_threads a)) j = if Nat.eqb i j then Some T_while else pc_of a j) by (intros j; unfold pc_of in P; rewrite nth_set, P; reflexivity).
    constructor; cbn [b_a b_in b_log a_thread finish upd_pc add_event set_tpc upd_threads a_threads a_pc]; unfold pc_of; cbn [a_threads finish upd_pc add_event set_tpc upd_threads].
    + intros j p Q L. rewrite P1 in Q. destruct (Nat.eqb_spec i j) as [->|]; [exact T|]. exact (A _ _ Q L).
    + intros j Q. rewrite P1 in Q. destruct (Nat.eqb_spec i j); [discriminate Q|]. destruct (B _ Q) as [_ X]. congruence.
    + intros j Q. rewrite P1. destruct (Nat.eqb_spec i j); [eauto|]. exact (C _ Q).
    + exact Logic.I.
    + intros j pc op Q. destruct (E _ _ _ Q) as [(c & r & fs & it & X) _]. pose proof (A _ _ X eq_refl). assert (j = i) by congruence. subst j. congruence.
    + exact F.
  - destruct (a_thread a) eqn:T; [|destruct k]; injection H as <-; (apply G; try reflexivity; auto; try congruence; try exact Logic.I).
  - injection H as <-. (apply G; try reflexivity; auto; try congruence; exact Logic.I).
  - destruct (a_thread a) as [i|] eqn:T; injection H as <-; (apply G; try reflexivity; auto; try congruence; try exact Logic.I).
    unfold main_fine, pc_of. cbn. rewrite T. split; [auto|]. destruct (C _ eq_refl) as (p & P). exists p. split; [exact P|]. intros ->. destruct (B _ P). congruence.
  - destruct (ended id a) eqn:En; [|discriminate H]. injection H as <-. destruct D as (D1 & _). apply G; try reflexivity; auto; try congruence.
    unfold main_fine, pc_of. cbn. intros j p P. destruct (looping p) eqn:L; [|reflexivity]. pose proof (A _ _ P L) as T. destruct D1 as [D1|D1]; [|congruence].
    assert (j = id) by congruence. subst j. unfold ended in En. rewrite P in En. destruct p; discriminate.
  - assert (NI : forall i pc op, fin i = Some (pc, op) -> False) by (intros i pc op P; destruct (E _ _ _ P) as [(c & r & fs & it & X) _]; apply D in X; discriminate X).
    assert (K : forall a', a_threads a' = a_threads a -> a_thread a' = None -> match a_pc a' with M_idle | M_close2 => True | _ => False end -> jinv (mkB a' fin log)).
    { intros a' Eh T Px. constructor; cbn [b_a b_in b_log].
      - intros i p P L. unfold pc_of in P. rewrite Eh in P. rewrite (D _ _ P) in L. discriminate L.
      - intros i P. unfold pc_of in P. rewrite Eh in P. destruct (B _ P) as [X _]. congruence.
      - intros i P. congruence.
      - unfold main_fine. destruct (a_pc a'); try contradiction; exact Logic.I.
      - intros i pc op P. destruct (NI _ _ _ P).
      - exact F. }
    destruct k; injection H as <-; apply K; try reflexivity; exact Logic.I.
  - injection H as <-. (apply G; try reflexivity; auto; try congruence; exact Logic.I).
  - destruct (a_running a) eqn:R; injection H as <-; (apply G; try reflexivity; auto; try congruence; try exact Logic.I).
  - destruct (a_was_running a); injection H as <-; (apply G; try reflexivity; auto; try congruence; exact Logic.I).
  - destruct (obd_close (a_obd a, a_world a)) as [q ow]. injection H as <-. (apply G; try reflexivity; auto; try congruence; exact Logic.I).
  - injection H as <-. destruct (if force then Ok true else test_cmd (a_obd a) c) as [[]|e]; [destruct (watch_table c cb (a_cmds a, a_cbs a))|..]; (apply G; try reflexivity; auto; try congruence; exact Logic.I).
  - injection H as <-. destruct (unwatch_table c cb (a_cmds a, a_cbs a)); (apply G; try reflexivity; auto; try congruence; exact Logic.I).
  - injection H as <-. (apply G; try reflexivity; auto; try congruence; exact Logic.I).
Qed.

(* an update thread that is not in a callback *)
Lemma j_thread s i s1 : jinv s -> b_in s i = None -> thread_step i false (b_a s) = Some s1 ->
  let entered := match nth_error (a_threads (b_a s)) i with Some (T_call _ _ (_ :: _) _) => true | _ => false end in
  jinv (mkB s1 (if entered then put i (Some (M_idle, AStop)) (b_in s) else b_in s) (b_log s)).
Proof.
  intros [A B C D E F] Nn H entered. destruct s as [a fin log]. cbn [b_a b_in b_log] in *.
  destruct (nth_error (a_threads a) i) as [p|] eqn:P; [|unfold thread_step in H; rewrite P in H; discriminate H].
  assert (Lp : looping p = true \/ p = T_return).
  { unfold thread_step in H. rewrite P in H. destruct p; try discriminate H; auto. }
  (* a step from p to q that keeps __thread and running *)
  assert (G : forall a' q fin', a_threads a' = set_nth i q (a_threads a) -> (a_thread a' = a_thread a \/ a_thread a' = None) -> (a_running a' = a_running a \/ a_running a' = false) -> a_pc a' = a_pc a ->
    (looping q = true -> a_thread a' = Some i) -> (p <> T_return -> q <> T_new) -> (p = T_return -> a_thread a' = a_thread a /\ q = T_done) ->
    (forall j pc op, fin' j = Some (pc, op) -> fin j = Some (pc, op) \/ j = i /\ pc = M_idle /\ exists c r fs it, q = T_call c r fs it) -> jinv (mkB a' fin' log)).
  { intros a' q fin' Eh Et Er Ep Lq Nq Rt Ef.
    assert (P1 : forall j, pc_of a' j = if Nat.eqb i j then Some q else pc_of a j) by (intros j; unfold pc_of; rewrite Eh, nth_set, P; reflexivity).
    assert (Th : looping p = true -> a_thread a = Some i) by exact (A _ _ P).
    constructor; cbn [b_a b_in b_log].
    - intros j x Q L. rewrite P1 in Q. destruct (Nat.eqb_spec i j) as [<-|N]; [injection Q as <-; exact (Lq L)|].
      pose proof (A _ _ Q L) as T. destruct Lp as [Lp|Lp]; [rewrite (Th Lp) in T; congruence|]. rewrite (proj1 (Rt Lp)). exact T.
    - intros j Q. rewrite P1 in Q. rewrite Ep. destruct (Nat.eqb_spec i j) as [Eij|N].
      + injection Q as Eq. subst q. destruct Lp as [Lp|Lp]; [elim (Nq ltac:(intros ->; discriminate Lp)); reflexivity|]. destruct (Rt Lp). discriminate.
      + destruct (B _ Q) as [X T]. split; [exact X|]. destruct Lp as [Lp|Lp]; [rewrite (Th Lp) in T; congruence|]. rewrite (proj1 (Rt Lp)). exact T.
    - intros j T. rewrite P1. destruct (Nat.eqb_spec i j); [eauto|]. apply C. destruct Et as [Et|Et]; congruence.
    - unfold main_fine in *. rewrite Ep. destruct (a_pc a) eqn:Pc; trivial.
      + destruct Et as [-> | ->]; auto.
      + destruct Et as [-> | ->]; auto.
      + destruct D as (j & T & Q). destruct (Nat.eqb_spec i j) as [<-|N].
        * unfold pc_of in Q. rewrite P in Q. injection Q as ->. destruct Lp; discriminate.
        * destruct Lp as [Lp|Lp]; [rewrite (Th Lp) in T; congruence|]. exists j. rewrite (proj1 (Rt Lp)), P1. destruct (Nat.eqb_spec i j); [contradiction|]. auto.
      + destruct D as (D1 & x & Q & Nx). split; [destruct Et as [-> | ->]; auto|]. rewrite P1. destruct (Nat.eqb_spec i id); [|eauto]. subst id. exists q. split; [reflexivity|].
        destruct Lp as [Lp|Lp]; [apply Nq; intros ->; discriminate Lp|]. destruct (Rt Lp) as [_ ->]. discriminate.
      + intros j x Q. rewrite P1 in Q. destruct (Nat.eqb_spec i j) as [<-|N]; [|exact (D _ _ Q)]. injection Q as <-. destruct Lp as [Lp|Lp]; [rewrite (D _ _ P) in Lp; discriminate Lp|]. destruct (Rt Lp) as [_ ->]. reflexivity.
    - intros j pc op Q. destruct (Ef _ _ _ Q) as [Q'|(-> & -> & X)].
      + destruct (E _ _ _ Q') as [(c & r & fs & it & E1) E2]. rewrite P1. destruct (Nat.eqb_spec i j) as [<-|N]; [congruence|]. split; [eauto 6|].
        unfold calm in *. destruct Er as [-> | ->]; [exact E2|]. destruct pc; tauto.
      + rewrite P1, Nat.eqb_refl. destruct X as (c & r & fs & it & ->). split; [eauto 6|]. exact Logic.I.
    - exact F. }
  assert (Id : forall q j pc op, fin j = Some (pc, op) -> fin j = Some (pc, op) \/ j = i /\ pc = M_idle /\ exists c r fs it, q = T_call c r fs it) by (intros; left; assumption).
  assert (Th : looping p = true -> a_thread a = Some i) by exact (A _ _ P).
  unfold thread_step in H. rewrite P in H. subst entered.
  destruct p as [| | | |it|c it| | | |c it|c r it|c r it|c r [|f fs] it| | | |]; try discriminate H; cbv zeta; try injection H as <-;
    try (eapply G; [reflexivity|left; reflexivity|left; reflexivity|reflexivity|intros _; apply Th; reflexivity|try discriminate|try discriminate|apply Id]; fail).
  - destruct (a_running a) eqn:R; (eapply G; [reflexivity|left; reflexivity|left; exact R|reflexivity|intros _; apply Th; reflexivity|discriminate|discriminate|apply Id]).
  - destruct (nonempty (a_cmds a)); (eapply G; [reflexivity|left; reflexivity|left; reflexivity|reflexivity|intros _; apply Th; reflexivity|discriminate|discriminate|apply Id]).
  - destruct (Nat.eqb (it_gen it) (a_gen a) && negb (Nat.eqb (it_size it) (length (a_cmds a)))); [|destruct (it_keys it)];
      (eapply G; [reflexivity|left; reflexivity|left; reflexivity|reflexivity|intros _; apply Th; reflexivity|discriminate|discriminate|apply Id]).
  - destruct (async_connected a); (eapply G; [reflexivity|left; reflexivity|left; reflexivity|reflexivity|intros _; apply Th; reflexivity|discriminate|discriminate|apply Id]).
  - eapply G; [reflexivity|left; reflexivity|right; reflexivity|reflexivity|intros _; apply Th; reflexivity|discriminate|discriminate|apply Id].
  - eapply G; [reflexivity|right; reflexivity|left; reflexivity|reflexivity|discriminate|discriminate|discriminate|apply Id].
  - eapply G; [reflexivity|left; reflexivity|left; reflexivity|reflexivity|discriminate|discriminate|intros _; split; reflexivity|apply Id].
  - destruct (query c true (a_obd a, a_world a)) as [[r|e] ow]; injection H as <-; (eapply G; [reflexivity|left; reflexivity|left; reflexivity|reflexivity|intros _; apply Th; reflexivity|discriminate|discriminate|apply Id]).
  - destruct (dget (a_cbs a) c); (eapply G; [reflexivity|left; reflexivity|left; reflexivity|reflexivity|intros _; apply Th; reflexivity|discriminate|discriminate|apply Id]).
  - eapply G; [reflexivity|left; reflexivity|left; reflexivity|reflexivity|intros _; apply Th; reflexivity|discriminate|discriminate|].
    intros j pc op Q. apply put_cases in Q as [[<- Q]|[N Q]]; [injection Q as <- <-; right; eauto 9|left; exact Q].
Qed.

(* a callback's call *)
Lemma j_call s i pc op prog s' : jinv s -> (exists c r fs it, pc_of (b_a s) i = Some (T_call c r fs it)) -> calm i pc op (b_a s) -> (pc = M_idle -> exists o, prog = [o]) -> (exists x, b_in s i = Some x) -> cb_step i pc op prog s = Some s' ->
  jinv s' /\ a_threads (b_a s') = a_threads (b_a s) /\ a_thread (b_a s') = a_thread (b_a s) /\ a_obd (b_a s') = a_obd (b_a s) /\ a_world (b_a s') = a_world (b_a s)
  /\ (a_running (b_a s') = a_running (b_a s) \/ a_running (b_a s') = false) /\ a_events (b_a s') = a_events (b_a s).
Proof.
  intros [A B C D E F] (c & r & fs & it & P) Ca Pr [x0 X0] H. destruct s as [a fin log]. cbn [b_a b_in b_log] in *.
  pose proof (A _ _ P eq_refl) as Th.
  assert (G : forall a' pc' op' new, a_threads a' = a_threads a -> a_thread a' = a_thread a -> (a_running a' = a_running a \/ a_running a' = false) -> a_pc a' = a_pc a ->
    calm i pc' op' a' -> (forall j o out, In (j, o, out) new -> waits o -> out = ORaised RuntimeError) -> jinv (mkB a' (put i (Some (pc', op')) fin) (log ++ new))).
  { intros a' pc' op' new Eh Et Er Ep Cl Nw. constructor; cbn [b_a b_in b_log]; unfold pc_of, main_fine in *.
    - rewrite Eh, Et. exact A.
    - rewrite Eh, Et, Ep. exact B.
    - rewrite Eh, Et. exact C.
    - rewrite Ep. destruct (a_pc a); rewrite ?Et; unfold pc_of in *; rewrite ?Eh; exact D.
    - intros j pc2 op2 Q. rewrite Eh. apply put_cases in Q as [[<- Q]|[N Q]].
      + injection Q as <- <-. split; [eauto 6|exact Cl].
      + destruct (E _ _ _ Q) as [E1 E2]. split; [exact E1|]. unfold calm in *. destruct Er as [-> | ->]; [exact E2|]. destruct pc2; tauto.
    - intros j o out Q W. apply in_app_or in Q as [Q|Q]; [exact (F _ _ _ Q W)|exact (Nw _ _ _ Q W)]. }
  (* what comes back from a step that ends in finish, or goes on *)
  assert (Gf : forall a1 a' o out, a' = finish out a1 -> a_threads a1 = a_threads a -> a_thread a1 = a_thread a -> a_obd a1 = a_obd a -> a_world a1 = a_world a -> (a_running a1 = a_running a \/ a_running a1 = false) -> a_events a1 = a_events a -> a_op a1 = o ->
     ~ waits o -> let s1 := mkB (give_back a a') (put i (Some (a_pc a', a_op a')) fin) (log ++ came i a a') in
     jinv s1 /\ a_threads (b_a s1) = a_threads a /\ a_thread (b_a s1) = a_thread a /\ a_obd (b_a s1) = a_obd a /\ a_world (b_a s1) = a_world a /\ (a_running (b_a s1) = a_running a \/ a_running (b_a s1) = false) /\ a_events (b_a s1) = a_events a).
  { intros a1 a' o out -> E1 E2 E3 E4 E5 E6 E7 W. cbv zeta. split.
    - apply G; cbn; auto. unfold came. cbn. rewrite E6, skipn_exact. cbn. intros j o' out' [Q|[]] W'. injection Q as <- <- <-. rewrite E7 in W'. contradiction.
    - cbn. rewrite E6, skipn_exact. cbn. rewrite app_nil_r. auto 9. }
  assert (Gn : forall a', a_threads a' = a_threads a -> a_thread a' = a_thread a -> a_obd a' = a_obd a -> a_world a' = a_world a -> (a_running a' = a_running a \/ a_running a' = false) -> a_events a' = a_events a ->
     calm i (a_pc a') (a_op a') a' -> let s1 := mkB (give_back a a') (put i (Some (a_pc a', a_op a')) fin) (log ++ came i a a') in
     jinv s1 /\ a_threads (b_a s1) = a_threads a /\ a_thread (b_a s1) = a_thread a /\ a_obd (b_a s1) = a_obd a /\ a_world (b_a s1) = a_world a /\ (a_running (b_a s1) = a_running a \/ a_running (b_a s1) = false) /\ a_events (b_a s1) = a_events a).
  { intros a' E1 E2 E3 E4 E5 E6 Cl. cbv zeta. split.
    - apply G; cbn; auto. unfold came. rewrite E6, skipn_self. intros j o' out' [].
    - cbn. rewrite E6, skipn_self. cbn. rewrite app_nil_r. auto 9. }
  unfold cb_step in H. cbn [b_a b_in b_log] in H.
  destruct pc; cbn [calm] in Ca; try contradiction; unfold main_step, lend in H; cbn [a_pc upd_pc upd_prog a_prog] in H;
    try (injection H as <-; fold (lend M_idle AStop prog a)).
  - destruct (Pr eq_refl) as (o & ->). injection H as <-. destruct o; cbn zeta; cbn [a_running upd_prog upd_pc];
      try (apply Gn; try reflexivity; auto; cbn; tauto);
      try (destruct (a_running a) eqn:R; [eapply Gf; try reflexivity; auto; cbn; tauto|apply Gn; try reflexivity; auto; cbn; tauto]).
    eapply Gf; try reflexivity; auto; cbn; tauto.
  - unfold async_connected. cbn [a_obd upd_pc upd_prog]. destruct (negb (is_connected (a_obd a))); [eapply Gf; try reflexivity; auto|apply Gn; try reflexivity; auto].
  - cbn [a_cmds upd_pc upd_prog]. destruct (nonempty (a_cmds a)); [apply Gn; try reflexivity; auto|eapply Gf; try reflexivity; auto].
  - cbn [a_thread upd_pc upd_prog] in *. rewrite Th in *. eapply Gf; try reflexivity; auto.
  - cbn [a_thread upd_pc upd_prog] in *. rewrite Th in *. apply Gn; try reflexivity; auto.
  - apply Gn; try reflexivity; auto. cbn. auto.
  - cbn [a_thread upd_pc upd_prog] in *. rewrite Th in *. apply Gn; try reflexivity; auto. cbn. destruct Ca. auto.
  - destruct Ca as (Ca1 & Ca2 & ->). rewrite Nat.eqb_refl in H. injection H as <-. split; [|cbn; auto 9].
    apply G; auto; try exact Logic.I. intros j o out [Q|[]] W. injection Q as <- <- <-. reflexivity.
  - apply Gn; try reflexivity; auto.
  - cbn [a_running upd_pc upd_prog]. destruct (a_running a) eqn:R; [eapply Gf; try reflexivity; auto|apply Gn; try reflexivity; auto].
  - cbn [a_was_running upd_pc upd_prog]. destruct (a_was_running a); [apply Gn; try reflexivity; auto|eapply Gf; try reflexivity; auto].
  - cbn [a_obd a_cmds a_cbs upd_pc upd_prog]. destruct (if force then Ok true else test_cmd (a_obd a) c0) as [[]|e]; [destruct (watch_table c0 cb (a_cmds a, a_cbs a))|..]; (eapply Gf; try reflexivity; auto).
  - cbn [a_obd a_cmds a_cbs upd_pc upd_prog]. destruct (unwatch_table c0 cb (a_cmds a, a_cbs a)); (eapply Gf; try reflexivity; auto).
  - eapply Gf; try reflexivity; auto.
Qed.

Lemma cb_frame s i pc op : jinv s -> b_in s i = Some (pc, op) -> (exists c r fs it, pc_of (b_a s) i = Some (T_call c r fs it)) /\ calm i pc op (b_a s).
Proof. intros J H. exact (J_in _ J _ _ _ H). Qed.
Lemma j_kill s i pc op : jinv s -> b_in s i = Some (pc, op) -> jinv (mkB (set_tpc i (T_dead CustomError) (b_a s)) (put i None (b_in s)) (b_log s)).
Proof.
  intros J H. destruct (J_in _ J _ _ _ H) as [(c & r & fs & it & P) _]. destruct J as [A B C D E F]. destruct s as [a fin log]. cbn [b_a b_in b_log] in *.
  assert (P1 : forall j, pc_of (set_tpc i (T_dead CustomError) a) j = if Nat.eqb i j then Some (T_dead CustomError) else pc_of a j) by (intros j; unfold pc_of in *; cbn; rewrite nth_set, P; reflexivity).
  pose proof (A _ _ P eq_refl) as Th.
  constructor; cbn [b_a b_in b_log]; cbn [a_thread set_tpc upd_threads a_pc].
  - intros j p Q L. rewrite P1 in Q. destruct (Nat.eqb_spec i j); [injection Q as <-; discriminate L|exact (A _ _ Q L)].
  - intros j Q. rewrite P1 in Q. destruct (Nat.eqb_spec i j); [discriminate Q|exact (B _ Q)].
  - intros j Q. rewrite P1. destruct (Nat.eqb_spec i j); [eauto|exact (C _ Q)].
  - unfold main_fine in *. cbn [a_pc set_tpc upd_threads a_thread]. destruct (a_pc a); trivial.
    + destruct D as (j & T & Q). congruence.
    + destruct D as (D1 & p & Q & N). split; [exact D1|]. rewrite P1. destruct (Nat.eqb_spec i id); [exists (T_dead CustomError); split; [reflexivity|discriminate]|eauto].
    + intros j p Q. rewrite P1 in Q. destruct (Nat.eqb_spec i j); [injection Q as <-; reflexivity|exact (D _ _ Q)].
  - intros j pc2 op2 Q. apply put_cases in Q as [[<- Q]|[N Q]]; [discriminate Q|]. destruct (E _ _ _ Q) as [(c2 & r2 & fs2 & it2 & E1) E2].
    pose proof (A _ _ E1 eq_refl). congruence.
  - exact F.
Qed.
Lemma j_return s i : jinv s -> jinv (mkB (b_a s) (put i None (b_in s)) (b_log s)).
Proof.
  intros [A B C D E F]. constructor; cbn [b_a b_in b_log]; try assumption. intros j pc op Q. apply put_cases in Q as [[<- Q]|[N Q]]; [discriminate Q|exact (E _ _ _ Q)].
Qed.
Theorem j_step s ch : jinv s -> jinv (bstep ch s).
Proof.
  intros J. unfold bstep. destruct ch as [|i|i d].
  - destruct (main_step (b_a s)) as [s1|] eqn:H; [exact (j_main _ _ J H)|exact J].
  - unfold loop_step. destruct (b_in s i) as [[pc op]|] eqn:E.
    + destruct (cb_frame _ _ _ _ J E) as [P Ca].
      assert (X : forall o, (forall s', o = Some s' -> jinv s') -> jinv (match o with Some s' => s' | None => s end)) by (intros [s'|] Y; [exact (Y _ eq_refl)|exact J]).
      destruct pc; try exact J; apply X; intros s' C; (eapply j_call; [exact J|exact P|exact Ca|discriminate|eauto|exact C]).
    + destruct (thread_step i false (b_a s)) as [s1|] eqn:H; [|exact J]. exact (j_thread _ _ _ J E H).
  - unfold cb_does. destruct (b_in s i) as [[pc op]|] eqn:E; [|exact J]. destruct (cb_frame _ _ _ _ J E) as [P Ca]. destruct pc; try exact J. destruct d as [o| |].
    + destruct (cb_step i M_idle AStop [o] s) as [s'|] eqn:C; [|exact J]. eapply (j_call s i M_idle AStop [o]); [exact J|exact P|exact Logic.I|eauto|eauto|exact C].
    + apply j_return, J.
    + exact (j_kill _ _ _ _ J E).
Qed.
Theorem j_run sched : forall s, jinv s -> jinv (brun sched s).
Proof. induction sched as [|ch l IH]; intros s J; [exact J|]. cbn. apply IH, j_step, J. Qed.
Lemma j_start s : ainv s -> (forall i, nth_error (a_threads s) i = None) -> a_pc s = M_idle -> a_thread s = None -> jinv (new_b s).
Proof.
  intros V N P T. constructor; cbn [b_a b_in b_log new_b].
  - intros i p Q. unfold pc_of in Q. rewrite N in Q. discriminate Q.
  - intros i Q. unfold pc_of in Q. rewrite N in Q. discriminate Q.
  - intros i Q. congruence.
  - unfold main_fine. rewrite P. exact Logic.I.
  - discriminate.
  - contradiction.
Qed.
Theorem b_reachable_inv s : b_reachable s -> jinv s.
Proof.
  intros (prog & s0 & sched & (cf & port & scan & w & o & w1 & _ & ->) & ->). apply j_run.
  constructor; cbn [b_a b_in b_log new_b new_async a_thread a_pc].
  - intros i p Q. destruct i; discriminate Q.
  - intros i Q. destruct i; discriminate Q.
  - discriminate.
  - exact Logic.I.
  - discriminate.
  - contradiction.
Qed.

(* the calls of others leave thread i's callback alone *)
Lemma others_leave s ch i x : b_in s i = Some x -> (match ch with BMain => True | BThread j => j <> i | BDoes j _ => j <> i end) -> b_in (bstep ch s) i = Some x.
Proof.
  intros H N. unfold bstep. destruct ch as [|j|j d].
  - destruct (main_step (b_a s)); exact H.
  - unfold loop_step. assert (K : forall pc op prog, b_in (match cb_step j pc op prog s with Some s' => s' | None => s end) i = Some x).
    { intros pc op prog. unfold cb_step. destruct (match pc with M_stop4 _ _ => _ | _ => _ end); [cbn [b_in]; rewrite put_other by exact N; exact H|].
      destruct (main_step _); [cbn [b_in]; rewrite put_other by exact N|]; exact H. }
    destruct (b_in s j) as [[pc op]|].
    + destruct pc; try exact H; apply K.
    + destruct (thread_step j false (b_a s)); [|exact H]. cbn [b_in]. destruct (match nth_error _ _ with Some _ => _ | None => _ end); [rewrite put_other by exact N|]; exact H.
  - unfold cb_does. assert (K : forall pc op prog, b_in (match cb_step j pc op prog s with Some s' => s' | None => s end) i = Some x).
    { intros pc op prog. unfold cb_step. destruct (match pc with M_stop4 _ _ => _ | _ => _ end); [cbn [b_in]; rewrite put_other by exact N; exact H|].
      destruct (main_step _); [cbn [b_in]; rewrite put_other by exact N|]; exact H. }
    destruct (b_in s j) as [[pc op]|]; [|exact H]. destruct pc; try exact H. destruct d; [apply K| |]; cbn [b_in]; rewrite put_other by exact N; exact H.
Qed.
(* the log only grows *)
Lemma log_grows s ch : exists new, b_log (bstep ch s) = b_log s ++ new.
Proof.
  assert (Id : exists new, b_log s = b_log s ++ new) by (exists []; rewrite app_nil_r; reflexivity).
  assert (K : forall i pc op prog, exists new, b_log (match cb_step i pc op prog s with Some s' => s' | None => s end) = b_log s ++ new).
  { intros i pc op prog. unfold cb_step. destruct (match pc with M_stop4 _ _ => _ | _ => _ end); [eexists; reflexivity|]. destruct (main_step _); [eexists; reflexivity|exact Id]. }
  unfold bstep. destruct ch as [|i|i d].
  - destruct (main_step (b_a s)); exact Id.
  - unfold loop_step. destruct (b_in s i) as [[pc op]|]; [destruct pc; try exact Id; apply K|]. destruct (thread_step i false (b_a s)); exact Id.
  - unfold cb_does. destruct (b_in s i) as [[pc op]|]; [|exact Id]. destruct pc; try exact Id. destruct d; [apply K|exact Id|exact Id].
Qed.
Lemma log_grows_run sched : forall s, exists new, b_log (brun sched s) = b_log s ++ new.
Proof.
  induction sched as [|ch l IH]; intros s; [exists []; rewrite app_nil_r; reflexivity|]. cbn [brun fold_left]. fold (brun l (bstep ch s)). destruct (IH (bstep ch s)) as [n1 ->]. destruct (log_grows s ch) as [n2 ->].
  exists (n2 ++ n1). rewrite app_assoc. reflexivity.
Qed.

(* how many more steps until the join *)
Definition to_join (pc : mpc) : nat := match pc with M_enter1 => 5 | M_stop1 _ => 4 | M_stop2 _ => 3 | M_stop3 _ => 2 | M_stop4 _ _ => 1 | _ => 0 end.
Lemma waiting_step s i pc op : jinv s -> b_in s i = Some (pc, op) -> 1 <= to_join pc ->
  (exists pc', b_in (bstep (BThread i) s) i = Some (pc', op) /\ to_join pc' = to_join pc - 1 /\ 1 <= to_join pc' /\ b_log (bstep (BThread i) s) = b_log s) \/
  (to_join pc = 1 /\ b_log (bstep (BThread i) s) = b_log s ++ [(i, op, ORaised RuntimeError)]).
Proof.
  intros J H L. destruct (cb_frame _ _ _ _ J H) as [(c & r & fs & it & P) Ca]. pose proof (J_one _ J _ _ P eq_refl) as Th.
  unfold bstep, loop_step. rewrite H. destruct pc; cbn in L; try lia; unfold cb_step, main_step, lend; cbn [a_pc upd_pc upd_prog a_thread b_log b_in].
  - rewrite Th. left. cbn [b_in b_log]. rewrite put_same. cbn. eexists. split; [reflexivity|]. unfold came. cbn. rewrite skipn_self, app_nil_r. auto.
  - left. cbn [b_in b_log]. rewrite put_same. cbn. eexists. split; [reflexivity|]. unfold came. cbn. rewrite skipn_self, app_nil_r. auto.
  - rewrite Th. left. cbn [b_in b_log]. rewrite put_same. cbn. eexists. split; [reflexivity|]. unfold came. cbn. rewrite skipn_self, app_nil_r. auto.
  - cbn [calm] in Ca. destruct Ca as (_ & _ & ->). rewrite Nat.eqb_refl. right. auto.
  - left. cbn [b_in b_log]. rewrite put_same. cbn. eexists. split; [reflexivity|]. unfold came. cbn. rewrite skipn_self, app_nil_r. auto 6 with arith.
Qed.
Theorem waiting_comes_back sched : forall s i pc op, jinv s -> b_in s i = Some (pc, op) -> 1 <= to_join pc -> to_join pc <= b_steps i sched ->
  exists new, b_log (brun sched s) = b_log s ++ new /\ In (i, op, ORaised RuntimeError) new.
Proof.
  induction sched as [|ch l IH]; intros s i pc op J H L E; [cbn in E; lia|]. cbn [brun fold_left]. fold (brun l (bstep ch s)).
  assert (K : forall s', jinv s' -> b_in s' i = Some (pc, op) -> to_join pc <= b_steps i l -> (exists n, b_log s' = b_log s ++ n) -> exists new, b_log (brun l s') = b_log s ++ new /\ In (i, op, ORaised RuntimeError) new).
  { intros s' J' H' E' [n En]. destruct (IH s' i pc op J' H' L E') as (new & E1 & E2). exists (n ++ new). rewrite E1, En, app_assoc. split; [reflexivity|]. apply in_or_app. auto. }
  unfold b_steps in E. cbn [filter] in E. destruct ch as [|j|j d].
  - apply K; [apply j_step, J|apply others_leave; [exact H|exact Logic.I]|exact E|apply log_grows].
  - destruct (Nat.eqb_spec i j) as [Eij|N].
    + subst j. cbn [length] in E. destruct (waiting_step s i pc op J H L) as [(pc' & H' & D & L' & Lg)|[D Lg]].
      * destruct (IH (bstep (BThread i) s) i pc' op (j_step _ _ J) H' L' ltac:(unfold b_steps; lia)) as (new & E1 & E2). exists new. rewrite E1, Lg. auto.
      * destruct (log_grows_run l (bstep (BThread i) s)) as [n En]. rewrite En, Lg. exists ((i, op, ORaised RuntimeError) :: n). rewrite <- app_assoc. split; [reflexivity|left; reflexivity].
    + apply K; [apply j_step, J|apply others_leave; [exact H|congruence]|exact E|apply log_grows].
  - destruct (Nat.eq_dec j i) as [->|N]; [|apply K; [apply j_step, J|apply others_leave; [exact H|exact N]|exact E|apply log_grows]].
    assert (Es : bstep (BDoes i d) s = s) by (unfold bstep, cb_does; rewrite H; destruct pc; cbn in L; try lia; reflexivity). rewrite Es.
    apply K; [exact J|exact H|exact E|exists []; rewrite app_nil_r; reflexivity].
Qed.
Theorem wait_call s i o sched : b_reachable s -> free s i -> waits o -> 5 <= b_steps i sched ->
  exists new, b_log (brun (BDoes i (Calls o) :: sched) s) = b_log s ++ new /\ In (i, o, ORaised RuntimeError) new.
Proof.
  intros R [x H] W L. apply b_reachable_inv in R. cbn [brun fold_left]. fold (brun sched (bstep (BDoes i (Calls o)) s)).
  assert (K : exists pc, b_in (bstep (BDoes i (Calls o)) s) i = Some (pc, o) /\ 1 <= to_join pc <= 5 /\ b_log (bstep (BDoes i (Calls o)) s) = b_log s).
  { unfold bstep, cb_does. rewrite H. unfold cb_step, main_step, lend; cbn [a_pc upd_pc upd_prog a_thread b_log b_in a_prog].
    destruct o; try contradiction W; cbn [b_in b_log]; rewrite put_same; unfold came; cbn; rewrite skipn_self, app_nil_r; eexists; (split; [reflexivity|]); cbn; auto with arith. }
  destruct K as (pc & H' & L' & Lg). destruct (waiting_comes_back sched _ i pc o (j_step _ _ R) H' ltac:(lia) ltac:(lia)) as (new & E1 & E2). exists new. rewrite E1, Lg. auto.
Qed.
