(* After stop() in a callback: the loop is not running, and ends with its round. *)
From Coq Require Import ZArith List Bool Lia.
From Verif Require Import Py Num Utils Protocol Decoders Command CommandTable Commands World Elm Obd Async Async2 SpecElm SpecObd SpecAsync SpecAsync2
  PyFacts CommandThms ElmFacts ElmThms ObdFacts ObdThms ObdThms2 ObdThms3 ObdThms4 AsyncFacts AsyncThms AsyncThms2 AsyncCb AsyncCb2.
Import ListNotations.
Open Scope nat_scope.
Local Opaque watch_table unwatch_table.

Lemma asked_app i l m : asked i (l ++ m) = asked i l + asked i m.
Proof. unfold asked. rewrite filter_app, app_length. reflexivity. Qed.
Lemma asked_one i e : asked i [e] = match e with AEv_query j _ _ => if Nat.eqb i j then 1 else 0 | _ => 0 end.
Proof. unfold asked. cbn. destruct e; try reflexivity. destruct (Nat.eqb i t); reflexivity. Qed.

(* what a step of the user's thread does to thread i, to running and to the queries made *)
Lemma main_effect s s1 i p : jinv s -> main_step (b_a s) = Some s1 -> pc_of (b_a s) i = Some p -> p <> T_new ->
  pc_of s1 i = Some p /\ (looping p = true -> a_running s1 = a_running (b_a s) \/ a_running s1 = false) /\ asked i (a_events s1) = asked i (a_events (b_a s)).
Proof.
  intros J H P N. destruct s as [a fin log]. cbn [b_a] in *. pose proof (J_main _ J) as D. pose proof (J_one _ J _ _ P) as Th. cbn [b_a] in *. unfold main_fine in D.
  assert (G : forall a' new, a_threads a' = a_threads a -> (a_running a' = a_running a \/ a_running a' = false) -> a_events a' = a_events a ++ new -> asked i new = 0 ->
    pc_of a' i = Some p /\ (looping p = true -> a_running a' = a_running a \/ a_running a' = false) /\ asked i (a_events a') = asked i (a_events a)).
  { intros a' new Eh Er Ee A0. unfold pc_of in *. rewrite Eh, Ee, asked_app, A0. split; [exact P|]. split; [auto|lia]. }
  assert (Nil : forall (a' : astate), a_events a' = a_events a -> a_events a' = a_events a ++ []) by (intros a' ->; rewrite app_nil_r; reflexivity).
  Ltac go G Nil := first [eapply G; [reflexivity|auto|apply Nil; reflexivity|reflexivity] | eapply G; [reflexivity|auto|reflexivity|reflexivity]].
  unfold main_step in H. destruct (a_pc a) eqn:Pc.
  - destruct (a_prog a) as [|o l]; [discriminate H|]. injection H as <-. destruct o; cbn zeta; cbn [a_running upd_prog]; try (go G Nil); destruct (a_running a) eqn:R; go G Nil.
  - destruct (negb (async_connected a)); injection H as <-; go G Nil.
  - destruct (nonempty (a_cmds a)); injection H as <-; go G Nil.
  - destruct (a_thread a) eqn:T; injection H as <-; go G Nil.
  - injection H as <-. unfold pc_of in *. cbn. split; [exact P|]. split; [|reflexivity]. intros L. specialize (Th L). congruence.
  - injection H as <-. unfold pc_of in *. cbn. rewrite nth_error_app1 by (apply nth_error_Some; congruence). split; [exact P|]. split; [auto|reflexivity].
  - destruct D as (j & T & Q). rewrite T in H. injection H as <-. unfold pc_of in *. proj. rewrite nth_set. destruct (Nat.eqb_spec j i); [congruence|]. split; [exact P|]. split; [auto|].
    rewrite !asked_app, !asked_one. lia.
  - destruct (a_thread a) eqn:T; [|destruct k]; injection H as <-; go G Nil.
  - injection H as <-. go G Nil.
  - destruct (a_thread a) as [j|] eqn:T; injection H as <-; go G Nil.
  - destruct (ended id a) eqn:En; [|discriminate H]. injection H as <-. go G Nil.
  - destruct k; injection H as <-; go G Nil.
  - injection H as <-. go G Nil.
  - destruct (a_running a) eqn:R; injection H as <-; go G Nil.
  - destruct (a_was_running a); injection H as <-; go G Nil.
  - destruct (obd_close (a_obd a, a_world a)) as [q ow]. injection H as <-. go G Nil.
  - injection H as <-. destruct (if force then Ok true else test_cmd (a_obd a) c) as [[]|e]; [destruct (watch_table c cb (a_cmds a, a_cbs a))|..]; go G Nil.
  - injection H as <-. destruct (unwatch_table c cb (a_cmds a, a_cbs a)); go G Nil.
  - injection H as <-. go G Nil.
Qed.
(* ... and a step of another update thread *)
Lemma other_effect j b s s1 i : j <> i -> thread_step j b s = Some s1 ->
  pc_of s1 i = pc_of s i /\ (a_running s1 = a_running s \/ a_running s1 = false) /\ asked i (a_events s1) = asked i (a_events s).
Proof.
  intros N H. split; [exact (thread_keeps_other _ _ _ _ _ N H)|]. unfold thread_step in H.
  destruct (nth_error (a_threads s) j) as [p|]; [|discriminate H].
  destruct p; try discriminate H; try (injection H as <-; cbn; auto; fail).
  - injection H as <-. destruct (Nat.eqb _ _ && _); [cbn; auto|]. destruct (it_keys it); cbn; auto.
  - destruct (query c true (a_obd s, a_world s)) as [q ow]. injection H as <-. proj. rewrite asked_app, asked_one. destruct (Nat.eqb_spec i j); [congruence|]. auto.
  - destruct cbs as [|f fs]; injection H as <-; proj; [auto|]. rewrite asked_app, asked_one. auto.
Qed.

(* commands that thread i has still to ask before it looks at running again *)
Definition remaining (p : tpc) : option nat :=
  match p with
  | T_next it | T_store _ _ it | T_cbs _ _ it | T_call _ _ _ it => Some (length (it_keys it))
  | T_conn _ it | T_query _ it => Some (S (length (it_keys it)))
  | T_sleep | T_idle | T_while | T_disc1 | T_disc2 | T_return | T_done | T_dead _ => Some 0
  | T_new | T_len | T_for => None
  end.
Definition winding (i k : nat) (s : astate) : Prop :=
  exists p n, pc_of s i = Some p /\ remaining p = Some n /\ (looping p = true -> a_running s = false) /\ asked i (a_events s) + n <= k.
(* its own step *)
Lemma own_effect b s s1 i p : (p = T_while -> a_running s = false) -> thread_step i b s = Some s1 -> pc_of s i = Some p -> forall n, remaining p = Some n ->
  exists q m, pc_of s1 i = Some q /\ remaining q = Some m /\ (a_running s1 = a_running s \/ a_running s1 = false) /\ asked i (a_events s1) + m <= asked i (a_events s) + n.
Proof.
  intros R H P n E. unfold thread_step in H. unfold pc_of in *. rewrite P in H.
  assert (C : forall q x, a_threads x = a_threads s -> nth_error (a_threads (set_tpc i q x)) i = Some q).
  { intros q x Ex. cbn. rewrite Ex, nth_set, Nat.eqb_refl, P. reflexivity. }
  destruct p as [| | | |it|c it| | | |c it|c r it|c r it|c r [|f fs] it| | | |]; try discriminate H; try discriminate E; cbn in E; injection E as <-;
    try (injection H as <-; eexists; eexists; split; [apply C; reflexivity|]; split; [reflexivity|]; split; [cbn; auto|proj; cbn [it_keys length]; lia]).
  - rewrite (R eq_refl) in H. injection H as <-. eexists; eexists; split; [apply C; reflexivity|]; split; [reflexivity|]; split; [cbn; auto|proj; cbn [it_keys length]; lia].
  - injection H as <-. destruct (Nat.eqb _ _ && _); [|destruct (it_keys it)]; (eexists; eexists; split; [apply C; reflexivity|]; split; [reflexivity|]; split; [cbn; auto|proj; cbn [it_keys length]; lia]).
  - injection H as <-. destruct (async_connected s); (eexists; eexists; split; [apply C; reflexivity|]; split; [reflexivity|]; split; [cbn; auto|proj; cbn [it_keys length]; lia]).
  - destruct (query c true (a_obd s, a_world s)) as [[r|e] ow]; injection H as <-; (eexists; eexists; split; [apply C; reflexivity|]; split; [reflexivity|]; split; [cbn; auto|]); proj; rewrite asked_app, asked_one, Nat.eqb_refl; lia.
  - injection H as <-. destruct (dict_get cmd_eqb (a_cbs s) c); (eexists; eexists; split; [apply C; reflexivity|]; split; [reflexivity|]; split; [cbn; auto|proj; cbn [it_keys length]; lia]).
  - injection H as <-. destruct b; (eexists; eexists; split; [apply C; reflexivity|]; split; [reflexivity|]; split; [cbn; auto|]); proj; rewrite asked_app, asked_one; lia.
Qed.
Lemma winding_step i k s ch : jinv s -> winding i k (b_a s) -> winding i k (b_a (bstep ch s)).
Proof.
  intros J (p & n & P & E & R & B). assert (Id : winding i k (b_a s)) by (exists p, n; auto).
  assert (Cb : forall j pc op prog s', (exists c r fs it, pc_of (b_a s) j = Some (T_call c r fs it)) -> calm j pc op (b_a s) -> (pc = M_idle -> exists o, prog = [o]) -> (exists x, b_in s j = Some x) -> cb_step j pc op prog s = Some s' -> winding i k (b_a s')).
  { intros j pc op prog s' X1 X2 X3 X4 X5. destruct (j_call s j pc op prog s' J X1 X2 X3 X4 X5) as (_ & Eh & _ & _ & _ & Er & Ee). exists p, n. unfold pc_of in *. rewrite Eh, Ee. split; [exact P|]. split; [exact E|]. split; [|exact B].
    intros L. specialize (R L). destruct Er; congruence. }
  unfold bstep. destruct ch as [|j|j d].
  - destruct (main_step (b_a s)) as [s1|] eqn:H; cbn [option_map]; [|exact Id]. cbn [b_a].
    destruct (main_effect s s1 i p J H P ltac:(intros ->; discriminate E)) as (P' & R' & A'). exists p, n. split; [exact P'|]. split; [exact E|]. split; [|lia].
    intros L. specialize (R L). destruct (R' L); congruence.
  - unfold loop_step. destruct (b_in s j) as [[pc op]|] eqn:In.
    + destruct (cb_frame _ _ _ _ J In) as [X1 X2].
      assert (X : forall o, (forall s', o = Some s' -> winding i k (b_a s')) -> winding i k (b_a (match o with Some s' => s' | None => s end))) by (intros [s'|] Y; [exact (Y _ eq_refl)|exact Id]).
      destruct pc; try exact Id; apply X; intros s' C; (eapply Cb; [exact X1|exact X2|discriminate|eauto|exact C]).
    + destruct (thread_step j false (b_a s)) as [s1|] eqn:H; [|exact Id]. cbn [b_a]. destruct (Nat.eq_dec j i) as [->|N].
      * destruct (own_effect false (b_a s) s1 i p ltac:(intros ->; apply R; reflexivity) H P n E) as (q & m & Q & Em & R' & A'). exists q, m. split; [exact Q|]. split; [exact Em|]. split; [|lia].
        intros L. destruct R' as [R'|R']; [|exact R']. rewrite R'. apply R.
        destruct (looping p) eqn:Lp; [reflexivity|]. exfalso. unfold thread_step in H. unfold pc_of in *. rewrite P in H. destruct p; try discriminate Lp; try discriminate H.
        injection H as <-. cbn in Q. rewrite nth_set, Nat.eqb_refl, P in Q. injection Q as <-. discriminate L.
      * destruct (other_effect j false (b_a s) s1 i N H) as (P' & R' & A'). exists p, n. rewrite P'. split; [exact P|]. split; [exact E|]. split; [|lia].
        intros L. specialize (R L). destruct R'; congruence.
  - unfold cb_does. destruct (b_in s j) as [[pc op]|] eqn:In; [|exact Id]. destruct (cb_frame _ _ _ _ J In) as [X1 X2]. destruct pc; try exact Id. destruct d as [o| |].
    + destruct (cb_step j M_idle AStop [o] s) as [s'|] eqn:C; [|exact Id]. eapply (Cb j M_idle AStop [o]); [exact X1|exact Logic.I|eauto|eauto|exact C].
    + exact Id.
    + cbn [b_a]. destruct (Nat.eq_dec j i) as [->|N].
      * exists (T_dead CustomError), 0. unfold pc_of in *. proj. rewrite nth_set, Nat.eqb_refl, P. split; [reflexivity|]. split; [reflexivity|]. split; [discriminate|lia].
      * exists p, n. unfold pc_of in *. proj. rewrite nth_set. destruct (Nat.eqb_spec j i); [contradiction|]. auto.
Qed.
Theorem winding_run i k sched : forall s, jinv s -> winding i k (b_a s) -> winding i k (b_a (brun sched s)).
Proof. induction sched as [|ch l IH]; intros s J W; [exact W|]. cbn [brun fold_left]. apply IH; [apply j_step, J|apply winding_step; assumption]. Qed.

Theorem stays_stopped s i sched : b_reachable s -> b_in s i <> None -> a_running (b_a s) = false -> in_loop (b_a (brun sched s)) i -> a_running (b_a (brun sched s)) = false.
Proof.
  intros Re In R L. apply b_reachable_inv in Re. destruct (b_in s i) as [[pc op]|] eqn:E; [|congruence]. destruct (cb_frame _ _ _ _ Re E) as [(c & r & fs & it & P) _].
  assert (W : winding i (asked i (a_events (b_a s)) + length (it_keys it)) (b_a s)) by (exists (T_call c r fs it), (length (it_keys it)); auto).
  apply (winding_run i _ sched) in W; [|exact Re]. destruct W as (p & n & Q & _ & R' & _). apply R'. unfold in_loop in L. unfold pc_of in Q. rewrite Q in L. destruct p; try contradiction; reflexivity.
Qed.
Theorem ends_with_round s i : b_reachable s -> b_in s i <> None -> a_running (b_a s) = false ->
  exists n, forall sched, asked i (a_events (b_a (brun sched s))) <= asked i (a_events (b_a s)) + n.
Proof.
  intros Re In R. apply b_reachable_inv in Re. destruct (b_in s i) as [[pc op]|] eqn:E; [|congruence]. destruct (cb_frame _ _ _ _ Re E) as [(c & r & fs & it & P) _].
  exists (length (it_keys it)). intros sched.
  assert (W : winding i (asked i (a_events (b_a s)) + length (it_keys it)) (b_a s)) by (exists (T_call c r fs it), (length (it_keys it)); auto).
  apply (winding_run i _ sched) in W; [|exact Re]. destruct W as (p & n & _ & _ & _ & B). lia.
Qed.
(* the object after a waiting call has come back *)
Theorem stopped_by_it s ch i o out : b_reachable s -> b_log (bstep ch s) = b_log s ++ [(i, o, out)] -> waits o ->
  out = ORaised RuntimeError /\ a_running (b_a (bstep ch s)) = false /\ b_in (bstep ch s) i <> None /\ a_obd (b_a (bstep ch s)) = a_obd (b_a s) /\ a_world (b_a (bstep ch s)) = a_world (b_a s).
Proof.
  intros Re L W. apply b_reachable_inv in Re. assert (Nl : forall l : list (nat * aop * outcome), b_log s = b_log s ++ l -> l = []) by (intros l Q; rewrite <- (app_nil_r (b_log s)) in Q at 1; apply app_inv_head in Q; congruence).
  assert (K : forall j pc op prog, (exists c r fs it, pc_of (b_a s) j = Some (T_call c r fs it)) -> calm j pc op (b_a s) -> (pc = M_idle -> exists o, prog = [o]) -> (exists x, b_in s j = Some x) ->
    forall s', cb_step j pc op prog s = Some s' -> b_log s' = b_log s ++ [(i, o, out)] -> out = ORaised RuntimeError /\ a_running (b_a s') = false /\ b_in s' i <> None /\ a_obd (b_a s') = a_obd (b_a s) /\ a_world (b_a s') = a_world (b_a s)).
  { intros j pc op prog X1 X2 X3 X4 s' C Lg. destruct (j_call s j pc op prog s' Re X1 X2 X3 X4 C) as (J' & _ & _ & Eo & Ew & _ & _).
    assert (Eo' : out = ORaised RuntimeError) by (apply (J_log _ J' i o); [rewrite Lg; apply in_or_app; right; left; reflexivity|exact W]).
    split; [exact Eo'|]. rewrite Eo, Ew. split; [|split; [|auto]].
    - unfold cb_step in C. destruct pc; try (cbn [calm] in X2; contradiction).
      8:{ destruct X2 as (_ & X2 & ->). rewrite Nat.eqb_refl in C. injection C as <-. exact X2. }
      all: exfalso; cbv beta iota in C; match type of C with match ?m with _ => _ end = _ => destruct m as [s1|] eqn:M; [|discriminate C] end; injection C as <-; cbn [b_log] in Lg; apply app_inv_head in Lg; unfold came in Lg;
        unfold main_step, lend in M; cbn [a_pc upd_pc upd_prog a_prog a_thread] in M.
      + destruct (X3 eq_refl) as (o1 & ->). injection M as <-.
        destruct o1; cbn in Lg; try (rewrite skipn_self in Lg; discriminate Lg); try (destruct (a_running (b_a s)); cbn in Lg; [rewrite skipn_exact in Lg; cbn in Lg; injection Lg as <- <- <-; contradiction W|rewrite skipn_self in Lg; discriminate Lg]).
        rewrite skipn_exact in Lg. cbn in Lg. injection Lg as <- <- <-. contradiction W.
      + injection M as <-. destruct (negb _); cbn in Lg; rewrite ?skipn_exact, ?skipn_self in Lg; cbn in Lg; [|discriminate Lg]. injection Lg as <- <- <-. contradiction (X2 W).
      + injection M as <-. destruct (nonempty _); cbn in Lg; rewrite ?skipn_exact, ?skipn_self in Lg; cbn in Lg; [discriminate Lg|]. injection Lg as <- <- <-. contradiction (X2 W).
      + injection M as <-. destruct (a_thread (b_a s)); cbn in Lg; rewrite ?skipn_exact, ?skipn_self in Lg; cbn in Lg; [|discriminate Lg]. injection Lg as <- <- <-. contradiction (X2 W).
      + destruct X1 as (c & r & fs & it & P). rewrite (J_one _ Re _ _ P eq_refl) in M. injection M as <-. cbn in Lg. rewrite skipn_self in Lg. discriminate Lg.
      + injection M as <-. cbn in Lg. rewrite skipn_self in Lg. discriminate Lg.
      + destruct X1 as (c & r & fs & it & P). rewrite (J_one _ Re _ _ P eq_refl) in M. injection M as <-. cbn in Lg. rewrite skipn_self in Lg. discriminate Lg.
      + injection M as <-. cbn in Lg. rewrite skipn_self in Lg. discriminate Lg.
      + injection M as <-. cbn [a_running upd_pc upd_prog] in Lg. destruct (a_running (b_a s)); cbn in Lg; rewrite ?skipn_exact, ?skipn_self in Lg; cbn in Lg; [|discriminate Lg]. injection Lg as <- <- <-. contradiction (X2 W).
      + injection M as <-. cbn [a_was_running upd_pc upd_prog] in Lg. destruct (a_was_running (b_a s)); cbn in Lg; rewrite ?skipn_exact, ?skipn_self in Lg; cbn in Lg; [discriminate Lg|]. injection Lg as <- <- <-. contradiction (X2 W).
      + injection M as <-. revert Lg. cbn [a_obd a_cmds a_cbs upd_pc upd_prog]. destruct (if force then Ok true else test_cmd (a_obd (b_a s)) c) as [[]|e]; [destruct (watch_table c cb _)|..]; cbn; rewrite skipn_exact; cbn; intros Lg; injection Lg as <- <- <-; contradiction (X2 W).
      + injection M as <-. revert Lg. cbn [a_obd a_cmds a_cbs upd_pc upd_prog]. destruct (unwatch_table c cb _); cbn; rewrite skipn_exact; cbn; intros Lg; injection Lg as <- <- <-; contradiction (X2 W).
      + injection M as <-. cbn in Lg. rewrite skipn_exact in Lg. cbn in Lg. injection Lg as <- <- <-. contradiction (X2 W).
    - assert (Ej : i = j).
      { unfold cb_step in C. destruct (match pc with M_stop4 _ _ => _ | _ => _ end).
        - injection C as <-. cbn [b_log] in Lg. apply app_inv_head in Lg. congruence.
        - destruct (main_step _); [|discriminate C]. injection C as <-. cbn [b_log] in Lg. apply app_inv_head in Lg. unfold came in Lg.
          assert (I1 : In (i, o, out) [(i, o, out)]) by (left; reflexivity). rewrite <- Lg in I1. apply in_flat_map in I1 as (e & _ & I1). destruct e; try contradiction. destruct I1 as [I1|[]]. congruence. }
      subst j. unfold cb_step in C. destruct (match pc with M_stop4 _ _ => _ | _ => _ end); [injection C as <-; cbn [b_in]; rewrite put_same; discriminate|].
      destruct (main_step _); [|discriminate C]. injection C as <-. cbn [b_in]. rewrite put_same. discriminate. }
  unfold bstep in *. destruct ch as [|j|j d].
  - destruct (main_step (b_a s)); cbn [option_map b_log] in L; apply Nl in L; discriminate L.
  - unfold loop_step in *. destruct (b_in s j) as [[pc op]|] eqn:In.
    + destruct (cb_frame _ _ _ _ Re In) as [X1 X2].
      destruct pc; try (apply Nl in L; discriminate L);
        (match type of L with b_log (match ?m with Some _ => _ | None => _ end) = _ => destruct m as [s'|] eqn:C; [|apply Nl in L; discriminate L] end; eapply K; [exact X1|exact X2|discriminate|eauto|exact C|exact L]).
    + destruct (thread_step j false (b_a s)); cbn [b_log] in L; apply Nl in L; discriminate L.
  - unfold cb_does in *. destruct (b_in s j) as [[pc op]|] eqn:In; [|apply Nl in L; discriminate L]. destruct (cb_frame _ _ _ _ Re In) as [X1 X2]. destruct pc; try (apply Nl in L; discriminate L).
    destruct d as [o1| |]; [|cbn [b_log] in L; apply Nl in L; discriminate L..]. destruct (cb_step j M_idle AStop [o1] s) as [s'|] eqn:C; [|apply Nl in L; discriminate L].
    eapply (K j M_idle AStop [o1]); [exact X1|exact Logic.I|eauto|eauto|exact C|exact L].
Qed.
