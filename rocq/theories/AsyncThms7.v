(* Non-blocking queries return the latest answer. *)
From Coq Require Import ZArith List Bool Lia.
From Verif Require Import Py Num Utils Protocol Decoders Command CommandTable Commands World Elm Obd Async SpecElm SpecObd SpecAsync PyFacts CommandThms ElmFacts ElmThms ObdFacts ObdThms ObdThms2 ObdThms3 ObdThms4 AsyncFacts AsyncThms AsyncThms2 AsyncThms3 AsyncThms4 AsyncThms5 AsyncThms6.
Import ListNotations.
Open Scope nat_scope.

Lemma query_latest s c : about_to_call [AQuery c] s ->
  let s' := astep CMain s in a_events s' = a_events s ++ [AEv_return (AQuery c) (OResponse (latest s c))] /\ a_obd s' = a_obd s /\ a_world s' = a_world s.
Proof. intros (P & rest & Pr). unfold astep, main_step. rewrite P, Pr. cbn. auto. Qed.
Lemma is_watched_mem s c : is_watched s c <-> dmem (a_cmds s) c = true.
Proof.
  rewrite dmem_iff. unfold is_watched. split; intros (c' & I & E); exists c'; (split; [exact I|]); [rewrite <- same_eqb|rewrite same_eqb]; exact E.
Qed.
Lemma latest_unwatched s c : ~ is_watched s c -> latest s c = empty_response.
Proof. intros N. unfold latest. rewrite is_watched_mem in N. unfold dict_mem in N. destruct (dget (a_cmds s) c); [elim N; reflexivity|reflexivity]. Qed.

Lemma watch_keeps c0 cb cmds cbs cmds' cbs' c : watch_table c0 cb (cmds, cbs) = Ok (cmds', cbs') -> dmem cmds c = true -> dget cmds' c = dget cmds c.
Proof.
  unfold watch_table. intros H M.
  assert (K : dget (if dmem cmds c0 then cmds else dset cmds c0 empty_response) c = dget cmds c).
  { destruct (dmem cmds c0) eqn:E; [reflexivity|]. rewrite dget_set. destruct (cmd_eqb c0 c) eqn:Q; [|reflexivity]. unfold dict_mem in E, M. rewrite (dget_congr cmds _ _ Q) in E. rewrite E in M. discriminate M. }
  destruct (dmem cmds c0); (destruct cb as [f|]; [|injection H as <- <-; exact K]);
    match goal with H : context [match ?x with Some _ => _ | None => _ end] |- _ => destruct x; [|discriminate H] end;
    match goal with H : context [if ?x then _ else _] |- _ => destruct x end; injection H as <- <-; exact K.
Qed.
Lemma watch_new c0 cb cmds cbs cmds' cbs' : watch_table c0 cb (cmds, cbs) = Ok (cmds', cbs') -> dmem cmds c0 = false -> dget cmds' c0 = Some empty_response.
Proof.
  unfold watch_table. intros H M. rewrite M in H.
  assert (K : dget (dset cmds c0 empty_response) c0 = Some empty_response) by (rewrite dget_set, cmd_eqb_refl; reflexivity).
  destruct cb as [f|]; [|injection H as <- <-; exact K].
    match goal with H : context [match ?x with Some _ => _ | None => _ end] |- _ => destruct x; [|discriminate H] end;
    match goal with H : context [if ?x then _ else _] |- _ => destruct x end; injection H as <- <-; exact K.
Qed.
Lemma unwatch_keeps c0 cb cmds cbs cmds' cbs' c : distinct (map fst cmds) -> unwatch_table c0 cb (cmds, cbs) = Ok (cmds', cbs') -> dmem cmds' c = true -> dget cmds' c = dget cmds c.
Proof.
  intros D H M. assert (K : cmds' = cmds \/ cmds' = dpop cmds c0).
  { unfold unwatch_table in H. repeat match goal with
      | H : Ok _ = Ok _ |- _ => injection H as <- <-
      | H : Raise _ = Ok _ |- _ => discriminate H
      | H : context [match ?x with _ => _ end] |- _ => destruct x end; auto. }
  destruct K as [->| ->]; [reflexivity|]. unfold dict_mem in M. rewrite dget_pop in * by exact D. destruct (cmd_eqb c0 c); [discriminate M|reflexivity].
Qed.

(* after the answers l to c, starting from the value d *)
Definition kept (c : command) (d : response) (l : list response) (s : astate) : Prop :=
  ((forall r, ~ storing s c r) /\ latest s c = last l d) \/
  (exists l' r, l = l' ++ [r] /\ storing s c r /\ latest s c = last l' d).
Lemma answers_app c a b : answers_to c (a ++ b) = answers_to c a ++ answers_to c b.
Proof. induction a as [|e a IH]; [reflexivity|]. destruct e; cbn; try exact IH. destruct r; [|exact IH]. destruct (same c0 c); cbn; rewrite IH; reflexivity. Qed.
Lemma storing_unique s c r c' r' i it : ainv s -> storing s c r -> pc_of s i = Some (T_store c' r' it) -> r = r' /\ same c' c = true.
Proof.
  intros V (j & c2 & it2 & P & S) Q. pose proof (I_one _ V _ _ P eq_refl). pose proof (I_one _ V _ _ Q eq_refl). assert (i = j) by congruence. subst j. unfold pc_of in Q. rewrite P in Q. injection Q as -> -> ->. auto.
Qed.
Lemma storing_loop s c r i p : ainv s -> storing s c r -> pc_of s i = Some p -> looping p = true -> exists c' it, p = T_store c' r it /\ same c' c = true.
Proof.
  intros V (j & c2 & it2 & P & S) Q L. pose proof (I_one _ V _ _ P eq_refl). pose proof (I_one _ V _ _ Q L). assert (i = j) by congruence. subst j. unfold pc_of in Q. rewrite P in Q. injection Q as <-. eauto.
Qed.
Lemma storing_frame s s' c r : ainv s -> main_step s = Some s' -> (storing s' c r <-> storing s c r).
Proof.
  intros V H. destruct (main_frame _ _ V H) as [_ F]. split.
  - intros (i & c' & it & P & S). exists i, c', it. split; [|exact S].
    assert (T : a_threads s' = a_threads s \/ a_threads s' = a_threads s ++ [T_new] \/ exists i, a_threads s' = set_nth i T_while (a_threads s)).
    { clear -H. unfold main_step in H.
    repeat match goal with
      | H : Some _ = Some _ |- _ => injection H as <-
      | H : None = Some _ |- _ => discriminate H
      | H : (let '(_, _) := ?b in _) = Some _ |- _ => destruct b
      | H : (if ?b then _ else _) = Some _ |- _ => destruct b
      | H : match ?x with _ => _ end = Some _ |- _ => destruct x
      | |- context [if ?b then _ else _] => destruct b
      | |- context [match ?x with _ => _ end] => destruct x
      end; try (left; reflexivity); try (right; left; reflexivity); right; right; eexists; reflexivity. }
    destruct T as [T|[T|[j T]]]; rewrite T in P; [exact P| |].
    + rewrite nth_app_new in P. destruct (Nat.eqb i _); [discriminate P|exact P].
    + rewrite nth_set in P. destruct (Nat.eqb j i); [destruct (nth_error (a_threads s) j); discriminate P|exact P].
  - intros (i & c' & it & P & S). exists i, c', it. split; [|exact S]. apply F; [exact P|discriminate].
Qed.

Lemma main_latest s s' c : ainv s -> main_step s = Some s' -> is_watched s c -> is_watched s' c -> latest s' c = latest s c.
Proof.
  intros V H W W'. rewrite is_watched_mem in W, W'. unfold latest. assert (K : dget (a_cmds s') c = dget (a_cmds s) c); [|rewrite K; reflexivity].
  assert (D : distinct (map fst (a_cmds s))) by apply (I_table _ V). unfold main_step in H.
  destruct (a_pc s) eqn:P.
  17:{ (* watch *)
    destruct (if force then _ else _) as [[|]|]; [|injection H as <-; reflexivity|injection H as <-; reflexivity].
    destruct (watch_table _ _ _) as [[cmds' cbs']|] eqn:T; injection H as <-; [|reflexivity]. exact (watch_keeps _ _ _ _ _ _ _ T W). }
  17:{ destruct (unwatch_table _ _ _) as [[cmds' cbs']|] eqn:T; injection H as <-; [|reflexivity]. exact (unwatch_keeps _ _ _ _ _ _ _ D T W'). }
  17:{ injection H as <-. discriminate W'. }
  all: clear W W' D V.
  all: repeat match goal with
      | H : Some _ = Some _ |- _ => injection H as <-
      | H : None = Some _ |- _ => discriminate H
      | H : (let '(_, _) := ?b in _) = Some _ |- _ => destruct b
      | H : (if ?b then _ else _) = Some _ |- _ => destruct b
      | H : match ?x with _ => _ end = Some _ |- _ => destruct x
      | |- context [if ?b then _ else _] => destruct b
      | |- context [match ?x with _ => _ end] => destruct x
      end; reflexivity.
Qed.
Lemma main_answers s s' c : main_step s = Some s' -> exists es, a_events s' = a_events s ++ es /\ answers_to c es = [].
Proof. intros H. destruct (main_events _ _ H) as [E|[(out & E & _)|(i & out & _ & _ & E & _)]]; [exists []; rewrite app_nil_r; auto| |]; eexists; (split; [exact E|reflexivity]). Qed.

Lemma kept_step c d l ch s : ainv s -> kept c d l s -> is_watched s c -> is_watched (astep ch s) c ->
  exists es, a_events (astep ch s) = a_events s ++ es /\ kept c d (l ++ answers_to c es) (astep ch s).
Proof.
  intros V K W W'. destruct ch as [|i b]; unfold astep in *.
  - destruct (main_step s) as [s'|] eqn:H; [|exists []; rewrite !app_nil_r; auto].
    destruct (main_answers _ _ c H) as (es & E & A). exists es. split; [exact E|]. rewrite A, app_nil_r. unfold kept in *. rewrite (main_latest _ _ _ V H W W').
    destruct K as [[N L]|(l' & r & E1 & S & L)].
    + left. split; [|exact L]. intros r S. apply (storing_frame _ _ _ _ V H) in S. exact (N r S).
    + right. exists l', r. split; [exact E1|]. split; [|exact L]. apply (storing_frame _ _ _ _ V H), S.
  - destruct (thread_step i b s) as [s'|] eqn:H; [|exists []; rewrite !app_nil_r; auto].
    destruct (thread_step_spec _ _ _ _ V H) as (p & P & U).
    destruct (thread_frame _ _ _ _ V H) as (_ & _ & _ & _ & _ & _ & _ & _ & _ & F & _).
    destruct (looping p) eqn:L.
    2:{ destruct p; try discriminate L; cbn in U; try contradiction. exists []. rewrite !app_nil_r. subst s'. split; [reflexivity|]. 
        assert (S : forall r, storing (set_tpc i T_done s) c r <-> storing s c r).
        { intros r. split; intros (j & c' & it & Q & S); exists j, c', it; (split; [|exact S]).
          - cbn in Q. rewrite nth_set in Q. destruct (Nat.eqb i j); [|exact Q]. unfold pc_of in P. rewrite P in Q. discriminate Q.
          - cbn. rewrite nth_set. destruct (Nat.eqb_spec i j) as [->|]; [|exact Q]. unfold pc_of in P. congruence. }
        destruct K as [[N La]|(l' & r & E1 & S1 & La)]; [left|right]; [split; [|exact La]; intros r X; apply S in X; exact (N r X)|exists l', r; split; [exact E1|]; split; [apply S, S1|exact La]]. }
    (* the one looping thread moves *)
    assert (Sto : forall p' s1, a_threads s1 = a_threads s -> forall r, storing (set_tpc i p' s1) c r -> exists c' it, p' = T_store c' r it /\ same c' c = true).
    { intros p' s1 T r (j & c' & it & Q & S). exists c', it. split; [|exact S]. cbn in Q. rewrite T, nth_set in Q. unfold pc_of in P. rewrite P in Q. destruct (Nat.eqb_spec i j) as [<-|N]; [congruence|].
      pose proof (I_one _ V _ _ P L). pose proof (I_one _ V _ _ Q eq_refl). congruence. }
    assert (Mv : (forall c' r it, p <> T_store c' r it) -> forall p' s1, a_threads s1 = a_threads s -> a_cmds s1 = a_cmds s -> a_events s1 = a_events s -> s' = set_tpc i p' s1 -> (forall c' r it, p' <> T_store c' r it) ->
       exists es, a_events s' = a_events s ++ es /\ kept c d (l ++ answers_to c es) s').
    { intros Np p' s1 T Ec Ee -> Np'. exists []. rewrite !app_nil_r. split; [exact Ee|]. left. split.
      - intros r S. destruct (Sto p' s1 T r S) as (c' & it & E & _). exact (Np' _ _ _ E).
      - destruct K as [[N La]|(l' & r & E1 & S1 & La)]; [unfold latest in *; cbn; rewrite Ec; exact La|]. destruct (storing_loop _ _ _ _ _ V S1 P L) as (c' & it & E & _). elim (Np _ _ _ E). }
    destruct p; cbn in U; try contradiction; try discriminate L.
    all: try (refine (Mv _ _ s eq_refl eq_refl eq_refl U _); discriminate).
    + refine (Mv _ _ s eq_refl eq_refl eq_refl U _); [discriminate|]. destruct (a_running s); discriminate.
    + refine (Mv _ _ s eq_refl eq_refl eq_refl U _); [discriminate|]. destruct (it_keys it); discriminate.
    + refine (Mv _ _ s eq_refl eq_refl eq_refl U _); [discriminate|]. destruct (async_connected s); discriminate.
    + refine (Mv _ _ (upd_running false s) eq_refl eq_refl eq_refl U _); discriminate.
    + refine (Mv _ _ (upd_thread None s) eq_refl eq_refl eq_refl U _); discriminate.
    + (* query *)
      destruct U as (r & ow & _ & U). exists [AEv_query i c0 r]. split; [subst s'; reflexivity|].
      assert (La : latest s c = last l d).
      { destruct K as [[_ La]|(l' & r' & _ & S1 & _)]; [exact La|]. destruct (storing_loop _ _ _ _ _ V S1 P L) as (c' & it' & E & _). discriminate E. }
      assert (La' : latest s' c = last l d) by (subst s'; exact La).
      destruct r as [r|x]; cbn [answers_to].
      * destruct (same c0 c) eqn:S.
        -- right. exists l, r. split; [reflexivity|]. split; [|exact La']. exists i, c0, it. split; [|exact S]. subst s'. cbn. rewrite nth_set, Nat.eqb_refl. unfold pc_of in P. rewrite P. reflexivity.
        -- rewrite app_nil_r. left. split; [|exact La']. intros r' S'. rewrite U in S'. destruct (Sto _ (add_event (AEv_query i c0 (Ok r)) (upd_obd ow s)) eq_refl r' S') as (c' & it' & E & S2). injection E as <- _ _. congruence.
      * rewrite app_nil_r. left. split; [|exact La']. intros r' S'. rewrite U in S'. destruct (Sto _ (add_event (AEv_query i c0 (Raise x)) (upd_obd ow s)) eq_refl r' S') as (c' & it' & E & _). discriminate E.
    + (* store *)
      exists []. rewrite !app_nil_r. split; [subst s'; reflexivity|]. left. split.
      { intros r' S'. rewrite U in S'. destruct (Sto _ (upd_dicts (dset (a_cmds s) c0 r, a_cbs s) s) eq_refl r' S') as (c' & it' & E & _). discriminate E. }
      unfold latest. subst s'. cbn. rewrite dget_set. destruct K as [[N La]|(l' & r' & -> & S1 & La)].
      * destruct (cmd_eqb c0 c) eqn:Q; [|exact La]. elim (N r). exists i, c0, it. rewrite same_eqb. auto.
      * destruct (storing_unique _ _ _ _ _ _ _ V S1 P) as [-> S]. rewrite <- same_eqb, S. rewrite last_last. reflexivity.
    + destruct U as (x & _ & U). refine (Mv _ _ s eq_refl eq_refl eq_refl U _); discriminate.
    + destruct cbs as [|f fs]; [refine (Mv _ _ s eq_refl eq_refl eq_refl U _); discriminate|]. exists [AEv_fire i c0 f r]. cbn [answers_to]. rewrite app_nil_r. split; [subst s'; reflexivity|]. left. split.
      * intros r' S'. rewrite U in S'. destruct (Sto _ (add_event (AEv_fire i c0 f r) s) eq_refl r' S') as (c' & it' & E & _). destruct b; discriminate E.
      * destruct K as [[N La]|(l' & r' & E1 & S1 & La)]; [subst s'; exact La|]. destruct (storing_loop _ _ _ _ _ V S1 P L) as (c' & it' & E & _). discriminate E.
Qed.
Theorem latest_answer c sched : forall s, ainv s -> stays_watched c sched s -> forall d l, kept c d l s ->
  exists new, a_events (arun sched s) = a_events s ++ new /\ kept c d (l ++ answers_to c new) (arun sched s).
Proof.
  induction sched as [|ch sched IH]; intros s V W d l K; [exists []; rewrite !app_nil_r; auto|]. destruct W as [W Ws]. change (arun (ch :: sched) s) with (arun sched (astep ch s)).
  assert (W1 : is_watched (astep ch s) c) by (destruct sched; apply Ws).
  destruct (kept_step _ _ _ ch s V K W W1) as (es & E & K1). destruct (IH _ (astep_inv ch s V) Ws _ _ K1) as (new & E2 & K2). exists (es ++ new). rewrite answers_app, E2, E, <- !app_assoc in *. auto.
Qed.
(* a freshly watched command has an empty response *)
Theorem watch_empty c cb force s sched : ainv s -> binv s -> about_to_call [AWatch c cb force] s -> a_running s = false -> user_steps sched = 2 -> may_send (a_obd s) c force -> ~ is_watched s c ->
  is_watched (arun sched s) c /\ latest (arun sched s) c = empty_response.
Proof.
  intros V B (Pc & rest & Pr) R U Ms W. cbn in Pr.
  destruct (split_main _ _ U) as (a & b & -> & Ua & Ub). destruct (split_main _ _ Ub) as (b' & k & -> & Ub' & Uc). clear U Ub.
  rewrite arun_app. change (arun (CMain :: b' ++ CMain :: k) (arun a s)) with (arun (b' ++ CMain :: k) (astep CMain (arun a s))). rewrite arun_app. match goal with |- context [arun (CMain :: k) ?x] => change (arun (CMain :: k) x) with (arun k (astep CMain x)) end.
  assert (S0 : stopped s) by (split; [exact R|rewrite Pc; reflexivity]).
  destruct (stopped_threads a s V S0 Ua) as (E1 & E2 & E3 & E4 & E5 & E6 & E7 & E8 & E9 & E10 & E11 & V1).
  set (s1 := arun a s) in *. rewrite Pc in E6. rewrite Pr in E7. rewrite R in E9.
  set (s2 := astep CMain s1). pose proof (astep_inv CMain s1 V1) as V2. fold s2 in V2.
  assert (H2 : a_cmds s2 = a_cmds s /\ a_cbs s2 = a_cbs s /\ a_obd s2 = a_obd s /\ a_running s2 = false /\ a_pc s2 = M_watch c cb force).
  { unfold s2, astep, main_step. rewrite E6, E7. cbn zeta. cbn [a_running upd_prog]; rewrite E9; cbn; auto 10. }
  destruct H2 as (G1 & G2 & G3 & G4 & G5).
  assert (S2 : stopped s2) by (split; [exact G4|]; rewrite G5; reflexivity).
  destruct (stopped_threads b' s2 V2 S2 Ub') as (H1 & H2 & H3 & H4 & H5 & H6 & H7 & H8 & H9 & H10 & H11 & V3).
  set (s3 := arun b' s2) in *. set (s4 := astep CMain s3). pose proof (astep_inv CMain s3 V3) as V4. fold s4 in V4.
  destruct (watch_table_spec c cb _ (I_table _ V) (B_nodup _ B)) as ([cmds' cbs'] & Wt & _ & _).
  assert (K : s4 = finish ODone (upd_dicts (cmds', cbs') s3)).
  { unfold s4, astep, main_step. rewrite H6, G5. rewrite H3, G3. rewrite H1, G1, H2, G2, Wt.
    assert (MS : (if force then Ok true else test_cmd (a_obd s) c) = Ok true) by (destruct force; [reflexivity|apply test_cmd_true, Ms]). rewrite MS. reflexivity. }
  rewrite is_watched_mem in W. apply not_true_is_false in W. pose proof (watch_new _ _ _ _ _ _ Wt W) as Nw.
  assert (S4 : stopped s4) by (rewrite K; split; [cbn; congruence|reflexivity]).
  destruct (stopped_threads k s4 V4 S4 Uc) as (J1 & _). rewrite is_watched_mem. unfold latest, dict_mem. rewrite J1, K. cbn. rewrite Nw. auto.
Qed.
