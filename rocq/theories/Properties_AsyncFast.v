(* C100: an Async object made with fast=True, with an adapter and a car (SpecAdapter, SpecAsyncCar, SpecAsyncFast). *)
From Coq Require Import ZArith List Bool Lia String.
From Verif Require Import Py Num Utils Protocol Decoders Command CommandTable Commands World Elm Obd Async SpecElm SpecObd SpecAsync SpecE2E SpecAdapter SpecAdapter2 SpecAsyncCar SpecAsyncFast
  PyFacts ElmFacts ElmThms ObdFacts ObdThms ObdThms2 ObdThms3 ObdThms4 ObdThms5 Properties_Elm Properties_Decoders Properties_Obd AdapterThms AdapterThms2 AdapterThms3 AdapterThms4 AdapterThms5 AdapterCheck
  Properties_Adapter AsyncFacts AsyncThms AsyncHistory AsyncCar AsyncCarFast Properties_Async SpecLive Properties_Live Properties_AsyncCar.
Import ListNotations.
Open Scope string_scope. Open Scope list_scope. Open Scope Z_scope.

Section Car.
  Context {Car : Type} (ask : Car -> option text -> text -> list text -> Car -> Prop).

  (* under every schedule, as long as no query raised: since the object was made, the car has answered exactly the queries of the update threads, in order, one line each, and nothing
     else; the line is the command's, with the number of frames of its first answer behind it from the second query on; each result is made of the lines the adapter gives for it *)
Theorem C100_requests : forall cf name scan w prog sched o s x y z pr k0,
    async_with ask cf name scan w prog sched o s x y z -> cf_fast cf = true -> watches_proper prog -> watches_engine prog -> none_raised s ->
    (obd_status o <> NOT_CONNECTED -> uses o pr) -> (forall c n, k0 c = Some n <-> recorded o c n) ->
    exists k, served_fast ask pr k0 (car_of y) (asked_for (a_events s)) (car_of z) k.
  Proof.
    intros cf name scan w prog sched o s x y z pr k0 A Fa Pr En Nr U K0. destruct (async_fast_facts ask _ _ _ _ _ _ _ _ _ _ _ A Fa Pr En) as (w1 & _ & C).
    destruct (W_served _ _ _ _ _ _ (C Nr) pr U) as (k & _ & S). exists k.
    assert (E : forall c, k0 c = notes_of o c).
    { intros c. unfold recorded in K0. unfold notes_of. destruct (k0 c) as [n|] eqn:X; [symmetry; apply K0; exact X|]. destruct (dict_get cmd_eqb (o_frame_counts o) c) as [n|] eqn:Y; [apply K0 in Y; congruence|reflexivity]. }
    revert E S. generalize (notes_of o) (asked_for (a_events s)) (car_of z) k. clear. intros kk l z k E S. induction S as [k H|l s1 k c line lines s2 k' S IH L An N].
    - apply sf_nil. intros c. rewrite E. apply H.
    - eapply sf_more; eauto.
  Qed.
  (* such a line is the command's own request if nothing is noted or the command is not to be sped up; it is the same request if the noted number has one digit, and the lines are
     the first so many of the car's answer; and another request, with the digits behind it, if the number has two digits *)
Theorem C100_line : forall k c line lines s s' req, understand (c_command c) = KRequest req -> line_of k c line -> adapter_gives ask s (understand line) lines s' ->
    (c_fast c = false \/ k c = None -> ask s None req lines s')
    /\ (forall n, c_fast c = true -> k c = Some n -> (1 <= n <= 9)%nat -> exists full, ask s None req full s' /\ lines = firstn n full)
    /\ (forall n, c_fast c = true -> k c = Some n -> (10 <= n <= 99)%nat -> ask s None (req ++ [48 + Z.of_nat n / 10; 48 + Z.of_nat n mod 10]) lines s').
  Proof.
    intros k c line lines s s' req U L A. destruct L as [H|n d F K D].
    - rewrite U in A. split; [intros _; exact A|]. split; intros n F K; destruct H; congruence.
    - pose proof (understand_count _ _ _ U (proj1 (proj2 D))) as Un. rewrite Un in A. destruct D as (Ne & Fd & V & Z0).
      split; [intros [X|X]; congruence|]. split; intros m _ Km B; assert (m = n) by congruence; subst m.
      + assert (E : d = [48 + Z.of_nat n]).
        { destruct d as [|d1 [|d2 d]]; [contradiction| |].
          - cbn in V. f_equal. lia.
          - exfalso. inversion Fd as [|? ? B1 Fd1]; subst. inversion Fd1 as [|? ? B2 Fd2]; subst. assert (d1 <> 48) by (intros ->; specialize (Z0 _ eq_refl); discriminate Z0).
            assert (M : forall l v, Forall (fun x => 48 <= x <= 57) l -> 10 <= v -> 10 <= fold_left (fun v d => 10 * v + (d - 48)) l v).
            { induction l as [|q l IH]; intros v Fl Bv; [exact Bv|]. inversion Fl; subst. cbn [fold_left]. apply IH; [assumption|lia]. }
            cbn [fold_left] in V. specialize (M d (10 * (10 * 0 + (d1 - 48)) + (d2 - 48)) Fd2 ltac:(lia)). lia. }
        subst d. cbn [List.length Nat.even] in A. rewrite removelast_last, last_last in A. destruct A as (full & A1 & A2). exists full. split; [exact A1|].
        assert (Hv : hexdigit_value (48 + Z.of_nat n) = Z.of_nat n) by (unfold hexdigit_value; destruct (Z.leb_spec (48 + Z.of_nat n) 57); lia).
        rewrite Hv in A2. rewrite A2 by lia. rewrite Nat2Z.id. reflexivity.
      + assert (E : d = [48 + Z.of_nat n / 10; 48 + Z.of_nat n mod 10]).
        { destruct d as [|d1 [|d2 [|d3 d]]]; [contradiction| | |]; inversion Fd as [|? ? B1 Fd1]; subst.
          - exfalso. cbn in V. lia.
          - inversion Fd1 as [|? ? B2 Fd2]; subst. cbn [fold_left] in V. assert (Q : Z.of_nat n = 10 * (d1 - 48) + (d2 - 48)) by lia. rewrite Q.
            rewrite Z.mul_comm, (Z.div_add_l (d1 - 48) 10 (d2 - 48)) by lia. rewrite (Z.add_comm _ (d2 - 48)), Z.mod_add by lia. rewrite (Z.div_small (d2 - 48)), (Z.mod_small (d2 - 48)) by lia. f_equal; [lia|]. f_equal. lia.
          - exfalso. inversion Fd1 as [|? ? B2 Fd2]; subst. inversion Fd2 as [|? ? B3 Fd3]; subst. assert (d1 <> 48) by (intros ->; specialize (Z0 _ eq_refl); discriminate Z0).
            assert (M : forall l v, Forall (fun x => 48 <= x <= 57) l -> 100 <= v -> 100 <= fold_left (fun v d => 10 * v + (d - 48)) l v).
            { induction l as [|q l IH]; intros v Fl Bv; [exact Bv|]. inversion Fl; subst. cbn [fold_left]. apply IH; [assumption|lia]. }
            cbn [fold_left] in V. specialize (M d (10 * (10 * (10 * 0 + (d1 - 48)) + (d2 - 48)) + (d3 - 48)) Fd3 ltac:(lia)). lia. }
        subst d. exact A.
  Qed.
  (* callbacks and query() give out only results of such queries, or empty responses *)
Theorem C100_responses : forall cf name scan w prog sched o s x y z,
    async_with ask cf name scan w prog sched o s x y z -> cf_fast cf = true -> watches_proper prog -> watches_engine prog ->
    (forall i c f r, In (AEv_fire i c f r) (a_events s) -> In (c, Ok r) (asked_for (a_events s)))
    /\ (forall c r, In (AEv_return (AQuery c) (OResponse r)) (a_events s) ->
          r = empty_response \/ exists c', same_command c' c /\ In (c', Ok r) (asked_for (a_events s))).
  Proof.
    intros cf name scan w prog sched o s x y z A Fa Pr En. destruct (async_fast_facts ask _ _ _ _ _ _ _ _ _ _ _ A Fa Pr En) as (w1 & F & _).
    assert (Q : forall i c r, queried_by s i c r -> In (c, Ok r) (asked_for (a_events s))) by (intros i c r X; apply in_flat_map; exists (AEv_query i c (Ok r)); split; [exact X|left; reflexivity]).
    split; [intros i c f r X; exact (Q _ _ _ (F_fire _ _ _ F _ _ _ _ X))|].
    intros c r X. destruct (F_ret _ _ _ F _ _ X) as [E|(i & c' & E & Y)]; [auto|]. right. exists c'. apply cmd_eqb_same in E. split; [exact E|]. eapply Q. exact Y.
  Qed.
  (* without a call of close() the connection is not lost, as long as no query raised *)
Theorem C100_stays : forall cf name scan w prog sched o s x y z,
    async_with ask cf name scan w prog sched o s x y z -> cf_fast cf = true -> watches_proper prog -> watches_engine prog -> none_raised s -> ~ In AClose prog -> obd_status (a_obd s) = obd_status o.
  Proof.
    intros cf name scan w prog sched o s x y z A Fa Pr En Nr N. destruct (async_fast_facts ask _ _ _ _ _ _ _ _ _ _ _ A Fa Pr En) as (w1 & _ & C). destruct (W_status _ _ _ _ _ _ (C Nr)); [contradiction|assumption].
  Qed.
  (* so the update loop, once running, ends only because it is being stopped, or because a query or a callback raises *)
Theorem C100_loop_ends : forall cf name scan w prog sched o s x y z ch i,
    async_with ask cf name scan w prog sched o s x y z -> cf_fast cf = true -> watches_proper prog -> watches_engine prog -> none_raised s -> ~ In AClose prog -> obd_status o = CAR_CONNECTED ->
    in_loop s i -> ~ in_loop (astep ch s) i -> exists b, ch = CThread i b /\
      (inside_stop s \/ (exists c e, a_events (astep ch s) = a_events s ++ [AEv_query i c (Raise e)]) \/ b = true /\ exists c f r, a_events (astep ch s) = a_events s ++ [AEv_fire i c f r]).
  Proof.
    intros cf name scan w prog sched o s x y z ch i A Fa Pr En Nr N St L E. pose proof (C100_stays _ _ _ _ _ _ _ _ _ _ _ A Fa Pr En Nr N) as S.
    assert (Re : reachable s) by (destruct A as (w1 & t0 & t & Nw & -> & _); exists prog, (new_async o w1 prog), sched; split; [exists cf, (Some name), scan, w, o, w1; auto|reflexivity]).
    destruct (C80_ends_only s ch i Re L E) as (b & -> & [H|[H|[H|H]]]); exists b; auto. exfalso. unfold async_connected, is_connected in H. rewrite S, St in H. discriminate H.
  Qed.
End Car.

(* ------------------------------------------------------------------ an example *)
Definition fast_scene {Car : Type} (f : Car -> option text -> text -> list text * Car) (s0 : Car) (ans : list (option bytes)) (prog : list aop) (sched : list choice) :
    bool * option (adapter * Car) * option (adapter * Car) * status * list (command + command * callback) * bool * list bytes :=
  let n := new_obd (setup true) (Some (str "p")) [] (fresh ans) in
  let s := arun sched (new_async (fst (snd n)) (snd (snd n)) prog) in
  let t0 := w_trace (snd (snd n)) in
  let t := skipn (List.length t0) (w_trace (a_world s)) in
  let y := follows_c f new_adapter s0 t0 in
  (match fst n with Ok _ => true | _ => false end, y, match y with Some (a, c1) => follows_c f a c1 t | None => None end, obd_status (fst (snd n)), doings (a_events s),
   forallb (fun q => match snd q with Ok _ => true | Raise _ => false end) (asked_for (a_events s)), SpecElm.writes t).
Lemma fast_scene_facts {Car : Type} (f : Car -> option text -> text -> list text * Car) s0 ans prog sched a1 s1 a2 s2 st l wr :
  fast_scene f s0 ans prog sched = (true, Some (a1, s1), Some (a2, s2), st, l, true, wr) -> watches_proper prog -> watches_engine prog ->
  exists o s, async_with (answers f) (setup true) (str "p") [] (fresh ans) prog sched o s (new_adapter, s0, []) (a1, s1, []) (a2, s2, []) /\ obd_status o = st /\ doings (a_events s) = l /\ none_raised s.
Proof.
  unfold fast_scene. intros H Wp We. do 6 (let D := fresh "D" in apply pair_equal_spec in H as [H D]).
  destruct (new_obd (setup true) (Some (str "p")) [] (fresh ans)) as [r0 [o w1]] eqn:N. cbn [fst snd] in *.
  assert (r0 = Ok tt) by (destruct r0 as [[]|]; [reflexivity|discriminate H]). subst r0. rewrite D4 in D3.
  assert (F0 : follows (answers f) (new_adapter, s0, []) (w_trace w1) (a1, s1, [])) by (apply follows_check; exact D4).
  destruct (fastinv_run (answers f) (setup true) (str "p") [] (fresh ans) w1 o prog (new_adapter, s0, []) (a1, s1, []) (w_trace w1) N eq_refl eq_refl F0 Wp We sched) as (_ & t & T & _).
  rewrite T, skipn_app, skipn_all, Nat.sub_diag in D3. cbn [skipn app] in D3.
  exists o, (arun sched (new_async o w1 prog)). split; [|split; [exact D2|split; [exact D1|]]].
  - exists w1, (w_trace w1), t. split; [exact N|]. split; [reflexivity|]. split; [reflexivity|]. split; [exact T|]. split; [exact F0|]. apply follows_check. exact D3.
  - intros c e X. rewrite forallb_forall in D0. specialize (D0 _ X). discriminate D0.
Qed.
(* three rounds of the update loop, of which each asks the car once: what is written is 010C, then 010C1, then a blank line *)
Example C100_example : exists ans prog sched o s a1 a2,
  async_with (answers car2) (setup true) (str "p") [] (fresh ans) prog sched o s (new_adapter, O, []) (a1, O, []) (a2, 3%nat, []) /\ watches_proper prog /\ watches_engine prog /\ ~ In AClose prog /\ obd_status o = CAR_CONNECTED
  /\ none_raised s /\ doings (a_events s) = [inl revs; inr (revs, 1); inl revs; inr (revs, 1); inl revs; inr (revs, 1)].
Proof.
  assert (Wp : watches_proper [AWatch revs (Some 1) true; AStart; AQuery revs] /\ watches_engine [AWatch revs (Some 1) true; AStart; AQuery revs]).
  { assert (K : forall rv c cb f, In (AWatch c cb f) [AWatch rv (Some 1) true; AStart; AQuery rv] -> c = rv) by (intros rv c cb f [X|[X|[X|[]]]]; try discriminate X; congruence).
    split; intros c cb f X; rewrite (K _ _ _ _ X); [exact revs_proper|]. unfold revs. exact (proj2 rpm_engine). }
  assert (E : exists a1 a2, fast_scene car2 O (start_up ++ [several [str "7E8 04 41 0C 1A F8"]; several [str "7E9 04 41 0C 00 00"]; several [str "7E9 04 41 0C 00 00"]])
      [AWatch revs (Some 1) true; AStart; AQuery revs] (user 9 ++ loop 0 34 ++ user 1) = (true, Some (a1, O), Some (a2, 3%nat), CAR_CONNECTED, [inl revs; inr (revs, 1); inl revs; inr (revs, 1); inl revs; inr (revs, 1)], true,
         [str "010C" ++ [13]; str "010C1" ++ [13]; [13]])).
  { eexists _, _. vm_compute. reflexivity. }
  destruct E as (a1 & a2 & E). destruct (fast_scene_facts _ _ _ _ _ _ _ _ _ _ _ _ E (proj1 Wp) (proj2 Wp)) as (o & s & A & St & Do & Nr).
  eexists _, _, _, o, s, a1, a2. split; [exact A|]. split; [exact (proj1 Wp)|]. split; [exact (proj2 Wp)|]. split; [|split; [exact St|split; [exact Nr|exact Do]]]. intros [X|[X|[X|[]]]]; discriminate X.
Qed.
