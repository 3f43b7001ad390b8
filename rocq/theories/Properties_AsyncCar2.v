(* C90 and C100 with callbacks that use the API (Async2, SpecAsyncCar2). *)
From Coq Require Import ZArith List Bool Lia String.
From Verif Require Import Py Num Utils Protocol Decoders Command CommandTable Commands World Elm Obd Async Async2 SpecElm SpecObd SpecAsync SpecAsync2 SpecE2E SpecAdapter SpecAdapter2 SpecAsyncCar SpecAsyncFast SpecAsyncCar2
  PyFacts ElmFacts ElmThms ObdFacts ObdThms ObdThms2 ObdThms3 ObdThms4 ObdThms5 Properties_Elm Properties_Decoders Properties_Obd AdapterThms AdapterThms2 AdapterThms3 AdapterThms4 AdapterThms5 AdapterCheck
  Properties_Adapter AsyncFacts AsyncThms AsyncThms3 AsyncThms4 AsyncThms7 AsyncHistory AsyncCar AsyncCarFast AsyncCarCb Properties_Async AsyncCb AsyncCb4 SpecLive Properties_Live Properties_AsyncCar Properties_AsyncFast Properties_Callbacks Async2 SpecAsync2 SpecAsyncCar2.
Import ListNotations.
Open Scope string_scope. Open Scope list_scope. Open Scope Z_scope.

Section Car.
  Context {Car : Type} (ask : Car -> option text -> text -> list text -> Car -> Prop).
  Lemma as_silent cf name scan w prog sched o s x y z : async_with_callbacks ask cf name scan w prog sched o s x y z -> exists sched', async_with ask cf name scan w prog sched' o (b_a s) x y z.
  Proof.
    intros (w1 & t0 & t & N & -> & P & T0 & T & F0 & F). assert (V : ainv (new_async o w1 prog)) by (apply new_async_inv; destruct (new_obd_settled ask _ _ _ _ _ _ x N) as (I0 & _); exact I0).
    destruct (polite_as_silent _ _ V P) as (sc & E). exists sc, w1, t0, t. auto 10.
  Qed.
  Lemma gives_out (W : command -> Prop) cf name scan w prog sched o s x y z : async_with_callbacks ask cf name scan w prog sched o s x y z -> (forall c cb f, In (AWatch c cb f) prog -> W c) -> gives_out_answers s.
  Proof.
    intros (w1 & t0 & t & N & -> & P & _) Wp. assert (V : ainv (new_async o w1 prog)) by (apply new_async_inv; destruct (new_obd_settled ask _ _ _ _ _ _ x N) as (I0 & _); exact I0).
    pose proof (from_new W o w1 prog Wp) as F0. destruct (polite_as_silent _ _ V P) as (sc & E). pose proof (from_run W _ sc _ V F0) as F. rewrite <- E in F.
    assert (Q : forall i c r, queried_by (b_a (brun sched (new_b (new_async o w1 prog)))) i c r -> In (c, Ok r) (asked_for (a_events (b_a (brun sched (new_b (new_async o w1 prog)))))))
      by (intros i c r X; apply in_flat_map; exists (AEv_query i c (Ok r)); split; [exact X|left; reflexivity]).
    split; [|split].
    - intros i c f r X. exact (Q _ _ _ (F_fire _ _ _ F _ _ _ _ X)).
    - intros c r X. destruct (F_ret _ _ _ F _ _ X) as [D|(i & c' & D & Y)]; [auto|]. right. exists c'. apply cmd_eqb_same in D. split; [exact D|]. eapply Q. exact Y.
    - intros i c r X. destruct (log_answers W _ sched V F0 P _ _ _ X) as (c0 & D & Y). injection D as <-. exact Y.
  Qed.

  (* C90 holds with callbacks that make harmless calls; what their own calls of query() return comes from the update loop's queries too *)
Theorem C90_with_callbacks : forall cf name scan w prog sched o s x y z pr,
    async_with_callbacks ask cf name scan w prog sched o s x y z -> cf_fast cf = false -> watches_proper prog -> (obd_status o <> NOT_CONNECTED -> uses o pr) ->
    served ask pr (car_of y) (asked_for (a_events (b_a s))) (car_of z) /\ gives_out_answers s /\ (~ In AClose prog -> obd_status (a_obd (b_a s)) = obd_status o).
  Proof.
    intros cf name scan w prog sched o s x y z pr A Sl Pr U. destruct (as_silent _ _ _ _ _ _ _ _ _ _ _ A) as (sc & B). split; [exact (C90_requests ask _ _ _ _ _ _ _ _ _ _ _ _ B Sl Pr U)|].
    split; [exact (gives_out proper _ _ _ _ _ _ _ _ _ _ _ A Pr)|exact (C90_stays ask _ _ _ _ _ _ _ _ _ _ _ B Sl Pr)].
  Qed.
  (* and so does C100 *)
Theorem C100_with_callbacks : forall cf name scan w prog sched o s x y z pr k0,
    async_with_callbacks ask cf name scan w prog sched o s x y z -> cf_fast cf = true -> watches_proper prog -> watches_engine prog -> none_raised (b_a s) ->
    (obd_status o <> NOT_CONNECTED -> uses o pr) -> (forall c n, k0 c = Some n <-> recorded o c n) ->
    (exists k, served_fast ask pr k0 (car_of y) (asked_for (a_events (b_a s))) (car_of z) k) /\ gives_out_answers s /\ (~ In AClose prog -> obd_status (a_obd (b_a s)) = obd_status o).
  Proof.
    intros cf name scan w prog sched o s x y z pr k0 A Sl Pr En Nr U K. destruct (as_silent _ _ _ _ _ _ _ _ _ _ _ A) as (sc & B). split; [exact (C100_requests ask _ _ _ _ _ _ _ _ _ _ _ _ _ B Sl Pr En Nr U K)|].
    split; [exact (gives_out proper _ _ _ _ _ _ _ _ _ _ _ A Pr)|exact (C100_stays ask _ _ _ _ _ _ _ _ _ _ _ B Sl Pr En Nr)].
  Qed.
End Car.

(* ------------------------------------------------------------------ an example *)
Definition cb_scene {Car : Type} (f : Car -> option text -> text -> list text * Car) (s0 : Car) (fast : bool) (ans : list (option bytes)) (prog : list aop) (sched : list bchoice) :
    bool * option (adapter * Car) * option (adapter * Car) * status * list (command + command * callback) * list (nat * aop * option value) * bool :=
  let n := new_obd (setup fast) (Some (str "p")) [] (fresh ans) in
  let s := brun sched (new_b (new_async (fst (snd n)) (snd (snd n)) prog)) in
  let t0 := w_trace (snd (snd n)) in
  let t := skipn (List.length t0) (w_trace (a_world (b_a s))) in
  let y := follows_c f new_adapter s0 t0 in
  (match fst n with Ok _ => true | _ => false end, y, match y with Some (a, c1) => follows_c f a c1 t | None => None end, obd_status (fst (snd n)), doings (a_events (b_a s)),
   map (fun '(i, o, out) => (i, o, match out with OResponse r => Some (r_value r) | _ => None end)) (b_log s),
   forallb (fun q => match snd q with Ok _ => true | Raise _ => false end) (asked_for (a_events (b_a s)))).
Lemma cb_scene_facts {Car : Type} (f : Car -> option text -> text -> list text * Car) s0 fast ans prog sched a1 s1 a2 s2 st l lg :
  cb_scene f s0 fast ans prog sched = (true, Some (a1, s1), Some (a2, s2), st, l, lg, true) -> watches_proper prog -> watches_engine prog ->
  polite sched (new_b (new_async (fst (snd (new_obd (setup fast) (Some (str "p")) [] (fresh ans)))) (snd (snd (new_obd (setup fast) (Some (str "p")) [] (fresh ans)))) prog)) ->
  exists o s, async_with_callbacks (answers f) (setup fast) (str "p") [] (fresh ans) prog sched o s (new_adapter, s0, []) (a1, s1, []) (a2, s2, []) /\ obd_status o = st /\ doings (a_events (b_a s)) = l /\ none_raised (b_a s)
    /\ map (fun '(i, o, out) => (i, o, match out with OResponse r => Some (r_value r) | _ => None end)) (b_log s) = lg.
Proof.
  unfold cb_scene. intros H Wp We Po. do 6 (let D := fresh "D" in apply pair_equal_spec in H as [H D]).
  destruct (new_obd (setup fast) (Some (str "p")) [] (fresh ans)) as [r0 [o w1]] eqn:N. cbn [fst snd] in *.
  assert (r0 = Ok tt) by (destruct r0 as [[]|]; [reflexivity|discriminate H]). subst r0. rewrite D4 in D3.
  assert (F0 : SpecAdapter.follows (answers f) (new_adapter, s0, []) (w_trace w1) (a1, s1, [])) by (apply follows_check; exact D4).
  assert (V : ainv (new_async o w1 prog)) by (apply new_async_inv; destruct (new_obd_settled (answers f) _ _ _ _ _ _ (new_adapter, s0, []) N) as (I0 & _); exact I0).
  destruct (polite_as_silent _ _ V Po) as (sc & E). rewrite E in D3.
  assert (T : exists t, w_trace (a_world (arun sc (new_async o w1 prog))) = w_trace w1 ++ t).
  { destruct fast.
    - destruct (fastinv_run (answers f) (setup true) (str "p") [] (fresh ans) w1 o prog (new_adapter, s0, []) (a1, s1, []) (w_trace w1) N eq_refl eq_refl F0 Wp We sc) as (_ & t & T & _). eauto.
    - destruct (carinv_run (answers f) (setup false) (str "p") [] (fresh ans) w1 o prog (new_adapter, s0, []) (a1, s1, []) (w_trace w1) N eq_refl eq_refl F0 Wp sc) as (_ & t & T & _). eauto. }
  destruct T as (t & T). rewrite T, skipn_app, skipn_all, Nat.sub_diag in D3. cbn [skipn app] in D3.
  exists o, (brun sched (new_b (new_async o w1 prog))). split; [|split; [exact D2|split; [exact D1|split; [|exact D0]]]].
  - exists w1, (w_trace w1), t. split; [exact N|]. split; [reflexivity|]. split; [exact Po|]. split; [reflexivity|]. split; [rewrite E; exact T|]. split; [exact F0|]. apply follows_check. exact D3.
  - intros c e X. rewrite forallb_forall in D. specialize (D _ X). discriminate D.
Qed.
(* with fast=True: the callback of RPM calls query(RPM) and gets the answer just received; two rounds, and the car was asked twice *)
Example C100_callbacks_example : exists ans prog sched o s a1 a2,
  async_with_callbacks (answers car2) (setup true) (str "p") [] (fresh ans) prog sched o s (new_adapter, O, []) (a1, O, []) (a2, 2%nat, []) /\ watches_proper prog /\ watches_engine prog /\ ~ In AClose prog
  /\ obd_status o = CAR_CONNECTED /\ none_raised (b_a s) /\ doings (a_events (b_a s)) = [inl revs; inr (revs, 1); inl revs; inr (revs, 1)] /\ exists v, v <> VNone
  /\ map (fun '(i, o, out) => (i, o, match out with OResponse r => Some (r_value r) | _ => None end)) (b_log s) = [(O, AQuery revs, Some v); (O, AQuery revs, Some VNone)].
Proof.
  assert (Wp : watches_proper [AWatch revs (Some 1) true; AStart; AQuery revs] /\ watches_engine [AWatch revs (Some 1) true; AStart; AQuery revs]).
  { assert (K : forall rv c cb f, In (AWatch c cb f) [AWatch rv (Some 1) true; AStart; AQuery rv] -> c = rv) by (intros rv c cb f [X|[X|[X|[]]]]; try discriminate X; congruence).
    split; intros c cb f X; rewrite (K _ _ _ _ X); [exact revs_proper|]. unfold revs. exact (proj2 rpm_engine). }
  assert (E : exists a1 a2 v, v <> VNone /\ cb_scene car2 O true (start_up ++ [several [str "7E8 04 41 0C 1A F8"]; several [str "7E9 04 41 0C 00 00"]; several [str "7E9 04 41 0C 00 00"]])
      [AWatch revs (Some 1) true; AStart; AQuery revs] (b_user 9 ++ b_loop 0 9 ++ [BDoes 0 (Calls (AQuery revs)); BDoes 0 Returns] ++ b_loop 0 12 ++ [BDoes 0 (Calls (AQuery revs)); BDoes 0 Returns])
      = (true, Some (a1, O), Some (a2, 2%nat), CAR_CONNECTED, [inl revs; inr (revs, 1); inl revs; inr (revs, 1)], [(O, AQuery revs, Some v); (O, AQuery revs, Some VNone)], true)).
  { eexists _, _, _. split; [|vm_compute; reflexivity]. discriminate. }
  destruct E as (a1 & a2 & v & Nv & E). destruct (cb_scene_facts _ _ _ _ _ _ _ _ _ _ _ _ _ E (proj1 Wp) (proj2 Wp)) as (o & s & A & St & Do & Nr & Lg).
  { apply decide_polite. vm_compute. reflexivity. }
  eexists _, _, _, o, s, a1, a2. split; [exact A|]. split; [exact (proj1 Wp)|]. split; [exact (proj2 Wp)|]. split; [intros [X|[X|[X|[]]]]; discriminate X|]. split; [exact St|]. split; [exact Nr|]. split; [exact Do|].
  exists v. split; [exact Nv|exact Lg].
Qed.
