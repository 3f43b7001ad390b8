(* Property C85: looking at a connection while the update loop uses it. *)
From Coq Require Import ZArith List Bool Lia String.
From Verif Require Import Py Num Utils Protocol Decoders Command CommandTable Commands World Elm Obd Async SpecElm SpecObd SpecAsync Fine SpecFine Look SpecLook
  AsyncThms4 FineAsync2 FineAsync3 LookThms LookThms2 Properties_Elm Properties_Obd Properties_Async Properties_Fine Async SpecAsync SpecFine Look.
Import ListNotations.
Open Scope string_scope. Open Scope list_scope. Open Scope nat_scope.

Lemma start_dim s0 before : asks_dim (l_f (lrun before (new_look s0))).
Proof. apply asks_dim_lrun. intros i p E. discriminate E. Qed.
Lemma start_reading s0 : reading (new_look s0). Proof. exact Logic.I. Qed.

(* ------------------------------------------------------------------ C85 *)
(* looking changes nothing: without the looks, the same program *)
Theorem C85_changes_nothing : forall s0 sched, exists fs, (forall ch, In ch fs -> In (LFine ch) sched) /\ l_f (lrun sched (new_look s0)) = frun fs (new_fine s0).
Proof. intros s0 sched. destruct (looks_nothing sched (new_look s0) (start_reading s0)) as (fs & H & E & _). exists fs. auto. Qed.
(* a look returns, whatever the update threads do meanwhile, after four more steps of the user's thread at the latest *)
Theorem C85_returns : forall s0 before k sched, let l := lrun before (new_look s0) in may_look l -> 4 <= times_look sched ->
  exists r rest, l_seen (lrun (LLook k :: sched) l) = l_seen l ++ (k, r) :: rest.
Proof. intros s0 before k sched l M N. apply look_returns; [apply start_dim|exact M|exact N]. Qed.
(* what status(), is_connected(), protocol_id(), protocol_name() and supports() return was so at some moment of the call *)
Theorem C85_moment_partial : forall s0 before k sched r rest, let l := lrun before (new_look s0) in let l1 := lstep (LLook k) l in
  may_look l -> k <> LPort -> l_seen (lrun sched l1) = l_seen l ++ (k, r) :: rest ->
  exists s1 s2, sched = s1 ++ s2 /\ l_seen (lrun s1 l1) = l_seen l /\ r = show k (fst (l_conn (lrun s1 l1))).
Proof.
  intros s0 before k sched r rest l l1 M N E. assert (E1 : l_seen l1 = l_seen l) by (unfold l1, lstep; destruct M as (-> & -> & ->); reflexivity).
  destruct (one_look l k sched r rest (start_dim s0 before) M E) as [H|(K & _)]; [|contradiction]. fold l1 in H. rewrite E1 in H. exact H.
Qed.
(* and port_name(): or the port was lost during the call, which then raises *)
Theorem C85_port_partial : forall s0 before sched r rest, let l := lrun before (new_look s0) in let l1 := lstep (LLook LPort) l in
  may_look l -> l_seen (lrun sched l1) = l_seen l ++ (LPort, r) :: rest ->
  (exists s1 s2, sched = s1 ++ s2 /\ l_seen (lrun s1 l1) = l_seen l /\ r = show LPort (fst (l_conn (lrun s1 l1)))) \/
  (r = Raise AttributeError /\ exists s1 s2 s3 e p, sched = s1 ++ s2 ++ s3 /\ l_seen (lrun (s1 ++ s2) l1) = l_seen l /\
     o_interface (fst (l_conn (lrun s1 l1))) = Some e /\ e_port e = Some p /\ obd_port_name (fst (l_conn (lrun (s1 ++ s2) l1))) = []).
Proof.
  intros s0 before sched r rest l l1 M E. assert (E1 : l_seen l1 = l_seen l) by (unfold l1, lstep; destruct M as (-> & -> & ->); reflexivity).
  destruct (one_look l LPort sched r rest (start_dim s0 before) M E) as [H|(_ & Er & s1 & s2 & -> & Se & Nm & a & b & e & p & -> & _ & Ei & Ep)]; [fold l1 in H; rewrite E1 in H; left; exact H|fold l1 in Se, Nm, Ei; rewrite E1 in Se; right].
  split; [exact Er|]. exists a, b, s2, e, p. rewrite app_assoc. auto.
Qed.
(* while an update thread is in a query, every look shows the connection before the query or the connection after it *)
Theorem C85_before_or_after : forall prog s0 before i c it sched new, created prog s0 -> quiet_looks before -> quiet_looks sched ->
  let l := lrun before (new_look s0) in nth_error (a_threads (f_a (l_f l))) i = Some (T_query c it) -> f_asks (l_f l) i = None ->
  let l' := lrun sched l in a_events (f_a (l_f l')) = a_events (f_a (l_f l)) ++ new -> (forall r, ~ In (AEv_query i c r) new) ->
  forall k, show k (fst (l_conn l')) = show k (fst (l_conn l)) \/ show k (fst (l_conn l')) = show k (fst (snd (query c true (l_conn l)))).
Proof.
  intros prog s0 before i c it sched new C Q1 Q2 l P A l' E N k.
  destruct (looks_nothing before (new_look s0) (start_reading s0)) as (f1 & H1 & E1 & R1). fold l in E1, R1.
  destruct (looks_nothing sched l R1) as (f2 & H2 & E2 & _). fold l' in E2.
  assert (N1 : no_power f1) by (intros low I0; exact (Q1 low (H1 _ I0))). assert (N2 : no_power f2) by (intros low I0; exact (Q2 low (H2 _ I0))).
  unfold l_conn. rewrite E2. rewrite E2 in E. apply (seen_midway (l_f l) i c it f2 new); try assumption.
  - rewrite E1. apply carefully_ok. exists prog, s0, f1. split; [exact C|]. split; [apply no_power_careful, N1|reflexivity].
  - apply no_power_careful, N2.
Qed.
(* ---- concrete runs ---- *)
Definition fines (l : list fchoice) : list lchoice := map LFine l.
Definition looking (k : look) (n : nat) : list lchoice := repeat (LLook k) n.
(* the port is unplugged under the loop's query, between the two times port_name() reads it *)
Theorem C85_port_refuted : exists prog s0 before sched, created prog s0 /\ quiet_looks before /\ quiet_looks sched /\ let l := lrun before (new_look s0) in
  may_look l /\ l_seen l = [] /\ l_seen (lrun sched l) = [(LPort, Raise AttributeError)] /\
  (forall s1 s2, sched = s1 ++ s2 -> exists t, show LPort (fst (l_conn (lrun s1 l))) = Ok (SText t)).
Proof.
  exists [AWatch revs (Some 1%Z) true; AStart], (begin [None] [AWatch revs (Some 1%Z) true; AStart]), (fines (users 9 ++ loops 0 5)), (looking LPort 3 ++ fines (loops 0 14) ++ looking LPort 2).
  split; [made|]. split; [intros low I0; cbn in I0; repeat destruct I0 as [E|I0]; try discriminate E; exact I0|]. split; [intros low I0; cbn in I0; repeat destruct I0 as [E|I0]; try discriminate E; exact I0|].
  cbv zeta. split; [split; [vm_compute; reflexivity|split; [nobody|vm_compute; reflexivity]]|]. split; [vm_compute; reflexivity|]. split; [vm_compute; reflexivity|].
  intros s1 s2 _. eexists. reflexivity.
Qed.
(* in the same run: status() while the query is failing, port_name() before the port is given up, and both after *)
Example C85_example : let prog := [AWatch revs (Some 1%Z) true; AStart] in let s0 := begin [None] prog in let before := fines (users 9 ++ loops 0 5) in
  let l := lrun before (new_look s0) in created prog s0 /\ quiet_looks before /\ may_look l /\ (exists it, nth_error (a_threads (f_a (l_f l))) 0 = Some (T_query revs it)) /\ f_asks (l_f l) 0 = None /\
  obd_status (fst (l_conn l)) = CAR_CONNECTED /\ obd_status (fst (snd (query revs true (l_conn l)))) = NOT_CONNECTED /\
  l_seen (lrun (looking LStatus 4 ++ fines (loops 0 12) ++ looking LStatus 4 ++ looking LPort 5 ++ fines (loops 0 3) ++ looking LPort 4 ++ looking LConnected 4 ++ looking (LSupports revs) 3) l) =
    [(LStatus, Ok (SStatus CAR_CONNECTED)); (LStatus, Ok (SStatus NOT_CONNECTED)); (LPort, Ok (SText (str "p"))); (LPort, Ok (SText [])); (LConnected, Ok (SBool false)); (LSupports revs, Ok (SBool false))].
Proof.
  cbv zeta. split; [made|]. split; [intros low I0; cbn in I0; repeat destruct I0 as [E|I0]; try discriminate E; exact I0|]. split; [split; [vm_compute; reflexivity|split; [nobody|vm_compute; reflexivity]]|].
  split; [eexists; vm_compute; reflexivity|]. split; [nobody|]. split; [vm_compute; reflexivity|]. split; [vm_compute; reflexivity|]. vm_compute. reflexivity.
Qed.
