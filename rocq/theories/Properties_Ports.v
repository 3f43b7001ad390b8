(* Properties C78, C79: open ports, and who uses them. *)
From Coq Require Import ZArith List Bool Lia String.
From Verif Require Import Py Num Utils Protocol Decoders Command CommandTable Commands World Elm Obd Async Async2 SpecElm SpecObd SpecAsync SpecAsync2 SpecScan SpecPorts
  AsyncFacts AsyncCb AsyncCb2 ScanThms PortThms AsyncPorts Properties_Elm Properties_Obd Properties_Async Properties_Callbacks Async SpecAsync SpecAsync2.
Import ListNotations.
Open Scope string_scope. Open Scope list_scope. Open Scope nat_scope.

(* ------------------------------------------------------------------ C78 *)
(* full statement: whatever happens, the library holds exactly one port while status() is not "Not Connected" and none otherwise,
   and never uses a port while none is open. False: two refutations below.
   Proved: exactly that for an object made with a port name, ... *)
Theorem C78_named_port_partial : forall cf name scan w t0 h o w1, session cf (Some name) scan w t0 h (o, w1) ->
  left_open 0 (t0 ++ concat (map st_events h)) = Some (match obd_status o with NOT_CONNECTED => 0 | _ => 1 end).
Proof.
  intros cf name scan w t0 h o w1 S. pose proof (session_open _ _ _ _ _ _ _ _ S) as H. replace (pred (List.length (opened t0))) with 0 in H; [exact H|].
  destruct S as ([o0 w0] & N & T & _). cbn [snd] in T. pose proof (named_opened cf name scan w) as O. rewrite N in O. cbn [snd] in O. rewrite T, opened_app in O. apply app_inv_head in O. rewrite O. reflexivity.
Qed.
(* ... and in general: besides that port, one remains open for every port but the last that a scan tried *)
Theorem C78_count_partial : forall cf port scan w t0 h o w1, session cf port scan w t0 h (o, w1) ->
  left_open 0 (t0 ++ concat (map st_events h)) = Some (pred (List.length (opened t0)) + match obd_status o with NOT_CONNECTED => 0 | _ => 1 end).
Proof. exact session_open. Qed.
(* so close(), if it returns, leaves no port open *)
Theorem C78_closed_partial : forall cf name scan w t0 h t o w1 r, session cf (Some name) scan w t0 (h ++ [mkStep OpClose t (Ok r)]) (o, w1) ->
  left_open 0 (t0 ++ concat (map st_events h) ++ t) = Some 0.
Proof.
  intros cf name scan w t0 h t o w1 r S. pose proof (C78_named_port_partial _ _ _ _ _ _ _ _ S) as H. rewrite map_app, concat_app in H. cbn [map concat st_events] in H. rewrite app_nil_r in H.
  assert (E : obd_status o = NOT_CONNECTED); [|rewrite E in H; exact H].
  destruct S as (s0 & N & T & Hh). inversion Hh as [X|h' s1 p r' s2 t' Hh' R T' X]; [destruct h; discriminate X|]. apply app_inj_tail in X as [-> X]. injection X as -> -> ->. subst.
  destruct s1 as [o1 w2]. assert (S1 : session cf (Some name) scan w t0 h (o1, w2)) by (exists s0; auto).
  destruct (C51_close_partial _ _ _ _ _ _ _ _ _ _ _ _ S1 R T') as ((E & _) & _). exact E.
Qed.
(* the same with an update thread and callbacks that use the API, whatever the scheduler does *)
Theorem C78_async_partial : forall cf name scan w o w1 t0 prog sched, new_obd cf (Some name) scan w = (Ok tt, (o, w1)) -> w_trace w1 = w_trace w ++ t0 ->
  let s := brun sched (new_b (new_async o w1 prog)) in
  exists t, w_trace (a_world (b_a s)) = w_trace w ++ t0 ++ t /\ left_open 0 (t0 ++ t) = Some (match obd_status (a_obd (b_a s)) with NOT_CONNECTED => 0 | _ => 1 end).
Proof.
  intros cf name scan w o w1 t0 prog sched N T s. destruct (async_open cf (Some name) scan w o w1 t0 prog sched N T) as (t & E & H). exists t. split; [exact E|].
  pose proof (named_opened cf name scan w) as O. rewrite N in O. cbn [snd] in O. rewrite T, opened_app in O. apply app_inv_head in O. rewrite O in H. exact H.
Qed.
(* a scan that meets two cars: two ports are open, and one of them still is after close() *)
Theorem C78_scan_refuted : exists o w1 o' w2, new_obd (setup true) None [str "a"; str "b"] (fresh (firstn 6 up ++ up ++ up)) = (Ok tt, (o, w1))
  /\ obd_status o = CAR_CONNECTED /\ left_open 0 (w_trace w1) = Some 2
  /\ run_op OpClose (o, w1) = (Ok None, (o', w2)) /\ left_open 0 (w_trace w2) = Some 1.
Proof.
  destruct (new_obd (setup true) None [str "a"; str "b"] (fresh (firstn 6 up ++ up ++ up))) as [r [o w1]] eqn:E. vm_compute in E. injection E as <- <- <-.
  eexists. eexists. eexists. eexists. split; [reflexivity|]. split; [reflexivity|]. split; [vm_compute; reflexivity|]. split; [vm_compute; reflexivity|]. vm_compute. reflexivity.
Qed.
(* the baud rate cannot be set: the constructor raises, and the port stays open without an object to close it *)
Theorem C78_constructor_refuted : exists o w1, new_obd (setup true) (Some (str "p")) [] (mkWorld [] [] [] [false] []) = (Raise SerialError, (o, w1))
  /\ o_interface o = None /\ left_open 0 (w_trace w1) = Some 1.
Proof.
  destruct (new_obd (setup true) (Some (str "p")) [] (mkWorld [] [] [] [false] [])) as [r [o w1]] eqn:E. vm_compute in E. injection E as <- <- <-.
  eexists. eexists. split; [reflexivity|]. split; reflexivity.
Qed.
Example C78_example : let '(h, (o, w1)) := Properties_Obd.outcome (setup true) (mkWorld [] [] (up ++ [says (str "7E8 04 41 0C 1A F8"); None]) [] []) [rpm; rpm; rpm; OpClose] in
  map (fun s => List.length (st_events s)) h = [2; 3; 0; 0] /\ left_open 0 (w_trace w1) = Some 0
  /\ let '(_, (o2, w2)) := Properties_Obd.outcome (setup true) (fresh up) [rpm] in left_open 0 (w_trace w2) = Some 1 /\ obd_status o2 = CAR_CONNECTED.
Proof. vm_compute. auto. Qed.

(* ------------------------------------------------------------------ C79 *)
(* at most one thread is in query() or close() of the connection: two update threads never ask at the same time, the user's thread never closes
   while one asks, and no callback ever gets to close it *)
Theorem C79_exclusive : forall s, b_reachable s ->
  (forall i j, asking s i -> asking s j -> i = j) /\ (forall i, asking s i -> ~ user_closing s) /\ (forall i, ~ callback_closing s i).
Proof.
  intros s Re. destruct (b_reachable_kinv _ Re) as [J K]. split; [|split].
  - intros i j A B. apply (asking_thread _ _ J) in A, B. congruence.
  - intros i A C. apply (asking_thread _ _ J) in A. specialize (K C). congruence.
  - intros i [op B]. destruct (J_in _ J _ _ _ B) as [_ C]. exact C.
Qed.
(* from the moment an update thread is going to ask until it has asked, nobody else touches the connection, however the scheduler runs the others *)
Theorem C79_query_alone : forall s i sched, b_reachable s -> asking s i -> ~ In (BThread i) sched ->
  connection (brun sched s) = connection s /\ asking (brun sched s) i.
Proof.
  intros s i sched Re. revert s Re. induction sched as [|ch l IH]; intros s Re A N; [auto|]. change (brun (ch :: l) s) with (brun l (bstep ch s)).
  assert (Re' : b_reachable (bstep ch s)). { destruct Re as (prog & s0 & sc & C & ->). exists prog, s0, (sc ++ [ch]). split; [exact C|]. unfold brun. rewrite fold_left_app. reflexivity. }
  assert (E : connection (bstep ch s) = connection s /\ asking (bstep ch s) i).
  { destruct (b_reachable_kinv _ Re) as [J K]. split.
    - destruct (step_conn s ch (conj J K)) as [E|[(j & c & it & -> & P & _)|(_ & C & _)]]; [exact E| |].
      + exfalso. apply N. left. f_equal. assert (B : asking s j) by (exists c, it; exact P). apply (asking_thread _ _ J) in A, B. congruence.
      + exfalso. apply (asking_thread _ _ J) in A. specialize (K C). congruence.
    - apply asking_step; [exact (conj J K)|exact A|]. intros ->. apply N. left. reflexivity. }
  destruct E as [E A']. destruct (IH (bstep ch s) Re' A') as [E' A'']; [intros X; apply N; right; exact X|]. split; [rewrite E'; exact E|exact A''].
Qed.
(* the same while the user's thread closes the connection *)
Theorem C79_close_alone : forall s sched, b_reachable s -> user_closing s -> ~ In BMain sched -> connection (brun sched s) = connection s /\ user_closing (brun sched s).
Proof.
  intros s sched Re. revert s Re. induction sched as [|ch l IH]; intros s Re A N; [auto|]. change (brun (ch :: l) s) with (brun l (bstep ch s)).
  assert (Re' : b_reachable (bstep ch s)). { destruct Re as (prog & s0 & sc & C & ->). exists prog, s0, (sc ++ [ch]). split; [exact C|]. unfold brun. rewrite fold_left_app. reflexivity. }
  destruct (b_reachable_kinv _ Re) as [J K].
  assert (E : connection (bstep ch s) = connection s /\ user_closing (bstep ch s)).
  { split.
    - destruct (step_conn s ch (conj J K)) as [E|[(j & c & it & -> & P & _)|(-> & _)]]; [exact E| |exfalso; apply N; left; reflexivity].
      exfalso. assert (B : asking s j) by (exists c, it; exact P). apply (asking_thread _ _ J) in B. specialize (K A). congruence.
    - unfold user_closing. rewrite others_keep_pc; [exact A|exact (conj J K)|intros ->; apply N; left; reflexivity]. }
  destruct E as [E A']. destruct (IH (bstep ch s) Re' A') as [E' A'']; [intros X; apply N; right; exact X|]. split; [rewrite E'; exact E|exact A''].
Qed.
(* a thread that is asking, with the user's thread waiting in stop() for it *)
Example C79_example : exists s, b_reachable s /\ asking s 0 /\ a_pc (b_a s) = M_stop4 0 K_close.
Proof.
  exists (brun (b_user 9 ++ b_loop 0 5 ++ b_user 4) (new_b (begin [says_revs] [AWatch revs None true; AStart; AClose]))).
  split; [b_ran|]. split; [eexists; eexists; vm_compute; reflexivity|vm_compute; reflexivity].
Qed.
(* and the user's thread closing, after the update thread ended *)
Example C79_example_close : exists s, b_reachable s /\ user_closing s /\ List.length (a_threads (b_a s)) = 1.
Proof.
  exists (brun (b_user 9 ++ b_loop 0 3 ++ b_user 4 ++ b_loop 0 20 ++ b_user 2) (new_b (begin [says_revs] [AWatch revs None true; AStart; AClose]))).
  split; [b_ran|]. vm_compute. auto.
Qed.
