(* Looking at a connection in use: the theorems. *)
From Coq Require Import ZArith List Bool Lia.
From Verif Require Import Py Num Utils Protocol Decoders Command CommandTable Commands World Elm Obd Async Fine SpecObd SpecAsync SpecFine Look SpecLook
  ObdFacts ObdThms AsyncFacts AsyncThms AsyncThms3 AsyncThms4 FineThms FineAsync FineAsync2 FineAsync3 LookThms.
Import ListNotations.
Open Scope nat_scope.
Local Opaque watch_table unwatch_table query f_query f_obd_close obd_close obd_low_power obd_normal_power f_obd_low_power f_obd_normal_power.

Lemma fstep_events ch f : exists new, a_events (f_a (fstep ch f)) = a_events (f_a f) ++ new.
Proof.
  assert (N : forall g : fstate, f_a g = f_a f -> exists new, a_events (f_a g) = a_events (f_a f) ++ new) by (intros g ->; exists []; rewrite app_nil_r; reflexivity).
  destruct ch as [|i b|low]; unfold fstep, f_main, f_thread, f_do_power.
  - destruct (f_power f); [apply N; reflexivity|].
    assert (G : exists new, a_events (f_a (match option_map (fun a => f_upd a f) (main_step (f_a f)) with Some f' => f' | None => f end)) = a_events (f_a f) ++ new).
    { destruct (main_step (f_a f)) eqn:M; cbn [option_map f_upd f_a]; [exact (main_events _ _ M)|apply N; reflexivity]. }
    destruct (a_pc (f_a f)); try exact G. destruct (f_closes f) as [[]|]; cbn; first [eexists; reflexivity | exists []; rewrite app_nil_r; reflexivity].
  - assert (G : exists new, a_events (f_a (match option_map (fun a => f_upd a f) (thread_step i b (f_a f)) with Some f' => f' | None => f end)) = a_events (f_a f) ++ new).
    { destruct (thread_step i b (f_a f)) eqn:M; cbn [option_map f_upd f_a]; [exact (thread_events _ _ _ _ M)|apply N; reflexivity]. }
    destruct (nth_error (a_threads (f_a f)) i) as [q|]; [|exact G]. destruct q; try exact G. destruct (f_asks f i) as [[]|]; cbn; first [eexists; reflexivity | exists []; rewrite app_nil_r; reflexivity].
  - destruct (a_pc (f_a f)); try (apply N; reflexivity). destruct (f_power f) as [[l [r|g k]]|]; cbn; exists []; rewrite app_nil_r; reflexivity.
Qed.
Lemma frun_events sched : forall f, exists new, a_events (f_a (frun sched f)) = a_events (f_a f) ++ new.
Proof.
  induction sched as [|ch sched IH]; intros f; [exists []; rewrite app_nil_r; reflexivity|]. rewrite frun_cons. destruct (IH (fstep ch f)) as (n2 & E2). destruct (fstep_events ch f) as (n1 & E1). exists (n1 ++ n2). rewrite E2, E1, app_assoc. reflexivity.
Qed.

Definition midway (i : nat) (c : command) (it : iter) (x : conn) (f : fstate) : Prop :=
  nth_error (a_threads (f_a f)) i = Some (T_query c it) /\ dims x (f_conn f) /\
  (f_asks f i = None /\ f_conn f = x \/ exists p, f_asks f i = Some p /\ dim p /\ run p (f_conn f) = query c true x).
Lemma midway_run i c it x sched : forall f, fok f -> careful sched f -> midway i c it x f ->
  midway i c it x (frun sched f) \/ exists new, a_events (f_a (frun sched f)) = a_events (f_a f) ++ new /\ exists r, In (AEv_query i c r) new.
Proof.
  induction sched as [|ch sched IH]; intros f F C M; [left; exact M|]. destruct C as [C1 C2]. pose proof (fok_step _ _ F C1) as F1. rewrite frun_cons.
  assert (Next : midway i c it x (fstep ch f) \/ exists r, a_events (f_a (fstep ch f)) = a_events (f_a f) ++ [AEv_query i c r]).
  { destruct M as (P & D & K). destruct (by_thread i ch) eqn:B.
    - destruct ch as [|j b|low]; try discriminate B. cbn in B. apply Nat.eqb_eq in B. subst j. unfold fstep, f_thread. rewrite P. destruct K as [(A & E)|(p & A & Dp & Q)]; rewrite A.
      + left. split; [exact P|]. split; [exact D|]. right. exists (f_query c true). split; [apply ask_same|]. split; [apply dim_query|]. rewrite <- E. apply query_agrees.
      + destruct p as [r|g k].
        * right. exists r. reflexivity.
        * left. remember (Act g k) as ak eqn:Eak. destruct Dp as [r|g' k' G Kd]; [discriminate Eak|injection Eak as -> ->]. split; [exact P|].
          unfold put_ask, f_upd. cbn [f_a f_asks f_closes f_power f_powers]. rewrite conn_mk. split; [exact (dims_trans _ _ _ D (G _))|]. right. exists (k (f_conn f)). split; [cbn; rewrite Nat.eqb_refl; reflexivity|]. split; [apply Kd|exact Q].
    - left. destruct (asking_stays f i c it ch F C1 P B) as (P' & A' & E'). split; [exact P'|]. rewrite E'. split; [exact D|]. rewrite A'. exact K. }
  destruct Next as [M'|(r & E)].
  - destruct (IH _ F1 C2 M') as [M2|(new & E2 & R)]; [auto|]. right. destruct (fstep_events ch f) as (n1 & E1). exists (n1 ++ new). split; [rewrite E2, E1, app_assoc; reflexivity|]. destruct R as (r & R). exists r. apply in_or_app. auto.
  - right. destruct (frun_events sched (fstep ch f)) as (n2 & E2). exists ([AEv_query i c r] ++ n2). split; [rewrite E2, E, app_assoc; reflexivity|]. exists r. left. reflexivity.
Qed.
Theorem seen_midway f i c it sched new : fok f -> careful sched f -> nth_error (a_threads (f_a f)) i = Some (T_query c it) -> f_asks f i = None ->
  a_events (f_a (frun sched f)) = a_events (f_a f) ++ new -> (forall r, ~ In (AEv_query i c r) new) ->
  forall k, show k (fst (f_conn (frun sched f))) = show k (fst (f_conn f)) \/ show k (fst (f_conn (frun sched f))) = show k (fst (snd (query c true (f_conn f)))).
Proof.
  intros F C P A E N k. destruct (midway_run i c it (f_conn f) sched f F C) as [(P' & D & K)|(new' & E' & r & R)].
  - split; [exact P|]. split; [apply dims_refl|]. left. auto.
  - destruct K as [(A' & E')|(p & A' & Dp & Q)]; [rewrite E'; auto|]. apply show_mid; [exact D|]. rewrite <- Q. apply dim_run, Dp.
  - exfalso. rewrite E in E'. apply app_inv_head in E'. subst new'. exact (N r R).
Qed.

(* ---- one look ---- *)
Definition asks_dim (f : fstate) : Prop := forall i p, f_asks f i = Some p -> dim p.
Lemma asks_dim_step ch f : asks_dim f -> asks_dim (fstep ch f).
Proof.
  intros D. destruct ch as [|i b|low]; unfold fstep, f_main, f_thread, f_do_power.
  - destruct (f_power f); [exact D|]. assert (G : asks_dim (match option_map (fun a => f_upd a f) (main_step (f_a f)) with Some f' => f' | None => f end)) by (destruct (main_step (f_a f)); exact D).
    destruct (a_pc (f_a f)); try exact G. destruct (f_closes f) as [[]|]; exact D.
  - assert (G : asks_dim (match option_map (fun a => f_upd a f) (thread_step i b (f_a f)) with Some f' => f' | None => f end)) by (destruct (thread_step i b (f_a f)); exact D).
    assert (Put : forall x g, f_asks g = f_asks f -> (forall p, x = Some p -> dim p) -> asks_dim (put_ask i x g)).
    { intros x g E X j p. cbn. destruct (Nat.eqb i j); [apply X|]. rewrite E. apply D. }
    destruct (nth_error (a_threads (f_a f)) i) as [q|]; [|exact G]. destruct q; try exact G. destruct (f_asks f i) as [[r|g k]|] eqn:A; (apply Put; [reflexivity|]).
    + discriminate.
    + intros p [= <-]. pose proof (D _ _ A) as X. remember (Act g k) as ak eqn:Eak. destruct X as [r|g' k' G' Kd]; [discriminate Eak|injection Eak as -> ->]. apply Kd.
    + intros p [= <-]. apply dim_query.
  - destruct (a_pc (f_a f)); try exact D. destruct (f_power f) as [[l [r|g k]]|]; exact D.
Qed.
Lemma thread_keeps i b s s' : thread_step i b s = Some s' -> (forall c it, nth_error (a_threads s) i <> Some (T_query c it)) -> (a_obd s', a_world s') = (a_obd s, a_world s) /\ a_pc s' = a_pc s.
Proof.
  unfold thread_step. intros H N. destruct (nth_error (a_threads s) i) as [q|]; [|discriminate H].
  destruct q; try (exfalso; exact (N _ _ eq_refl)); repeat match type of H with
   | context [match ?x with _ => _ end] => destruct x
   end; try discriminate H; injection H as <-; split; reflexivity.
Qed.
(* a step of an update thread *)
Lemma loop_step_dims i b f : asks_dim f -> let f' := fstep (FThread i b) f in dims (f_conn f) (f_conn f') /\ a_pc (f_a f') = a_pc (f_a f) /\ f_power f' = f_power f.
Proof.
  intros D. cbv zeta. unfold fstep, f_thread.
  assert (G : (forall c it, nth_error (a_threads (f_a f)) i <> Some (T_query c it)) -> let f' := match option_map (fun a => f_upd a f) (thread_step i b (f_a f)) with Some f' => f' | None => f end in dims (f_conn f) (f_conn f') /\ a_pc (f_a f') = a_pc (f_a f) /\ f_power f' = f_power f).
  { intros N. cbv zeta. destruct (thread_step i b (f_a f)) as [s'|] eqn:T; cbn [option_map]; [|split; [apply dims_refl|auto]]. destruct (thread_keeps _ _ _ _ T N) as (E1 & E2).
    assert (Ec : f_conn (f_upd s' f) = f_conn f) by exact E1. rewrite Ec. split; [apply dims_refl|]. split; [exact E2|reflexivity]. }
  cbv zeta in G. destruct (nth_error (a_threads (f_a f)) i) as [q|] eqn:P; [|apply G; discriminate]. destruct q; try (apply G; discriminate). clear G.
  destruct (f_asks f i) as [[r|g k]|] eqn:A.
  - split; [apply dims_refl|split; reflexivity].
  - pose proof (D _ _ A) as X. remember (Act g k) as ak eqn:Eak. destruct X as [r|g' k' G' Kd]; [discriminate Eak|injection Eak as -> ->].
    unfold put_ask, f_upd. cbn [f_a f_asks f_closes f_power f_powers]. rewrite conn_mk. split; [apply G'|split; reflexivity].
  - split; [apply dims_refl|split; reflexivity].
Qed.
Lemma lrun_app a b l : lrun (a ++ b) l = lrun b (lrun a l). Proof. apply fold_left_app. Qed.
Lemma lrun_snoc a ch l : lrun (a ++ [ch]) l = lstep ch (lrun a l). Proof. rewrite lrun_app. reflexivity. Qed.
Lemma asks_dim_lstep ch l : asks_dim (l_f l) -> asks_dim (l_f (lstep ch l)).
Proof.
  intros D. destruct ch as [ch|k]; unfold lstep.
  - pose proof (asks_dim_step ch _ D) as D'. destruct (l_look l), ch; auto.
  - destruct (a_pc (f_a (l_f l))); try exact D. destruct (f_power (l_f l)); [exact D|]. destruct (l_look l) as [[k' [r|g n]]|]; exact D.
Qed.
Lemma asks_dim_lrun sched : forall l, asks_dim (l_f l) -> asks_dim (l_f (lrun sched l)).
Proof. induction sched as [|ch sched IH]; intros l D; [exact D|]. apply IH, asks_dim_lstep, D. Qed.
Lemma seen_grows ch l : exists new, l_seen (lstep ch l) = l_seen l ++ new.
Proof.
  assert (N : exists new, l_seen l = l_seen l ++ new) by (exists []; rewrite app_nil_r; reflexivity). destruct ch as [ch|k]; unfold lstep.
  - destruct (l_look l), ch; exact N.
  - destruct (a_pc (f_a (l_f l))); try exact N. destruct (f_power (l_f l)); [exact N|]. destruct (l_look l) as [[k' [r|g n]]|]; try exact N. cbn. eauto.
Qed.

(* where a look can be. prt: only for port_name, which reads twice *)
Definition prt : code shown := let* t <- (let* p <- elm_ (elm_of e_port); match p with None => Done (Raise AttributeError) | Some p => pure (pt_name p) end); pure (SText t).
Definition second (k : look) : code shown :=
  match k with
  | LStatus => let* s <- elm_ (elm_of e_status); pure (SStatus s)
  | LConnected => let* s <- elm_ (elm_of e_status); pure (SBool (status_eqb s CAR_CONNECTED))
  | LPort => let* t <- f_port_name; pure (SText t)
  | LId => let* t <- obj (fun s => (obd_protocol_id (fst s), s)); pure (SText t)
  | _ => let* t <- obj (fun s => (obd_protocol_name (fst s), s)); pure (SText t)
  end.
(* the answer r is right: it was so at some moment of the look, or the port's name was asked while the port was being lost *)
Definition right_ (l1 : lstate) (sched : list lchoice) (k : look) (r : res shown) : Prop :=
  (exists s1 s2, sched = s1 ++ s2 /\ l_seen (lrun s1 l1) = l_seen l1 /\ r = show k (fst (l_conn (lrun s1 l1)))) \/
  (k = LPort /\ r = Raise AttributeError /\ exists s1 s2, sched = s1 ++ s2 /\ l_seen (lrun s1 l1) = l_seen l1 /\ obd_port_name (fst (l_conn (lrun s1 l1))) = [] /\
     exists a b e p, s1 = a ++ b /\ l_seen (lrun a l1) = l_seen l1 /\ o_interface (fst (l_conn (lrun a l1))) = Some e /\ e_port e = Some p).
Lemma right_more l1 sched more k r : right_ l1 sched k r -> right_ l1 (sched ++ more) k r.
Proof.
  intros [(s1 & s2 & -> & H)|(K & E & s1 & s2 & -> & H)]; [left; exists s1, (s2 ++ more); rewrite app_assoc; auto|right]. split; [exact K|]. split; [exact E|]. exists s1, (s2 ++ more). rewrite app_assoc. auto.
Qed.
Inductive stage (l1 : lstate) (sched : list lchoice) (k : look) (s : conn) : nat -> code shown -> Prop :=
| st_first : stage l1 sched k s 4 (f_look k)
| st_second : (forall c, k <> LSupports c) -> o_interface (fst s) <> None -> stage l1 sched k s 3 (second k)
| st_port : k = LPort -> o_interface (fst s) <> None -> (exists a b e p, sched = a ++ b /\ l_seen (lrun a l1) = l_seen l1 /\ o_interface (fst (l_conn (lrun a l1))) = Some e /\ e_port e = Some p) -> stage l1 sched k s 2 prt
| st_last r : right_ l1 sched k r -> stage l1 sched k s 1 (Done r).
Lemma stage_more l1 sched more k s s' w p : dims s s' -> stage l1 sched k s w p -> stage l1 (sched ++ more) k s' w p.
Proof.
  intros [_ D] H. assert (Ni : o_interface (fst s) <> None -> o_interface (fst s') <> None) by (destruct (o_interface (fst s)), (o_interface (fst s')); intros; congruence || contradiction).
  destruct H as [|K N|K N (a & b & e & p & -> & X)|r R].
  - apply st_first.
  - apply st_second; auto.
  - apply st_port; auto. exists a, (b ++ more), e, p. rewrite app_assoc. auto.
  - apply st_last, right_more, R.
Qed.
Lemma obj_act {A B} (m : MO A) (n : A -> code B) : and_then (obj m) n = Act (fun s => snd (m s)) (fun s => match fst (m s) with Ok a => n a | Raise e => Done (Raise e) end).
Proof. reflexivity. Qed.
Lemma elm_read {A} (f : elm -> A) (o : obd) (w : world) (e : elm) : o_interface o = Some e -> on_interface (elm_of f) (o, w) = (Ok (f e), (o, w)).
Proof. intros H. unfold on_interface. rewrite H. cbn. f_equal. f_equal. destruct o. cbn in *. congruence. Qed.
(* one access of a look *)
Lemma stage_act l1 sched k w0 g n : l_seen (lrun sched l1) = l_seen l1 -> stage l1 sched k (l_conn (lrun sched l1)) w0 (Act g n) ->
  g (l_conn (lrun sched l1)) = l_conn (lrun sched l1) /\ exists w', w' < w0 /\ stage l1 sched k (l_conn (lrun sched l1)) w' (n (l_conn (lrun sched l1))).
Proof.
  remember (l_conn (lrun sched l1)) as s eqn:Es0. intros Lk H. remember (Act g n) as p eqn:Ep. destruct H as [|K N|K N X|r R]; [| | |discriminate Ep].
  - (* reading self.interface *)
    assert (Now : forall r, r = show k (fst s) -> right_ l1 sched k r). { intros r ->. left. exists sched, []. rewrite app_nil_r, <- Es0. auto. }
    destruct k; unfold f_look in Ep; cbn -[f_port_name] in Ep; injection Ep as <- <-; (split; [reflexivity|]);
      try (cbn -[f_port_name]; destruct (o_interface (fst s)) as [e|] eqn:Hi; [|exists 1; (split; [lia|]); apply st_last, Now; unfold show, is_connected, obd_status, obd_port_name, obd_protocol_id, obd_protocol_name; rewrite Hi; reflexivity]).
    + exists 3. split; [lia|]. apply (st_second l1 sched LStatus s); [discriminate|congruence].
    + exists 3. split; [lia|]. apply (st_second l1 sched LConnected s); [discriminate|congruence].
    + exists 3. split; [lia|]. apply (st_second l1 sched LPort s); [discriminate|congruence].
    + exists 3. split; [lia|]. apply (st_second l1 sched LId s); [discriminate|congruence].
    + exists 3. split; [lia|]. apply (st_second l1 sched LName s); [discriminate|congruence].
    + cbn. exists 1; (split; [lia|]); apply st_last, Now. reflexivity.
  - assert (Now : forall r, r = show k (fst s) -> right_ l1 sched k r). { intros r ->. left. exists sched, []. rewrite app_nil_r, <- Es0. auto. }
    destruct s as [o w]. cbn [fst] in *. destruct (o_interface o) as [e|] eqn:Hi; [|congruence]. destruct k; cbn [second] in Ep; unfold f_port_name, elm_ in Ep; rewrite ?obj_act in Ep; try (exfalso; exact (K _ eq_refl)).
    + injection Ep as <- <-. rewrite (elm_read _ _ _ _ Hi). split; [reflexivity|]. cbn. exists 1; (split; [lia|]); apply st_last, Now. unfold show, obd_status. rewrite Hi. reflexivity.
    + injection Ep as <- <-. rewrite (elm_read _ _ _ _ Hi). split; [reflexivity|]. cbn. exists 1; (split; [lia|]); apply st_last, Now. unfold show, is_connected, obd_status. rewrite Hi. reflexivity.
    + cbn [and_then] in Ep. injection Ep as <- <-. rewrite (elm_read _ _ _ _ Hi). split; [reflexivity|]. cbn [fst]. destruct (e_port e) as [p|] eqn:Hp.
      * exists 2. split; [lia|]. apply st_port; [reflexivity|cbn [fst]; congruence|]. exists sched, [], e, p. rewrite app_nil_r, <- Es0. auto.
      * cbn. exists 1; (split; [lia|]); apply st_last, Now. unfold show, obd_port_name. rewrite Hi. unfold elm_port_name. rewrite Hp. reflexivity.
    + injection Ep as <- <-. split; [reflexivity|]. cbn [fst]. destruct (obd_protocol_id o) eqn:Hp; cbn; exists 1; (split; [lia|]); apply st_last, Now; unfold show; rewrite Hp; reflexivity.
    + injection Ep as <- <-. split; [reflexivity|]. cbn [fst]. destruct (obd_protocol_name o) eqn:Hp; cbn; exists 1; (split; [lia|]); apply st_last, Now; unfold show; rewrite Hp; reflexivity.
  - subst k. destruct s as [o w]. cbn [fst] in *. destruct (o_interface o) as [e|] eqn:Hi; [|congruence]. unfold prt, elm_ in Ep. rewrite obj_act in Ep. cbn [and_then] in Ep. injection Ep as <- <-.
    rewrite (elm_read _ _ _ _ Hi). split; [reflexivity|]. cbn [fst]. destruct (e_port e) as [p|] eqn:Hp; cbn; exists 1; (split; [lia|]); apply st_last.
    + left. exists sched, []. rewrite app_nil_r, <- Es0. split; [reflexivity|]. split; [exact Lk|]. unfold show, obd_port_name. cbn [fst]. rewrite Hi. unfold elm_port_name. rewrite Hp. reflexivity.
    + right. split; [reflexivity|]. split; [reflexivity|]. exists sched, []. rewrite app_nil_r, <- Es0. cbn [fst]. split; [reflexivity|]. split; [exact Lk|]. split; [unfold obd_port_name; rewrite Hi; unfold elm_port_name; rewrite Hp; reflexivity|].
      exact X.
Qed.
Lemma look_runs l k sched : asks_dim (l_f l) -> may_look l -> let l1 := lstep (LLook k) l in
  (l_seen (lrun sched l1) = l_seen l /\ times_look sched < 4) \/ exists r rest, l_seen (lrun sched l1) = l_seen l ++ (k, r) :: rest /\ right_ l1 sched k r.
Proof.
  intros D (Pc & Pw & Lk) l1. assert (E1 : l1 = mkL (l_f l) (Some (k, f_look k)) (l_seen l)) by (unfold l1, lstep; rewrite Pc, Pw, Lk; reflexivity).
  assert (D1 : asks_dim (l_f l1)) by (rewrite E1; exact D).
  assert (K : (exists w p, times_look sched + w <= 4 /\ 0 < w /\ l_look (lrun sched l1) = Some (k, p) /\ l_seen (lrun sched l1) = l_seen l /\ a_pc (f_a (l_f (lrun sched l1))) = M_idle /\ f_power (l_f (lrun sched l1)) = None /\ stage l1 sched k (l_conn (lrun sched l1)) w p)
    \/ exists r rest, l_seen (lrun sched l1) = l_seen l ++ (k, r) :: rest /\ right_ l1 sched k r).
  { induction sched as [|ch sched IH] using rev_ind.
    - left. exists 4, (f_look k). cbn [lrun fold_left]. rewrite E1. split; [cbn; lia|]. split; [lia|]. repeat (split; [first [reflexivity | exact Pc | exact Pw]|]). apply st_first.
    - rewrite !lrun_snoc. pose proof (asks_dim_lrun sched l1 D1) as DL. destruct IH as [(wt & p & Wt & W0 & L & Se & Pi & Pp & St)|(r & rest & E & R)].
      2:{ right. destruct (seen_grows ch (lrun sched l1)) as (new & G). exists r, (rest ++ new). split; [rewrite G, E, <- app_assoc; reflexivity|]. apply right_more, R. }
      set (m := lrun sched l1) in *. destruct ch as [ch|k'].
      + left. exists wt, p. unfold times_look in *. rewrite filter_app, app_length. cbn [filter is_look length]. split; [lia|]. split; [exact W0|]. unfold lstep. rewrite L. destruct ch as [|j b|low]; [| |].
        * rewrite L, Se, Pi, Pp. repeat (split; [reflexivity|]). exact (stage_more _ _ _ _ _ _ _ _ (dims_refl _) St).
        * destruct (loop_step_dims j b (l_f m) DL) as (Dm & Pc' & Pw'). cbn [l_look l_seen l_f]. rewrite Se, Pc', Pw', Pi, Pp. repeat (split; [reflexivity|]). exact (stage_more _ _ _ _ _ _ _ _ Dm St).
        * rewrite L, Se, Pi, Pp. repeat (split; [reflexivity|]). exact (stage_more _ _ _ _ _ _ _ _ (dims_refl _) St).
      + unfold lstep. rewrite Pi, Pp, L. destruct p as [r|g n].
        * right. exists r, []. cbn [l_seen]. rewrite Se. split; [reflexivity|]. remember (Done r) as dr eqn:Edr.
          destruct St as [|K N|K N X|r' R]; [destruct k; discriminate Edr|destruct k; discriminate Edr|discriminate Edr|]. injection Edr as ->. apply right_more, R.
        * assert (Lk' : l_seen m = l_seen l1) by (rewrite Se, E1; reflexivity). destruct (stage_act l1 sched k wt g n Lk' St) as (Ei & w' & Lw & St'). fold m in Ei, St'. left. exists w', (n (l_conn m)). split; [unfold times_look in *; rewrite filter_app, app_length; cbn [filter is_look length]; lia|]. split; [destruct St'; lia|]. cbn [l_look l_seen l_f f_upd f_a f_power]. split; [reflexivity|]. split; [exact Se|]. split; [exact Pi|]. split; [exact Pp|].
          assert (Ec : l_conn {| l_f := f_upd (upd_obd (g (l_conn m)) (f_a (l_f m))) (l_f m); l_look := Some (k, n (l_conn m)); l_seen := l_seen m |} = l_conn m) by (unfold l_conn at 1, f_upd; cbn [l_f]; rewrite conn_mk; exact Ei).
          rewrite Ec. exact (stage_more _ _ _ _ _ _ _ _ (dims_refl _) St'). }
  destruct K as [(w & p & W & W0 & _ & Se & _)|K]; [left; split; [exact Se|lia]|right; exact K].
Qed.
Theorem one_look l k sched r rest : asks_dim (l_f l) -> may_look l -> let l1 := lstep (LLook k) l in l_seen (lrun sched l1) = l_seen l ++ (k, r) :: rest -> right_ l1 sched k r.
Proof.
  intros D M l1 E. subst l1. destruct (look_runs l k sched D M) as [(Se & _)|(r' & rest' & E' & R)].
  - exfalso. rewrite Se in E. rewrite <- (app_nil_r (l_seen l)) in E at 1. apply app_inv_head in E. discriminate E.
  - rewrite E in E'. apply app_inv_head in E'. injection E' as <- _. exact R.
Qed.
Theorem look_returns l k sched : asks_dim (l_f l) -> may_look l -> 4 <= times_look sched -> exists r rest, l_seen (lrun (LLook k :: sched) l) = l_seen l ++ (k, r) :: rest.
Proof.
  intros D M L. destruct (look_runs l k sched D M) as [(_ & N)|(r & rest & E & _)]; [lia|]. exists r, rest. exact E.
Qed.

(* ---- looking changes nothing ---- *)
Inductive reads {A} : code A -> Prop :=
| reads_done r : reads (Done r)
| reads_act g n : (forall s, g s = s) -> (forall s, reads (n s)) -> reads (Act g n).
Lemma reads_then {A B} (p : code A) (n : A -> code B) : reads p -> (forall a, reads (n a)) -> reads (and_then p n).
Proof. intros P N. induction P as [[a|e]|g k G K IH]; cbn; [apply N|constructor|]. constructor; auto. Qed.
Lemma elm_of_same {A} (f : elm -> A) (s : conn) : snd (on_interface (elm_of f) s) = s.
Proof. unfold on_interface. destruct s as [o w]. destruct (o_interface o) as [e|] eqn:Hi; [|reflexivity]. cbn. f_equal. destruct o. cbn in *. congruence. Qed.
Lemma reads_obj {A} (m : MO A) : (forall s, snd (m s) = s) -> reads (obj m).
Proof. intros H. constructor; [exact H|]. intros s. constructor. Qed.
Lemma reads_elm {A} (f : elm -> A) : reads (elm_ (elm_of f)).
Proof. apply reads_obj, elm_of_same. Qed.
Lemma reads_look k : reads (f_look k).
Proof.
  assert (P : forall r : shown, reads (pure r)) by (intros; constructor).
  assert (Q : reads f_port_name) by (unfold f_port_name; apply reads_then; [apply reads_elm|]; intros [?|]; [|constructor]; apply reads_then; [apply reads_elm|]; intros [?|]; constructor).
  destruct k; unfold f_look; (apply reads_then; [apply reads_obj; intros; reflexivity|]); try (intros; apply P); intros [e|]; try apply P; apply reads_then; try (intros; apply P); first [apply reads_elm | exact Q | apply reads_obj; intros []; reflexivity].
Qed.
Definition fine_of (ch : lchoice) : list fchoice := match ch with LFine ch => [ch] | LLook _ => [] end.
Definition reading (l : lstate) : Prop := match l_look l with Some (_, p) => reads p | None => True end.
Lemma same_upd f : f_upd (upd_obd (f_conn f) (f_a f)) f = f.
Proof. destruct f as [a ? ? ? ?], a. reflexivity. Qed.
Lemma lstep_fine ch l : reading l -> reading (lstep ch l) /\ (l_f (lstep ch l) = l_f l \/ exists c, ch = LFine c /\ l_f (lstep ch l) = fstep c (l_f l)).
Proof.
  intros Rd. destruct ch as [ch|k]; unfold lstep.
  - assert (G : reading (mkL (fstep ch (l_f l)) (l_look l) (l_seen l)) /\ (l_f (mkL (fstep ch (l_f l)) (l_look l) (l_seen l)) = l_f l \/ exists c, LFine ch = LFine c /\ l_f (mkL (fstep ch (l_f l)) (l_look l) (l_seen l)) = fstep c (l_f l))) by (split; [exact Rd|right; exists ch; auto]).
    destruct (l_look l) eqn:L, ch; try exact G; (split; [unfold reading; rewrite ?L; unfold reading in Rd; rewrite ?L in Rd; exact Rd|left; reflexivity]).
  - destruct (a_pc (f_a (l_f l))); try (split; [exact Rd|left; reflexivity]). destruct (f_power (l_f l)); [split; [exact Rd|left; reflexivity]|].
    unfold reading in *. destruct (l_look l) as [[k' p]|].
    + remember p as p0 eqn:E0. destruct Rd as [r|g n G N]; [split; [exact Logic.I|left; reflexivity]|]. cbn [l_look l_f]. split; [apply N|]. left. rewrite G. apply same_upd.
    + split; [apply reads_look|left; reflexivity].
Qed.
Theorem looks_nothing sched : forall l, reading l -> exists fs, (forall c, In c fs -> In (LFine c) sched) /\ l_f (lrun sched l) = frun fs (l_f l) /\ reading (lrun sched l).
Proof.
  induction sched as [|ch sched IH]; intros l Rd; [exists []; split; [intros c []|split; [reflexivity|exact Rd]]|].
  destruct (lstep_fine ch l Rd) as (R1 & K). destruct (IH (lstep ch l) R1) as (fs & H1 & H2 & H3). destruct K as [E|(c & -> & E)].
  - exists fs. split; [intros c I0; right; auto|]. split; [|exact H3]. change (lrun (ch :: sched) l) with (lrun sched (lstep ch l)). rewrite H2, E. reflexivity.
  - exists (c :: fs). split; [intros c' [<-|I0]; [left; reflexivity|right; auto]|]. split; [|exact H3]. change (lrun (LFine c :: sched) l) with (lrun sched (lstep (LFine c) l)). rewrite H2, E. reflexivity.
Qed.
