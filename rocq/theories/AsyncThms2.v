(* Subscription tables. *)
From Coq Require Import ZArith List Bool Lia.
From Verif Require Import Py Num Utils Protocol Decoders Command CommandTable Commands World Elm Obd Async SpecElm SpecObd SpecAsync PyFacts CommandThms ElmFacts ElmThms ObdFacts ObdThms ObdThms2 ObdThms3 ObdThms4 AsyncFacts AsyncThms.
Import ListNotations.
Open Scope nat_scope.

Lemma same_eqb a b : same a b = cmd_eqb a b.
Proof.
  unfold same. apply eq_true_iff_eq. rewrite andb_true_iff, cmd_eqb_iff, !text_eqb_eq. intuition.
Qed.
Definition getl (cbs : callbacks_t) (c : command) : list callback := match dget cbs c with Some l => l | None => [] end.
Definition view (t : commands_t * callbacks_t) : subs := map (fun c => (c, getl (snd t) c)) (map fst (fst t)).
Lemma subscriptions_view s : subscriptions s = view (a_cmds s, a_cbs s).
Proof. reflexivity. Qed.

Definition add_cb (cb : option callback) (l : list callback) : list callback :=
  match cb with Some f => if in_dec Z.eq_dec f l then l else l ++ [f] | None => l end.
Lemma sub_watch_absent c cb (g : command -> list callback) keys : (forall k, In k keys -> cmd_eqb k c = false) ->
  sub_watch c cb (map (fun k => (k, g k)) keys) = map (fun k => (k, g k)) keys ++ [(c, add_cb cb [])].
Proof.
  induction keys as [|k keys IH]; cbn; intros H; [destruct cb; reflexivity|]. rewrite same_eqb, (H k) by (left; reflexivity). f_equal. apply IH. intros k' I. apply H. right. exact I.
Qed.
Lemma eqb_unique k k' c : cmd_eqb k c = true -> cmd_eqb k k' = false -> cmd_eqb k' c = false.
Proof.
  intros A B. destruct (cmd_eqb k' c) eqn:E; [|reflexivity]. rewrite cmd_eqb_sym in E. rewrite (cmd_eqb_trans _ _ _ A E) in B. discriminate B.
Qed.
Lemma sub_watch_present c cb (g : command -> list callback) keys : distinct keys -> (exists k, In k keys /\ cmd_eqb k c = true) ->
  sub_watch c cb (map (fun k => (k, g k)) keys) = map (fun k => (k, if cmd_eqb k c then add_cb cb (g k) else g k)) keys.
Proof.
  induction keys as [|k keys IH]; cbn; intros D (k0 & I & E); [tauto|]. destruct D as [D1 D2]. rewrite same_eqb. destruct (cmd_eqb k c) eqn:F.
  - f_equal. apply map_ext_in. intros k' I'. rewrite (eqb_unique _ _ _ F (D1 _ I')). reflexivity.
  - f_equal. apply IH; [exact D2|]. destruct I as [->|I]; [congruence|]. eauto.
Qed.
Lemma sub_unwatch_absent c cb (g : command -> list callback) keys : (forall k, In k keys -> cmd_eqb k c = false) ->
  sub_unwatch c cb (map (fun k => (k, g k)) keys) = map (fun k => (k, g k)) keys.
Proof.
  induction keys as [|k keys IH]; cbn; intros H; [reflexivity|]. rewrite same_eqb, (H k) by (left; reflexivity). f_equal. apply IH. intros k' I. apply H. right. exact I.
Qed.
Lemma keys_pop {V} (d : list (command * V)) c : distinct (map fst d) -> map fst (dpop d c) = filter (fun k => negb (cmd_eqb k c)) (map fst d).
Proof.
  induction d as [|[k v] d IH]; cbn; intros D; [reflexivity|]. destruct D as [D1 D2]. destruct (cmd_eqb k c) eqn:E; cbn [negb].
  - symmetry. apply forallb_filter_all. intros k' I. rewrite (eqb_unique _ _ _ E (D1 _ I)). reflexivity.
  - cbn. f_equal. apply IH, D2.
Qed.
Definition drop_cb (cb : option callback) (l : list callback) : list callback := match cb with None => [] | Some f => without f l end.
Lemma sub_unwatch_present c cb (g : command -> list callback) keys : distinct keys -> 
  sub_unwatch c cb (map (fun k => (k, g k)) keys) =
  map (fun k => (k, if cmd_eqb k c then drop_cb cb (g k) else g k)) (filter (fun k => negb (cmd_eqb k c) || nonempty (drop_cb cb (g k))) keys).
Proof.
  induction keys as [|k keys IH]; cbn; intros D; [reflexivity|]. destruct D as [D1 D2]. rewrite same_eqb. destruct (cmd_eqb k c) eqn:F; cbn [negb orb].
  - assert (R : map (fun k => (k, g k)) keys = map (fun k => (k, if cmd_eqb k c then drop_cb cb (g k) else g k)) (filter (fun k => negb (cmd_eqb k c) || nonempty (drop_cb cb (g k))) keys)).
    { rewrite forallb_filter_all by (intros k' I'; rewrite (eqb_unique _ _ _ F (D1 _ I')); reflexivity). apply map_ext_in. intros k' I'. rewrite (eqb_unique _ _ _ F (D1 _ I')). reflexivity. }
    unfold drop_cb in *. destruct cb as [f|]; [|exact R]. destruct (without f (g k)) eqn:W; cbn [nonempty]; [exact R|]. cbn. rewrite F, W. f_equal. exact R.
  - cbn. rewrite F. f_equal. apply IH, D2.
Qed.

Definition nodups (cbs : callbacks_t) : Prop := Forall (fun e => NoDup (snd e)) cbs.
Lemma nodups_get cbs c l : nodups cbs -> dget cbs c = Some l -> NoDup l.
Proof. intros N G. apply dict_get_In in G as (k & I & _). unfold nodups in N. rewrite Forall_forall in N. exact (N _ I). Qed.
Lemma nodups_set cbs c l : nodups cbs -> NoDup l -> nodups (dset cbs c l).
Proof.
  intros N L. induction N as [|[k v] d N0 N IH]; cbn.
  - apply Forall_cons; [exact L|apply Forall_nil].
  - destruct (cmd_eqb k c); apply Forall_cons; assumption.
Qed.
Lemma nodups_pop cbs c : nodups cbs -> nodups (dpop cbs c).
Proof. induction 1 as [|[k v] d N0 N IH]; cbn; [apply Forall_nil|]. destruct (cmd_eqb k c); [exact N|]. apply Forall_cons; assumption. Qed.
Lemma existsb_In f l : existsb (Z.eqb f) l = true <-> In f l.
Proof. rewrite existsb_exists. split; [intros (x & I & E); apply Z.eqb_eq in E; subst; exact I|intros I; exists f; rewrite Z.eqb_refl; auto]. Qed.
Lemma NoDup_snoc {A} (l : list A) x : NoDup l -> ~ In x l -> NoDup (l ++ [x]).
Proof.
  induction 1 as [|y l I N IH]; cbn; intros H; [constructor; [tauto|constructor]|]. constructor.
  - intros X. apply in_app_or in X as [X|[X|[]]]; [contradiction|]. subst. apply H. left. reflexivity.
  - apply IH. tauto.
Qed.
Lemma remove_without f l : NoDup l -> list_remove f l = without f l.
Proof.
  induction 1 as [|y l I N IH]; cbn; [reflexivity|]. destruct (Z.eqb_spec y f) as [->|E]; cbn [negb].
  - symmetry. apply forallb_filter_all. intros g G. destruct (Z.eqb_spec g f); [subst; contradiction|reflexivity].
  - f_equal. exact IH.
Qed.
Lemma NoDup_without f l : NoDup l -> NoDup (without f l).
Proof. apply NoDup_filter. Qed.

Lemma getl_set cbs c l k : getl (dset cbs c l) k = if cmd_eqb c k then l else getl cbs k.
Proof. unfold getl. rewrite dget_set. destruct (cmd_eqb c k); reflexivity. Qed.
Lemma getl_congr cbs a b : cmd_eqb a b = true -> getl cbs a = getl cbs b.
Proof. intros H. unfold getl. rewrite (dget_congr cbs a b H). reflexivity. Qed.

Theorem watch_table_spec c cb t : table_ok t -> nodups (snd t) -> exists t', watch_table c cb t = Ok t' /\ view t' = sub_watch c cb (view t) /\ nodups (snd t').
Proof.
  destruct t as [cmds cbs]. intros (D1 & D2 & T) N. cbn [fst snd] in *. unfold watch_table, view. cbn [fst snd]. destruct (dmem cmds c) eqn:M.
  - assert (Mb := T _ M). unfold dict_mem in Mb. destruct (dget cbs c) as [l|] eqn:G; [|discriminate Mb].
    pose proof M as M'. apply dmem_iff in M' as K. rewrite (sub_watch_present c cb (getl cbs) _ D1 K). destruct cb as [f|]; cbn [add_cb].
    + pose proof (nodups_get _ _ _ N G) as Nl. destruct (existsb (Z.eqb f) l) eqn:E.
      * exists (cmds, cbs). split; [reflexivity|]. split; [|exact N]. cbn [fst snd]. apply map_ext. intros k. destruct (cmd_eqb k c) eqn:F; [|reflexivity]. rewrite (getl_congr _ _ _ F).
        unfold getl. rewrite G. destruct (in_dec Z.eq_dec f l) as [|X]; [reflexivity|]. apply existsb_In in E. contradiction.
      * assert (Nf : ~ In f l) by (intros X; apply existsb_In in X; congruence).
        exists (cmds, dset cbs c (l ++ [f])). split; [reflexivity|]. split; [|apply nodups_set; [exact N|]; apply NoDup_snoc; assumption]. cbn [fst snd].
        apply map_ext. intros k. rewrite getl_set, (cmd_eqb_sym c k). destruct (cmd_eqb k c) eqn:F; [|reflexivity]. rewrite (getl_congr _ _ _ F). unfold getl. rewrite G. destruct (in_dec Z.eq_dec f l); [contradiction|reflexivity].
    + exists (cmds, cbs). split; [reflexivity|]. split; [|exact N]. cbn [fst snd]. apply map_ext. intros k. destruct (cmd_eqb k c); reflexivity.
  - assert (K : forall k, In k (map fst cmds) -> cmd_eqb k c = false).
    { intros k I. destruct (cmd_eqb k c) eqn:E; [|reflexivity]. assert (dmem cmds c = true) by (apply dmem_iff; eauto). congruence. }
    rewrite (sub_watch_absent c cb (getl cbs) _ K).
    assert (V : forall d, (forall k, In k (map fst cmds) -> getl d k = getl cbs k) -> view (dset cmds c empty_response, d) = map (fun k => (k, getl cbs k)) (map fst cmds) ++ [(c, getl d c)]).
    { intros d X. unfold view. cbn [fst snd]. rewrite keys_set_new by exact M. rewrite map_app. cbn. f_equal. apply map_ext_in. intros k I. rewrite X by exact I. reflexivity. }
    destruct cb as [f|]; cbn [add_cb].
    + rewrite dget_set, cmd_eqb_refl. cbn [existsb]. eexists. split; [reflexivity|]. cbn [snd app]. split; [|apply nodups_set; [apply nodups_set; [exact N|constructor]|constructor; [tauto|constructor]]].
      refine (eq_trans (V _ _) _).
      * intros k I. rewrite !getl_set, (cmd_eqb_sym c k), (K _ I). reflexivity.
      * rewrite getl_set, cmd_eqb_refl. destruct (in_dec Z.eq_dec f []) as [[]|]. reflexivity.
    + eexists. split; [reflexivity|]. cbn [snd]. split; [|apply nodups_set; [exact N|constructor]]. refine (eq_trans (V _ _) _).
      * intros k I. rewrite !getl_set, (cmd_eqb_sym c k), (K _ I). reflexivity.
      * rewrite getl_set, cmd_eqb_refl. reflexivity.
Qed.

Theorem unwatch_table_spec c cb t : table_ok t -> nodups (snd t) -> exists t', unwatch_table c cb t = Ok t' /\ nodups (snd t') /\
  (unwatchable c cb (view t) -> view t' = sub_unwatch c cb (view t)).
Proof.
  destruct t as [cmds cbs]. intros (D1 & D2 & T) N. cbn [fst snd] in *. unfold unwatch_table. destruct (dmem cmds c) eqn:M.
  - assert (All : view (dpop cmds c, dpop cbs c) = sub_unwatch c None (view (cmds, cbs))).
    { unfold view. cbn [fst snd]. rewrite (sub_unwatch_present c None (getl cbs) _ D1). rewrite keys_pop by exact D1.
      rewrite (filter_ext (fun k => negb (cmd_eqb k c) || nonempty (drop_cb None (getl cbs k))) (fun k => negb (cmd_eqb k c))) by (intros k; cbn; apply orb_false_r).
      apply map_ext_in. intros k I. apply filter_In in I as [I F]. apply negb_true_iff in F. rewrite F. f_equal.
      unfold getl. rewrite dget_pop by exact D2. rewrite cmd_eqb_sym, F. reflexivity. }
    assert (Mb := T _ M). unfold dict_mem in Mb. destruct cb as [f|].
    + destruct (dget cbs c) as [l|] eqn:G; [|discriminate Mb]. pose proof (nodups_get _ _ _ N G) as Nl. destruct (existsb (Z.eqb f) l) eqn:E.
      * rewrite (remove_without _ _ Nl). assert (Nn : nodups (dset cbs c (without f l))) by (apply nodups_set; [exact N|apply NoDup_without, Nl]).
        assert (Gl : forall k, cmd_eqb k c = true -> getl cbs k = l) by (intros k F; rewrite (getl_congr _ _ _ F); unfold getl; rewrite G; reflexivity).
        eexists. split; [reflexivity|]. split; [destruct (nonempty _); exact Nn|]. intros _. change (sub_unwatch c (Some f) (view (cmds, cbs))) with (sub_unwatch c (Some f) (map (fun k => (k, getl cbs k)) (map fst cmds))). unfold view. rewrite (sub_unwatch_present c (Some f) (getl cbs) _ D1). cbn [drop_cb].
        destruct (without f l) as [|x wl] eqn:W; cbn [nonempty fst snd].
        -- rewrite keys_pop by exact D1. erewrite filter_ext; [apply map_ext_in|].
           ++ intros k I. apply filter_In in I as [I F]. cbn beta in F. destruct (cmd_eqb k c) eqn:F'; [cbn [negb orb] in F; rewrite (Gl _ F'), W in F; discriminate F|]. rewrite getl_set, cmd_eqb_sym, F'. reflexivity.
           ++ intros k. cbn beta. destruct (cmd_eqb k c) eqn:F; cbn [negb orb]; [rewrite (Gl _ F), W|]; reflexivity.
        -- rewrite forallb_filter_all.
           ++ apply map_ext. intros k. rewrite getl_set, (cmd_eqb_sym c k). destruct (cmd_eqb k c) eqn:F; [rewrite (Gl _ F), W|]; reflexivity.
           ++ intros k I. destruct (cmd_eqb k c) eqn:F; [rewrite (Gl _ F), W|]; reflexivity.
      * eexists. split; [reflexivity|]. split; [apply nodups_pop, N|]. intros U. exfalso. cbn in U. pose proof M as M'. apply dmem_iff in M' as (k & I & F).
        assert (X : In f (getl cbs k)) by (apply (U k); [unfold view; cbn [fst snd]; apply (in_map (fun c => (c, getl cbs c))), I|rewrite same_eqb; exact F]).
        rewrite (getl_congr _ _ _ F) in X. unfold getl in X. rewrite G in X. apply existsb_In in X. congruence.
    + eexists. split; [reflexivity|]. split; [apply nodups_pop, N|]. intros _. exact All.
  - eexists. split; [reflexivity|]. split; [exact N|]. intros _. symmetry. apply (sub_unwatch_absent c cb (getl cbs)). intros k I. destruct (cmd_eqb k c) eqn:E; [|reflexivity].
    assert (dmem cmds c = true) by (apply dmem_iff; eauto). cbn in *. congruence.
Qed.
Lemma test_cmd_true o c : test_cmd o c = Ok true <-> may_send o c false.
Proof.
  unfold test_cmd, may_send. assert (S : supports o c = true <-> exists c', In c' (o_supported o) /\ c_command c' = c_command c /\ c_header c' = c_header c).
  { unfold supports, in_set. rewrite existsb_exists. split; intros (x & I & E); exists x; (split; [exact I|]); apply cmd_eqb_iff; exact E. }
  destruct (supports o c); cbn [negb]; [|split; [discriminate|intros [X|[X _]]; [discriminate X|apply S in X; discriminate X]]].
  destruct (oz_eqb (c_mode c) (Some 6%Z)) eqn:M.
  - apply oz_eqb_eq in M. unfold obd_protocol_id. split.
    + intros H. right. split; [apply S; reflexivity|]. intros _. destruct (o_interface o) as [e|]; [|discriminate H]. destruct (elm_protocol_id e) as [id|]; [|discriminate H]. cbn [rbind] in H.
      exists id. split; [reflexivity|]. assert (H' : existsb (text_eqb id) [str "6"; str "7"; str "8"; str "9"] = true) by (injection H as H; exact H). apply existsb_exists in H' as (x & I & E). apply text_eqb_eq in E. subst x. exact I.
    + intros [X|[_ H]]; [discriminate X|]. destruct (H M) as (id & E & I). destruct (o_interface o) as [e|]; [|injection E as <-; repeat destruct I as [I|I]; discriminate I || destruct I].
      rewrite E. cbn [rbind]. f_equal. apply existsb_exists. exists id. split; [exact I|apply text_eqb_eq; reflexivity].
  - split; [|reflexivity]. intros _. right. split; [apply S; reflexivity|]. intros X. rewrite X in M. discriminate M.
Qed.
