(* C34: the chunks in which bytes arrive do not matter; C35: shape of the lines. *)
From Coq Require Import ZArith List Bool Lia.
From Verif Require Import Py Num Utils Protocol Decoders Command CommandTable Commands World Elm Obd SpecElm ElmFacts ElmThms.
Import ListNotations.
Open Scope Z_scope.
Ltac Zify.zify_post_hook ::= Z.div_mod_to_equations.

Lemma holds_prompt s : holds [62] s <-> In 62 s.
Proof.
  unfold holds. split.
  - intros (a & b & ->). apply in_or_app. right. left. reflexivity.
  - intros H. apply in_split in H as (a & b & ->). exists a, b. reflexivity.
Qed.
Lemma contains_prompt_false s : ~ In 62 s -> contains [62] s = false.
Proof. intros H. apply contains_false. rewrite holds_prompt. exact H. Qed.
Lemma contains_prompt_true s : In 62 s -> contains [62] s = true.
Proof. intros H. apply contains_iff. rewrite holds_prompt. exact H. Qed.

(* the loop over chunks without a prompt *)
Lemma read_loop_quiet c : forall buf rest, non_empty_chunks c -> ~ In 62 (buf ++ concat c) ->
  exists evs0, (forall r0 rest0 evs, read_loop [62] (buf ++ concat c) rest = (r0, rest0, evs) -> read_loop [62] buf (map Some c ++ rest) = (r0, rest0, evs0 ++ evs))
    /\ no_reads evs0 = [].
Proof.
  induction c as [|x c IH]; intros buf rest F N; cbn [map concat app] in *.
  - exists []. split; [|reflexivity]. rewrite app_nil_r. auto.
  - inversion F as [|? ? Hx Fc]; subst. destruct (IH (buf ++ x) rest Fc) as (evs0 & H & Q); [rewrite <- app_assoc; exact N|].
    exists (EvRead (Some x) :: evs0). split; [|exact Q]. intros r0 rest0 evs E. rewrite app_assoc in E. apply H in E.
    cbn [read_loop]. destruct x as [|b x]; [destruct (Hx eq_refl)|].
    rewrite contains_prompt_false by (intros I; apply N; rewrite app_assoc; apply in_or_app; left; exact I). rewrite E. reflexivity.
Qed.
Lemma chunks_prompt c s : non_empty_chunks c -> concat c = s ++ [62] ->
  exists c' x, c = c' ++ [x ++ [62]] /\ s = concat c' ++ x /\ non_empty_chunks c'.
Proof.
  intros F E. destruct c as [|y c'] using rev_ind; [destruct s; discriminate E|]. clear IHc'.
  apply Forall_app in F as [F1 F2]. inversion F2 as [|? ? Hy _]; subst. rewrite concat_app in E. cbn in E. rewrite app_nil_r in E.
  destruct y as [|x z] using rev_ind; [destruct (Hy eq_refl)|]. rewrite app_assoc in E. apply app_inj_tail in E as [E ->].
  exists c', z. auto.
Qed.
Lemma no_reads_app a b : no_reads (a ++ b) = no_reads a ++ no_reads b.
Proof. apply filter_app. Qed.

(* two chunkings of one answer: same buffer, same rest *)
Definition loop_same (l1 l2 : list (option bytes)) : Prop :=
  exists r rest1 rest2 evs1 evs2, read_loop [62] [] l1 = (r, rest1, evs1) /\ read_loop [62] [] l2 = (r, rest2, evs2)
    /\ rechopped rest1 rest2 /\ no_reads evs1 = [] /\ no_reads evs2 = [].
Lemma loop_prompt c s rest : non_empty_chunks c -> concat c = s ++ [62] -> ~ In 62 s ->
  exists evs, read_loop [62] [] (map Some c ++ rest) = (Some (s ++ [62]), rest, evs) /\ no_reads evs = [].
Proof.
  intros F E N. destruct (chunks_prompt c s F E) as (c' & x & -> & -> & F').
  rewrite map_app, <- app_assoc. cbn [map app].
  destruct (read_loop_quiet c' [] (Some (x ++ [62]) :: rest) F') as (evs0 & H & Q).
  - cbn. intros I. apply N. apply in_or_app. auto.
  - eexists. split; [apply H; cbn [read_loop app]|].
    + destruct (x ++ [62]) as [|b y] eqn:Ex; [destruct x; discriminate Ex|]. cbn [read_loop]. rewrite <- Ex.
      rewrite contains_prompt_true by (rewrite app_assoc; apply in_or_app; right; left; reflexivity). rewrite app_assoc. reflexivity.
    + rewrite no_reads_app, Q. reflexivity.
Qed.
Lemma loop_fin c s fin rest : non_empty_chunks c -> concat c = s -> ~ In 62 s -> fin = Some [] \/ fin = None ->
  exists evs, read_loop [62] [] (map Some c ++ fin :: rest) = (match fin with Some _ => Some s | None => None end, rest, evs) /\ no_reads evs = [].
Proof.
  intros F E N D. destruct (read_loop_quiet c [] (fin :: rest) F) as (evs0 & H & Q); [cbn; congruence|].
  subst s. destruct D as [-> | ->]; eexists; (split; [apply H; cbn [read_loop app]; reflexivity|]); rewrite no_reads_app, Q; reflexivity.
Qed.
Lemma rechopped_loop l1 l2 : rechopped l1 l2 -> loop_same l1 l2.
Proof.
  intros H. destruct H as [|c1 c2 s F1 F2 E1 E2 N|a1 a2 r1 r2 A R].
  - exists (Some []), [], [], [EvRead (Some [])], [EvRead (Some [])]. repeat split; auto. constructor.
  - destruct (read_loop_quiet c1 [] [] F1) as (v1 & H1 & Q1); [cbn; unfold PROMPT in N; congruence|].
    destruct (read_loop_quiet c2 [] [] F2) as (v2 & H2 & Q2); [cbn; unfold PROMPT in N; congruence|].
    rewrite app_nil_r in H1, H2. cbn [app] in *. rewrite E1 in H1. rewrite E2 in H2.
    unfold loop_same. eexists _, _, _, _, _. split; [apply H1; reflexivity|]. split; [apply H2; reflexivity|].
    split; [constructor|]. rewrite !no_reads_app, Q1, Q2. auto.
  - destruct A as [c1 c2 s F1 F2 E1 E2 N|c1 c2 s fin F1 F2 E1 E2 N D]; unfold PROMPT in *.
    + destruct (loop_prompt c1 s r1 F1 E1 N) as (v1 & H1 & Q1). destruct (loop_prompt c2 s r2 F2 E2 N) as (v2 & H2 & Q2).
      unfold loop_same. eexists _, _, _, _, _. split; [exact H1|]. split; [exact H2|]. auto.
    + rewrite <- !app_assoc. cbn [app].
      destruct (loop_fin c1 s fin r1 F1 E1 N D) as (v1 & H1 & Q1). destruct (loop_fin c2 s fin r2 F2 E2 N D) as (v2 & H2 & Q2).
      unfold loop_same. eexists _, _, _, _, _. split; [exact H1|]. split; [exact H2|]. auto.
Qed.

(* ------------------------------------------------ computations that do not notice *)
Definition blind {St A} (m : M (St * world) A) : Prop := forall e w1 w2, rechopped_world w1 w2 ->
  exists r e' w1' w2', m (e, w1) = (r, (e', w1')) /\ m (e, w2) = (r, (e', w2')) /\ rechopped_world w1' w2'.
Lemma blind_bind {St A B} (m : M (St * world) A) (k : A -> M (St * world) B) : blind m -> (forall a, blind (k a)) -> blind (bind m k).
Proof.
  intros Hm Hk e w1 w2 W. destruct (Hm e w1 w2 W) as (r & e' & w1' & w2' & E1 & E2 & W'). unfold bind. rewrite E1, E2.
  destruct r as [a|x]; [apply Hk, W'|]. exists (Raise x), e', w1', w2'. auto.
Qed.
Lemma blind_pure {St A} (f : St -> res A * St) : blind (fun '(e, w) => let (r, e') := f e in (r, (e', w))).
Proof. intros e w1 w2 W. cbv beta iota. destruct (f e) as [r e'] eqn:E. exists r, e', w1, w2. auto. Qed.
Lemma blind_ret {St A} (a : A) : @blind St A (ret a).
Proof. intros e w1 w2 W. exists (Ok a), e, w1, w2. auto. Qed.
Lemma blind_raise {St A} x : @blind St A (raise x).
Proof. intros e w1 w2 W. exists (Raise x), e, w1, w2. auto. Qed.
Lemma blind_of_res {St A} (r : res A) : @blind St A (of_res r).
Proof. intros e w1 w2 W. exists r, e, w1, w2. auto. Qed.
Lemma blind_gets {St A} (f : St -> A) : blind (gets (fun s : St * world => f (fst s))).
Proof. intros e w1 w2 W. exists (Ok (f e)), e, w1, w2. auto. Qed.
Lemma rechopped_emit ev w1 w2 : rechopped_world w1 w2 -> rechopped_world (emit ev w1) (emit ev w2).
Proof. intros (H1 & H2 & H3 & H4 & H5). repeat split; auto. cbn. rewrite !no_reads_app, H5. reflexivity. Qed.
Lemma blind_emit ev : blind (emit_e ev).
Proof. intros e w1 w2 W. exists (Ok tt), e, (emit ev w1), (emit ev w2). auto using rechopped_emit. Qed.
Ltac blind_set := intros e w1 w2 W; eexists (Ok tt), _, w1, w2; split; [reflexivity|split; [reflexivity|exact W]].
Lemma blind_set_status s : blind (set_status s). Proof. blind_set. Qed.
Lemma blind_set_proto s : blind (set_protocol_obj s). Proof. blind_set. Qed.
Lemma blind_set_lp s : blind (set_low_power s). Proof. blind_set. Qed.
Lemma blind_set_port s : blind (set_port s). Proof. blind_set. Qed.
Lemma blind_io_failure : blind io_failure.
Proof. unfold io_failure. apply blind_bind; [apply blind_set_status|intros _]. apply blind_bind; [apply blind_emit|intros _]. apply blind_set_port. Qed.
Lemma blind_write c : blind (elm_write c).
Proof.
  intros e w1 w2 W. unfold elm_write. destruct (e_port e); [|exists (Ok tt), e, w1, w2; auto].
  destruct W as (H1 & H2 & H3 & H4 & H5). unfold port_write. rewrite <- H2.
  set (a := mkWorld _ (tl (w_writes w1)) (w_reads w1) _ _). set (b := mkWorld _ (tl (w_writes w1)) (w_reads w2) _ _).
  assert (W : rechopped_world a b) by (repeat split; auto).
  destruct (match w_writes w1 with o :: _ => o | [] => WOk end).
  - eexists (Ok tt), e, _, _. split; [reflexivity|]. split; [reflexivity|]. apply rechopped_emit, W.
  - apply (blind_io_failure e). auto using rechopped_emit.
  - apply (blind_io_failure e). auto using rechopped_emit.
Qed.
Lemma blind_read : blind (elm_read ELM_PROMPT).
Proof.
  intros e w1 w2 W. unfold elm_read. destruct (e_port e); [|exists (Ok []), e, w1, w2; auto].
  destruct W as (H1 & H2 & H3 & H4 & H5). change ELM_PROMPT with [62].
  destruct (rechopped_loop _ _ H4) as (r & rest1 & rest2 & v1 & v2 & -> & -> & R & Q1 & Q2).
  set (a := mkWorld _ _ rest1 _ _). set (b := mkWorld _ _ rest2 _ _).
  assert (W : rechopped_world a b) by (repeat split; auto; cbn; rewrite !no_reads_app, Q1, Q2, H5; reflexivity).
  destruct r as [bs|].
  - eexists _, e, a, b. auto.
  - apply (blind_bind io_failure (fun _ => ret (@nil text)) blind_io_failure (fun _ => blind_ret _) e). exact W.
Qed.
Lemma blind_read_again n : forall r, blind (read_again n ELM_PROMPT r).
Proof.
  induction n as [|n IH]; intros r; cbn [read_again]; [apply blind_ret|]. destruct (nonempty r); [apply blind_ret|].
  apply blind_bind; [apply blind_read|apply IH].
Qed.
Lemma blind_send cmd d : blind (elm_send cmd d).
Proof.
  unfold elm_send, elm_send_gen. apply blind_bind; [apply blind_write|intros _]. apply blind_bind; [apply blind_read|intros r]. apply blind_read_again.
Qed.
Ltac blind_auto :=
  repeat first
    [ match goal with |- blind (bind _ _) => apply blind_bind; [|intros ?] end | apply blind_ret | apply blind_raise | apply blind_of_res | apply blind_gets | apply blind_emit
    | apply blind_set_status | apply blind_set_proto | apply blind_set_lp | apply blind_set_port | apply blind_write | apply blind_send
    | match goal with |- blind (if ?b then _ else _) => destruct b end
    | match goal with |- blind (match ?b with _ => _ end) => destruct b end ].
Lemma blind_close : blind elm_close.
Proof. unfold elm_close, elm_of. blind_auto. Qed.
Lemma blind_normal_power : blind elm_normal_power.
Proof. unfold elm_normal_power, elm_of. blind_auto. Qed.
Lemma blind_send_and_parse c : blind (send_and_parse c).
Proof. unfold send_and_parse, elm_of. blind_auto. apply blind_normal_power. Qed.
Lemma blind_instantiate id r : blind (instantiate id r).
Proof. unfold instantiate. blind_auto. Qed.
Lemma blind_try ids : blind (try_protocols ids).
Proof. induction ids; cbn [try_protocols]; blind_auto; [apply blind_instantiate|exact IHids]. Qed.
Lemma blind_set_protocol p : blind (set_protocol p).
Proof. unfold set_protocol, manual_protocol, auto_protocol. destruct p; blind_auto; auto using blind_instantiate, blind_try. Qed.
Lemma blind_set_baud b : blind (set_baud b).
Proof.
  intros e w1 w2 W. unfold set_baud. destruct (e_port e); [|exists (Raise AttributeError), e, w1, w2; auto].
  destruct W as (H1 & H2 & H3 & H4 & H5). unfold port_baud. rewrite <- H3.
  destruct (match w_confs w1 with o :: _ => o | [] => true end); eexists _, _, _, _; (split; [reflexivity|]); (split; [reflexivity|]); apply rechopped_emit; repeat split; auto.
Qed.
Lemma blind_init b proto check slp : blind (elm_init_opened (Some b) proto check slp).
Proof.
  unfold elm_init_opened, elm_init_voltage, elm_init_car, set_baudrate, elm_error, elm_of.
  blind_auto; auto using blind_close, blind_set_baud, blind_set_protocol.
Qed.
Lemma rechopped_new_elm name b proto timeout check slp w1 w2 : rechopped_world w1 w2 ->
  exists r w1' w2', new_elm name (Some b) proto timeout check slp w1 = (r, w1') /\ new_elm name (Some b) proto timeout check slp w2 = (r, w2')
    /\ rechopped_world w1' w2'.
Proof.
  intros (H1 & H2 & H3 & H4 & H5). unfold new_elm, port_open. rewrite <- H1. set (ok := match w_opens w1 with b :: _ => b | [] => true end).
  set (a := mkWorld _ _ (w_reads w1) _ _). set (c := mkWorld _ _ (w_reads w2) _ _).
  assert (W : rechopped_world (emit (EvOpen name ok) a) (emit (EvOpen name ok) c)) by (apply rechopped_emit; repeat split; auto).
  destruct ok.
  - destruct (blind_init b proto check slp (mkElm NOT_CONNECTED (Some (mkPort name 9600 10000)) (Some unknown_protocol) false timeout) _ _ W)
      as (r & e' & w1' & w2' & -> & -> & W'). destruct r; eexists _, _, _; auto.
  - destruct (blind_close (mkElm NOT_CONNECTED None (Some unknown_protocol) false timeout) _ _ W) as (r & e' & w1' & w2' & E1 & E2 & W').
    unfold elm_error. rewrite E1, E2. destruct r; eexists _, _, _; auto.
Qed.
(* the same for OBD objects *)
Lemma blind_on_interface {A} (m : ME A) : blind m -> blind (on_interface m).
Proof.
  intros Hm o w1 w2 W. unfold on_interface. destruct (o_interface o) as [e|]; [|exists (Raise AttributeError), o, w1, w2; auto].
  destruct (Hm e w1 w2 W) as (r & e' & w1' & w2' & -> & -> & W'). eexists r, _, w1', w2'. auto.
Qed.
Ltac blind_oset := intros o w1 w2 W; eexists (Ok tt), _, w1, w2; split; [reflexivity|split; [reflexivity|exact W]].
Lemma blind_set_interface x : blind (set_interface x). Proof. blind_oset. Qed.
Lemma blind_set_supported x : blind (set_supported x). Proof. blind_oset. Qed.
Lemma blind_set_last_command x : blind (set_last_command x). Proof. blind_oset. Qed.
Lemma blind_set_last_header x : blind (set_last_header x). Proof. blind_oset. Qed.
Lemma blind_set_frame_counts x : blind (set_frame_counts x). Proof. blind_oset. Qed.
Lemma blind_test c : blind (fun s : obd * world => (test_cmd (fst s) c, s)).
Proof. intros o w1 w2 W. exists (test_cmd o c), o, w1, w2. auto. Qed.
Ltac blind_more := repeat first [progress blind_auto | apply blind_on_interface; first [apply blind_send_and_parse | apply blind_close | apply blind_normal_power]
  | apply blind_set_interface | apply blind_set_supported | apply blind_set_last_command | apply blind_set_last_header | apply blind_set_frame_counts | apply blind_test].
Lemma blind_set_header h : blind (set_header h).
Proof. unfold set_header, obd_of. blind_more. Qed.
Lemma blind_query c f : blind (query c f).
Proof. unfold query, obd_of. blind_more; [apply blind_set_header|]. apply (blind_gets (fun o => build_command_string o c)). Qed.
Lemma blind_obd_close : blind obd_close.
Proof. unfold obd_close, obd_of. blind_more. apply blind_set_header. Qed.
Lemma blind_load_all l : blind (load_all l).
Proof. induction l as [|g l IH]; cbn [load_all]; [apply blind_ret|]. apply blind_bind; [|auto]. unfold load_one, obd_of. blind_more. apply blind_query. Qed.
Lemma blind_connect_port cf b name : cf_baudrate cf = Some b -> blind (connect_port cf name).
Proof.
  intros Hb o w1 w2 W. unfold connect_port. rewrite Hb. destruct (rechopped_new_elm name b (cf_protocol cf) (o_timeout o) (cf_check_voltage cf) (cf_start_low_power cf) w1 w2 W)
    as (r & w1' & w2' & -> & -> & W'). destruct r; [apply (blind_set_interface _ o w1' w2' W')|]. eexists _, _, _, _. auto.
Qed.
Lemma blind_connect_scan cf b ports : cf_baudrate cf = Some b -> blind (connect_scan cf ports).
Proof.
  intros Hb. induction ports as [|p ports IH]; cbn [connect_scan]; [apply blind_ret|].
  apply blind_bind; [eapply blind_connect_port; exact Hb|intros _]. unfold obd_of. blind_auto. exact IH.
Qed.
Lemma blind_new_obd cf b port scan : cf_baudrate cf = Some b -> forall w1 w2, rechopped_world w1 w2 ->
  exists r o w1' w2', new_obd cf port scan w1 = (r, (o, w1')) /\ new_obd cf port scan w2 = (r, (o, w2')) /\ rechopped_world w1' w2'.
Proof.
  intros Hb w1 w2 W. unfold new_obd. refine ((_ : blind (do! connect cf port scan; load_commands)) (initial_obd cf) w1 w2 W).
  apply blind_bind; [|intros _; unfold load_commands, obd_of; blind_auto; apply blind_load_all].
  unfold connect, close_if_failed, obd_of. destruct port as [p|].
  - apply blind_bind; [eapply blind_connect_port, Hb|intros _]. blind_auto. apply blind_obd_close.
  - destruct scan; [apply blind_ret|]. apply blind_bind; [eapply blind_connect_scan, Hb|intros _]. blind_auto. apply blind_obd_close.
Qed.
Lemma blind_run_op o : o <> OpLowPower -> blind (run_op o).
Proof.
  intros N. destruct o; try congruence; cbn [run_op].
  - blind_auto. apply blind_query.
  - unfold obd_normal_power, obd_of. blind_more.
  - blind_auto. apply blind_obd_close.
  - unfold obd_of. blind_more.
Qed.
Lemma blind_run_ops ops : Forall (fun o => o <> OpLowPower) ops -> forall o w1 w2, rechopped_world w1 w2 ->
  exists rs o' w1' w2', run_ops ops (o, w1) = (rs, (o', w1')) /\ run_ops ops (o, w2) = (rs, (o', w2')) /\ rechopped_world w1' w2'.
Proof.
  intros F. induction F as [|x ops Hx F IH]; intros o w1 w2 W; cbn [run_ops].
  - exists [], o, w1, w2. auto.
  - destruct (blind_run_op x Hx o w1 w2 W) as (r & o1 & w1' & w2' & -> & -> & W').
    destruct (IH o1 w1' w2' W') as (rs & o2 & w1'' & w2'' & -> & -> & W''). eexists _, _, _, _. auto.
Qed.

(* ------------------------------------------------ C35 *)
Lemma ucont_range c : ucont c = true -> 128 <= c <= 191.
Proof. unfold ucont. rewrite andb_true_iff, !Z.leb_le. auto. Qed.
Lemma ucont3_range b c : ucont3 b c = true -> 128 <= c <= 191 /\ (b = 224 -> 160 <= c).
Proof.
  unfold ucont3. destruct (Z.eqb_spec b 224); [rewrite andb_true_iff, !Z.leb_le; lia|].
  destruct (Z.eqb_spec b 237); [rewrite andb_true_iff, !Z.leb_le; lia|]. intros H. apply ucont_range in H. lia.
Qed.
Lemma ucont4_range b c : ucont4 b c = true -> 128 <= c <= 191 /\ (b = 240 -> 144 <= c).
Proof.
  unfold ucont4. destruct (Z.eqb_spec b 240); [rewrite andb_true_iff, !Z.leb_le; lia|].
  destruct (Z.eqb_spec b 244); [rewrite andb_true_iff, !Z.leb_le; lia|]. intros H. apply ucont_range in H. lia.
Qed.
Lemma utf8_ascii c : c < 128 -> forall bs, In c (utf8_ignore bs) -> In c bs.
Proof.
  intros Hc bs. remember (length bs) as n eqn:En. revert bs En. induction n as [n IH] using lt_wf_ind. intros bs En H.
  assert (R : forall t, (length t < n)%nat -> In c (utf8_ignore t) -> In c t) by (intros t L; apply (IH (length t) L t eq_refl)). clear IH.
  destruct bs as [|b t]; [destruct H|]. cbn [length] in En. cbn [utf8_ignore] in H.
  destruct (Z.ltb_spec b 128) as [Lb|Lb].
  { destruct H as [H|H]; [left; exact H|right; apply R; [lia|exact H]]. }
  destruct ((194 <=? b) && (b <=? 223)) eqn:B2.
  { apply andb_true_iff in B2 as [B2 B2']. apply Z.leb_le in B2, B2'. destruct t as [|x t1]; [destruct H|]. cbn [length] in En.
    destruct (ucont x) eqn:Ux.
    - apply ucont_range in Ux. destruct H as [H|H]; [exfalso; lia|]. right. right. apply R; [lia|exact H].
    - right. apply R; [cbn; lia|exact H]. }
  destruct ((224 <=? b) && (b <=? 239)) eqn:B3.
  { apply andb_true_iff in B3 as [B3 B3']. apply Z.leb_le in B3, B3'. destruct t as [|x t1]; [destruct H|]. cbn [length] in En.
    destruct (ucont3 b x) eqn:Ux; [|right; apply R; [cbn; lia|exact H]]. apply ucont3_range in Ux.
    destruct t1 as [|y t2]; [destruct H|]. cbn [length] in En. destruct (ucont y) eqn:Uy; [|right; right; apply R; [cbn; lia|exact H]].
    apply ucont_range in Uy. destruct H as [H|H]; [exfalso; destruct (Z.eq_dec b 224); lia|]. do 3 right. apply R; [lia|exact H]. }
  destruct ((240 <=? b) && (b <=? 244)) eqn:B4; [|right; apply R; [lia|exact H]].
  apply andb_true_iff in B4 as [B4 B4']. apply Z.leb_le in B4, B4'. destruct t as [|x t1]; [destruct H|]. cbn [length] in En.
  destruct (ucont4 b x) eqn:Ux; [|right; apply R; [cbn; lia|exact H]]. apply ucont4_range in Ux.
  destruct t1 as [|y t2]; [destruct H|]. cbn [length] in En. destruct (ucont y) eqn:Uy; [|right; right; apply R; [cbn; lia|exact H]].
  apply ucont_range in Uy. destruct t2 as [|z t3]; [destruct H|]. cbn [length] in En. destruct (ucont z) eqn:Uz; [|do 3 right; apply R; [cbn; lia|exact H]].
  apply ucont_range in Uz. destruct H as [H|H]; [exfalso; destruct (Z.eq_dec b 240); lia|]. do 4 right. apply R; [lia|exact H].
Qed.
Lemma body_in c s : In c (body s) -> In c s /\ c <> 0.
Proof.
  unfold body. set (f := filter _ s). assert (F : forall x, In x f -> In x s /\ x <> 0).
  { intros x H. apply filter_In in H as [H1 H2]. split; [exact H1|]. apply negb_true_iff, Z.eqb_neq in H2. exact H2. }
  destruct (rev f) as [|x r] eqn:E; [apply F|]. destruct (x =? PROMPT); [|apply F].
  intros H. apply F. apply in_rev. rewrite E. right. apply in_rev. exact H.
Qed.
Lemma body_prompt s : ~ In PROMPT s -> ~ In PROMPT (body (s ++ [PROMPT])).
Proof.
  intros N. unfold body. rewrite filter_app. cbn [filter]. change (negb (PROMPT =? 0)) with true. cbn [filter]. rewrite rev_app_distr. cbn [rev app].
  change (PROMPT =? PROMPT) with true. cbv iota. rewrite rev_involutive. intros H. apply filter_In in H as [H _]. auto.
Qed.
Lemma pieces_in s ps : pieces s ps -> forall p, In p ps -> Forall (fun c => In c s /\ ~ In c [10; 13]) p.
Proof.
  intros P. induction P as [|c s l Hc P IH|p Hp F|p c s l Hp F Hc P IH]; intros q Hq.
  - destruct Hq.
  - eapply Forall_impl; [|apply IH, Hq]. intros x [H1 H2]. split; [right; exact H1|exact H2].
  - destruct Hq as [<-|[]]. rewrite Forall_forall in *. auto.
  - destruct Hq as [<-|Hq].
    + rewrite Forall_forall in *. intros x Hx. split; [apply in_or_app; left; exact Hx|auto].
    + eapply Forall_impl; [|apply IH, Hq]. intros x [H1 H2]. split; [apply in_or_app; right; right; exact H1|exact H2].
Qed.
Lemma line_chars s lines l : answer_lines s lines -> In l lines ->
  Forall (fun c => In c (utf8_ignore (body s)) /\ c <> 10 /\ c <> 13) l
  /\ (l = [] \/ (exists c t, l = c :: t /\ ~ In c white) /\ (exists c t, l = t ++ [c] /\ ~ In c white)).
Proof.
  intros (ps & P & S) H. apply In_nth_error in H as [n H].
  assert (E : exists p, In p ps /\ stripped p l).
  { clear P. revert n H. induction S as [|p x ps lines Sp S IH]; intros [|n] H; try discriminate H; cbn in H.
    - injection H as ->. exists p. split; [left; reflexivity|exact Sp].
    - destruct (IH n H) as (q & Q1 & Q2). exists q. split; [right; exact Q1|exact Q2]. }
  destruct E as (p & Hp & a & b & E & _ & _ & D). split; [|exact D].
  assert (F := pieces_in _ _ P p Hp). rewrite E in F. apply Forall_app in F as [_ F]. apply Forall_app in F as [F _].
  eapply Forall_impl; [|exact F]. intros c [H1 H2]. split; [exact H1|]. split; intros ->; apply H2; cbn; auto.
Qed.

Lemma pieces_fun s l : pieces s l -> l = filter nonempty (split_crlf s).
Proof.
  intros P. induction P as [|c s l Hc P IH|p Hp F|p c s l Hp F Hc P IH].
  - reflexivity.
  - cbn [split_crlf]. rewrite (proj2 (crlf_in c) Hc). exact IH.
  - rewrite <- (app_nil_r p) at 2. rewrite (split_crlf_head p [] F). cbn. rewrite app_nil_r. destruct p; [congruence|reflexivity].
  - rewrite (split_crlf_head p _ F). cbn [split_crlf]. rewrite (proj2 (crlf_in c) Hc). rewrite app_nil_r. cbn [filter].
    destruct p; [congruence|]. cbn [nonempty]. f_equal. exact IH.
Qed.
Lemma stripped_fun s a b : stripped s a -> stripped s b -> a = b.
Proof.
  assert (Half : forall a1 t1 a2 t2 : text, a1 ++ t1 = a2 ++ t2 -> Forall (fun c => In c white) a1 -> Forall (fun c => In c white) a2 ->
     (exists c t, t1 = c :: t /\ ~ In c white) -> (exists c t, t2 = c :: t /\ ~ In c white) -> t1 = t2).
  { induction a1 as [|x a1 IH]; intros t1 [|y a2] t2 E F1 F2 N1 N2; cbn in E; auto.
    - destruct N1 as (c & t & -> & N1). injection E as -> _. inversion F2; subst. contradiction.
    - destruct N2 as (c & t & -> & N2). injection E as -> _. inversion F1; subst. contradiction.
    - injection E as -> E. inversion F1; inversion F2; subst. eapply IH; eauto. }
  assert (Empty : forall s : text, Forall (fun c => In c white) s -> forall t, stripped s t -> t = []).
  { intros s0 F t (x & y & -> & _ & _ & [->|((c & t' & -> & N) & _)]); [reflexivity|].
    apply Forall_app in F as [_ F]. inversion F; subst. contradiction. }
  intros (a1 & b1 & E1 & Fa1 & Fb1 & D1) (a2 & b2 & E2 & Fa2 & Fb2 & D2).
  destruct D1 as [->|(S1 & L1)].
  { symmetry. apply (Empty s); [rewrite E1; cbn; apply Forall_app; auto|]. exists a2, b2. auto. }
  destruct D2 as [->|(S2 & L2)].
  { apply (Empty s); [rewrite E2; cbn; apply Forall_app; auto|]. exists a1, b1. split; [exact E1|]. split; [exact Fa1|]. split; [exact Fb1|]. right. split; [exact S1|exact L1]. }
  assert (E : a ++ b1 = b ++ b2).
  { eapply (Half a1 _ a2 _); [congruence|assumption|assumption| |].
    - destruct S1 as (c & t & -> & N). exists c, (t ++ b1). auto.
    - destruct S2 as (c & t & -> & N). exists c, (t ++ b2). auto. }
  assert (R : rev b1 ++ rev a = rev b2 ++ rev b) by (rewrite <- !rev_app_distr, E; reflexivity).
  assert (R2 : rev a = rev b); [|rewrite <- (rev_involutive a), R2, rev_involutive; reflexivity].
  apply (Half _ _ _ _ R).
  - apply Forall_rev, Fb1.
  - apply Forall_rev, Fb2.
  - destruct L1 as (c & t & -> & N). rewrite rev_app_distr. cbn. eauto.
  - destruct L2 as (c & t & -> & N). rewrite rev_app_distr. cbn. eauto.
Qed.
(* the lines of an answer are determined by its bytes *)
Lemma answer_lines_fun s l : answer_lines s l -> l = clean s.
Proof.
  intros (ps & P & F). destruct (clean_lines s) as (ps' & P' & F'). apply pieces_fun in P, P'. assert (E : ps' = ps) by congruence. rewrite E in F'. clear - F F'.
  revert F'. generalize (clean s). induction F as [|p x ps l S F IH]; intros l2 G; inversion G; subst; [reflexivity|]. f_equal; [eapply stripped_fun; eassumption|auto].
Qed.
