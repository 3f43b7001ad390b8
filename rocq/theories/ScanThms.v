(* Proofs about Scan.v. *)
From Coq Require Import ZArith List Bool Lia.
From Verif Require Import Py Num Utils Protocol Decoders Command CommandTable Commands World Elm Obd Scan SpecObd SpecScan PyFacts ObdThms ObdThms3.
Import ListNotations.
Open Scope Z_scope.

Lemma starts_iff p s : startswith p s = true <-> exists rest, s = p ++ rest.
Proof.
  revert s. induction p as [|x p IH]; intros s; cbn; [split; eauto|]. destruct s as [|y s]; [split; [discriminate|intros (r & E); discriminate E]|].
  rewrite andb_true_iff, Z.eqb_eq, IH. split; [intros [-> (r & ->)]; eauto|intros (r & E); injection E as -> ->; eauto].
Qed.
Lemma platform_iff m s : startswith (str s) (m_platform m) = true <-> platform_is m s.
Proof. apply starts_iff. Qed.

Lemma fnmatch_lit lit p s : fnmatch (map GChar lit ++ p) s = true <-> exists t, s = lit ++ t /\ fnmatch p t = true.
Proof.
  revert s. induction lit as [|c lit IH]; intros s; cbn [map app fnmatch]; [split; [eauto|intros (t & -> & H); exact H]|].
  destruct s as [|x s]; [split; [discriminate|intros (t & E & _); discriminate E]|]. rewrite andb_true_iff, Z.eqb_eq, IH.
  split; [intros [-> (t & -> & H)]; eauto|intros (t & E & H); injection E as -> ->; eauto].
Qed.
Lemma fnmatch_star s : fnmatch [GStar] s = true.
Proof. induction s as [|x s IH]; [reflexivity|exact IH]. Qed.
Lemma fnmatch_digit s : fnmatch [GDigit; GStar] s = true <-> exists d r, 48 <= d <= 57 /\ s = d :: r.
Proof.
  destruct s as [|x s]; [split; [discriminate|intros (d & r & _ & E); discriminate E]|].
  change (fnmatch [GDigit; GStar] (x :: s)) with ((48 <=? x) && (x <=? 57) && fnmatch [GStar] s). rewrite fnmatch_star, andb_true_r, andb_true_iff, !Z.leb_le.
  split; [eauto|intros (d & r & D & E); injection E as -> ->; exact D].
Qed.

Lemma picks_filter {A B} (P : A -> Prop) (f : A -> B) (b : A -> bool) l : (forall x, In x l -> b x = true <-> P x) -> picks P f l (map f (filter b l)).
Proof.
  induction l as [|x l IH]; intros H; [constructor|]. cbn. specialize (IH (fun y I => H y (or_intror I))). specialize (H x (or_introl eq_refl)).
  destruct (b x); [apply picks_take; [apply H; reflexivity|exact IH]|apply picks_skip; [intros X; apply H in X; discriminate X|exact IH]].
Qed.
Arguments platform_iff m s%string_scope.
Lemma numbered_match p n : match str p with c :: _ => c <> 46 | [] => False end ->
  (negb (startswith (str ".") n) && fnmatch (map GChar (str p) ++ [GDigit; GStar]) n = true) <-> numbered p n.
Proof.
  intros N. rewrite andb_true_iff, fnmatch_lit. split.
  - intros [_ (t & -> & D)]. apply fnmatch_digit in D as (d & r & D & ->). exists d, r. auto.
  - intros (d & r & D & ->). split; [destruct (str p) as [|c q]; [destruct N|]; change (startswith (str ".") ((c :: q) ++ d :: r)) with ((46 =? c) && true); rewrite andb_true_r; destruct (46 =? c) eqn:E; [apply Z.eqb_eq in E; congruence|reflexivity]|].
    exists (d :: r). split; [reflexivity|]. apply fnmatch_digit. eauto.
Qed.


Arguments numbered_match p%string_scope n.
Lemma possible_candidates m : candidates m (possible_ports m).
Proof.
  unfold possible_ports. destruct (startswith (str "linux") (m_platform m) || startswith (str "cygwin") (m_platform m)) eqn:U.
  - apply cand_unix.
    + apply orb_true_iff in U as [U|U]; apply platform_iff in U; [left|right]; exact U.
    + unfold glob_dev. apply (picks_filter _ dev). intros n _. apply (numbered_match "rfcomm"). cbn. lia.
    + unfold glob_dev. apply (picks_filter _ dev). intros n _. apply (numbered_match "ttyUSB"). cbn. lia.
  - apply orb_false_iff in U as [U1 U2]. destruct (startswith (str "win") (m_platform m)) eqn:W.
    + apply cand_windows; [apply platform_iff; exact W|rewrite map_length, seq_length; reflexivity|].
      intros i name E. rewrite nth_error_map in E. destruct (nth_error (seq 0 256) i) as [j|] eqn:J; [|discriminate E]. injection E as <-.
      assert (L : (i < 256)%nat) by (rewrite <- (seq_length 256 0); apply nth_error_Some; congruence).
      apply nth_error_nth with (d := 0%nat) in J. rewrite seq_nth in J by exact L. cbn in J. subst j. exists (str_nat i). split; [apply str_nat_decimal|reflexivity].
    + destruct (startswith (str "darwin") (m_platform m)) eqn:D.
      * apply cand_mac; [apply platform_iff; exact D|]. unfold glob_dev.
        match goal with |- picks _ _ _ (filter ?g (map ?f (filter ?h ?l))) => replace (filter g (map f (filter h l))) with (map dev (filter (fun n => h n && g (dev n)) l)) end.
        -- apply picks_filter. intros n _. rewrite !andb_true_iff, negb_true_iff. split.
           ++ intros [[_ M] E]. apply fnmatch_lit in M as (t & -> & _). split; [eauto|].
              cbn [existsb] in E. rewrite orb_false_r in E. apply orb_false_iff in E as [E1 E2].
              split; intros X; rewrite X in *; [revert E1|revert E2]; vm_compute; discriminate.
           ++ intros ((t & ->) & N1 & N2). split; [split; [reflexivity|]|].
              ** apply fnmatch_lit. exists t. split; [reflexivity|apply fnmatch_star].
              ** cbn [existsb]. rewrite orb_false_r. apply orb_false_iff.
                 split; match goal with |- text_eqb ?a ?b = false => destruct (text_eqb a b) eqn:E; [|reflexivity]; exfalso; apply text_eqb_eq in E end; [apply N1|apply N2];
                 (apply (app_inv_head (str "/dev/")); exact E).
        -- clear. generalize (m_dev m) as l. induction l as [|n l IH]; [reflexivity|]. cbn [map filter].
           match goal with |- context [if ?h && ?g then _ else _] => destruct h eqn:Eh end; cbn [andb]; [|exact IH]. cbn [map filter]. change (str "/dev/" ++ n) with (dev n).
           match goal with |- context [if ?g then _ else _] => destruct g eqn:Eg end; cbn [map]; [f_equal|]; exact IH.
      * apply cand_other; intros X; [destruct X as [X|X]| |]; apply platform_iff in X; congruence.
Qed.

Definition opens_it (m : machine) (p : text) : Prop := m_probe m p = Opens.
Lemma try_ports_spec m ports av r ev : try_ports m ports av = (r, ev) ->
  (exists l, r = Found (av ++ l) /\ picks (opens_it m) (fun p => p) ports l /\ ev = visits l /\ (forall p n, In p ports -> ~ hard (m_probe m p) n))
  \/ (exists before p after n l, ports = before ++ p :: after /\ hard (m_probe m p) n /\ r = OsError n
       /\ (forall q k, In q before -> ~ hard (m_probe m q) k) /\ picks (opens_it m) (fun p => p) before l /\ ev = visits l).
Proof.
  revert av r ev. induction ports as [|p ports IH]; intros av r ev H.
  - cbn in H. injection H as <- <-. left. exists []. rewrite app_nil_r. repeat split; [constructor|intros p n []].
  - cbn [try_ports] in H. unfold try_port in H. destruct (m_probe m p) as [| |n] eqn:P.
    + destruct (try_ports m ports (av ++ [p])) as [r1 ev1] eqn:T. injection H as <- <-. apply IH in T as [(l & -> & Pk & -> & F)|(b & q & a & n & l & -> & Hd & -> & F & Pk & ->)].
      * left. exists (p :: l). rewrite <- app_assoc. split; [reflexivity|]. split; [apply (picks_take _ (fun p => p)); assumption|]. split; [reflexivity|].
        intros q n [<-|I]; [intros (X & _); congruence|apply F; exact I].
      * right. exists (p :: b), q, a, n, (p :: l). split; [reflexivity|]. split; [exact Hd|]. split; [reflexivity|]. split; [|split; [apply (picks_take _ (fun p => p)); assumption|reflexivity]].
        intros x k [<-|I]; [intros (X & _); congruence|apply F; exact I].
    + destruct (try_ports m ports av) as [r1 ev1] eqn:T. injection H as <- <-. apply IH in T as [(l & -> & Pk & -> & F)|(b & q & a & n & l & -> & Hd & -> & F & Pk & ->)].
      * left. exists l. split; [reflexivity|]. split; [apply picks_skip; [unfold opens_it; congruence|assumption]|]. split; [reflexivity|].
        intros q n [<-|I]; [intros (X & _); congruence|apply F; exact I].
      * right. exists (p :: b), q, a, n, l. split; [reflexivity|]. split; [exact Hd|]. split; [reflexivity|]. split; [|split; [apply picks_skip; [unfold opens_it; congruence|assumption]|reflexivity]].
        intros x k [<-|I]; [intros (X & _); congruence|apply F; exact I].
    + destruct (n =? ENOENT) eqn:N; cbn [negb] in H.
      * apply Z.eqb_eq in N. destruct (try_ports m ports av) as [r1 ev1] eqn:T. injection H as <- <-. apply IH in T as [(l & -> & Pk & -> & F)|(b & q & a & k & l & -> & Hd & -> & F & Pk & ->)].
        -- left. exists l. split; [reflexivity|]. split; [apply picks_skip; [unfold opens_it; congruence|assumption]|]. split; [reflexivity|].
           intros q k [<-|I]; [intros (X & Y); rewrite P in X; injection X as <-; apply Y; exact N|apply F; exact I].
        -- right. exists (p :: b), q, a, k, l. split; [reflexivity|]. split; [exact Hd|]. split; [reflexivity|]. split; [|split; [apply picks_skip; [unfold opens_it; congruence|assumption]|reflexivity]].
           intros x j [<-|I]; [intros (X & Y); rewrite P in X; injection X as <-; apply Y; exact N|apply F; exact I].
      * injection H as <- <-. right. apply Z.eqb_neq in N. exists [], p, ports, n, []. split; [reflexivity|]. split; [split; [exact P|exact N]|]. split; [reflexivity|].
        split; [intros q k []|]. split; [constructor|reflexivity].
Qed.

(* ---- what OBD() opens ---- *)
Definition stays {S A} (tr : S -> list event) (m : M S A) : Prop := forall s, opened (tr (snd (m s))) = opened (tr s).
Definition te (s : elm * world) : list event := w_trace (snd s).
Definition to (s : obd * world) : list event := w_trace (snd s).
Lemma opened_app a b : opened (a ++ b) = opened a ++ opened b.
Proof. apply flat_map_app. Qed.
Lemma stays_ret {S A} (tr : S -> list event) (a : A) : stays tr (ret a). Proof. intros s. reflexivity. Qed.
Lemma stays_raise {S A} (tr : S -> list event) x : stays tr (raise x : M S A). Proof. intros s. reflexivity. Qed.
Lemma stays_of_res {S A} (tr : S -> list event) (r : res A) : stays tr (of_res r). Proof. intros s. reflexivity. Qed.
Lemma stays_gets {S A} (tr : S -> list event) (f : S -> A) : stays tr (gets f). Proof. intros s. reflexivity. Qed.
Lemma stays_bind {S A B} (tr : S -> list event) (m : M S A) (k : A -> M S B) : stays tr m -> (forall a, stays tr (k a)) -> stays tr (bind m k).
Proof. intros H K s. unfold bind. specialize (H s). destruct (m s) as [[a|x] s']; cbn [snd] in *; [rewrite K|]; exact H. Qed.
Ltac stay := repeat first
  [ assumption
  | match goal with
    | |- stays _ (bind _ _) => apply stays_bind; [|intros ?]
    | |- stays _ (ret _) => apply stays_ret
    | |- stays _ (raise _) => apply stays_raise
    | |- stays _ (of_res _) => apply stays_of_res
    | |- stays _ (gets _) => apply stays_gets
    | |- stays _ (match ?x with _ => _ end) => destruct x
    end ].
Lemma stays_set_status x : stays te (set_status x). Proof. intros [e w]. reflexivity. Qed.
Lemma stays_set_protocol_obj x : stays te (set_protocol_obj x). Proof. intros [e w]. reflexivity. Qed.
Lemma stays_set_low_power x : stays te (set_low_power x). Proof. intros [e w]. reflexivity. Qed.
Lemma stays_set_port x : stays te (set_port x). Proof. intros [e w]. reflexivity. Qed.
Lemma stays_close : stays te (emit_e EvClose).
Proof. intros [e w]. unfold te. cbn. rewrite opened_app. cbn. apply app_nil_r. Qed.
Lemma stays_io_failure : stays te io_failure.
Proof. unfold io_failure. stay; [apply stays_set_status|apply stays_close|apply stays_set_port]. Qed.
Lemma opened_write bs w : opened (w_trace (snd (port_write true bs w))) = opened (w_trace w).
Proof. unfold port_write. destruct (match w_writes w with o :: _ => o | [] => WOk end); cbn; rewrite ?opened_app; cbn; rewrite ?app_nil_r; reflexivity. Qed.
Lemma stays_write bs : stays te (elm_write bs).
Proof.
  intros [e w]. unfold elm_write. destruct (e_port e); [|reflexivity]. pose proof (opened_write (bs ++ [13]) w) as H.
  destruct (port_write true (bs ++ [13]) w) as [ok w1]. cbn [snd] in H. destruct ok; [exact H|]. rewrite stays_io_failure. exact H.
Qed.
Lemma read_loop_opened mk buf rs : opened (snd (read_loop mk buf rs)) = [].
Proof.
  revert buf. induction rs as [|[[|x d]|] rs IH]; intros buf; cbn; try reflexivity. destruct (contains mk _); [reflexivity|].
  match goal with |- context [read_loop mk ?b rs] => specialize (IH b); destruct (read_loop mk b rs) as [[r1 r2] ev] end. exact IH.
Qed.
Lemma stays_read mk : stays te (elm_read mk).
Proof.
  intros [e w]. unfold elm_read. destruct (e_port e); [|reflexivity]. pose proof (read_loop_opened mk [] (w_reads w)) as H.
  destruct (read_loop mk [] (w_reads w)) as [[r rest] evs]. cbn [snd] in H. destruct r.
  - unfold te. cbn. rewrite opened_app, H. apply app_nil_r.
  - assert (K : stays te (do! io_failure; ret ([] : list text))) by (stay; apply stays_io_failure). rewrite K. unfold te. cbn. rewrite opened_app, H. apply app_nil_r.
Qed.
Lemma stays_read_again n mk r : stays te (read_again n mk r).
Proof. revert r. induction n as [|n IH]; intros r; cbn [read_again]; stay; [apply stays_read|apply IH]. Qed.
Lemma stays_send_gen c d mk : stays te (elm_send_gen c d mk).
Proof. unfold elm_send_gen. stay; [apply stays_write|apply stays_read|apply stays_read_again]. Qed.
Lemma stays_send c d : stays te (elm_send c d). Proof. apply stays_send_gen. Qed.
Lemma stays_elm_close : stays te elm_close.
Proof. unfold elm_close, elm_of. stay; first [apply stays_set_status | apply stays_set_protocol_obj | apply stays_write | apply stays_close | apply stays_set_port]. Qed.
Lemma stays_set_timeout t : stays te (set_timeout t).
Proof. intros [e w]. unfold set_timeout. destruct (e_port e); [|reflexivity]. unfold te. cbn. rewrite opened_app. apply app_nil_r. Qed.
Lemma stays_set_baud b : stays te (set_baud b).
Proof. intros [e w]. unfold set_baud. destruct (e_port e); [|reflexivity]. unfold port_baud. destruct (match w_confs w with x :: _ => x | [] => true end); unfold te; cbn; rewrite opened_app; apply app_nil_r. Qed.
Lemma stays_probe : stays te baud_probe.
Proof.
  intros [e w]. unfold baud_probe. pose proof (opened_write [127; 127; 13] w) as H. destruct (port_write true [127; 127; 13] w) as [ok w1]. cbn [snd] in H. destruct ok; [|exact H].
  unfold port_read. destruct (match w_reads w1 with r :: _ => r | [] => Some [] end); unfold te; cbn; rewrite opened_app, H; apply app_nil_r.
Qed.
Lemma stays_try_bauds t l : stays te (try_each_baud t l).
Proof. induction l as [|b l IH]; cbn [try_each_baud]; stay; first [apply stays_set_timeout | apply stays_set_baud | apply stays_probe]. Qed.
Lemma stays_set_baudrate b : stays te (set_baudrate b).
Proof. unfold set_baudrate, auto_baudrate, elm_of. stay; first [apply stays_set_baud | apply stays_set_timeout | apply stays_try_bauds]. Qed.
Lemma stays_instantiate id r : stays te (instantiate id r).
Proof. unfold instantiate. stay. apply stays_set_protocol_obj. Qed.
Lemma stays_try_protocols l : stays te (try_protocols l).
Proof. induction l as [|p l IH]; cbn [try_protocols]; stay; first [apply stays_send | apply stays_instantiate]. Qed.
Lemma stays_set_protocol p : stays te (set_protocol p).
Proof. unfold set_protocol, manual_protocol, auto_protocol. stay; first [apply stays_send | apply stays_instantiate | apply stays_try_protocols]. Qed.
Lemma stays_init b p c s : stays te (elm_init_opened b p c s).
Proof.
  unfold elm_init_opened, elm_init_voltage, elm_init_car, elm_error, elm_of.
  stay; first [apply stays_write | apply stays_set_baudrate | apply stays_elm_close | apply stays_send | apply stays_set_status | apply stays_set_protocol].
Qed.
Lemma new_elm_opened name b p t c s w : opened (w_trace (snd (new_elm name b p t c s w))) = opened (w_trace w) ++ [name].
Proof.
  unfold new_elm, port_open. set (ok := match w_opens w with b0 :: _ => b0 | [] => true end).
  assert (O : opened (w_trace (emit (EvOpen name ok) (mkWorld (tl (w_opens w)) (w_writes w) (w_reads w) (w_confs w) (w_trace w)))) = opened (w_trace w) ++ [name]) by (cbn; apply opened_app).
  revert O. generalize (emit (EvOpen name ok) (mkWorld (tl (w_opens w)) (w_writes w) (w_reads w) (w_confs w) (w_trace w))) as w1. intros w1 O. destruct ok.
  - match goal with |- context [elm_init_opened b p c s ?x] => pose proof (stays_init b p c s x) as H; destruct (elm_init_opened b p c s x) as [[[]|x0] [e w2]] end; unfold te in H; cbn [snd] in *; congruence.
  - match goal with |- context [elm_error ?x] => pose proof (stays_elm_close x) as H; unfold elm_error; destruct (elm_close x) as [[[]|x0] [e w2]] end; unfold te in H; cbn [snd] in *; congruence.
Qed.
Lemma stays_on_interface {A} (m : ME A) : stays te m -> stays to (on_interface m).
Proof. intros H [o w]. unfold on_interface. destruct (o_interface o) as [e|]; [|reflexivity]. specialize (H (e, w)). destruct (m (e, w)) as [r [e1 w1]]. exact H. Qed.
Lemma stays_set_interface x : stays to (set_interface x). Proof. intros [e w]. reflexivity. Qed.
Lemma stays_set_supported x : stays to (set_supported x). Proof. intros [e w]. reflexivity. Qed.
Lemma stays_set_last_command x : stays to (set_last_command x). Proof. intros [e w]. reflexivity. Qed.
Lemma stays_set_last_header x : stays to (set_last_header x). Proof. intros [e w]. reflexivity. Qed.
Lemma stays_set_frame_counts x : stays to (set_frame_counts x). Proof. intros [e w]. reflexivity. Qed.
Lemma stays_send_and_parse c : stays te (send_and_parse c).
Proof. unfold send_and_parse, elm_normal_power, elm_of. stay; first [apply stays_send | apply stays_set_low_power]. Qed.
Lemma stays_set_header h : stays to (set_header h).
Proof. unfold set_header, obd_of. stay; first [apply stays_on_interface; apply stays_send_and_parse | apply stays_set_last_header]. Qed.
Lemma stays_obd_close : stays to obd_close.
Proof. unfold obd_close, obd_of. stay; first [apply stays_set_supported | apply stays_set_header | apply stays_on_interface; apply stays_elm_close | apply stays_set_interface]. Qed.
Lemma stays_pure {A} (f : obd -> res A) : stays to (fun s : obd * world => (f (fst s), s)). Proof. intros s. reflexivity. Qed.
Lemma stays_query c f : stays to (query c f).
Proof.
  unfold query, obd_of.
  stay; first [apply (stays_pure (fun o => test_cmd o c)) | apply stays_set_header | apply stays_on_interface; apply stays_send_and_parse | apply stays_set_last_command | apply stays_set_frame_counts].
Qed.
Lemma stays_load_all l : stays to (load_all l).
Proof.
  induction l as [|g l IH]; cbn [load_all]; stay. unfold load_one, obd_of. stay; first [apply (stays_pure (fun o => test_cmd o g)) | apply stays_query | apply stays_set_supported].
Qed.
Lemma stays_load : stays to load_commands.
Proof. unfold load_commands, obd_of. stay. apply stays_load_all. Qed.
Lemma connect_scan_opened cf names s : exists k, opened (to (snd (connect_scan cf names s))) = opened (to s) ++ firstn k names.
Proof.
  revert s. induction names as [|p names IH]; intros s; [exists O; cbn; rewrite app_nil_r; reflexivity|].
  cbn [connect_scan]. unfold bind at 1. destruct s as [o w]. unfold connect_port.
  pose proof (new_elm_opened p (cf_baudrate cf) (cf_protocol cf) (o_timeout o) (cf_check_voltage cf) (cf_start_low_power cf) w) as H.
  destruct (new_elm p (cf_baudrate cf) (cf_protocol cf) (o_timeout o) (cf_check_voltage cf) (cf_start_low_power cf) w) as [[e|x] w1]; cbn [snd] in H.
  - unfold set_interface. unfold bind, obd_of, gets. cbv beta. cbn [fst]. match goal with |- context [if ?b then _ else _] => destruct b end.
    + exists 1%nat. exact H.
    + match goal with |- context [connect_scan cf names ?x] => destruct (IH x) as (k & Hk) end. exists (S k). rewrite Hk. unfold to at 1. cbn [snd]. rewrite H, <- app_assoc. reflexivity.
  - exists 1%nat. exact H.
Qed.
Lemma scan_opens cf names w : exists k, opened (w_trace (snd (snd (new_obd cf None names w)))) = opened (w_trace w) ++ firstn k names.
Proof.
  change (w_trace (snd (snd (new_obd cf None names w)))) with (to (snd (new_obd cf None names w))). unfold new_obd. unfold bind at 1.
  assert (C : exists k, opened (to (snd (connect cf None names (initial_obd cf, w)))) = opened (w_trace w) ++ firstn k names).
  { unfold connect. destruct names as [|p names]; [exists O; cbn; rewrite app_nil_r; reflexivity|]. unfold bind at 1.
    destruct (connect_scan_opened cf (p :: names) (initial_obd cf, w)) as (k & Hk). exists k. destruct (connect_scan cf (p :: names) (initial_obd cf, w)) as [[[]|x] s1]; [|exact Hk].
    eapply eq_trans; [|exact Hk]. assert (K : stays to close_if_failed) by (unfold close_if_failed, obd_of; stay; apply stays_obd_close). apply K. }
  destruct C as (k & Hk). exists k. destruct (connect cf None names (initial_obd cf, w)) as [[[]|x] s1]; [|exact Hk]. rewrite stays_load. exact Hk.
Qed.

(* ---- the specification determines the candidates ---- *)
Lemma picks_fun {A B} (P : A -> Prop) (f : A -> B) l a b : picks P f l a -> picks P f l b -> a = b.
Proof.
  intros H. revert b. induction H as [|x l r Px H IH|x l r Px H IH]; intros b K; inversion K; subst; try contradiction; [reflexivity| |]; [f_equal|]; auto.
Qed.
Definition dval (s : text) : Z := fold_left (fun v d => 10 * v + (d - 48)) s 0.
Lemma dval_snoc s d : dval (s ++ [d]) = 10 * dval s + (d - 48).
Proof. unfold dval. rewrite fold_left_app. reflexivity. Qed.
Lemma dval_nonneg s : Forall (fun d => 48 <= d <= 57) s -> 0 <= dval s.
Proof.
  induction s as [|d s IH] using rev_ind; intros F; [cbn; lia|]. apply Forall_app in F as [F1 F2]. inversion F2; subst. rewrite dval_snoc. specialize (IH F1). lia.
Qed.
Lemma dval_pos d s : 49 <= d <= 57 -> Forall (fun d => 48 <= d <= 57) s -> 0 < dval (d :: s).
Proof.
  intros D. induction s as [|e s IH] using rev_ind; intros F; [cbn; lia|]. apply Forall_app in F as [F1 F2]. inversion F2; subst. rewrite app_comm_cons, dval_snoc. specialize (IH F1). lia.
Qed.
Lemma dval_inj a : forall b, Forall (fun d => 48 <= d <= 57) a -> Forall (fun d => 48 <= d <= 57) b ->
  (forall r, a = 48 :: r -> r = []) -> (forall r, b = 48 :: r -> r = []) -> a <> [] -> b <> [] -> dval a = dval b -> a = b.
Proof.
  induction a as [|x a IH] using rev_ind; intros b Fa Fb Za Zb Na Nb E; [congruence|].
  destruct (exists_last Nb) as (b' & y & ->). rewrite !dval_snoc in E. apply Forall_app in Fa as [Fa Fx]. apply Forall_app in Fb as [Fb Fy].
  inversion Fx; inversion Fy; subst. assert (x = y) by lia. subst y. f_equal. assert (V : dval a = dval b') by lia.
  assert (Lead : forall s, (forall r, s ++ [x] = 48 :: r -> r = []) -> forall r, s = 48 :: r -> False).
  { intros s Z r ->. specialize (Z (r ++ [x]) eq_refl). destruct r; discriminate Z. }
  destruct a as [|p a], b' as [|q b']; [reflexivity| | |].
  - exfalso. inversion Fb; subst. assert (q <> 48) by (intros ->; eapply Lead; [exact Zb|reflexivity]). pose proof (dval_pos q b' ltac:(lia) ltac:(assumption)). change (dval []) with 0 in V. lia.
  - exfalso. inversion Fa; subst. assert (p <> 48) by (intros ->; eapply Lead; [exact Za|reflexivity]). pose proof (dval_pos p a ltac:(lia) ltac:(assumption)). change (dval []) with 0 in V. lia.
  - apply IH; auto; try discriminate; intros r R; exfalso; eapply Lead; [exact Za|exact R|exact Zb|exact R].
Qed.
Lemma com_fun i a b : com i a -> com i b -> a = b.
Proof.
  intros (d & (N & F & V & Z) & ->) (d' & (N' & F' & V' & Z') & ->). f_equal. apply dval_inj; auto. unfold dval. congruence.
Qed.
Lemma prefixes_clash m a b x y : startswith (str a) (m_platform m) = true -> startswith (str b) (m_platform m) = true -> hd_error (str a) = Some x -> hd_error (str b) = Some y -> x = y.
Proof.
  intros A B. apply starts_iff in A as (r & A), B as (r' & B). rewrite A in B. destruct (str a) as [|p s]; [discriminate|]. destruct (str b) as [|q t]; [discriminate|].
  cbn in *. intros X Y. injection X as <-. injection Y as <-. injection B as -> _. reflexivity.
Qed.
Lemma platforms_apart m : ~ (unixlike m /\ windows m) /\ ~ (unixlike m /\ mac m) /\ ~ (windows m /\ mac m).
Proof.
  assert (K : forall a b, platform_is m a -> platform_is m b -> hd_error (str a) = hd_error (str b) \/ str a = [] \/ str b = []).
  { intros a b A B. apply platform_iff in A, B. destruct (str a) as [|p s] eqn:Ea; [tauto|]. destruct (str b) as [|q t] eqn:Eb; [tauto|].
    left. cbn. f_equal. rewrite <- Ea in A. rewrite <- Eb in B. apply (prefixes_clash m a b p q A B); [rewrite Ea|rewrite Eb]; reflexivity. }
  repeat split; intros [U W]; unfold unixlike, windows, mac in *;
  repeat match goal with H : _ \/ _ |- _ => destruct H end;
  match goal with A : platform_is m ?a, B : platform_is m ?b |- _ => destruct (K a b A B) as [X|[X|X]]; vm_compute in X; discriminate X end.
Qed.
Lemma nth_ext_eq {A} (l : list A) : forall l', (forall i, nth_error l i = nth_error l' i) -> l = l'.
Proof.
  induction l as [|x l IH]; intros [|y l'] H; [reflexivity|specialize (H O); discriminate H|specialize (H O); discriminate H|].
  f_equal; [specialize (H O); injection H; auto|apply IH; intros i; exact (H (S i))].
Qed.
Lemma candidates_fun m a b : candidates m a -> candidates m b -> a = b.
Proof.
  destruct (platforms_apart m) as (P1 & P2 & P3).
  intros A B. destruct A as [bl usb U Pb Pu|l W L C|l Mc P|N1 N2 N3]; destruct B as [bl' usb' U' Pb' Pu'|l' W' L' C'|l' Mc' P'|N1' N2' N3']; try tauto.
  - f_equal; eapply picks_fun; eassumption.
  - apply nth_ext_eq. intros i. destruct (nth_error l i) as [x|] eqn:X.
    + assert (I : (i < length l')%nat) by (rewrite L', <- L; apply nth_error_Some; congruence). apply nth_error_Some in I.
      destruct (nth_error l' i) as [y|] eqn:Y; [|congruence]. f_equal. eapply com_fun; eauto.
    + apply nth_error_None in X. symmetry. apply nth_error_None. rewrite L', <- L. exact X.
  - eapply picks_fun; eassumption.
Qed.
