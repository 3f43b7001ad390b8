(* Open ports are accounted for. *)
From Coq Require Import ZArith List Bool Lia.
From Verif Require Import Py Num Utils Protocol Decoders Command CommandTable Commands World Elm Obd Scan SpecElm SpecObd SpecScan SpecPorts
  ElmFacts ElmThms ObdFacts ObdThms ObdThms2 ScanThms ConnectThms.
Import ListNotations.
Open Scope nat_scope.

Lemma left_open_app a : forall n b, left_open n (a ++ b) = match left_open n a with Some m => left_open m b | None => None end.
Proof. induction a as [|e a IH]; intros n b; [reflexivity|]. cbn [app left_open]. destruct e as [x [] | | | | | |]; destruct n; try reflexivity; apply IH. Qed.

(* since the trace was b, there are n ports open *)
Definition open_at (b : list event) (w : world) (n : nat) : Prop := exists t, w_trace w = b ++ t /\ left_open 0 t = Some n.
Definition hp (e : elm) : nat := match e_port e with Some _ => 1 | None => 0 end.
Definition held (b : list event) (k : nat) (s : elm * world) : Prop := open_at b (snd s) (k + hp (fst s)).

Lemma open_at_ext b w w' n m ev : open_at b w n -> w_trace w' = w_trace w ++ ev -> left_open n ev = Some m -> open_at b w' m.
Proof. intros (t & T & L) E K. exists (t ++ ev). split; [rewrite E, T, app_assoc; reflexivity|]. rewrite left_open_app, L. exact K. Qed.
Lemma open_at_same b w w' n : open_at b w n -> w_trace w' = w_trace w -> open_at b w' n.
Proof. intros (t & T & L) E. exists t. split; [congruence|exact L]. Qed.
Lemma keeps_raise {S A} (P : S -> Prop) x : keeps P (raise x : M S A). Proof. intros s H. exact H. Qed.
Lemma keeps_of_res {S A} (P : S -> Prop) (r : res A) : keeps P (of_res r). Proof. intros s H. exact H. Qed.
Lemma keeps_gets {S A} (P : S -> Prop) (f : S -> A) : keeps P (gets f). Proof. intros s H. exact H. Qed.
Lemma keeps_pure {S A} (P : S -> Prop) (f : S -> res A) : keeps P (fun s => (f s, s)). Proof. intros s H. exact H. Qed.
Ltac kstep := repeat first
  [ assumption
  | match goal with
    | |- keeps _ (bind _ _) => apply keeps_bind; [|intros ?]
    | |- keeps _ (ret _) => apply keeps_ret
    | |- keeps _ (raise _) => apply keeps_raise
    | |- keeps _ (of_res _) => apply keeps_of_res
    | |- keeps _ (gets _) => apply keeps_gets
    | |- keeps _ (match ?x with _ => _ end) => destruct x
    end ].

Section Held.
Variable b : list event.
Variable k : nat.
Notation H := (held b k).
Lemma held_set_status x : keeps H (set_status x). Proof. intros [e w] K. exact K. Qed.
Lemma held_set_protocol_obj x : keeps H (set_protocol_obj x). Proof. intros [e w] K. exact K. Qed.
Lemma held_set_low_power x : keeps H (set_low_power x). Proof. intros [e w] K. exact K. Qed.
(* closing a port that is there *)
Lemma held_shut e w p : e_port e = Some p -> H (e, w) -> H (snd ((do! emit_e EvClose; set_port None) (e, w))).
Proof.
  intros P K. unfold held in *. cbn in *. unfold hp in *. cbn in *. rewrite P in K. eapply open_at_ext; [exact K|reflexivity|].
  replace (k + 1) with (S k) by lia. cbn. f_equal. lia.
Qed.
Lemma held_io_failure e w p : e_port e = Some p -> H (e, w) -> H (snd (io_failure (e, w))).
Proof. intros P K. unfold io_failure. unfold bind at 1. cbn [set_status]. apply (held_shut _ _ p); [exact P|exact K]. Qed.
Lemma left_write bs w : exists ev, w_trace (snd (port_write true bs w)) = w_trace w ++ ev /\ forall n, left_open (S n) ev = Some (S n).
Proof.
  unfold port_write. destruct (match w_writes w with o :: _ => o | [] => WOk end); cbn; rewrite <- ?app_assoc; eexists; (split; [reflexivity|]); reflexivity.
Qed.
Lemma held_write bs : keeps H (elm_write bs).
Proof.
  intros [e w] K. unfold elm_write. destruct (e_port e) as [p|] eqn:P; [|exact K]. destruct (left_write (bs ++ [13%Z]) w) as (ev & T & L).
  destruct (port_write true (bs ++ [13%Z]) w) as [ok w1]. cbn [snd] in T.
  assert (K1 : H (e, w1)). { unfold held in *. cbn [fst snd] in *. unfold hp in *. rewrite P in *. replace (k + 1) with (S k) in * by lia. eapply open_at_ext; [exact K|exact T|apply L]. }
  destruct ok; [exact K1|]. apply (held_io_failure _ _ p P K1).
Qed.
Lemma left_read_loop mk buf rs n : left_open (S n) (snd (read_loop mk buf rs)) = Some (S n).
Proof.
  revert buf. induction rs as [|[[|x d]|] rs IH]; intros buf; cbn; try reflexivity. destruct (contains mk _); [reflexivity|].
  match goal with |- context [read_loop mk ?b rs] => specialize (IH b); destruct (read_loop mk b rs) as [[r1 r2] ev] end. exact IH.
Qed.
Lemma held_read mk : keeps H (elm_read mk).
Proof.
  intros [e w] K. unfold elm_read. destruct (e_port e) as [p|] eqn:P; [|exact K]. pose proof (left_read_loop mk [] (w_reads w) k) as L.
  destruct (read_loop mk [] (w_reads w)) as [[r rest] evs]. cbn [snd] in L.
  match goal with |- context [mkWorld ?a1 ?a2 ?a3 ?a4 ?a5] => set (w1 := mkWorld a1 a2 a3 a4 a5) end.
  assert (K1 : H (e, w1)). { unfold held in *. cbn [fst snd] in *. unfold hp in *. rewrite P in *. replace (k + 1) with (S k) in * by lia. eapply open_at_ext; [exact K|reflexivity|exact L]. }
  destruct r; [exact K1|]. pose proof (held_io_failure e w1 p P K1) as K2. unfold bind. destruct (io_failure (e, w1)) as [[]]; exact K2.
Qed.
Lemma held_read_again n mk r : keeps H (read_again n mk r).
Proof. revert r. induction n as [|n IH]; intros r; cbn [read_again]; kstep; [apply held_read|apply IH]. Qed.
Lemma held_send_gen c d mk : keeps H (elm_send_gen c d mk).
Proof. unfold elm_send_gen. kstep; [apply held_write|apply held_read|apply held_read_again]. Qed.
Lemma held_send c d : keeps H (elm_send c d). Proof. apply held_send_gen. Qed.
Lemma held_elm_close : keeps H elm_close.
Proof.
  unfold elm_close, elm_of. apply keeps_bind; [apply held_set_status|intros _]. apply keeps_bind; [apply held_set_protocol_obj|intros _].
  apply keeps_bind; [apply keeps_gets|intros [p0|]; [|apply keeps_ret]].
  intros [e w] K. unfold bind at 1. pose proof (held_write (str "ATZ") (e, w) K) as K1. destruct (elm_write (str "ATZ") (e, w)) as [[[]|x] [e1 w1]]; [|exact K1]. cbn [snd] in K1.
  unfold bind at 1, gets. cbn [fst]. destruct (e_port e1) as [q|] eqn:P; [|exact K1]. apply (held_shut _ _ q P K1).
Qed.
Lemma held_set_timeout t : keeps H (set_timeout t).
Proof.
  intros [e w] K. unfold set_timeout. destruct (e_port e) as [p|] eqn:P; [|exact K]. unfold held in *. cbn [fst snd] in *. unfold hp in *. cbn [e_port]. rewrite P in *. replace (k + 1) with (S k) in * by lia. eapply open_at_ext; [exact K|reflexivity|reflexivity].
Qed.
Lemma held_set_baud x : keeps H (set_baud x).
Proof.
  intros [e w] K. unfold set_baud. destruct (e_port e) as [p|] eqn:P; [|exact K]. unfold port_baud. destruct (match w_confs w with x :: _ => x | [] => true end);
  unfold held in *; cbn [fst snd] in *; unfold hp in *; cbn [e_port]; rewrite P in *; replace (k + 1) with (S k) in * by lia; (eapply open_at_ext; [exact K|reflexivity|reflexivity]).
Qed.
Lemma held_probe e w p : e_port e = Some p -> H (e, w) -> H (snd (baud_probe (e, w))) .
Proof.
  intros P K. unfold baud_probe. destruct (left_write [127; 127; 13]%Z w) as (ev & T & L). destruct (port_write true [127; 127; 13]%Z w) as [ok w1]. cbn [snd] in T.
  assert (K1 : H (e, w1)). { unfold held in *. cbn [fst snd] in *. unfold hp in *. rewrite P in *. replace (k + 1) with (S k) in * by lia. eapply open_at_ext; [exact K|exact T|apply L]. }
  destruct ok; [|exact K1]. unfold port_read. destruct (match w_reads w1 with r :: _ => r | [] => Some [] end);
  unfold held in *; cbn [fst snd] in *; unfold hp in *; rewrite P in *; replace (k + 1) with (S k) in * by lia; (eapply open_at_ext; [exact K1|reflexivity|reflexivity]).
Qed.
Lemma set_baud_port x e w e1 w1 : set_baud x (e, w) = (Ok tt, (e1, w1)) -> exists p, e_port e1 = Some p.
Proof.
  unfold set_baud. destruct (e_port e) as [p|]; [|discriminate]. destruct (port_baud x w) as [[] w2]; [|discriminate]. intros E. apply pair_equal_spec in E as [_ E]. apply pair_equal_spec in E as [<- _]. eexists. reflexivity.
Qed.
Lemma held_try_bauds t l : keeps H (try_each_baud t l).
Proof.
  induction l as [|x l IH]; cbn [try_each_baud]; [kstep; apply held_set_timeout|].
  intros [e w] K. unfold bind at 1. pose proof (held_set_baud x (e, w) K) as K1. destruct (set_baud x (e, w)) as [[[]|y] [e1 w1]] eqn:B; [|exact K1].
  apply set_baud_port in B as (p & P). cbn [snd] in K1. unfold bind at 1. pose proof (held_probe e1 w1 p P K1) as K2. destruct (baud_probe (e1, w1)) as [[r|y] s2]; [|exact K2]. cbn [snd] in K2.
  revert K2. generalize s2. change (keeps H (if endswith1 62%Z r then (do! set_timeout t; ret true) else try_each_baud t l)). kstep. apply held_set_timeout.
Qed.
Lemma held_set_baudrate x : keeps H (set_baudrate x).
Proof. unfold set_baudrate, auto_baudrate, elm_of. kstep; first [apply held_set_baud | apply held_set_timeout | apply held_try_bauds]. Qed.
Lemma held_instantiate id r : keeps H (instantiate id r).
Proof. unfold instantiate. kstep. apply held_set_protocol_obj. Qed.
Lemma held_try_protocols l : keeps H (try_protocols l).
Proof. induction l as [|p l IH]; cbn [try_protocols]; kstep; first [apply held_send | apply held_instantiate]. Qed.
Lemma held_set_protocol p : keeps H (set_protocol p).
Proof. unfold set_protocol, manual_protocol, auto_protocol. kstep; first [apply held_send | apply held_instantiate | apply held_try_protocols]. Qed.
Lemma held_init x p c s : keeps H (elm_init_opened x p c s).
Proof.
  unfold elm_init_opened, elm_init_voltage, elm_init_car, elm_error, elm_of.
  kstep; first [apply held_write | apply held_set_baudrate | apply held_elm_close | apply held_send | apply held_set_status | apply held_set_protocol].
Qed.
Lemma held_normal_power : keeps H elm_normal_power.
Proof. unfold elm_normal_power, elm_of. kstep; first [apply held_send | apply held_set_low_power]. Qed.
Lemma held_low_power : keeps H elm_low_power.
Proof. unfold elm_low_power, elm_of. kstep; first [apply held_send_gen | apply held_set_low_power]. Qed.
Lemma held_send_and_parse c : keeps H (send_and_parse c).
Proof. unfold send_and_parse, elm_of. kstep; first [apply held_normal_power | apply held_send]. Qed.
End Held.

Lemma new_elm_held b name x p t c s w n : open_at b w n ->
  match new_elm name x p t c s w with
  | (Ok e, w') => open_at b w' (n + hp e)
  | (Raise _, w') => open_at b w' n \/ open_at b w' (S n)
  end.
Proof.
  intros K. unfold new_elm, port_open. destruct (match w_opens w with b0 :: _ => b0 | [] => true end) eqn:O; cbv beta iota zeta.
  - match goal with |- context [elm_init_opened x p c s ?y] => pose proof (held_init b n x p c s y) as K1; destruct (elm_init_opened x p c s y) as [[[]|x0] [e w2]] end.
    + apply K1. unfold held. cbn [fst snd hp e_port]. eapply open_at_ext; [exact K|reflexivity|]. cbn. f_equal. lia.
    + assert (K2 : held b n (snd ((Raise x0, (e, w2)) : res unit * (elm * world)))).
      { apply K1. unfold held. cbn [fst snd hp e_port]. eapply open_at_ext; [exact K|reflexivity|]. cbn. f_equal. lia. }
      unfold held in K2. cbn [fst snd] in K2. unfold hp in K2. destruct (e_port e); [right|left]; [replace (S n) with (n + 1) by lia|replace n with (n + 0) by lia]; exact K2.
  - match goal with |- context [elm_error ?y] => pose proof (held_elm_close b n y) as K1; unfold elm_error; destruct (elm_close y) as [[[]|x0] [e w2]] end.
    + apply K1. unfold held. cbn [fst snd hp e_port]. eapply open_at_ext; [exact K|reflexivity|]. cbn. f_equal. lia.
    + assert (K2 : held b n (snd ((Raise x0, (e, w2)) : res unit * (elm * world)))).
      { apply K1. unfold held. cbn [fst snd hp e_port]. eapply open_at_ext; [exact K|reflexivity|]. cbn. f_equal. lia. }
      unfold held in K2. cbn [fst snd] in K2. unfold hp in K2. destruct (e_port e); [right|left]; [replace (S n) with (n + 1) by lia|replace n with (n + 0) by lia]; exact K2.
Qed.

Definition ohp (o : obd) : nat := match o_interface o with Some e => hp e | None => 0 end.
Definition oheld (b : list event) (k : nat) (s : obd * world) : Prop := open_at b (snd s) (k + ohp (fst s)).
Section OHeld.
Variable b : list event.
Variable k : nat.
Notation H := (oheld b k).
Lemma oheld_on {A} (m : ME A) : keeps (held b k) m -> keeps H (on_interface m).
Proof.
  intros K [o w] J. unfold on_interface. unfold oheld, ohp in J. cbn [fst snd] in J. destruct (o_interface o) as [e|] eqn:I; [|unfold oheld, ohp; cbn [fst snd]; rewrite I; exact J].
  specialize (K (e, w) J). destruct (m (e, w)) as [r [e1 w1]]. exact K.
Qed.
Lemma oheld_set_supported x : keeps H (set_supported x). Proof. intros [o w] K. exact K. Qed.
Lemma oheld_set_last_command x : keeps H (set_last_command x). Proof. intros [o w] K. exact K. Qed.
Lemma oheld_set_last_header x : keeps H (set_last_header x). Proof. intros [o w] K. exact K. Qed.
Lemma oheld_set_frame_counts x : keeps H (set_frame_counts x). Proof. intros [o w] K. exact K. Qed.
Lemma oheld_set_header h : keeps H (set_header h).
Proof. unfold set_header, obd_of. kstep; first [apply oheld_on; apply held_send_and_parse | apply oheld_set_last_header]. Qed.
Lemma oheld_query c f : keeps H (query c f).
Proof.
  unfold query, obd_of.
  kstep; first [apply (keeps_pure _ (fun s => test_cmd (fst s) c)) | apply oheld_set_header | apply oheld_on; apply held_send_and_parse | apply oheld_set_last_command | apply oheld_set_frame_counts].
Qed.
Lemma oheld_load : keeps H load_commands.
Proof.
  unfold load_commands, obd_of. kstep. generalize pid_getters as l. induction l as [|g l IH]; cbn [load_all]; kstep.
  unfold load_one, obd_of. kstep; first [apply (keeps_pure _ (fun s => test_cmd (fst s) g)) | apply oheld_query | apply oheld_set_supported].
Qed.
(* after elm.close() returned there is no port *)
Lemma elm_close_gone e w e1 w1 : elm_close (e, w) = (Ok tt, (e1, w1)) -> e_port e1 = None.
Proof.
  unfold elm_close, set_status, set_protocol_obj, elm_of. unfold bind at 1 2 3, gets. cbn [fst e_port]. destruct (e_port e) as [p|] eqn:P; [|intros E; apply pair_equal_spec in E as [_ E]; apply pair_equal_spec in E as [<- _]; reflexivity].
  unfold bind at 1. destruct (elm_write (str "ATZ") _) as [[[]|x] [e2 w2]]; [|discriminate]. unfold bind at 1. cbn [fst]. destruct (e_port e2); [|discriminate].
  intros E. apply pair_equal_spec in E as [_ E]. apply pair_equal_spec in E as [<- _]. reflexivity.
Qed.
Lemma oheld_close : keeps H obd_close.
Proof.
  unfold obd_close, obd_of. apply keeps_bind; [apply oheld_set_supported|intros _]. apply keeps_bind; [apply keeps_gets|intros [e0|]; [|apply keeps_ret]].
  apply keeps_bind; [apply oheld_set_header|intros _].
  intros s K. unfold bind. pose proof (oheld_on _ (held_elm_close b k) s K) as K1. destruct (on_interface elm_close s) as [[[]|x] [o1 w1]] eqn:C; [|exact K1]. cbn [snd] in K1.
  unfold set_interface. cbn [snd]. unfold oheld in *. cbn [fst snd ohp o_interface] in *. destruct s as [o w]. unfold on_interface in C.
  destruct (o_interface o) as [e|] eqn:I; [|discriminate C]. destruct (elm_close (e, w)) as [r [e2 w2]] eqn:D.
  apply pair_equal_spec in C as [-> C]. apply pair_equal_spec in C as [<- <-]. apply elm_close_gone in D. unfold ohp in K1. cbn [o_interface] in K1. unfold hp in K1. rewrite D in K1. exact K1.
Qed.
Lemma oheld_run_op p : keeps H (run_op p).
Proof.
  destruct p; cbn [run_op]; unfold obd_low_power, obd_normal_power, obd_of; kstep;
  first [apply oheld_query | apply oheld_close | apply oheld_set_supported | apply oheld_on; first [apply held_low_power | apply held_normal_power]].
Qed.
Lemma oheld_close_if : keeps H close_if_failed.
Proof. unfold close_if_failed, obd_of. kstep. apply oheld_close. Qed.
Lemma oheld_history s0 h s : H s0 -> history s0 h s -> H s.
Proof. intros K Y. induction Y as [|h s1 p r s2 t Y IH R T]; [exact K|]. pose proof (oheld_run_op p s1 IH) as J. rewrite R in J. exact J. Qed.
End OHeld.

(* scanning leaves one port open for every port after the first *)
Lemma scan_held b cf names : forall o w s n, open_at b w (n + ohp o) -> connect_scan cf names (o, w) = (Ok tt, s) ->
  (names = [] /\ s = (o, w)) \/ exists j, length (opened (to s)) = length (opened (w_trace w)) + S j /\ oheld b (n + ohp o + j) s.
Proof.
  induction names as [|p names IH]; intros o w s n K E.
  - left. cbn in E. apply pair_equal_spec in E as [_ <-]. auto.
  - right. cbn [connect_scan] in E. unfold bind at 1 in E. unfold connect_port in E.
    pose proof (new_elm_opened p (cf_baudrate cf) (cf_protocol cf) (o_timeout o) (cf_check_voltage cf) (cf_start_low_power cf) w) as O.
    pose proof (new_elm_held b p (cf_baudrate cf) (cf_protocol cf) (o_timeout o) (cf_check_voltage cf) (cf_start_low_power cf) w _ K) as K1.
    destruct (new_elm p (cf_baudrate cf) (cf_protocol cf) (o_timeout o) (cf_check_voltage cf) (cf_start_low_power cf) w) as [[e|x] w1] eqn:N; [|discriminate E].
    cbn [snd] in O. unfold set_interface in E. unfold bind, obd_of, gets in E. cbv beta in E. cbn [fst] in E.
    match type of E with context [if ?c then _ else _] => destruct c eqn:L end.
    + apply pair_equal_spec in E as [_ <-]. exists 0. split; [unfold to; cbn [snd]; rewrite O, app_length; reflexivity|].
      unfold oheld, ohp. cbn [fst snd o_interface]. fold (ohp o). rewrite Nat.add_0_r. exact K1.
    + apply new_elm_einv in N as [V _]. assert (P : hp e = 1).
      { unfold hp. destruct (e_port e) eqn:P; [reflexivity|]. apply V in P. unfold obd_status in L. cbn [o_interface] in L. rewrite P in L. vm_compute in L. discriminate L. }
      match type of E with connect_scan cf names (?o1, w1) = _ => assert (Q : ohp o1 = 1) by exact P; destruct (IH o1 w1 s (n + ohp o)) as [[-> S]|(j & J1 & J2)] end.
      * rewrite Q. rewrite P in K1. exact K1.
      * exact E.
      * exists 0. subst s. split; [unfold to; cbn [snd]; rewrite O, app_length; reflexivity|]. unfold oheld. cbn [fst snd]. rewrite Q, Nat.add_0_r. rewrite P in K1. exact K1.
      * exists (S j). split; [rewrite J1, O, app_length; cbn [length]; lia|]. rewrite Q in J2. replace (n + ohp o + S j) with (n + ohp o + 1 + j) by lia. exact J2.
Qed.
Lemma new_obd_held cf port scan w o w' : new_obd cf port scan w = (Ok tt, (o, w')) ->
  exists n, length (opened (w_trace w')) = length (opened (w_trace w)) + n /\ oheld (w_trace w) (pred n) (o, w').
Proof.
  intros E. assert (Z : open_at (w_trace w) w (0 + ohp (initial_obd cf))) by (exists []; rewrite app_nil_r; auto).
  unfold new_obd in E. unfold bind at 1 in E.
  assert (C : forall s, connect cf port scan (initial_obd cf, w) = (Ok tt, s) -> exists n, length (opened (to s)) = length (opened (w_trace w)) + n /\ oheld (w_trace w) (pred n) s).
  { intros s C. unfold connect in C. destruct port as [p|].
    - unfold bind at 1 in C. unfold connect_port in C.
      pose proof (new_elm_opened p (cf_baudrate cf) (cf_protocol cf) (o_timeout (initial_obd cf)) (cf_check_voltage cf) (cf_start_low_power cf) w) as O.
      pose proof (new_elm_held (w_trace w) p (cf_baudrate cf) (cf_protocol cf) (o_timeout (initial_obd cf)) (cf_check_voltage cf) (cf_start_low_power cf) w _ Z) as K1.
      destruct (new_elm p (cf_baudrate cf) (cf_protocol cf) (o_timeout (initial_obd cf)) (cf_check_voltage cf) (cf_start_low_power cf) w) as [[e|x] w1] eqn:N; [|discriminate C].
      cbn [snd] in O. exists 1. unfold set_interface in C.
      match type of C with close_if_failed ?s1 = _ => pose proof (oheld_close_if (w_trace w) 0 s1) as J; assert (J2 : stays to close_if_failed) by (unfold close_if_failed, obd_of; stay; apply stays_obd_close); specialize (J2 s1); rewrite C in J, J2 end.
      cbn [snd] in J, J2. split; [rewrite J2; unfold to; cbn [snd]; rewrite O, app_length; reflexivity|]. apply J. exact K1.
    - destruct scan as [|p scan].
      + apply pair_equal_spec in C as [_ <-]. exists 0. split; [unfold to; cbn [snd]; lia|]. exact Z.
      + unfold bind at 1 in C. destruct (connect_scan cf (p :: scan) (initial_obd cf, w)) as [[[]|x] s1] eqn:S; [|discriminate C].
        destruct (scan_held (w_trace w) cf (p :: scan) _ _ _ 0 Z S) as [[X _]|(j & J1 & J2)]; [discriminate X|]. exists (Datatypes.S j).
        pose proof (oheld_close_if (w_trace w) j s1 J2) as J. assert (J3 : stays to close_if_failed) by (unfold close_if_failed, obd_of; stay; apply stays_obd_close). specialize (J3 s1). rewrite C in J, J3.
        cbn [snd] in J, J3. split; [rewrite J3; exact J1|exact J]. }
  destruct (connect cf port scan (initial_obd cf, w)) as [[[]|x] s1] eqn:D; [|discriminate E]. destruct (C s1 eq_refl) as (n & N1 & N2). exists n.
  pose proof (oheld_load (w_trace w) (pred n) s1 N2) as J. pose proof (stays_load s1) as J2. rewrite E in J, J2. split; [unfold to in J2; cbn [snd] in J2; rewrite J2; exact N1|exact J].
Qed.
Lemma session_open cf port scan w t0 h o w1 : session cf port scan w t0 h (o, w1) ->
  left_open 0 (t0 ++ concat (map st_events h)) = Some (pred (length (opened t0)) + match obd_status o with NOT_CONNECTED => 0 | _ => 1 end).
Proof.
  intros S. pose proof (session_oinv _ _ _ _ _ _ _ _ S) as (OI & _ & T). destruct S as ([o0 w0] & N & T0 & Hh). cbn [snd] in T0.
  destruct (new_obd_held _ _ _ _ _ _ N) as (n & L & K). rewrite T0, opened_app, app_length in L. assert (n = length (opened t0)) by lia. subst n.
  pose proof (oheld_history _ _ _ _ _ K Hh) as (t & T1 & Lo). cbn [fst snd] in *. rewrite T in T1. apply app_inv_head in T1. subst t. rewrite Lo. f_equal. f_equal.
  unfold ohp, obd_status. unfold oinv in OI. destruct (o_interface o) as [e|]; [|reflexivity]. unfold hp. destruct OI as [V _].
  destruct (e_port e); [destruct (e_status e); try reflexivity; destruct V as [V _]; discriminate (V eq_refl)|]. destruct V as [_ V]. rewrite V; reflexivity.
Qed.
Lemma named_opened cf name scan w : opened (w_trace (snd (snd (new_obd cf (Some name) scan w)))) = opened (w_trace w) ++ [name].
Proof.
  change (w_trace (snd (snd (new_obd cf (Some name) scan w)))) with (to (snd (new_obd cf (Some name) scan w))). unfold new_obd. unfold bind at 1.
  assert (C : opened (to (snd (connect cf (Some name) scan (initial_obd cf, w)))) = opened (w_trace w) ++ [name]).
  { unfold connect. unfold bind at 1. unfold connect_port.
    pose proof (new_elm_opened name (cf_baudrate cf) (cf_protocol cf) (o_timeout (initial_obd cf)) (cf_check_voltage cf) (cf_start_low_power cf) w) as O.
    destruct (new_elm name (cf_baudrate cf) (cf_protocol cf) (o_timeout (initial_obd cf)) (cf_check_voltage cf) (cf_start_low_power cf) w) as [[e|x] w1]; [|exact O].
    unfold set_interface. eapply eq_trans; [|exact O]. assert (K : stays to close_if_failed) by (unfold close_if_failed, obd_of; stay; apply stays_obd_close). apply K. }
  destruct (connect cf (Some name) scan (initial_obd cf, w)) as [[[]|x] s1]; [|exact C]. rewrite stays_load. exact C.
Qed.
