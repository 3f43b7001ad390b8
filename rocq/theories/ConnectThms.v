(* Connecting to a willing adapter. *)
From Coq Require Import ZArith List Bool Lia.
From Verif Require Import Py Num Utils Protocol Decoders Command CommandTable Commands World Elm Obd SpecWire SpecBits SpecProto SpecCmd SpecElm SpecObd SpecE2E SpecConnect
  PyFacts ElmFacts ElmThms ObdFacts ObdThms ObdThms2 ProtocolFacts Properties_Elm E2EThms E2EThms3.
Import ListNotations.
Open Scope Z_scope.

Definition keeps {S A} (P : S -> Prop) (m : M S A) : Prop := forall s, P s -> P (snd (m s)).
Definition calm_e (s : elm * world) : Prop := calm (snd s).
Lemma keeps_bind {S A B} (P : S -> Prop) (m : M S A) (k : A -> M S B) : keeps P m -> (forall a, keeps P (k a)) -> keeps P (bind m k).
Proof. intros H K s Ps. unfold bind. specialize (H s Ps). destruct (m s) as [[a|x] s']; cbn [snd] in *; [apply K|]; exact H. Qed.
Lemma keeps_ret {S A} (P : S -> Prop) (a : A) : keeps P (ret a). Proof. intros s H. exact H. Qed.
Lemma calm_failure : keeps calm_e io_failure. Proof. intros [e w] H. exact H. Qed.
Lemma calm_write bs : keeps calm_e (elm_write bs).
Proof. intros [e w] (H1 & H2 & H3). unfold elm_write. destruct (e_port e); [|repeat split; assumption]. unfold port_write. cbn [snd] in *. rewrite H2. repeat split; assumption. Qed.
Lemma calm_read mk : keeps calm_e (elm_read mk).
Proof.
  intros [e w] (H1 & H2 & H3). unfold elm_read. cbn [snd] in *. destruct (e_port e); [|repeat split; assumption]. destruct (read_loop mk [] (w_reads w)) as [[r rest] evs]. destruct r; repeat split; assumption.
Qed.
Lemma calm_again n mk r : keeps calm_e (read_again n mk r).
Proof. revert r. induction n as [|n IH]; intros r; cbn [read_again]; [apply keeps_ret|]. destruct (nonempty r); [apply keeps_ret|]. apply keeps_bind; [apply calm_read|intros a; apply IH]. Qed.
Lemma calm_send cmd d : keeps calm_e (elm_send cmd d).
Proof. unfold elm_send, elm_send_gen. apply keeps_bind; [apply calm_write|intros _]. apply keeps_bind; [apply calm_read|intros r; apply calm_again]. Qed.

(* a request and its answer *)
Lemma reply_send cmd d e p w a rest lines : e_port e = Some p -> calm w -> w_reads w = a ++ rest -> reply a lines ->
  exists w', elm_send cmd d (e, w) = (Ok lines, (e, w')) /\ w_reads w' = rest /\ calm w'.
Proof.
  intros Hp C R (chunks & s & -> & F & E & N & L & Ne). destruct (C34_lines cmd d e p w chunks s rest Hp (proj1 (proj2 C)) R F E N lines L Ne) as (w' & S & R').
  exists w'. split; [exact S|]. split; [exact R'|]. pose proof (calm_send cmd d (e, w) C) as K. rewrite S in K. exact K.
Qed.
Lemma send_bind {B} cmd d (k : list text -> ME B) e p w a rest lines : e_port e = Some p -> calm w -> w_reads w = a ++ rest -> reply a lines ->
  exists w', bind (elm_send cmd d) k (e, w) = k lines (e, w') /\ w_reads w' = rest /\ calm w'.
Proof.
  intros Hp C R Y. destruct (reply_send cmd d e p w a rest lines Hp C R Y) as (w' & S & R' & C'). exists w'. split; [|auto]. unfold bind. rewrite S. reflexivity.
Qed.

Lemma prompt_end bs : endswith1 62 bs = true <-> exists x, bs = x ++ [PROMPT].
Proof.
  unfold endswith1. split.
  - intros H. destruct (rev bs) as [|y r] eqn:E; [discriminate H|]. apply Z.eqb_eq in H. subst y. exists (rev r). rewrite <- (rev_involutive bs), E. reflexivity.
  - intros (x & ->). rewrite rev_app_distr. reflexivity.
Qed.
Definition with_baud (b t : Z) (e : elm) : elm :=
  match e_port e with Some p => mkElm (e_status e) (Some (mkPort (pt_name p) b t)) (e_protocol e) (e_low_power e) (e_timeout e) | None => e end.
Lemma finds_baud t bauds : forall misses x b e p w rest, e_port e = Some p -> calm w -> Forall no_prompt misses -> nth_error bauds (length misses) = Some b ->
  w_reads w = misses ++ Some (x ++ [PROMPT]) :: rest ->
  exists w', try_each_baud t bauds (e, w) = (Ok true, (mkElm (e_status e) (Some (mkPort (pt_name p) b t)) (e_protocol e) (e_low_power e) (e_timeout e), w')) /\ w_reads w' = rest /\ calm w'.
Proof.
  induction bauds as [|b0 bauds IH]; intros misses x b e p w rest Hp (C1 & C2 & C3) F N R; [destruct misses; discriminate N|].
  cbn [try_each_baud]. unfold bind at 1. unfold set_baud at 1. rewrite Hp. unfold port_baud. rewrite C3. cbn beta iota zeta.
  unfold bind at 1. unfold baud_probe at 1. unfold port_write. cbn [w_writes emit]. rewrite C2. cbn beta iota zeta. unfold port_read. cbn [w_reads emit]. rewrite R.
  destruct misses as [|m misses].
  - cbn [app]. cbn beta iota zeta. rewrite (proj2 (prompt_end (x ++ [PROMPT]))) by eauto. unfold bind at 1. unfold set_timeout at 1. cbn [e_port]. cbn in N. injection N as <-.
    eexists. split; [reflexivity|]. split; [reflexivity|]. repeat split; assumption.
  - inversion F as [|? ? (bs & -> & Nb) F']; subst. cbn [app]. cbn beta iota zeta. destruct (endswith1 62 bs) eqn:E; [apply prompt_end in E as (y & E); destruct (Nb y E)|].
    match goal with |- context [try_each_baud t bauds (?e1, ?w1)] => destruct (IH misses x b e1 (mkPort (pt_name p) b0 (pt_timeout p)) w1 rest eq_refl ltac:(repeat split; assumption) F' N eq_refl) as (w' & S & K) end.
    exists w'. split; [exact S|exact K].
Qed.
Lemma baud_set name baud b e t w rs rest : finding_baud name baud rs b -> e_port e = Some (mkPort name 9600 t) -> calm w -> w_reads w = rs ++ rest ->
  exists w', set_baudrate baud (e, w) = (Ok true, (mkElm (e_status e) (Some (mkPort name b t)) (e_protocol e) (e_low_power e) (e_timeout e), w')) /\ w_reads w' = rest /\ calm w'.
Proof.
  intros F Hp C R. destruct F as [b|P|misses x b N F Nb].
  - unfold set_baudrate. unfold bind at 1. unfold set_baud at 1. rewrite Hp. unfold port_baud. rewrite (proj2 (proj2 C)). eexists. split; [reflexivity|]. split; [exact R|]. destruct C as (C1 & C2 & C3). repeat split; assumption.
  - unfold set_baudrate, bind, elm_of, gets. cbn [fst]. unfold elm_port_name. rewrite Hp. cbn [pt_name]. rewrite (proj2 (startswith_iff (str "/dev/pts") name) P).
    exists w. split; [|split; [exact R|exact C]]. destruct e as [a1 a2 a3 a4 a5]. cbn in Hp. subst a2. reflexivity.
  - unfold set_baudrate. unfold bind at 1. unfold elm_of at 1, gets at 1. cbn [fst]. unfold elm_port_name at 1. rewrite Hp. cbn [pt_name].
    destruct (startswith (str "/dev/pts") name) eqn:S; [apply startswith_iff in S; contradiction|].
    unfold auto_baudrate. unfold bind at 1. unfold elm_of at 1, gets at 1. cbn [fst]. rewrite Hp. unfold bind at 1. unfold elm_of at 1, gets at 1. cbn [fst].
    unfold bind at 1. unfold set_timeout at 1. rewrite Hp. cbn [pt_timeout pt_name].
    rewrite <- app_assoc in R. cbn [app] in R.
    match goal with |- context [try_each_baud ?tt0 try_bauds (?e1, ?w1)] => destruct (finds_baud tt0 try_bauds misses x b e1 (mkPort name (pt_baud (mkPort name 9600 t)) (e_timeout e)) w1 rest eq_refl C F Nb R) as (w' & S' & K) end.
    exists w'. split; [exact S'|exact K].
Qed.

(* ---- choosing a protocol ---- *)
Definition with_protocol (p : protocol) (e : elm) : elm := mkElm (e_status e) (e_port e) (Some p) (e_low_power e) (e_timeout e).
Lemma instantiate_ok id c p r e w : lookup id = Some c -> new_protocol c r = Ok p -> instantiate id r (e, w) = (Ok tt, (with_protocol p e, w)).
Proof. intros L N. unfold instantiate. unfold lookup in L. rewrite L. unfold bind, of_res. rewrite N. reflexivity. Qed.
Lemma known_lookup' id c : lookup id = Some c -> dict_mem text_eqb supported_protocols id = true.
Proof. intros L. apply mem_known. apply (lookup_known id c L). Qed.
Lemma isupper_ids id : In id known_ids -> strip_auto id = id /\ strip_auto (65 :: id) = id.
Proof. intros H. cbn [known_ids In] in H. repeat (destruct H as [<-|H]; [vm_compute; auto|]). destruct H. Qed.

Lemma selects_protocol proto id c p r chosen tail rs rest e pt w : lookup id = Some c -> new_protocol c r = Ok p -> ~ unable r ->
  match proto with Some id' => id' = id /\ tail = [] | None => exists q, reports q id /\ tail = [[q]] end ->
  e_port e = Some pt -> calm w -> replies (chosen :: r :: tail) rs -> w_reads w = rs ++ rest ->
  exists w', set_protocol proto (e, w) = (Ok true, (with_protocol p e, w')) /\ w_reads w' = rest /\ calm w'.
Proof.
  intros L N U Sel Hp C Rp R. inversion Rp as [|? ? a1 rs1 Y1 Rp1]; subst. inversion Rp1 as [|? ? a2 rs2 Y2 Rp2]; subst. rewrite <- !app_assoc in R.
  assert (Um : has_message r UNABLE = false) by (apply unable_false; exact U).
  destruct proto as [id'|].
  - destruct Sel as [-> ->]. inversion Rp2; subst. cbn [app] in R. cbn [set_protocol]. rewrite (known_lookup' id c L). cbn [negb]. unfold manual_protocol.
    match goal with |- context [bind (elm_send ?cmd ?d) ?k (e, w)] => destruct (send_bind cmd d k e pt w a1 _ chosen Hp C R Y1) as (w1 & -> & R1 & C1) end. cbv beta.
    match goal with |- context [bind (elm_send ?cmd ?d) ?k (e, w1)] => destruct (send_bind cmd d k e pt w1 a2 _ r Hp C1 R1 Y2) as (w2 & -> & R2 & C2) end. cbv beta.
    rewrite Um. cbn [negb]. unfold bind at 1. rewrite (instantiate_ok id c p r e w2 L N). exists w2. auto.
  - destruct Sel as (q & Rq & ->). inversion Rp2 as [|? ? a3 rs3 Y3 Rp3]; subst. inversion Rp3; subst. cbn [set_protocol]. unfold auto_protocol. rewrite <- app_assoc in R. cbn [app] in R.
    match goal with |- context [bind (elm_send ?cmd ?d) ?k (e, w)] => destruct (send_bind cmd d k e pt w a1 _ chosen Hp C R Y1) as (w1 & -> & R1 & C1) end. cbv beta.
    match goal with |- context [bind (elm_send ?cmd ?d) ?k (e, w1)] => destruct (send_bind cmd d k e pt w1 a2 _ r Hp C1 R1 Y2) as (w2 & -> & R2 & C2) end. cbv beta.
    rewrite Um.
    match goal with |- context [bind (elm_send ?cmd ?d) ?k (e, w2)] => destruct (send_bind cmd d k e pt w2 a3 _ [q] Hp C2 R2 Y3) as (w3 & -> & R3 & C3) end. cbv beta iota.
    assert (Q : strip_auto q = id) by (destruct Rq as [K [-> | ->]]; apply (isupper_ids id K)). rewrite Q. cbv zeta. rewrite (known_lookup' id c L).
    unfold bind at 1. rewrite (instantiate_ok id c p r e w3 L N). exists w3. auto.
Qed.

Lemma bind_ok {S A B} (m : M S A) (k : A -> M S B) s a s' : m s = (Ok a, s') -> bind m k s = k a s'.
Proof. intros H. unfold bind. rewrite H. reflexivity. Qed.
Lemma connects name baud proto timeout check slp id r ls c p b br rs rest w : calm w -> finding_baud name baud br b -> willing check proto id r ls -> replies ls rs ->
  w_reads w = br ++ rs ++ rest -> lookup id = Some c -> new_protocol c r = Ok p ->
  exists w', new_elm name baud proto timeout check slp w = (Ok (mkElm CAR_CONNECTED (Some (mkPort name b 10000)) (Some p) false timeout), w') /\ w_reads w' = rest /\ calm w'.
Proof.
  intros C FB (_ & U & hello & echo & volts & chosen & tail & -> & Ec & V & Sel) Rp R L N.
  unfold new_elm, port_open. rewrite (proj1 C). cbn beta iota zeta.
  set (e1 := mkElm NOT_CONNECTED (Some (mkPort name 9600 10000)) (Some unknown_protocol) false timeout).
  set (w1 := emit _ _). assert (C1 : calm w1) by (destruct C as (A1 & A2 & A3); repeat split; assumption). assert (R1 : w_reads w1 = br ++ rs ++ rest) by exact R. clearbody w1. clear R C w.
  enough (G : exists w', elm_init_opened baud proto check slp (e1, w1) = (Ok tt, (mkElm CAR_CONNECTED (Some (mkPort name b 10000)) (Some p) false timeout, w')) /\ w_reads w' = rest /\ calm w').
  { destruct G as (w' & -> & G). exists w'. split; [reflexivity|exact G]. }
  unfold elm_init_opened.
  assert (W : exists w2, (if slp then elm_write (str " ") else ret tt : ME unit) (e1, w1) = (Ok tt, (e1, w2)) /\ w_reads w2 = br ++ rs ++ rest /\ calm w2).
  { destruct slp; [|exists w1; auto]. unfold elm_write. cbn [e_port e1]. unfold port_write. rewrite (proj1 (proj2 C1)). eexists. split; [reflexivity|]. split; [exact R1|]. destruct C1 as (A1 & A2 & A3). repeat split; assumption. }
  destruct W as (w2 & W0 & R2 & C2). match goal with |- context [bind ?m ?k (e1, w1)] => rewrite (bind_ok m k (e1, w1) tt (e1, w2) W0) end. clear W0 R1 C1 w1.
  destruct (baud_set name baud b e1 10000 w2 br (rs ++ rest) FB eq_refl C2 R2) as (w3 & S3 & R3 & C3). unfold bind at 1. rewrite S3. cbn [negb]. cbn [e1 e_status e_protocol e_low_power e_timeout].
  clear S3 R2 C2 w2 FB br e1. set (e := mkElm NOT_CONNECTED (Some (mkPort name b 10000)) (Some unknown_protocol) false timeout).
  inversion Rp as [|? ? a1 q1 Y1 Rp1]; subst. inversion Rp1 as [|? ? a2 q2 Y2 Rp2]; subst. inversion Rp2 as [|? ? a3 q3 Y3 Rp3]; subst. inversion Rp3 as [|? ? a4 q4 Y4 Rp4]; subst. rewrite <- !app_assoc in R3.
  match goal with |- context [bind (elm_send ?cmd ?d) ?k (e, w3)] => destruct (send_bind cmd d k e _ w3 a1 _ hello eq_refl C3 R3 Y1) as (w4 & -> & R4 & C4) end. cbv beta.
  match goal with |- context [bind (elm_send ?cmd ?d) ?k (e, w4)] => destruct (send_bind cmd d k e _ w4 a2 _ echo eq_refl C4 R4 Y2) as (w5 & -> & R5 & C5) end. cbv beta.
  assert (I1 : isok echo true = true).
  { unfold isok. destruct echo as [|x y]; [destruct Ec as (l & [] & _)|]. cbn [nonempty negb]. apply has_message_iff. exact Ec. }
  rewrite I1. cbn [negb].
  match goal with |- context [bind (elm_send ?cmd ?d) ?k (e, w5)] => destruct (send_bind cmd d k e _ w5 a3 _ _ eq_refl C5 R5 Y3) as (w6 & -> & R6 & C6) end. cbv beta.
  match goal with |- context [negb (isok ?r0 false)] => change (negb (isok r0 false)) with false end. cbv iota.
  match goal with |- context [bind (elm_send ?cmd ?d) ?k (e, w6)] => destruct (send_bind cmd d k e _ w6 a4 _ _ eq_refl C6 R6 Y4) as (w7 & -> & R7 & C7) end. cbv beta.
  match goal with |- context [negb (isok ?r0 false)] => change (negb (isok r0 false)) with false end. cbv iota. clear Rp Rp1 Rp2 Rp3 Y1 Y2 Y3 Y4 R3 R4 R5 R6 C3 C4 C5 C6 I1 w3 w4 w5 w6.
  unfold elm_init_voltage. unfold bind at 1. unfold set_status at 1. cbn beta iota.
  assert (Car : forall st w8 qs, calm w8 -> w_reads w8 = qs ++ rest -> replies (chosen :: r :: tail) qs -> let e2 := mkElm st (e_port e) (e_protocol e) (e_low_power e) (e_timeout e) in
     exists w', elm_init_car proto (e2, w8) = (Ok tt, (mkElm CAR_CONNECTED (Some (mkPort name b 10000)) (Some p) false timeout, w')) /\ w_reads w' = rest /\ calm w').
  { intros st w8 qs C8 R8 Q8 e2. unfold elm_init_car. destruct (selects_protocol proto id c p r chosen tail qs rest e2 _ w8 L N U Sel eq_refl C8 Q8 R8) as (w' & S & K).
    unfold bind at 1. rewrite S. unfold bind at 1. unfold set_status at 1. cbn beta iota. unfold bind, elm_of, gets. cbn [fst]. cbn [e_port with_protocol e2 e]. exists w'. split; [reflexivity|exact K]. }
  destruct check.
  - destruct V as (l & v & -> & Vl & Nb). inversion Rp4 as [|? ? a5 q5 Y5 Rp5]; subst. rewrite <- !app_assoc in R7.
    set (e0 := mkElm ELM_CONNECTED _ _ _ _).
    match goal with |- context [bind (elm_send ?cmd ?d) ?k (e0, w7)] => destruct (send_bind cmd d k e0 _ w7 a5 _ _ eq_refl C7 R7 Y5) as (w8 & -> & R8 & C8) end. cbv beta iota.
    assert (Nl : nonempty l = true) by (destruct l; [vm_compute in Vl; discriminate Vl|reflexivity]). rewrite Nl. cbn [negb].
    change (volts l) with (voltage l). rewrite Vl. unfold below_six in Nb. destruct (flt v (float_of_Z 6)); [congruence|].
    unfold bind at 1. unfold set_status at 1. cbn beta iota. exact (Car OBD_CONNECTED w8 _ C8 R8 Rp5).
  - subst volts. exact (Car ELM_CONNECTED w7 _ C7 R7 Rp4).
Qed.
