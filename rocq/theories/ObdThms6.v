(* Supported commands, and the choice of a port. *)
From Coq Require Import ZArith List Bool Lia.
From Verif Require Import Py Num Utils Protocol Decoders Command CommandTable Commands World Elm Obd SpecElm SpecObd PyFacts CommandThms ElmFacts ElmThms ObdFacts ObdThms ObdThms2 ObdThms3 ObdThms4 Properties_Commands.
Import ListNotations.
Open Scope Z_scope.
Ltac Zify.zify_post_hook ::= Z.div_mod_to_equations.

Definition table (l : list command) : Prop := Forall (fun c => In c all_commands) l.
Lemma NoDup_map_inj {A B} (f : A -> B) l a b : NoDup (map f l) -> In a l -> In b l -> f a = f b -> a = b.
Proof.
  induction l as [|x l IH]; intros N Ia Ib E; [destruct Ia|]. cbn in N. inversion N as [|? ? N1 N2]; subst. destruct Ia as [<-|Ia], Ib as [<-|Ib]; auto.
  - exfalso. apply N1. rewrite E. apply in_map, Ib.
  - exfalso. apply N1. rewrite <- E. apply in_map, Ia.
Qed.
Lemma same_command a b : In a all_commands -> In b all_commands -> cmd_eqb a b = true -> a = b.
Proof.
  intros Ia Ib E. apply CommandThms.cmd_eqb_iff in E as [E1 E2]. apply (NoDup_map_inj (fun c => (c_header c, c_command c)) all_commands); auto; [exact requests_distinct|]. cbn. congruence.
Qed.
Lemma set_add_In d l c : table l -> In d all_commands -> In c (set_add d l) <-> c = d \/ In c l.
Proof.
  intros T Id. unfold set_add. destruct (in_set d l) eqn:E.
  - apply in_set_iff in E as (d' & I & E1 & E2). unfold table in T. rewrite Forall_forall in T.
    assert (d' = d) by (apply same_command; auto; apply CommandThms.cmd_eqb_iff; auto). subst d'. intuition (subst; auto).
  - rewrite in_app_iff. cbn. intuition.
Qed.
Lemma set_add_table d l : table l -> In d all_commands -> table (set_add d l).
Proof. intros T I. unfold set_add. destruct (in_set d l); [exact T|]. apply Forall_app. split; [exact T|]. constructor; [exact I|constructor]. Qed.
Definition entry (mode pid : Z) (c : command) : Prop := In c all_commands /\ c_mode c = Some mode /\ match c_pid c with Some p => p | None => 0 end = pid.
Lemma entry_iff m p c : entry m p c <-> has_pid m p = true /\ get_pid m p = Some c.
Proof.
  split.
  - intros (I & M & P). destruct (C63_agree c m I M) as (A & B & _). rewrite P in A, B. auto.
  - intros [A B]. exact (C63_by_pid m p c A B).
Qed.
Lemma add_pid m p l c : table l ->
  let l' := if has_pid m p then match get_pid m p with Some c => set_add c l | None => l end else l in
  table l' /\ (In c l' <-> In c l \/ entry m p c).
Proof.
  intros T l'. subst l'. rewrite entry_iff. destruct (has_pid m p) eqn:H; [|split; [exact T|intuition discriminate]].
  destruct (get_pid m p) as [d|] eqn:G; [|split; [exact T|intuition discriminate]].
  assert (Id : In d all_commands) by (apply (C63_by_pid m p d H G)). split; [apply set_add_table; assumption|]. rewrite (set_add_In d l c T Id).
  split; [intros [->|I]; auto|]. intros [I|[_ E]]; [auto|]. injection E as ->. auto.
Qed.
Lemma enable_pid_spec mode pid l c : table l ->
  table (enable_pid mode pid l) /\ (In c (enable_pid mode pid l) <-> In c l \/ entry mode pid c \/ (mode = 1 /\ entry 2 pid c)).
Proof.
  intros T. unfold enable_pid. destruct (add_pid mode pid l c T) as [T1 E1]. cbv zeta in T1, E1.
  set (l1 := if has_pid mode pid then _ else _) in *.
  destruct (mode =? 1) eqn:M; cbn [andb].
  - apply Z.eqb_eq in M. destruct (add_pid 2 pid l1 c T1) as [T2 E2]. cbv zeta in T2, E2. split; [exact T2|]. rewrite E2, E1. intuition.
  - apply Z.eqb_neq in M. split; [exact T1|]. rewrite E1. intuition.
Qed.
Lemma enable_bits_spec mode bits : forall pid l, table l ->
  table (enable_bits mode pid bits l) /\ forall c, In c (enable_bits mode pid bits l) <->
    In c l \/ exists i, nth_error bits i = Some true /\ (entry mode (pid + Z.of_nat i + 1) c \/ (mode = 1 /\ entry 2 (pid + Z.of_nat i + 1) c)).
Proof.
  induction bits as [|b bits IH]; intros pid l T; cbn [enable_bits].
  - split; [exact T|]. intros c. split; [auto|]. intros [I|(i & D & _)]; [exact I|]. destruct i; discriminate D.
  - set (l1 := if b then enable_pid mode (pid + 1) l else l).
    assert (T1 : table l1) by (subst l1; destruct b; [apply (enable_pid_spec mode (pid + 1) l (mkCommand [] [] [] 0 D_drop 0 false []) T)|exact T]).
    assert (E1 : forall c, In c l1 <-> In c l \/ (b = true /\ (entry mode (pid + 1) c \/ (mode = 1 /\ entry 2 (pid + 1) c)))).
    { intros c. subst l1. destruct b; [destruct (enable_pid_spec mode (pid + 1) l c T) as [_ E]; rewrite E; intuition|intuition discriminate]. }
    destruct (IH (pid + 1) l1 T1) as [T2 E2]. split; [exact T2|]. intros c. rewrite E2, E1. split.
    + intros [[I|(-> & E)]|(i & N & E)]; [auto| |].
      * right. exists 0%nat. split; [reflexivity|]. replace (pid + Z.of_nat 0 + 1) with (pid + 1) by lia. exact E.
      * right. exists (S i). split; [exact N|]. replace (pid + Z.of_nat (S i) + 1) with (pid + 1 + Z.of_nat i + 1) by lia. exact E.
    + intros [I|(i & N & E)]; [auto|]. destruct i as [|i]; cbn [nth_error] in N.
      * injection N as ->. left. right. split; [reflexivity|]. replace (pid + Z.of_nat 0 + 1) with (pid + 1) in E by lia. exact E.
      * right. exists i. split; [exact N|]. replace (pid + Z.of_nat (S i) + 1) with (pid + 1 + Z.of_nat i + 1) in E by lia. exact E.
Qed.
Lemma enable_announces g mode pid bits l : c_mode g = Some mode -> c_pid g = Some pid -> table l ->
  table (enable_bits mode pid bits l) /\ forall c, In c (enable_bits mode pid bits l) <-> In c l \/ announces g bits c.
Proof.
  intros M P T. destruct (enable_bits_spec mode bits pid l T) as [T1 E]. split; [exact T1|]. intros c. rewrite E. apply or_iff_compat_l. unfold announces, entry. split.
  - intros (i & N & D). exists mode, pid, i. cbv zeta. intuition.
  - intros (mode' & pid' & i & M' & P' & N & D). cbv zeta in D. rewrite M in M'. rewrite P in P'. injection M' as <-. injection P' as <-. exists i. intuition.
Qed.
Lemma load_all_listings gs : forall o w s', oinv o -> table (o_supported o) -> load_all gs (o, w) = (Ok tt, s') ->
  exists ans, listings gs (o, w) ans s' /\ oinv (fst s') /\ table (o_supported (fst s'))
    /\ forall c, In c (o_supported (fst s')) <-> In c (o_supported o) \/ exists g bits, In (g, bits) ans /\ announces g bits c.
Proof.
  induction gs as [|g gs IH]; intros o w s' OI T H; cbn [load_all] in H.
  - injection H as <-. exists []. split; [constructor|]. split; [exact OI|]. split; [exact T|]. intros c. split; [auto|]. intros [I|(g & b & [] & _)]. exact I.
  - apply bind_inv in H. destruct H as [([] & [o2 w2] & H1 & H)|(x & _ & D)]; [|discriminate D].
    unfold load_one in H1. unfold bind at 1 in H1. cbn [fst] in H1. destruct (test_cmd o g) as [b|] eqn:TC; [|discriminate].
    assert (Bm : b = true <-> may_send o g false).
    { unfold oinv in OI. destruct (o_interface o) as [e|] eqn:Hi.
      - destruct (status_eqb (e_status e) NOT_CONNECTED) eqn:S.
        + (* unconnected: the test may still be meaningful *)
          unfold test_cmd in TC. unfold may_send. destruct (supports o g) eqn:Sp; cbn [negb] in TC.
          2:{ injection TC as <-. split; [discriminate|]. intros [D|(D & _)]; [discriminate|]. apply in_set_iff in D. unfold supports in Sp. congruence. }
          apply in_set_iff in Sp. destruct (oz_eqb (c_mode g) (Some 6)) eqn:M.
          * rewrite Hi in TC. unfold elm_protocol_id in TC. destruct (e_protocol e) as [p|] eqn:P; cbn [rbind] in TC; [|discriminate].
            assert (Hb : b = existsb (text_eqb (pc_id (p_class p))) [str "6"; str "7"; str "8"; str "9"]) by (injection TC as TC; symmetry; exact TC). clear TC.
            unfold obd_protocol_id. rewrite Hi. unfold elm_protocol_id. rewrite P, Hb, existsb_exists. split.
            -- intros (x & X & Y). apply text_eqb_iff in Y. subst x. right. split; [exact Sp|]. eauto.
            -- intros [D|(_ & D)]; [discriminate|]. destruct D as (id & E & J).
               ++ unfold oz_eqb in M. destruct (c_mode g) as [m|]; [|discriminate]. apply Z.eqb_eq in M. subst. reflexivity.
               ++ injection E as E. rewrite E. exists id. split; [exact J|]. apply text_eqb_iff. reflexivity.
          * injection TC as <-. split; [|auto]. intros _. right. split; [exact Sp|]. intros E. rewrite E in M. discriminate.
        + assert (N : e_status e <> NOT_CONNECTED) by (intros X; apply status_eqb_eq in X; congruence).
          destruct (test_cmd_spec o g e Hi OI N) as (b' & B & C). rewrite B in TC. injection TC as <-. exact C.
      - unfold test_cmd in TC. unfold may_send. destruct (supports o g) eqn:Sp; cbn [negb] in TC.
        2:{ injection TC as <-. split; [discriminate|]. intros [D|(D & _)]; [discriminate|]. apply in_set_iff in D. unfold supports in Sp. congruence. }
        apply in_set_iff in Sp. destruct (oz_eqb (c_mode g) (Some 6)) eqn:M; [rewrite Hi in TC; discriminate|]. injection TC as <-. split; [|auto]. intros _. right. split; [exact Sp|]. intros E. rewrite E in M. discriminate. }
    destruct b; cbn [negb] in H1.
    2:{ injection H1 as <- <-. destruct (IH o w s' OI T H) as (ans & L & R). exists ans. split; [|exact R]. apply ls_skip; [|exact L]. intros X. apply Bm in X. discriminate. }
    assert (MS : may_send (fst (o, w)) g false) by (apply Bm; reflexivity).
    apply bind_inv in H1. destruct H1 as [(rsp & [o1 w1] & Q & H1)|(x & _ & D)]; [|discriminate D].
    destruct (query_spec _ _ _ _ _ _ _ OI Q) as (t & _ & QR). destruct (query_run_inv _ _ _ _ _ _ OI QR) as (I1 & _ & _ & S1).
    destruct (is_null rsp) eqn:N.
    { injection H1 as <- <-. assert (T1 : table (o_supported o1)) by (rewrite S1; exact T). destruct (IH o1 w1 s' I1 T1 H) as (ans & L & R1 & R2 & R3). exists ans. split; [eapply ls_null; eassumption|].
      rewrite S1 in R3. auto. }
    destruct (r_value rsp) eqn:V; try discriminate H1. destruct (c_mode g) as [mode|] eqn:M; [|discriminate H1]. destruct (c_pid g) as [pid|] eqn:P; [|discriminate H1].
    unfold bind, obd_of, gets, set_supported in H1. cbn [fst] in H1. injection H1 as <- <-.
    destruct (enable_announces g mode pid (ba_iter a) (o_supported o1) M P) as [T2 E2]; [rewrite S1; exact T|].
    set (o2 := mkObd _ _ _ _ _ _ _) in H. assert (I2 : oinv o2) by exact I1.
    destruct (IH o2 w1 s' I2 T2 H) as (ans & L & R1 & R2 & R3). exists ((g, ba_iter a) :: ans). split; [eapply ls_bits; eassumption|].
    split; [exact R1|]. split; [exact R2|]. intros c. rewrite R3. subst o2. cbn [o_supported]. rewrite E2, S1. split.
    + intros [[I|A]|(g' & b' & I & A)]; [auto| |]; right; [exists g, (ba_iter a)|exists g', b']; (split; [cbn; auto|exact A]).
    + intros [I|(g' & b' & [E|I] & A)]; [auto| |]; [injection E as <- <-; auto|]. right. exists g', b'. auto.
Qed.
Lemma base_table : table base_set /\ forall c, In c base_set <-> is_base c.
Proof.
  assert (E : base_set = base_commands) by (vm_compute; reflexivity). rewrite E.
  assert (K : forall c, In c base_commands <-> is_base c).
  { intros c. unfold base_commands, is_base. rewrite in_flat_map. change [str "PIDS_A"; _; _; _; _; _; _; _] with base_names. split.
    - intros (n & I & N). unfold named in N. destruct (dict_get text_eqb by_name n) as [d|] eqn:D; [|destruct N]. destruct N as [<-|[]]. apply by_name_get in D as [D1 D2]. rewrite D2. auto.
    - intros [I N]. exists (c_name c). split; [exact N|]. unfold named. assert (D : dict_get text_eqb by_name (c_name c) = Some c) by (apply by_name_get; auto). rewrite D. left. reflexivity. }
  split; [|exact K]. unfold table. rewrite Forall_forall. intros c I. apply K in I. apply I.
Qed.
