(* Proofs about SpecSleep: exchanges. *)
From Coq Require Import ZArith List Bool Lia String.
From Verif Require Import Py Num Utils Protocol Decoders Command CommandTable Commands World Elm Obd SpecElm SpecObd SpecE2E SpecAdapter SpecAdapter2 SpecSleep
  PyFacts ElmFacts ElmThms ObdFacts ObdThms ObdThms2 ObdThms3 ObdThms4 ObdThms5 Properties_Elm AdapterThms AdapterThms2 AdapterThms3 AdapterThms4 AdapterThms5.
Import ListNotations.
Open Scope string_scope. Open Scope list_scope. Open Scope Z_scope.

(* nothing written is blank or ATLP *)
Definition lively (t : list event) : Prop := forall fl l, In (EvSend fl (l ++ [CR])) t -> plain l <> sleep_line /\ plain l <> [].
Lemma lively_app a b : lively a -> lively b -> lively (a ++ b).
Proof. intros A B fl l I. apply in_app_or in I as [I|I]; eauto. Qed.
Lemma lively_nil : lively []. Proof. intros fl l []. Qed.
Lemma lively_asks n c t l : plain c <> sleep_line -> plain c <> [] -> asks n c t l -> lively t.
Proof.
  intros A B (k & rs & -> & _) fl x [E|I]; [assert (Ex : x ++ [CR] = c ++ [CR]) by congruence; apply app_inj_tail in Ex as [-> _]; auto|]. exfalso. apply in_map_iff in I as (? & E & _). discriminate E.
Qed.
Lemma leaves_lively c : leaves (understand c) -> plain c <> sleep_line /\ plain c <> [].
Proof. intros L. split; intros E; unfold understand in L; rewrite E in L; exact L. Qed.
Lemma header_lively h : plain (str "AT SH " ++ h ++ str " ") <> sleep_line /\ plain (str "AT SH " ++ h ++ str " ") <> [].
Proof. rewrite plain_app. split; discriminate. Qed.
Lemma low_run_connected o t o' : low_run o t o' -> obd_status o <> NOT_CONNECTED -> ~ io_error t ->
  exists e lines, o_interface o = Some e /\ exchange (str "OK") 1 (str "ATLP") t lines /\ o' = with_elm (if existsb (text_eqb (str "OK")) lines then asleep_elm e else e) o.
Proof.
  intros H C Io. destruct H as [H|e t lines Hi Hs A|e t Hi Hs A]; [contradiction|eauto 10|]. exfalso. exact (Io (failed_io _ _ _ _ A)).
Qed.
Lemma normal_run_connected o t o' : normal_run o t o' -> obd_status o <> NOT_CONNECTED -> ~ io_error t ->
  exists e lines, o_interface o = Some e /\ asks 12 (str " ") t lines /\ o' = with_elm (awake e) o.
Proof. intros H C Io. destruct H as [H|e t lines Hi Hs A|e t Hi Hs A]; [contradiction|eauto 10|]. exfalso. exact (Io (failed_io _ _ _ _ A)). Qed.

(* the acknowledgement of ATLP, as far as it was read *)
Lemma utf8_same s : Forall (fun c => 0 <= c < 128) s -> utf8_ignore s = s.
Proof. induction 1 as [|c s H F IH]; [reflexivity|]. cbn [utf8_ignore]. replace (c <? 128) with true by (symmetry; apply Z.ltb_lt; lia). rewrite IH. reflexivity. Qed.
Lemma pieces_ends b : line_ends b -> pieces b [].
Proof. induction 1 as [|c b H F IH]; [constructor|]. apply pieces_end; [|exact IH]. destruct H as [-> | ->]; [left|right; left]; reflexivity. Qed.
Lemma pieces_ok a b : line_ends a -> line_ends b -> pieces (a ++ str "OK" ++ b) [str "OK"].
Proof.
  intros A B. induction A as [|c a H F IH].
  - destruct B as [|c b H F]; [rewrite app_nil_r; apply pieces_last; [discriminate|repeat constructor; cbn; lia]|]. apply (pieces_cons (str "OK") c b []); [discriminate|repeat constructor; cbn; lia| |apply pieces_ends, F]. destruct H as [-> | ->]; [left|right; left]; reflexivity.
  - apply pieces_end; [|exact IH]. destruct H as [-> | ->]; [left|right; left]; reflexivity.
Qed.
Lemma ends_small a : line_ends a -> Forall (fun c => 0 < c < 62) a.
Proof. intros H. eapply Forall_impl; [|exact H]. cbn. lia. Qed.
Lemma clean_ok a b : line_ends a -> line_ends b -> clean (a ++ str "OK" ++ b) = [str "OK"] /\ clean (a ++ str "OK" ++ b ++ [PROMPT]) = [str "OK"].
Proof.
  intros A B. pose proof (pieces_ok a b A B) as P. pose proof (ends_small _ A) as A'. pose proof (ends_small _ B) as B'.
  assert (Sm : Forall (fun c => 0 < c < 128 /\ c <> 62) (a ++ str "OK" ++ b)).
  { apply Forall_app. split; [eapply Forall_impl; [|exact A']; cbn; lia|]. apply Forall_app. split; [repeat constructor; cbn; lia|eapply Forall_impl; [|exact B']; cbn; lia]. }
  replace (a ++ str "OK" ++ b ++ [PROMPT]) with ((a ++ str "OK" ++ b) ++ [PROMPT]) by (rewrite <- !app_assoc; reflexivity). remember (a ++ str "OK" ++ b) as s eqn:Es. clear Es.
  assert (Fl : filter (fun c => negb (c =? 0)) s = s).
  { clear P. induction Sm as [|c s H F IH]; [reflexivity|]. cbn [filter]. replace (c =? 0) with false by (symmetry; apply Z.eqb_neq; lia). cbn [negb]. rewrite IH. reflexivity. }
  assert (Fp : filter (fun c => negb (c =? 0)) (s ++ [PROMPT]) = s ++ [PROMPT]) by (rewrite filter_app, Fl; reflexivity).
  assert (L : forall x, body x = s -> clean x = [str "OK"]).
  { intros x Hx. apply (C34_lines_determined x); [apply clean_lines|]. exists [str "OK"]. rewrite Hx, utf8_same; [|eapply Forall_impl; [|exact Sm]; cbn; lia]. split; [exact P|].
    constructor; [|constructor]. exists [], []. split; [reflexivity|]. split; [constructor|]. split; [constructor|]. right. split; [exists 79, [75]|exists 75, [79]]; (split; [reflexivity|]); cbn; lia. }
  split; apply L; unfold body.
  - rewrite Fl. destruct (rev s) as [|c r] eqn:E; [reflexivity|]. destruct (c =? PROMPT) eqn:X; [|reflexivity]. exfalso. apply Z.eqb_eq in X. subst c.
    assert (I : In PROMPT s) by (apply in_rev; rewrite E; left; reflexivity). rewrite Forall_forall in Sm. specialize (Sm _ I). unfold PROMPT in Sm. lia.
  - rewrite Fp, rev_app_distr. cbn [rev app]. rewrite Z.eqb_refl. apply rev_involutive.
Qed.
Lemma split_at_ok a : line_ends a -> forall x part rest, a ++ str "OK" ++ x = part ++ rest -> holds (str "OK") part -> exists x1, part = a ++ str "OK" ++ x1 /\ x = x1 ++ rest.
Proof.
  induction 1 as [|c a H F IH]; intros x part rest E (u & v & Hu).
  - destruct part as [|p0 part]; [destruct u; discriminate Hu|]. destruct part as [|p1 part]; [exfalso; destruct u as [|? [|? ?]]; discriminate Hu|].
    change (79 :: 75 :: x = p0 :: p1 :: (part ++ rest)) in E. injection E as <- <- ->. exists part. split; reflexivity.
  - destruct part as [|p0 part]; [destruct u; discriminate Hu|]. cbn [app] in E. injection E as <- E. destruct u as [|u0 u]; [exfalso; change (c :: part = 79 :: 75 :: v) in Hu; injection Hu as -> _; lia|].
    cbn [app] in Hu. injection Hu as _ Hu. destruct (IH x part rest E) as (x1 & -> & ->); [exists u, v; exact Hu|]. exists x1. split; reflexivity.
Qed.
Lemma acknowledged_part out part rest : acknowledged out -> out = part ++ rest -> holds (str "OK") part -> clean part = [str "OK"].
Proof.
  intros (a & b & A & B & D) E Hd. subst out.
  assert (K : exists x, a ++ str "OK" ++ x = part ++ rest /\ (x = b \/ x = b ++ [PROMPT])) by (destruct D as [D|D]; rewrite <- ?D in *; eauto).
  destruct K as (x & Ex & Hx). clear D. destruct (split_at_ok a A x part rest Ex Hd) as (x1 & -> & ->).
  assert (Q : line_ends x1 \/ exists x2, x1 = x2 ++ [PROMPT] /\ line_ends x2).
  { destruct Hx as [Hx|Hx].
    - left. unfold line_ends in B. rewrite <- Hx in B. apply Forall_app in B. apply B.
    - destruct rest as [|r0 rest0 _] using rev_ind; [rewrite app_nil_r in Hx; right; eauto|]. left. rewrite app_assoc in Hx. apply app_inj_tail in Hx as [Hx _]. unfold line_ends in B. rewrite <- Hx in B. apply Forall_app in B. apply B. }
  destruct Q as [Q|(x2 & -> & Q)]; apply (clean_ok a _ A Q).
Qed.

Section Car.
  Context {Car : Type} (ask : Car -> option text -> text -> list text -> Car -> Prop) (woken : adapter -> adapter -> Prop).
  Notation follows := (follows ask). Notation moves := (moves ask). Notation zfollows := (zfollows ask woken). Notation zmoves := (zmoves ask woken).
  Lemma zfollows_app t1 t2 x z : zfollows x (t1 ++ t2) z <-> exists y, zfollows x t1 y /\ zfollows y t2 z.
  Proof.
    revert x. induction t1 as [|ev t1 IH]; intros x; cbn [app].
    - split; [intros H; exists x; split; [constructor|exact H]|intros (y & H1 & H2); inversion H1; subst; exact H2].
    - split.
      + intros H. inversion H; subst. apply IH in H5. destruct H5 as (u & A & B). exists u. split; [econstructor; eassumption|exact B].
      + intros (u & A & B). inversion A; subst. econstructor; [eassumption|]. apply IH. eauto.
  Qed.
  Lemma zfollows_lively t : forall x z, zfollows (false, x) t z -> lively t -> fst z = false /\ follows x t (snd z).
  Proof.
    induction t as [|ev t IH]; intros x z F L; inversion F as [|? ? y ? ? M G]; subst.
    - split; [reflexivity|constructor].
    - assert (L' : lively t) by (intros fl l I; apply (L fl l); right; exact I). inversion M; subst.
      + destruct (IH _ _ G L') as (A & B). split; [exact A|]. econstructor; eassumption.
      + exfalso. destruct (L _ l (or_introl eq_refl)) as (A & B). match goal with X : told_to_sleep _ _ |- _ => destruct X as [X|(X & _)]; contradiction end.
      + exfalso. destruct (L _ l (or_introl eq_refl)) as (A & B). match goal with X : told_to_sleep _ _ |- _ => destruct X as [X|(X & _)]; contradiction end.

  Qed.
  Lemma zfollows_reads rs : forall b a s p z, zfollows (b, (a, s, p)) (map EvRead rs) z -> exists p', z = (b, (a, s, p')).
  Proof.
    induction rs as [|r rs IH]; intros b a s p z F; cbn [map] in F; inversion F as [|? ? y ? ? M G]; subst; [eauto|].
    assert (K : forall y, moves (a, s, p) (EvRead r) y -> exists p', y = (a, s, p')) by (intros y0 X; inversion X; subst; eauto).
    inversion M; subst.
    - match goal with X : moves _ _ _ |- _ => destruct (K _ X) as (p' & ->) end. exact (IH _ _ _ _ _ G).
    - match goal with X : moves _ _ _ |- _ => destruct (K _ X) as (p' & ->) end. exact (IH _ _ _ _ _ G).
  Qed.
  Lemma zno_io t x y : zfollows x t y -> ~ io_error t.
  Proof.
    intros H. induction H as [|x ev y t z M F IH]; [intros [[]|[]]|].
    assert (K : ev <> EvFail /\ ev <> EvRead None) by (split; intros ->; inversion M; subst; match goal with X : moves _ _ _ |- _ => inversion X end).
    intros [[E|I]|[E|I]]; [apply (proj1 K), E|apply IH; left; exact I|apply (proj2 K), E|apply IH; right; exact I].
  Qed.
  Lemma wake_step n l t lines a s p z : asks n l t lines -> zfollows (true, (a, s, p)) t z -> exists a' p', woken a a' /\ z = (false, (a', s, p')).
  Proof.
    intros (k & rs & -> & _) F. inversion F as [|? ? y ? ? M G]; subst. inversion M; subst.
    - destruct (zfollows_reads _ _ _ _ _ _ G) as (p' & ->). eauto.
    - exfalso. match goal with X : ~ is_write _ |- _ => apply X; exact Logic.I end.
  Qed.
  Lemma zfollow_chunks chunks : Forall (fun c => c <> []) chunks -> forall b a s pend y, zfollows (b, (a, s, pend)) (map EvRead (map Some chunks)) y ->
    exists rest, pend = concat chunks ++ rest /\ y = (b, (a, s, rest)).
  Proof.
    induction 1 as [|x l N F IH]; intros b a s pend y H; cbn [map] in H.
    - inversion H; subst. exists pend. auto.
    - inversion H as [|? ? z ? ? M G]; subst. assert (K : exists rest, pend = x ++ rest /\ z = (b, (a, s, rest))).
      { inversion M; subst; match goal with X : moves _ _ _ |- _ => apply (move_read ask _ _ _ _ _ N) in X; destruct X as (rest & -> & ->); eauto end. }
      destruct K as (rest & -> & ->). apply IH in G. destruct G as (r & -> & ->). exists r. cbn [concat]. rewrite <- app_assoc. auto.
  Qed.
  Lemma low_step t lines a s p z : exchange (str "OK") 1 (str "ATLP") t lines -> ad_echo a = false -> zfollows (false, (a, s, p)) t z ->
    lines = [str "OK"] /\ exists p', z = (true, (remember_line (str "ATLP") a, s, p')).
  Proof.
    intros (k & rs & -> & H & Hk & _) E F. inversion F as [|? ? y ? ? M G]; subst. inversion M; subst.
    - exfalso. match goal with X : forall fl l, _ -> ~ _ |- _ => apply (X _ (str "ATLP") eq_refl); left; reflexivity end.
    - match goal with X : (?l ++ [CR])%list = _ |- _ => assert (El : l = str "ATLP") by (apply (app_inj_tail l (str "ATLP") CR CR); exact X) end. subst l.
      change (text_eqb (plain (str "ATLP")) []) with false in *. cbv iota in *. match goal with X : ad_echo _ = false -> _ |- _ => specialize (X E); rename X into Ac end.
      inversion H as [rs0 bs lines0 A AL|rs0 bs n rest lines0 A AL H2]; subst; [|exfalso; inversion H2; lia].
      destruct A as [chunks last Q N Mk|chunks Q].
      + assert (Fn : Forall (fun c => c <> []) (chunks ++ [last])) by (apply Forall_app; split; [exact (proj1 Q)|auto]).
        destruct (zfollow_chunks _ Fn _ _ _ _ _ G) as (rest & -> & ->). split; [|eauto]. rewrite <- (acknowledged_part _ _ _ Ac eq_refl Mk). symmetry. exact (C34_lines_determined _ _ _ (clean_lines _) AL).
      + exfalso. rewrite map_app in G. apply zfollows_app in G. destruct G as (u & G1 & G2). destruct (zfollow_chunks _ (proj1 Q) _ _ _ _ _ G1) as (rest & -> & ->).
        cbn [map] in G2. inversion G2 as [|? ? u ? ? M2 G3]; subst. assert (R0 : rest = []) by (inversion M2; subst; match goal with X : moves _ (EvRead (Some [])) _ |- _ => apply move_idle in X; apply X end). subst rest. rewrite app_nil_r in Ac.
        apply (proj2 Q). destruct Ac as (b & c & _ & _ & [-> | ->]); [exists b, c; reflexivity|exists b, (c ++ [PROMPT]); reflexivity].
  Qed.
End Car.
