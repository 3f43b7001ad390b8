(* Proofs about SpecAdapter: queries. *)
From Coq Require Import ZArith List Bool Lia String.
From Verif Require Import Py Num Utils Protocol Decoders Command CommandTable Commands World Elm Obd SpecElm SpecObd SpecE2E SpecAdapter
  PyFacts ElmFacts ElmThms ObdFacts ObdThms ObdThms2 ObdThms4 ObdThms5 Properties_Elm AdapterThms AdapterThms2.
Import ListNotations.
Open Scope string_scope. Open Scope list_scope. Open Scope Z_scope.
Section Car.
  Context {Car : Type} (ask : Car -> option text -> text -> list text -> Car -> Prop).
  Notation follows := (follows ask). Notation obeys := (obeys ask). Notation moves := (moves ask). Notation does := (does ask).

  Lemma cut_follows low cmd t x y : cut_short low cmd t -> follows x t y -> False.
  Proof. intros (I & _) F. exact (no_io_error ask _ _ _ F I). Qed.
  Lemma header_ack a s pend h y t lines : ad_echo a = false -> header_ok (plain h) = true -> asks 12 (str "AT SH " ++ h ++ str " ") t lines -> follows (a, s, pend) t y ->
    lines = [str "OK"] /\ exists l, y = (mkAdapter (ad_echo a) (ad_headers a) (Some (plain h)) l, s, []).
  Proof.
    intros E K A F. destruct y as [[a' s'] p'].
    assert (U := understand_header h K). assert (NB : str "AT SH " ++ h ++ str " " <> [127; 127]) by (intros X; rewrite X in U; discriminate U).
    destruct (asked ask _ _ _ _ _ _ _ _ _ _ NB A F) as (shown & echo & O & -> & Q & ->). rewrite (Q E). cbv [SpecAdapter.obeys SpecAdapter.does] in O. rewrite U in O.
    destruct O as (-> & -> & ->). split; [reflexivity|eauto].
  Qed.
  Lemma query_follows o c force t r o' a s pend a' s' p' : oinv o -> obd_status o <> NOT_CONNECTED -> asleep o = false -> query_run o c force t r o' -> may_send o c force ->
    tuned a -> header_ok (plain (c_header c)) = true -> build_command_string o c <> [127; 127] -> follows (a, s, pend) t (a', s', p') ->
    exists p a1 lines t1 t2, uses o p /\ tuned a1 /\ t = t1 ++ t2 /\ asks 12 (build_command_string o c) t2 lines
      /\ (c_header c = o_last_header o /\ a1 = a \/ c_header c <> o_last_header o /\ ad_header a1 = Some (plain (c_header c)))
      /\ obeys a1 s (build_command_string o c) lines a' s' /\ p' = [] /\ r = decoded p c lines
      /\ obd_status o' = obd_status o /\ asleep o' = false /\ o_last_header o' = c_header c /\ uses o' p
      /\ (forall ms, call p lines = Ok ms -> o_last_command o' = (if nonempty (build_command_string o c) then build_command_string o c else o_last_command o) /\ o_frame_counts o' = o_frame_counts (with_count c (count_frames ms) o)).
  Proof.
    intros OI St Sl Q Ms Tu Hk Nb F. unfold asleep in Sl.
    assert (HD : forall e p t1 x o1 y, o_interface o = Some e -> e_protocol e = Some p -> header_run o e p (c_header c) t1 x o1 -> follows (a, s, pend) t1 y ->
       x = None /\ exists a1 p1, y = (a1, s, p1) /\ tuned a1 /\ (c_header c = o_last_header o /\ a1 = a \/ c_header c <> o_last_header o /\ ad_header a1 = Some (plain (c_header c)))
       /\ (exists e1, o_interface o1 = Some e1 /\ e1 = e) /\ o_last_header o1 = c_header c /\ o_last_command o1 = o_last_command o /\ o_frame_counts o1 = o_frame_counts o).
    { intros e p t1 x o1 y Hi P HR G. rewrite Hi in Sl. assert (Aw : awake e = e) by (destruct e; cbn in *; rewrite Sl; reflexivity).
      destruct HR as [Hh|t1 lines ms Hh S C K|t1 lines ms Hh S C K|t1 lines x Hh S C|t1 Hh S].
      - inversion G; subst y. split; [reflexivity|]. exists a, pend. split; [reflexivity|]. split; [exact Tu|]. split; [auto|]. split; [eauto|]. split; [congruence|]. split; reflexivity.
      - rewrite Sl in S. destruct S as (u1 & u2 & -> & -> & A). cbn [app] in G. destruct (header_ack _ _ _ _ _ _ _ (proj1 Tu) Hk A G) as (_ & l & ->). split; [reflexivity|].
        eexists _, _. split; [reflexivity|]. split; [exact Tu|]. split; [right; split; [exact Hh|reflexivity]|]. split; [exists (awake e); split; [reflexivity|exact Aw]|]. split; [reflexivity|]. split; reflexivity.
      - exfalso. rewrite Sl in S. destruct S as (u1 & u2 & -> & -> & A). cbn [app] in G. destruct (header_ack _ _ _ _ _ _ _ (proj1 Tu) Hk A G) as (-> & _). destruct (ok_parsed p) as (ms' & C' & K'). rewrite C in C'. injection C' as <-. contradiction.
      - exfalso. rewrite Sl in S. destruct S as (u1 & u2 & -> & -> & A). cbn [app] in G. destruct (header_ack _ _ _ _ _ _ _ (proj1 Tu) Hk A G) as (-> & _). destruct (ok_parsed p) as (ms' & C' & K'). rewrite C in C'. discriminate C'.
      - exfalso. exact (cut_follows _ _ _ _ _ S G). }
    destruct Q as [H|H1 H2|e p t x o1 Hi Hs P M HR|e p t o1 Hi Hs P M HR Hn|e p t1 o1 e1 t2 Hi Hs P M HR Hi1 Hs1 A|e p t1 o1 e1 t2 l x Hi Hs P M HR Hi1 Hs1 A C|e p t1 o1 e1 t2 l ms Hi Hs P M HR Hi1 Hs1 A C]; try contradiction.
    - destruct (HD _ _ _ _ _ _ Hi P HR F) as (D & _). discriminate D.
    - exfalso. destruct (HD _ _ _ _ _ _ Hi P HR F) as (_ & a1 & p1 & _ & _ & _ & (e1 & I1 & ->) & _). unfold obd_status in Hn. rewrite I1 in Hn. contradiction.
    - exfalso. apply follows_app in F. destruct F as (y & F1 & F2). exact (cut_follows _ _ _ _ _ A F2).
    - apply follows_app in F. destruct F as (y & F1 & F2). destruct (HD _ _ _ _ _ _ Hi P HR F1) as (_ & a1 & p1 & -> & Tu1 & Hd & (e1' & I1 & ->) & L1 & L2 & L3). rewrite Hi1 in I1. injection I1 as ->.
      rewrite Hi in Sl. rewrite Sl in A. destruct A as (u1 & u2 & -> & -> & A). cbn [app] in F2. destruct (asked ask _ _ _ _ _ _ _ _ _ _ Nb A F2) as (shown & echo & O & E & Q & ->). rewrite (Q (proj1 Tu1)) in E. cbn [app] in E. subst l.
      exists p, a1, shown, t1, u2. split; [exists e; auto|]. split; [exact Tu1|]. split; [reflexivity|]. split; [exact A|]. split; [exact Hd|]. split; [exact O|]. split; [reflexivity|]. split; [unfold decoded; rewrite C; reflexivity|].
      unfold obd_status, asleep. cbn [with_elm o_interface o_last_header o_last_command]. rewrite Hi. split; [reflexivity|]. split; [reflexivity|]. split; [exact L1|]. split; [exists (awake e); auto|]. intros ms X. congruence.
    - apply follows_app in F. destruct F as (y & F1 & F2). destruct (HD _ _ _ _ _ _ Hi P HR F1) as (_ & a1 & p1 & -> & Tu1 & Hd & (e1' & I1 & ->) & L1 & L2 & L3). rewrite Hi1 in I1. injection I1 as ->.
      rewrite Hi in Sl. rewrite Sl in A. destruct A as (u1 & u2 & -> & -> & A). cbn [app] in F2. destruct (asked ask _ _ _ _ _ _ _ _ _ _ Nb A F2) as (shown & echo & O & E & Q & ->). rewrite (Q (proj1 Tu1)) in E. cbn [app] in E. subst l.
      exists p, a1, shown, t1, u2. split; [exists e; auto|]. split; [exact Tu1|]. split; [reflexivity|]. split; [exact A|]. split; [exact Hd|]. split; [exact O|]. split; [reflexivity|]. split; [unfold decoded; rewrite C; reflexivity|].
      unfold obd_status, asleep. cbn [with_count with_command with_elm o_interface o_last_header o_last_command]. rewrite Hi. split; [reflexivity|]. split; [reflexivity|]. split; [exact L1|]. split; [exists (awake e); auto|]. intros ms' X. rewrite C in X. injection X as <-. rewrite L2. split; [reflexivity|]. cbn [with_count with_command with_elm o_frame_counts]. rewrite L3. reflexivity.
  Qed.
  Lemma query_not_sent o c force t r o' : query_run o c force t r o' -> obd_status o = NOT_CONNECTED \/ ~ may_send o c force -> o' = o /\ t = [] /\ r = Ok empty_response.
  Proof.
    intros Q N. assert (K : forall e, o_interface o = Some e -> e_status e <> NOT_CONNECTED -> may_send o c force -> False).
    { intros e Hi Hs M. destruct N as [N|N]; [|contradiction]. unfold obd_status in N. rewrite Hi in N. contradiction. }
    destruct Q as [H|H1 H2|e p t x o1 Hi Hs P M HR|e p t o1 Hi Hs P M HR Hn|e p t1 o1 e1 t2 Hi Hs P M HR Hi1 Hs1 A|e p t1 o1 e1 t2 l x Hi Hs P M HR Hi1 Hs1 A C|e p t1 o1 e1 t2 l ms Hi Hs P M HR Hi1 Hs1 A C]; auto; exfalso; eauto.
  Qed.
End Car.
