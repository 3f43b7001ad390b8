(* The small steps of a query, a close() or a power call add up to the functions of Obd.v. *)
From Coq Require Import ZArith List Bool Lia.
From Verif Require Import Py Num Utils Protocol Decoders Command CommandTable Commands World Elm Obd Async Fine.
Import ListNotations.
Open Scope Z_scope.

Definition agrees {A} (p : code A) (m : MO A) : Prop := forall s, run p s = m s.
Lemma run_then {A B} (p : code A) (k : A -> code B) : forall s, run (and_then p k) s = match run p s with (Ok a, s1) => run (k a) s1 | (Raise e, s1) => (Raise e, s1) end.
Proof. induction p as [r|f g IH]; intros s; cbn [and_then run]; [destruct r; reflexivity|]. rewrite IH. reflexivity. Qed.
Lemma agrees_then {A B} (p : code A) m (k : A -> code B) n : agrees p m -> (forall a, agrees (k a) (n a)) -> agrees (and_then p k) (bind m n).
Proof. intros P K s. rewrite run_then, P. unfold bind. destruct (m s) as [[a|e] s1]; [apply K|reflexivity]. Qed.
Lemma agrees_pure {A} (a : A) : agrees (pure a) (ret a). Proof. intros s. reflexivity. Qed.
Lemma agrees_done {A} (r : res A) : agrees (Done r) (of_res r). Proof. intros s. reflexivity. Qed.
Lemma agrees_raise {A} e : agrees (Done (Raise e) : code A) (raise e). Proof. intros s. reflexivity. Qed.
Lemma agrees_obj {A} (m : MO A) : agrees (obj m) m. Proof. intros s. cbn. destruct (m s); reflexivity. Qed.
(* the same for the methods of ELM327 *)
Definition agrees_elm {A} (p : code A) (m : ME A) : Prop :=
  forall e o w, o_interface o = Some e -> run p (o, w) = on_interface m (o, w).
Definition with_e (o : obd) (e : elm) : obd := mkObd (Some e) (o_supported o) (o_fast o) (o_timeout o) (o_last_command o) (o_last_header o) (o_frame_counts o).
Lemma on_some {A} (m : ME A) o e w : o_interface o = Some e -> on_interface m (o, w) = (fst (m (e, w)), (with_e o (fst (snd (m (e, w)))), snd (snd (m (e, w))))).
Proof. intros H. unfold on_interface. rewrite H. destruct (m (e, w)) as [r [e1 w1]]. reflexivity. Qed.
Lemma with_e_same o e : o_interface o = Some e -> with_e o e = o.
Proof. destruct o as [i l f t c h n]. cbn. intros ->. reflexivity. Qed.
Lemma elm_then {A B} (p : code A) m (k : A -> code B) n : agrees_elm p m -> (forall a, agrees_elm (k a) (n a)) -> agrees_elm (and_then p k) (bind m n).
Proof.
  intros P K e o w H. rewrite run_then, (P e o w H), !(on_some _ _ _ _ H). unfold bind. destruct (m (e, w)) as [[a|x] [e1 w1]]; cbn [fst snd]; [|reflexivity].
  rewrite (K a e1 (with_e o e1) w1 eq_refl), (on_some _ (with_e o e1) e1 w1 eq_refl). reflexivity.
Qed.
Lemma elm_pure {A} (a : A) : agrees_elm (pure a) (ret a).
Proof. intros e o w H. rewrite (on_some _ _ _ _ H). cbn. rewrite (with_e_same _ _ H). reflexivity. Qed.
Lemma elm_done {A} (r : res A) : agrees_elm (Done r) (of_res r).
Proof. intros e o w H. rewrite (on_some _ _ _ _ H). cbn. rewrite (with_e_same _ _ H). reflexivity. Qed.
Lemma elm_raise {A} x : agrees_elm (Done (Raise x) : code A) (raise x).
Proof. intros e o w H. rewrite (on_some _ _ _ _ H). cbn. rewrite (with_e_same _ _ H). reflexivity. Qed.
Lemma elm_elm {A} (m : ME A) : agrees_elm (elm_ m) m.
Proof. intros e o w H. apply agrees_obj. Qed.
Lemma elm_ext {A} (p : code A) m m' : (forall s, m s = m' s) -> agrees_elm p m -> agrees_elm p m'.
Proof. intros E P e o w H. rewrite (P e o w H), !(on_some _ _ _ _ H), E. reflexivity. Qed.
Ltac small :=
  repeat match goal with
    | |- agrees_elm (elm_ _) _ => apply elm_elm
    | |- agrees_elm (pure _) (ret _) => apply elm_pure
    | |- agrees_elm (Done (Raise _)) (raise _) => apply elm_raise
    | |- agrees_elm (Done _) (of_res _) => apply elm_done
    | |- agrees_elm (and_then _ _) (bind _ _) => apply elm_then; [|intros]
    | |- agrees_elm (if ?b then _ else _) _ => destruct b
    | |- agrees_elm (match ?b with _ => _ end) _ => destruct b
    end.
Lemma io_small : agrees_elm f_io_failure io_failure.
Proof. unfold f_io_failure, io_failure. small. Qed.
Lemma write_small cmd : agrees_elm (f_write cmd) (elm_write cmd).
Proof.
  unfold f_write. apply (elm_ext _ (do p <- elm_of e_port; match p with None => ret tt | Some _ => do ok <- do_write (cmd ++ [13]); if ok then ret tt else io_failure end)).
  - intros [e w]. unfold bind, elm_of, gets, elm_write, do_write. cbn [fst]. destruct (e_port e); [|reflexivity]. destruct (port_write true (cmd ++ [13]) w) as [[] w1]; reflexivity.
  - small; try apply io_small.
Qed.
(* the read loop *)
Fixpoint loop_m (fuel : nat) (marker buffer : bytes) : ME (option bytes) :=
  match fuel with
  | O => ret (Some buffer)
  | S k =>
      do r <- do_read;
      match r with
      | None => ret None
      | Some [] => ret (Some buffer)
      | Some data => if contains marker (buffer ++ data) then ret (Some (buffer ++ data)) else loop_m k marker (buffer ++ data)
      end
  end.
Lemma loop_small fuel marker : forall buffer, agrees_elm (f_loop fuel marker buffer) (loop_m fuel marker buffer).
Proof. induction fuel as [|k IH]; intros b; cbn [f_loop loop_m]; small; try apply IH. Qed.
Lemma loop_reads marker e os ws cs : forall rs b t fuel, (length rs < fuel)%nat ->
  loop_m fuel marker b (e, mkWorld os ws rs cs t) =
  let '(r, rest, evs) := read_loop marker b rs in (Ok r, (e, mkWorld os ws rest cs (t ++ evs))).
Proof.
  induction rs as [|x rs IH]; intros b t fuel L; (destruct fuel as [|fuel]; [lia|]); cbn [loop_m read_loop]; unfold bind, do_read, port_read, emit, with_reads;
    cbn [w_reads w_trace w_opens w_writes w_confs tl]; [reflexivity|].
  destruct x as [[|d ds]|]; [reflexivity| |reflexivity]. destruct (contains marker (b ++ d :: ds)); [reflexivity|].
  rewrite IH by (cbn in L; lia). destruct (read_loop marker (b ++ d :: ds) rs) as [[r rest] evs]. rewrite <- app_assoc. reflexivity.
Qed.
Lemma read_small marker : agrees_elm (f_read marker) (elm_read marker).
Proof.
  unfold f_read. apply (elm_ext _ (do p <- elm_of e_port; match p with
     | None => ret []
     | Some _ => do n <- gets (fun s => length (w_reads (snd s))); do r <- loop_m (S n) marker [];
                 match r with Some b => ret (clean b) | None => do! io_failure; ret [] end end)).
  - intros [e w]. unfold bind at 1. unfold elm_of, gets at 1, elm_read. cbn [fst]. destruct (e_port e); [|reflexivity]. unfold bind at 1, gets. cbn [snd].
    unfold bind at 1. destruct w as [os ws rs cs t]. cbn [w_reads w_opens w_writes w_confs w_trace]. rewrite loop_reads by lia.
    destruct (read_loop marker [] rs) as [[[b|] rest] evs]; reflexivity.
  - apply elm_then; [apply elm_elm|intros [p|]; [|apply elm_pure]]. apply elm_then; [|intros n; apply elm_then; [apply loop_small|intros [b|]; small; try apply io_small]].
    intros e o w H. rewrite (on_some _ _ _ _ H). cbn. rewrite (with_e_same _ _ H). reflexivity.
Qed.
Lemma again_small n marker : forall r, agrees_elm (f_read_again n marker r) (read_again n marker r).
Proof. induction n as [|k IH]; intros r; cbn [f_read_again read_again]; [apply elm_pure|]. destruct (nonempty r); [apply elm_pure|]. apply elm_then; [apply read_small|exact IH]. Qed.
Lemma send_small cmd delay marker : agrees_elm (f_send_gen cmd delay marker) (elm_send_gen cmd delay marker).
Proof. unfold f_send_gen, elm_send_gen. apply elm_then; [apply write_small|intros _]. apply elm_then; [apply read_small|intros r]. apply again_small. Qed.
Lemma low_small : agrees_elm f_elm_low_power elm_low_power.
Proof. unfold f_elm_low_power, elm_low_power. small; try apply send_small. Qed.
Lemma normal_small : agrees_elm f_elm_normal_power elm_normal_power.
Proof. unfold f_elm_normal_power, elm_normal_power, elm_send. small; try apply send_small. Qed.
Lemma parse_small cmd : agrees_elm (f_send_and_parse cmd) (send_and_parse cmd).
Proof. unfold f_send_and_parse, send_and_parse, elm_send. small; first [apply normal_small|apply send_small]. Qed.
Lemma close_small : agrees_elm f_elm_close elm_close.
Proof. unfold f_elm_close, elm_close. small; try apply write_small. Qed.
Lemma agrees_on {A} (p : code A) m : agrees_elm p m -> (forall o w, o_interface o = None -> run p (o, w) = (Raise AttributeError, (o, w))) -> agrees p (on_interface m).
Proof.
  intros P N [o w]. destruct (o_interface o) as [e|] eqn:H; [exact (P e o w H)|]. rewrite (N o w H). unfold on_interface. rewrite H. reflexivity.
Qed.
Lemma none_first {A B} (m : ME A) (k : A -> code B) o w : o_interface o = None -> run (and_then (elm_ m) k) (o, w) = (Raise AttributeError, (o, w)).
Proof. intros H. rewrite run_then. cbn. unfold on_interface. rewrite H. reflexivity. Qed.
Lemma header_agrees h : agrees (f_set_header h) (set_header h).
Proof.
  unfold f_set_header, set_header. apply agrees_then; [apply agrees_obj|intros last]. destruct (text_eqb h last); [apply agrees_pure|].
  apply agrees_then; [apply agrees_on; [apply parse_small|intros; apply none_first; assumption]|intros [[|m ms]|]; try apply agrees_pure].
  destruct (negb _); [apply agrees_pure|apply agrees_obj].
Qed.
Theorem query_agrees c force : agrees (f_query c force) (query c force).
Proof.
  unfold f_query, query. apply agrees_then; [apply agrees_obj|intros st]. destruct (status_eqb st NOT_CONNECTED); [apply agrees_pure|].
  apply agrees_then; [destruct force; [apply agrees_pure|apply agrees_obj]|intros al]. destruct (negb al); [apply agrees_pure|].
  apply agrees_then; [apply header_agrees|intros _]. apply agrees_then; [apply agrees_obj|intros cs].
  apply agrees_then; [apply agrees_on; [apply parse_small|intros; apply none_first; assumption]|intros ms].
  apply agrees_then; [destruct (nonempty cs); [apply agrees_obj|apply agrees_pure]|intros _]. apply agrees_then; [apply agrees_obj|intros counts].
  apply agrees_then; [destruct (dict_mem cmd_eqb counts c); [apply agrees_pure|destruct ms; [apply agrees_obj|apply agrees_raise]]|intros _].
  destruct ms as [[|m ms]|]; [apply agrees_pure|apply agrees_done|apply agrees_pure].
Qed.
Theorem close_agrees : agrees f_obd_close obd_close.
Proof.
  unfold f_obd_close, obd_close. apply agrees_then; [apply agrees_obj|intros _]. apply agrees_then; [apply agrees_obj|intros [i|]; [|apply agrees_pure]].
  apply agrees_then; [apply header_agrees|intros _]. apply agrees_then; [|intros _; apply agrees_obj].
  apply agrees_on; [apply close_small|intros; apply none_first; assumption].
Qed.
Theorem low_agrees : agrees f_obd_low_power obd_low_power.
Proof.
  unfold f_obd_low_power, obd_low_power. apply agrees_then; [apply agrees_obj|intros [i|]; [|apply agrees_pure]]. apply agrees_then; [|intros _; apply agrees_pure].
  apply agrees_on; [apply low_small|intros; apply none_first; assumption].
Qed.
Theorem normal_agrees : agrees f_obd_normal_power obd_normal_power.
Proof.
  unfold f_obd_normal_power, obd_normal_power. apply agrees_then; [apply agrees_obj|intros [i|]; [|apply agrees_pure]]. apply agrees_then; [|intros _; apply agrees_pure].
  apply agrees_on; [apply normal_small|intros; apply none_first; assumption].
Qed.
