(* C87, C88, C89: sessions with an adapter of the ELM327 kind and a car (SpecAdapter, SpecAdapter2). *)
From Coq Require Import ZArith List Bool Lia String.
From Verif Require Import Py Num Utils Protocol Decoders Command CommandTable Commands World Elm Obd SpecElm SpecObd SpecE2E SpecAdapter SpecAdapter2
  PyFacts ElmFacts ElmThms ObdFacts ObdThms ObdThms2 ObdThms3 ObdThms4 ObdThms5 Properties_Elm Properties_Decoders Properties_Obd AdapterThms AdapterThms2 AdapterThms3 AdapterThms4 AdapterThms5 AdapterCheck.
Import ListNotations.
Open Scope string_scope. Open Scope list_scope. Open Scope Z_scope.

Section Car.
  Context {Car : Type} (ask : Car -> option text -> text -> list text -> Car -> Prop).
  Notation together := (together ask). Notation queried := (queried ask).

  (* what all the theorems have in common *)
  Lemma sent strict cf name scan w h o w1 x a s p c force t r o' z : together cf name scan w h o w1 x (a, s, p) -> Forall ordinary h -> (strict = true -> Forall plainly h /\ c_header c = engine_header) ->
    (strict = false -> cf_fast cf = false) -> queried c force o w1 (a, s, p) t r o' z -> proper c -> obd_status o <> NOT_CONNECTED -> may_send o c force ->
    exists pr a1 lines a' s', z = (a', s', []) /\ uses o pr /\ r = made_of pr c lines /\ (forall q, r = Ok q -> reading c pr lines q) /\ tuned a1
      /\ header_inv (existsb step_switches (h ++ [as_step c force t r])) (with_header (c_header c) o) a1 /\ does ask a1 s (full_string o c) lines a' s'
      /\ obd_status o' = obd_status o /\ o_fast o = cf_fast cf.
  Proof.
    intros (t0 & S & F) G1 G2 G3 (w2 & Q & T & F2) Pr Con Ms.
    destruct (session_usable ask strict _ _ _ _ _ _ _ _ _ _ _ _ S G1 ltac:(intros X; apply G2 in X; apply X) G3 F) as (OI & Fa & U).
    destruct (session_query _ _ _ _ _ _ _ _ _ _ _ _ _ _ S Q T) as (_ & _ & Qr).
    destruct (query_step ask o c force t r o' a s p z (existsb step_switches h) strict OI U Qr Pr F2) as (pr & a1 & lines & a' & s' & Y & Us & _ & Rr & La & Tu & Hi & D & St & _); auto.
    - intros X. destruct (U Con) as (_ & _ & Hi & _). destruct (G2 X) as (G & E). replace (existsb step_switches h) with false in Hi; [destruct Hi; congruence|].
      symmetry. destruct (existsb step_switches h) eqn:Ex; [|reflexivity]. apply existsb_exists in Ex. destruct Ex as (y & I & Ex). rewrite Forall_forall in G. specialize (G y I). destruct G as (_ & G).
      unfold step_switches, switches in Ex. destruct (st_op y); try discriminate Ex. destruct G as (G & _). rewrite G in Ex. discriminate Ex.
    - intros X. rewrite Fa. auto.
    - exists pr, a1, lines, a', s'. split; [exact Y|]. split; [exact Us|]. split; [exact Rr|]. split; [|split; [exact Tu|]].
      + intros q ->. exists cf, (Some name), scan, w, t0, h, o, w1, force, o', w2, t. auto 10.
      + split; [|auto]. rewrite existsb_app. cbn [existsb]. rewrite orb_false_r. exact Hi.
  Qed.

  (* ---------------------------------------------------------------- C87 *)
  (* with fast=False, a query that is sent is one request to the car, the command's own; it goes to the header of the command, or to all ECUs if no command with another
     header than the engine's was ever sent; and the response is made of just the lines the car answers *)
Theorem C87_reading : forall cf name scan w h o w1 x a s p c force t r o' a' s' p' req,
    together cf name scan w h o w1 x (a, s, p) -> cf_fast cf = false -> Forall ordinary h ->
    queried c force o w1 (a, s, p) t r o' (a', s', p') -> header_ok (plain (c_header c)) = true -> understand (c_command c) = KRequest req ->
    obd_status o <> NOT_CONNECTED -> may_send o c force ->
    exists pr hd lines, uses o pr /\ ask s hd req lines s' /\ r = made_of pr c lines /\ (forall q, r = Ok q -> reading c pr lines q)
      /\ (~ switched (h ++ [as_step c force t r]) -> hd = None) /\ (switched (h ++ [as_step c force t r]) -> hd = Some (plain (c_header c)))
      /\ obd_status o' = obd_status o.
  Proof.
    intros cf name scan w h o w1 x a s p c force t r o' a' s' p' req To Fa Od Q Hk U Con Ms.
    destruct (sent false _ _ _ _ _ _ _ _ _ _ _ _ _ _ _ _ _ To Od ltac:(discriminate) ltac:(auto) Q (conj Hk (or_introl (ex_intro _ _ U))) Con Ms)
      as (pr & a1 & lines & a2 & s2 & Y & Us & Rr & Rd & Tu & Hi & D & St & Ff). injection Y as -> -> ->.
    unfold full_string in D. rewrite Ff, Fa in D. cbn [andb] in D. unfold does in D. rewrite U in D. destruct D as (full & A & E & _). rewrite (E (proj2 Tu)) in *.
    exists pr, (ad_header a1), full. split; [exact Us|]. split; [exact A|]. split; [exact Rr|]. split; [exact Rd|]. unfold header_inv in Hi. cbn [with_header o_last_header] in Hi.
    split; [|split; [|exact St]]; intros X; rewrite switched_iff in X.
    - destruct (existsb _ _); [contradiction X; reflexivity|apply Hi].
    - rewrite X in Hi. exact Hi.
  Qed.
  (* a question to the adapter (ELM_VERSION, ELM_VOLTAGE), and a query that is not sent, leave the car alone *)
Theorem C87_untouched : forall cf name scan w h o w1 x a s p c force t r o' a' s' p',
    together cf name scan w h o w1 x (a, s, p) -> cf_fast cf = false -> Forall ordinary h ->
    queried c force o w1 (a, s, p) t r o' (a', s', p') -> header_ok (plain (c_header c)) = true ->
    (understand (c_command c) = KHarmless /\ c_fast c = false) \/ obd_status o = NOT_CONNECTED \/ ~ may_send o c force -> s' = s.
  Proof.
    intros cf name scan w h o w1 x a s p c force t r o' a' s' p' To Fa Od Q Hk H.
    assert (Un : obd_status o = NOT_CONNECTED \/ ~ may_send o c force -> s' = s).
    { intros N. destruct To as (t0 & S & F). destruct Q as (w2 & Q & T & F2). destruct (session_query _ _ _ _ _ _ _ _ _ _ _ _ _ _ S Q T) as (_ & _ & Qr).
      destruct (query_not_sent _ _ _ _ _ _ Qr N) as (_ & -> & _). inversion F2; subst. reflexivity. }
    destruct H as [H|H]; [|auto]. destruct (status_eqb (obd_status o) NOT_CONNECTED) eqn:E; [apply status_eqb_eq in E; auto|].
    assert (Con : obd_status o <> NOT_CONNECTED) by (intros X; apply status_eqb_eq in X; congruence).
    assert (OI : oinv o) by (destruct To as (t0 & S & _); apply session_oinv in S; apply S). destruct (may_send_dec o c force OI Con) as [Ms|Ns]; [|auto].
    destruct (sent false _ _ _ _ _ _ _ _ _ _ _ _ _ _ _ _ _ To Od ltac:(discriminate) ltac:(auto) Q (conj Hk (or_intror H)) Con Ms)
      as (pr & a1 & lines & a2 & s2 & Y & Us & Rr & Rd & Tu & Hi & D & St & Ff). injection Y as -> -> ->.
    unfold full_string in D. rewrite Ff, Fa in D. cbn [andb] in D. unfold does in D. rewrite (proj1 H) in D. apply D.
  Qed.
  (* in between the adapter is set up: no echo, headers printed, and the header in force is the one it starts with as long as no other was needed *)
Theorem C87_settings : forall cf name scan w h o w1 x a s p,
    together cf name scan w h o w1 x (a, s, p) -> cf_fast cf = false \/ Forall plainly h -> Forall ordinary h -> obd_status o <> NOT_CONNECTED ->
    ad_echo a = false /\ ad_headers a = true /\ (~ switched h -> ad_header a = None) /\ (switched h -> ad_header a = Some (plain (o_last_header o))).
  Proof.
    intros cf name scan w h o w1 x a s p (t0 & S & F) Fa Od Con.
    assert (U : exists b, usable o a (existsb step_switches h) b).
    { destruct Fa as [Fa|Fa]; [exists false|exists true]; eapply (session_usable ask _ cf name scan w t0 h o w1 x a s p S Od); eauto; discriminate. }
    destruct U as (b & U). destruct (U Con) as (_ & Tu & Hi & _). split; [apply Tu|]. split; [apply Tu|]. unfold header_inv in Hi. rewrite switched_iff. split; intros X.
    - destruct (existsb _ _); [contradiction X; reflexivity|apply Hi].
    - rewrite X in Hi. exact Hi.
  Qed.
  (* and the connection is never lost *)
Theorem C87_stays : forall cf name scan w h o w1 x y, together cf name scan w h o w1 x y -> cf_fast cf = false -> Forall ordinary h ->
    exists o0 w0, new_obd cf (Some name) scan w = (Ok tt, (o0, w0)) /\ obd_status o = obd_status o0.
  Proof. intros cf name scan w h o w1 x y (t0 & S & F) Fa Od. exact (session_status ask _ _ _ _ _ _ _ _ _ _ S Od Fa F). Qed.

  (* ---------------------------------------------------------------- C88 *)
  (* as long as only commands with the engine's header are queried, every request goes to all ECUs *)
Theorem C88_broadcast_partial : forall cf name scan w h o w1 x a s p c force t r o' a' s' p' req,
    together cf name scan w h o w1 x (a, s, p) -> cf_fast cf = false -> Forall ordinary h -> Forall (fun y => forall c f, st_op y = OpQuery c f -> c_header c = engine_header) h ->
    queried c force o w1 (a, s, p) t r o' (a', s', p') -> c_header c = engine_header -> understand (c_command c) = KRequest req ->
    obd_status o <> NOT_CONNECTED -> may_send o c force ->
    exists pr lines, uses o pr /\ ask s None req lines s' /\ r = made_of pr c lines /\ (forall q, r = Ok q -> reading c pr lines q).
  Proof.
    intros cf name scan w h o w1 x a s p c force t r o' a' s' p' req To Fa Od En Q Hc U Con Ms.
    assert (Hk : header_ok (plain (c_header c)) = true) by (rewrite Hc; reflexivity).
    destruct (C87_reading _ _ _ _ _ _ _ _ _ _ _ _ _ _ _ _ _ _ _ _ To Fa Od Q Hk U Con Ms) as (pr & hd & lines & Us & A & Rr & Rd & H1 & H2 & _).
    assert (Ns : ~ switched (h ++ [as_step c force t r])).
    { intros (y & c0 & f & I & E & N & _). apply in_app_or in I as [I|[<-|[]]]; [rewrite Forall_forall in En; exact (N (En y I c0 f E))|]. injection E as <- <-. exact (N Hc). }
    rewrite (H1 Ns) in A. eauto 10.
  Qed.
  (* and from the first command with another header on, every request goes to the header of its command *)
Theorem C88_addressed_partial : forall cf name scan w h o w1 x a s p c force t r o' a' s' p' req,
    together cf name scan w h o w1 x (a, s, p) -> cf_fast cf = false -> Forall ordinary h -> switched h ->
    queried c force o w1 (a, s, p) t r o' (a', s', p') -> header_ok (plain (c_header c)) = true -> understand (c_command c) = KRequest req ->
    obd_status o <> NOT_CONNECTED -> may_send o c force ->
    exists pr lines, uses o pr /\ ask s (Some (plain (c_header c))) req lines s' /\ r = made_of pr c lines /\ (forall q, r = Ok q -> reading c pr lines q).
  Proof.
    intros cf name scan w h o w1 x a s p c force t r o' a' s' p' req To Fa Od Sw Q Hk U Con Ms.
    destruct (C87_reading _ _ _ _ _ _ _ _ _ _ _ _ _ _ _ _ _ _ _ _ To Fa Od Q Hk U Con Ms) as (pr & hd & lines & Us & A & Rr & Rd & H1 & H2 & _).
    rewrite H2 in A; [eauto 10|]. destruct Sw as (y & c0 & f & I & X). exists y, c0, f. split; [apply in_or_app; auto|exact X].
  Qed.

  (* ---------------------------------------------------------------- C89 *)
  (* with fast=True, commands with the engine's header whose queries return: the request, sent to all ECUs, is the command's own if no count is recorded (or the command is
     not to be sped up); if a count of one digit is recorded, it is the command's own too, but only as many lines of the answer are used *)
Theorem C89_fast_partial : forall cf name scan w h o w1 x a s p c force t r o' a' s' p' req,
    together cf name scan w h o w1 x (a, s, p) -> Forall plainly h ->
    queried c force o w1 (a, s, p) t r o' (a', s', p') -> c_header c = engine_header -> understand (c_command c) = KRequest req ->
    obd_status o <> NOT_CONNECTED -> may_send o c force ->
    (cf_fast cf = false \/ c_fast c = false \/ unrecorded o c -> exists pr lines, uses o pr /\ ask s None req lines s' /\ r = made_of pr c lines /\ (forall q, r = Ok q -> reading c pr lines q))
    /\ (forall n, cf_fast cf = true -> c_fast c = true -> recorded o c n -> (1 <= n <= 9)%nat ->
          exists pr lines, uses o pr /\ ask s None req lines s' /\ r = made_of pr c (firstn n lines) /\ (forall q, r = Ok q -> reading c pr (firstn n lines) q)).
  Proof.
    intros cf name scan w h o w1 x a s p c force t r o' a' s' p' req To Pl Q Hc U Con Ms.
    assert (Hk : header_ok (plain (c_header c)) = true) by (rewrite Hc; reflexivity). assert (Od : Forall ordinary h) by (eapply Forall_impl; [|exact Pl]; intros y Y; apply Y).
    destruct (sent true _ _ _ _ _ _ _ _ _ _ _ _ _ _ _ _ _ To Od (fun _ => conj Pl Hc) ltac:(discriminate) Q (conj Hk (or_introl (ex_intro _ _ U))) Con Ms)
      as (pr & a1 & lines & a2 & s2 & Y & Us & Rr & Rd & Tu & Hi & D & St & Ff). injection Y as -> -> ->.
    assert (Ns : existsb step_switches (h ++ [as_step c force t r]) = false).
    { destruct (existsb _ _) eqn:Ex; [|reflexivity]. apply switched_iff in Ex. destruct Ex as (y & c0 & f & I & E & N & _). apply in_app_or in I as [I|[<-|[]]].
      - rewrite Forall_forall in Pl. destruct (Pl y I) as (_ & X). rewrite E in X. destruct (N (proj1 X)).
      - injection E as <- <-. destruct (N Hc). }
    rewrite Ns in Hi. destruct Hi as [Hn _]. split.
    - intros H. assert (E : full_string o c = c_command c).
      { unfold full_string. rewrite Ff. destruct H as [H|[H|H]]; [rewrite H; reflexivity|rewrite H, andb_false_r; reflexivity|unfold unrecorded in H; rewrite H; destruct (_ && _); reflexivity]. }
      rewrite E in D. unfold does in D. rewrite U, Hn in D. destruct D as (full & A & X & _). rewrite (X (proj2 Tu)) in *. eauto 10.
    - intros n H1 H2 H3 B. unfold recorded in H3. assert (E : full_string o c = c_command c ++ str_nat n) by (unfold full_string; rewrite Ff, H1, H2, H3; reflexivity).
      assert (Sn : str_nat n = [48 + Z.of_nat n]) by (do 10 (destruct n as [|n]; [first [lia|reflexivity]|]); lia).
      assert (Un : understand (c_command c ++ str_nat n) = KCounted req (Z.of_nat n)).
      { rewrite (understand_count _ _ _ U (proj1 (proj2 (str_nat_decimal n)))). rewrite Sn. cbn [List.length Nat.even]. rewrite removelast_last, last_last. f_equal. unfold hexdigit_value.
        destruct (Z.leb_spec (48 + Z.of_nat n) 57); lia. }
      rewrite E in D. unfold does in D. rewrite Un, Hn in D. destruct D as (full & A & X & _). rewrite (X (proj2 Tu) ltac:(lia)), Nat2Z.id in *. eauto 10.
  Qed.
End Car.

(* ------------------------------------------------------------------ examples and refutations *)
Definition new_adapter : adapter := mkAdapter true false None [].
Lemma play_ops ops : forall s, map st_op (fst (play ops s)) = ops.
Proof. induction ops as [|p ps IH]; intros s; [reflexivity|]. cbn [play]. destruct (run_op p s) as [r s1]. specialize (IH s1). destruct (play ps s1) as [h s2]. cbn [fst map st_op] in *. rewrite IH. reflexivity. Qed.
(* a query returned; there was port activity *)
Definition went (x : step) : bool * bool :=
  (match st_op x, st_result x with OpQuery _ _, Ok (Some _) => true | OpQuery _ _, _ => false | _, _ => true end, match st_events x with [] => false | _ => true end).
(* OBD("p", ...) with these answers, these calls, and a query of c; the adapter and the car after the calls and after the query, the status in between, the value, how
   the calls went, and the count recorded before the query *)
Section Scene.
  Context {Car : Type} (f : Car -> option text -> text -> list text * Car).
  Definition scene (cf : config) (s0 : Car) (ans : list (option bytes)) (ops : list op) (c : command) :
      bool * option (adapter * Car) * option (adapter * Car) * status * option value * list (bool * bool) * option nat :=
    let n := new_obd cf (Some (str "p")) [] (fresh ans) in
    let s := play ops (snd n) in
    let t0 := w_trace (snd (snd n)) in
    let q := query c true (snd s) in
    let t := skipn (List.length (w_trace (snd (snd s)))) (w_trace (snd (snd q))) in
    let y := follows_c f new_adapter s0 (t0 ++ List.concat (map st_events (fst s))) in
    (match fst n with Ok _ => true | _ => false end, y, match y with Some (a, c1) => follows_c f a c1 t | None => None end, obd_status (fst (snd s)),
     match fst q with Ok r => Some (r_value r) | Raise _ => None end,
     map went (fst s), dict_get cmd_eqb (o_frame_counts (fst (snd s))) c).
  Lemma scene_facts cf s0 ans ops c a1 s1 a2 s2 st v l k : scene cf s0 ans ops c = (true, Some (a1, s1), Some (a2, s2), st, Some v, l, k) ->
    exists h o w1 t q o', together (answers f) cf (str "p") [] (fresh ans) h o w1 (new_adapter, s0, []) (a1, s1, []) /\ obd_status o = st
      /\ queried (answers f) c true o w1 (a1, s1, []) t (Ok q) o' (a2, s2, []) /\ r_value q = v /\ map st_op h = ops
      /\ l = map went h /\ dict_get cmd_eqb (o_frame_counts o) c = k.
  Proof.
    unfold scene. intros H. do 6 (let D := fresh "D" in apply pair_equal_spec in H as [H D]).
    destruct (new_obd cf (Some (str "p")) [] (fresh ans)) as [r0 s00] eqn:N. cbn [fst snd] in *.
    assert (r0 = Ok tt) by (destruct r0 as [[]|]; [reflexivity|discriminate H]). subst r0.
    pose proof (play_session cf (fresh ans) ops eq_refl ltac:(rewrite N; reflexivity)) as S. unfold outcome in S. rewrite N in S. cbn [fst snd] in S.
    pose proof (play_ops ops s00) as Po. destruct (play ops s00) as [h [o w1]]. cbn [fst snd] in *.
    destruct (query c true (o, w1)) as [r [o' w2]] eqn:Q. cbn [fst snd] in *. destruct r as [q|]; [|discriminate D1]. injection D1 as D1.
    rewrite D4 in D3. pose proof (session_oinv _ _ _ _ _ _ _ _ S) as (OI & _). destruct (query_spec _ _ _ _ _ _ _ OI Q) as (t & T & _).
    rewrite T, skipn_app, skipn_all, Nat.sub_diag in D3. cbn [skipn app] in D3.
    exists h, o, w1, t, q, o'. split; [exists (w_trace (snd s00)); split; [exact S|apply follows_check; exact D4]|]. split; [exact D2|].
    split; [exists w2; split; [exact Q|split; [exact T|apply follows_check; exact D3]]|]. auto.
  Qed.
End Scene.

(* the start of all of them: ATZ, ATE0, ATH1, ATL0, ATTP6, 0100, and the three listings *)
Definition start_up : list (option bytes) :=
  [says (str "ELM327 v1.5"); says (str "OK"); says (str "OK"); says (str "OK"); says (str "OK"); says (str "7E8 06 41 00 00 00 00 00");
   says (str "7E8 06 41 00 00 00 00 00"); says (str "NO DATA"); says (str "NO DATA")].
Definition several (ls : list text) : option bytes := says (join [13] ls).
Definition is_req (req : text) (s : String.string) : bool := text_eqb req (str s).
Arguments is_req _ _%string_scope.
(* ---- a car with two ECUs that report trouble codes ---- *)
Definition codes_of_both : list text := [str "7E8 04 43 01 01 33"; str "7E9 04 43 01 07 00"].
Definition codes_of_one : list text := [str "7E8 04 43 01 01 33"].
Definition car1 (s : unit) (h : option text) (req : text) : list text * unit :=
  (if is_req req "0100" then [str "7E8 06 41 00 00 00 00 00"]
   else if is_req req "03" then match h with None => codes_of_both | Some h => if is_req h "7E0" then codes_of_one else [str "NO DATA"] end
   else if is_req req "2101" then match h with Some h => if is_req h "7E1" then [str "7E9 03 61 01 05"] else [str "NO DATA"] | None => [str "NO DATA"] end
   else [str "NO DATA"], tt).
Definition gearbox : command := other "GEARBOX" "2101" "7E1".
Definition codes (v : value) : list text := match v with VDtcs l => map fst l | _ => [] end.
Lemma gearbox_proper : proper gearbox. Proof. split; [reflexivity|]. left. eexists. reflexivity. Qed.
(* asked before and after a query of another command with another header, in the same state of the car: trouble codes of both ECUs, and of only one *)
Theorem C88_history_refuted : exists (cf : config) w1 w2 h1 h2 o1 o2 w1' w2' y1 y2 t1 t2 q1 q2 o1' o2' z1 z2,
  let c := cmd "GET_DTC" in let x := (new_adapter, tt, []) in
  together (answers car1) cf (str "p") [] w1 h1 o1 w1' x y1 /\ together (answers car1) cf (str "p") [] w2 h2 o2 w2' x y2
  /\ cf_fast cf = false /\ Forall ordinary h1 /\ Forall ordinary h2 /\ switched h2 /\ map st_op h1 = [] /\ map st_op h2 = [OpQuery gearbox true]
  /\ obd_status o1 = CAR_CONNECTED /\ obd_status o2 = CAR_CONNECTED
  /\ queried (answers car1) c true o1 w1' y1 t1 (Ok q1) o1' z1 /\ queried (answers car1) c true o2 w2' y2 t2 (Ok q2) o2' z2
  /\ codes (r_value q1) = [str "P0133"; str "P0700"] /\ codes (r_value q2) = [str "P0133"].
Proof.
  assert (E1 : exists a1 a2 v, scene car1 (setup false) tt (start_up ++ [several codes_of_both]) [] (cmd "GET_DTC") = (true, Some (a1, tt), Some (a2, tt), CAR_CONNECTED, Some v, [], None) /\ codes v = [str "P0133"; str "P0700"]).
  { eexists _, _, _. split; [vm_compute; reflexivity|vm_compute; reflexivity]. }
  assert (E2 : exists a1 a2 v, scene car1 (setup false) tt (start_up ++ [says (str "OK"); says (str "7E9 03 61 01 05"); says (str "OK"); several codes_of_one]) [OpQuery gearbox true] (cmd "GET_DTC")
    = (true, Some (a1, tt), Some (a2, tt), CAR_CONNECTED, Some v, [(true, true)], None) /\ codes v = [str "P0133"]).
  { eexists _, _, _. split; [vm_compute; reflexivity|vm_compute; reflexivity]. }
  destruct E1 as (a1 & a2 & v & E1 & C1), E2 as (b1 & b2 & v' & E2 & C2).
  destruct (scene_facts _ _ _ _ _ _ _ _ _ _ _ _ _ _ E1) as (h1 & o1 & w1 & t1 & q1 & o1' & T1 & S1 & Q1 & V1 & M1 & _).
  destruct (scene_facts _ _ _ _ _ _ _ _ _ _ _ _ _ _ E2) as (h2 & o2 & w2 & t2 & q2 & o2' & T2 & S2 & Q2 & V2 & M2 & L2 & _).
  assert (O1 : h1 = []) by (destruct h1; [reflexivity|discriminate M1]).
  assert (O2 : Forall ordinary h2) by (destruct h2 as [|x [|y h2]]; try discriminate M2; injection M2 as M2; constructor; [unfold ordinary; rewrite M2; exact gearbox_proper|constructor]).
  assert (Sw : switched h2).
  { destruct h2 as [|x [|y h2]]; try discriminate M2. cbn [map] in M2, L2. assert (Mx : st_op x = OpQuery gearbox true) by congruence. exists x, gearbox, true. split; [left; reflexivity|]. split; [exact Mx|].
    split; [discriminate|]. unfold went in L2. intros X. rewrite X in L2. congruence. }
  eexists _, _, _, h1, h2, o1, o2, w1, w2, _, _, t1, t2, q1, q2, o1', o2', _, _. cbv zeta.
  split; [exact T1|]. split; [exact T2|]. split; [reflexivity|]. split; [rewrite O1; constructor|]. split; [exact O2|]. split; [exact Sw|]. split; [exact M1|]. split; [exact M2|]. split; [exact S1|]. split; [exact S2|].
  split; [exact Q1|]. split; [exact Q2|]. split; [rewrite V1; exact C1|rewrite V2; exact C2].
Qed.
Lemma unswitched c force t r : c_header c = engine_header -> ~ switched ([] ++ [as_step c force t r]).
Proof. intros H (y & c0 & f & [<-|[]] & E & N & _). cbn [as_step st_op] in E. assert (X : c0 = c) by congruence. subst c0. exact (N H). Qed.
(* a case of C87: trouble codes of both ECUs, from one request to all *)
Example C87_example : exists w h o w1 a s p t q o' z, let c := cmd "GET_DTC" in
  together (answers car1) (setup false) (str "p") [] w h o w1 (new_adapter, tt, []) (a, s, p) /\ cf_fast (setup false) = false /\ Forall ordinary h
  /\ queried (answers car1) c true o w1 (a, s, p) t (Ok q) o' z /\ header_ok (plain (c_header c)) = true /\ understand (c_command c) = KRequest (str "03")
  /\ obd_status o <> NOT_CONNECTED /\ may_send o c true /\ ~ switched (h ++ [as_step c true t (Ok q)]) /\ codes (r_value q) = [str "P0133"; str "P0700"].
Proof.
  assert (E1 : exists a1 a2 v, scene car1 (setup false) tt (start_up ++ [several codes_of_both]) [] (cmd "GET_DTC") = (true, Some (a1, tt), Some (a2, tt), CAR_CONNECTED, Some v, [], None) /\ codes v = [str "P0133"; str "P0700"]).
  { eexists _, _, _. split; [vm_compute; reflexivity|vm_compute; reflexivity]. }
  destruct E1 as (a1 & a2 & v & E1 & C1). destruct (scene_facts _ _ _ _ _ _ _ _ _ _ _ _ _ _ E1) as (h1 & o1 & w1 & t1 & q1 & o1' & T1 & S1 & Q1 & V1 & M1 & _).
  assert (O1 : h1 = []) by (destruct h1; [reflexivity|discriminate M1]). subst h1.
  eexists _, [], o1, w1, _, _, _, t1, q1, o1', _. cbv zeta. split; [exact T1|]. split; [reflexivity|]. split; [constructor|]. split; [exact Q1|]. split; [vm_compute; reflexivity|]. split; [vm_compute; reflexivity|].
  split; [rewrite S1; discriminate|]. split; [left; reflexivity|]. split; [|rewrite V1; exact C1].
  apply unswitched. vm_compute. reflexivity.
Qed.

(* ---- a car in which, from the second request on, another ECU answers too, and first ---- *)
Definition car2 (s : nat) (h : option text) (req : text) : list text * nat :=
  if is_req req "0100" then ([str "7E8 06 41 00 00 00 00 00"], s)
  else if is_req req "010C" then (match s with O => [str "7E8 04 41 0C 1A F8"] | _ => [str "7E9 04 41 0C 00 00"; str "7E8 04 41 0C 1A F8"] end, Datatypes.S s)
  else ([str "NO DATA"], s).
(* ---- and one with four calibration ids (of 16 bytes, in ten frames) ---- *)
Definition calibration : list text :=
  [str "7E8 10 43 49 04 04 41 42 43"; str "7E8 21 44 45 46 47 48 49 4A"; str "7E8 22 4B 4C 4D 4E 4F 50 51"; str "7E8 23 52 53 54 55 56 57 58"; str "7E8 24 59 5A 41 42 43 44 45";
   str "7E8 25 46 47 48 49 4A 4B 4C"; str "7E8 26 4D 4E 4F 50 51 52 53"; str "7E8 27 54 55 56 57 58 59 5A"; str "7E8 28 41 42 43 44 45 46 47"; str "7E8 29 48 49 4A 4B 4C 00 00"].
Definition car3 (s : unit) (h : option text) (req : text) : list text * unit :=
  (if is_req req "0100" then [str "7E8 06 41 00 00 00 00 00"] else if is_req req "0904" then calibration else [str "NO DATA"], tt).
(* fast=True and fast=False, with the same car, the same calls, and the same query in the same state of the car: two different values *)
Definition fast_differs {Car : Type} (f : Car -> option text -> text -> list text * Car) (s0 : Car) (ops : list op) (c : command) (v1 v2 : value) : Prop :=
  exists w1 w2 h1 h2 o1 o2 w1' w2' a1 a2 s t1 t2 q1 q2 o1' o2' z1 z2, let x := (new_adapter, s0, []) in
  together (answers f) (setup true) (str "p") [] w1 h1 o1 w1' x (a1, s, []) /\ together (answers f) (setup false) (str "p") [] w2 h2 o2 w2' x (a2, s, [])
  /\ map st_op h1 = ops /\ map st_op h2 = ops /\ Forall plainly h1 /\ Forall plainly h2 /\ obd_status o1 = CAR_CONNECTED /\ obd_status o2 = CAR_CONNECTED
  /\ queried (answers f) c true o1 w1' (a1, s, []) t1 (Ok q1) o1' z1 /\ queried (answers f) c true o2 w2' (a2, s, []) t2 (Ok q2) o2' z2
  /\ r_value q1 = v1 /\ r_value q2 = v2.
Definition asks_engine (p : op) : Prop := match p with OpQuery c _ => proper c /\ c_header c = engine_header | _ => False end.
Lemma plainly_ops ops h : Forall asks_engine ops -> map st_op h = ops ->
  map went h = repeat (true, true) (List.length ops) -> Forall plainly h.
Proof.
  intros F <-. induction h as [|x h IH]; intros H; [constructor|]. cbn [map] in F, H. inversion F as [|? ? F1 F2]; subst. cbn [List.length repeat] in H. injection H as H1 _ H2. constructor; [|exact (IH F2 H2)].
  unfold plainly, ordinary. destruct (st_op x); try contradiction. destruct F1 as [P E]. split; [exact P|]. split; [exact E|]. destruct (st_result x) as [[q|]|]; try discriminate H1. eauto.
Qed.
Lemma show_differs {Car : Type} (f : Car -> option text -> text -> list text * Car) s0 ans1 ans2 ops c a1 a2 s b1 b2 s1 s2 v1 v2 n : Forall asks_engine ops ->
  scene f (setup true) s0 ans1 ops c = (true, Some (a1, s), Some (b1, s1), CAR_CONNECTED, Some v1, repeat (true, true) (List.length ops), Some n) ->
  scene f (setup false) s0 ans2 ops c = (true, Some (a2, s), Some (b2, s2), CAR_CONNECTED, Some v2, repeat (true, true) (List.length ops), Some n) -> fast_differs f s0 ops c v1 v2.
Proof.
  intros Fe E1 E2.
  destruct (scene_facts _ _ _ _ _ _ _ _ _ _ _ _ _ _ E1) as (h1 & o1 & w1 & t1 & q1 & o1' & T1 & S1 & Q1 & V1 & M1 & L1 & K1).
  destruct (scene_facts _ _ _ _ _ _ _ _ _ _ _ _ _ _ E2) as (h2 & o2 & w2 & t2 & q2 & o2' & T2 & S2 & Q2 & V2 & M2 & L2 & K2).
  eexists _, _, h1, h2, o1, o2, w1, w2, a1, a2, s, t1, t2, q1, q2, o1', o2', _, _. cbv zeta. symmetry in L1, L2.
  split; [exact T1|]. split; [exact T2|]. split; [exact M1|]. split; [exact M2|]. split; [exact (plainly_ops _ _ Fe M1 L1)|]. split; [exact (plainly_ops _ _ Fe M2 L2)|].
  split; [exact S1|]. split; [exact S2|]. split; [exact Q1|]. split; [exact Q2|]. auto.
Qed.
Lemma rpm_engine : asks_engine rpm.
Proof. split; [split; [vm_compute; reflexivity|left; eexists; vm_compute; reflexivity]|vm_compute; reflexivity]. Qed.
Lemma cal_engine : asks_engine (OpQuery (cmd "CALIBRATION_ID") true).
Proof. split; [split; [vm_compute; reflexivity|left; eexists; vm_compute; reflexivity]|vm_compute; reflexivity]. Qed.
(* a case of C89_fast_partial: a count of 1 is recorded *)
Example C89_example : exists w h o w1 a s t q o' z, let c := cmd "RPM" in
  together (answers car2) (setup true) (str "p") [] w h o w1 (new_adapter, O, []) (a, s, []) /\ Forall plainly h /\ map st_op h = [rpm]
  /\ queried (answers car2) c true o w1 (a, s, []) t (Ok q) o' z /\ c_header c = engine_header /\ understand (c_command c) = KRequest (str "010C")
  /\ obd_status o <> NOT_CONNECTED /\ may_send o c true /\ recorded o c 1 /\ c_fast c = true.
Proof.
  assert (E1 : exists a1 a2 v, scene car2 (setup true) O (start_up ++ [several [str "7E8 04 41 0C 1A F8"]; several [str "7E9 04 41 0C 00 00"]]) [rpm] (cmd "RPM")
    = (true, Some (a1, 1%nat), Some (a2, 2%nat), CAR_CONNECTED, Some v, repeat (true, true) (List.length [rpm]), Some 1%nat)).
  { eexists _, _, _. vm_compute; reflexivity. }
  destruct E1 as (a1 & a2 & v & E1). destruct (scene_facts _ _ _ _ _ _ _ _ _ _ _ _ _ _ E1) as (h1 & o1 & w1 & t1 & q1 & o1' & T1 & S1 & Q1 & V1 & M1 & L1 & K1). symmetry in L1.
  eexists _, h1, o1, w1, _, _, t1, q1, o1', _. cbv zeta. split; [exact T1|]. split; [exact (plainly_ops [rpm] _ (Forall_cons _ rpm_engine (Forall_nil _)) M1 L1)|]. split; [exact M1|]. split; [exact Q1|].
  split; [vm_compute; reflexivity|]. split; [vm_compute; reflexivity|]. split; [rewrite S1; discriminate|]. split; [left; reflexivity|]. split; [exact K1|vm_compute; reflexivity].
Qed.
(* the one line waited for is the other ECU's: the engine's revolutions are lost *)
Theorem C89_other_ecu_refuted : exists v, fast_differs car2 O [rpm] (cmd "RPM") VNone v /\ v <> VNone.
Proof.
  eexists. split.
  - eapply (show_differs car2 O (start_up ++ [several [str "7E8 04 41 0C 1A F8"]; several [str "7E9 04 41 0C 00 00"]])
      (start_up ++ [several [str "7E8 04 41 0C 1A F8"]; several [str "7E9 04 41 0C 00 00"; str "7E8 04 41 0C 1A F8"]])).
    + constructor; [exact rpm_engine|constructor].
    + vm_compute. reflexivity.
    + vm_compute. reflexivity.
  - discriminate.
Qed.
(* the count has two digits, which make another request: 090410 (to which the car has no data; the value is an empty bytearray then) *)
Theorem C89_ten_frames_refuted : exists v, fast_differs car3 tt [OpQuery (cmd "CALIBRATION_ID") true] (cmd "CALIBRATION_ID") (VBytes []) v /\ v <> VBytes [].
Proof.
  eexists. split.
  - eapply (show_differs car3 tt (start_up ++ [several calibration; several [str "NO DATA"]]) (start_up ++ [several calibration; several calibration])).
    + constructor; [exact cal_engine|constructor].
    + vm_compute. reflexivity.
    + vm_compute. reflexivity.
  - discriminate.
Qed.
