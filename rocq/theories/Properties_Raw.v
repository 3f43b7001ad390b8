(* C95: the messages of a response show the adapter's own lines.
   Specification: SpecRaw.v (and SpecWire.v for hex lines, SpecE2E.v for readings). Proofs: RawThms.v. *)
From Coq Require Import ZArith List Bool Lia Sorted String.
From Verif Require Import Py Utils Protocol Decoders Command CommandTable Commands Elm Obd SpecWire SpecProto SpecBits SpecE2E WireFacts UtilsThms EcuMapThms E2EThms4 SpecRaw RawThms
  Properties_Protocol Properties_Decoders Properties_EndToEnd.
Import ListNotations.
Open Scope list_scope. Open Scope Z_scope.
Ltac Zify.zify_post_hook ::= Z.div_mod_to_equations.

(* Parsing any lines with any protocol: each message shows, one below the other and in the order of arrival, lines that were received; no line
   is shown by two messages or twice; and every line that is not hex is the raw() of a message of its own. *)
Theorem C95_parse : forall p lines ms, In (p_class p) protocol_classes \/ p_class p = UnknownProtocol -> call p lines = Ok ms ->
  exists places, made_of lines ms places /\ (forall i l, nth_error lines i = Some l -> ~ hex_line l -> In [i] places).
Proof. intros p lines ms Hp. apply call_made_of, classes_ok', Hp. Qed.
(* The messages of the response to any query, in any session: the same about the lines received after the last line was written. *)
Theorem C95_response : forall c p lines q, reading c p lines q -> exists places, made_of lines (r_messages q) places.
Proof.
  intros c p lines q R. destruct (reading_call _ _ _ _ R) as (Hp & ms & C & V). destruct (C95_parse _ _ _ Hp C) as (places & M & _).
  destruct V as [[-> ->]|[N V]]; [exists []; split; constructor|]. destruct (cmd_made_of _ _ _ _ _ V M) as (pl & X & _). exists pl. exact X.
Qed.
(* so every line of a message was received *)
Theorem C95_received : forall c p lines q m, reading c p lines q -> In m (r_messages q) ->
  exists ls, ls <> [] /\ m_raw m = join [10] ls /\ Forall (fun s => exists l, In l lines /\ appears l s) ls.
Proof.
  intros c p lines q m R I. destruct (C95_response _ _ _ _ R) as (places & F & _).
  induction F as [|m' pl ms pls (X1 & X2 & ss & X3 & X4) F IH]; [destruct I|]. destruct I as [->|I]; [|apply IH; exact I].
  exists ss. split; [|split; [exact X4|]].
  - intros ->. apply X1. inversion X3. reflexivity.
  - clear -X3. induction X3 as [|i s pl ss (l & L1 & L2) F IH]; constructor; [|exact IH]. exists l. split; [apply nth_error_In in L1; exact L1|exact L2].
Qed.
(* the value of a command that is decoded with raw_string is the text of its messages *)
Theorem C95_raw_string : forall c p lines q, c_decode c = D_raw_string -> reading c p lines q -> r_messages q <> [] ->
  r_value q = VText (join [10] (map m_raw (r_messages q))).
Proof.
  intros c p lines q D R N. destruct (reading_call _ _ _ _ R) as (Hp & ms & C & V). destruct V as [[-> ->]|[Nm V]]; [exfalso; apply N; reflexivity|].
  pose proof (cmd_call_messages _ _ _ V) as E. rewrite E in *. unfold cmd_call in V. set (l := map _ _) in *. destruct l; [exfalso; apply N; reflexivity|].
  cbn [nonempty] in V. rewrite D in V. cbn [run_decoder rbind] in V. unfold dec_raw_string in V. cbn [rbind] in V. injection V as <-. reflexivity.
Qed.
(* hex() of a message shows its data, two digits a byte, without spaces (docs/Custom Commands.md:73-82) *)
Lemma hex_shows d : Forall is_byte d -> shows (bytes_to_hex d) (nibbles d) /\ ~ In 32 (bytes_to_hex d).
Proof.
  intros F. rewrite (bytes_to_hex_eq d F). induction F as [|b d B F [IH1 IH2]]; [split; [constructor|intros []]|].
  cbn [flat_map app nibbles]. fold (nibbles d). unfold is_byte in B.
  assert (G : forall x, 0 <= x < 16 -> digit_char x (lower_digit x) /\ lower_digit x <> 32).
  { intros x Bx. unfold lower_digit, digit_char. destruct (Z.ltb_spec x 10); lia. }
  destruct (G (b / 16) ltac:(lia)) as [G1 G2]. destruct (G (b mod 16) ltac:(lia)) as [G3 G4].
  split; [apply shows_digit; [exact G1|apply shows_digit; [exact G3|exact IH1]]|]. intros [H|[H|H]]; [exact (G2 H)|exact (G4 H)|exact (IH2 H)].
Qed.
Theorem C95_hex : forall c p lines q m, reading c p lines q -> In m (r_messages q) -> shows (m_hex m) (nibbles (m_data m)) /\ ~ In 32 (m_hex m).
Proof.
  intros c p lines q m R I. apply hex_shows. destruct (reading_call _ _ _ _ R) as (Hp & ms & C & V). destruct V as [[-> ->]|[N V]]; [destruct I|].
  rewrite (cmd_call_messages _ _ _ V) in I. apply in_map_iff in I as (m0 & <- & I). apply filter_In in I as [I _].
  pose proof (call_bytes _ _ _ _ (classes_ok' _ Hp) C) as B. rewrite Forall_forall in B. specialize (B _ I). unfold constrain.
  destruct (0 <? c_bytes c); [|exact B]. destruct (_ <? _); [cbn [m_data]; unfold upto; apply Forall_forall; intros x Hx; rewrite Forall_forall in B; apply B|].
  - rewrite <- (firstn_skipn (Z.to_nat (c_bytes c)) (m_data m0)). apply in_or_app. left. exact Hx.
  - destruct (_ <? _); [|exact B]. cbn [m_data]. apply Forall_app. split; [exact B|]. apply Forall_forall. intros x Hx. apply repeat_spec in Hx. subst. unfold is_byte. lia.
Qed.

(* three ECUs answer, one of them in two frames that arrive interleaved with the others and in the wrong order, one line is text *)
Definition answer95 : list text :=
  [str "7E8 21 33 34 35 36 37 38 39"; str "7E9 04 49 02 01 41"; str "BUS BUSY"; str "7E8 10 0A 49 02 01 31 32 33"; str "7EA 01"].
Example C95_example : exists ms, call can11 answer95 = Ok ms /\ made_of answer95 ms [[0; 3]; [1]; [2]]%nat /\
  map m_raw ms = [str "7E82133343536373839" ++ [10] ++ str "7E8100A490201313233"; str "7E90449020141"; str "BUS BUSY"] /\
  map m_hex ms = [str "49020131323333343536"; str "49020141"; []].
Proof.
  assert (H7 : forall l, isHex (no_spaces l) = true -> hex_line l) by (intros l; apply hex_line_isHex).
  eexists. split; [vm_compute; reflexivity|]. split; [|split; vm_compute; reflexivity].
  split; [|vm_compute; repeat constructor; cbn; lia].
  constructor; [|constructor; [|constructor; [|constructor]]].
  - split; [discriminate|]. split; [repeat constructor|]. exists [str "7E82133343536373839"; str "7E8100A490201313233"]. split; [|vm_compute; reflexivity].
    constructor; [|constructor; [|constructor]]; (eexists; split; [reflexivity|]; left; split; [apply H7; vm_compute; reflexivity|vm_compute; reflexivity]).
  - split; [discriminate|]. split; [repeat constructor|]. exists [str "7E90449020141"]. split; [|vm_compute; reflexivity].
    constructor; [|constructor]. eexists; split; [reflexivity|]; left; split; [apply H7; vm_compute; reflexivity|vm_compute; reflexivity].
  - split; [discriminate|]. split; [repeat constructor|]. exists [str "BUS BUSY"]. split; [|vm_compute; reflexivity].
    constructor; [|constructor]. eexists; split; [reflexivity|]; right; split; [rewrite hex_line_isHex; vm_compute; discriminate|vm_compute; reflexivity].
Qed.
(* a reading the theorems about responses apply to *)
Example C95_example_reading : exists p lines q m, reading (cmd "SPEED") p lines q /\ r_messages q = [m] /\ m_raw m = str "7E803410D32" /\ m_hex m = str "410d32".
Proof.
  get_demo (cmd "SPEED") can11 (str "7E9 03 41 0D 20" ++ [13] ++ str "BUS BUSY" ++ [13] ++ str "7E8 03 41 0D 32") [str "7E9 03 41 0D 20"; str "BUS BUSY"; str "7E8 03 41 0D 32"].
  destruct (reading_call _ _ _ _ Rd) as (_ & ms & C & E). vm_compute in C. injection C as <-.
  destruct E as [[E _]|[_ E]]; [discriminate E|]. vm_compute in E. injection E as <-. do 4 eexists. split; [exact Rd|]. split; [reflexivity|]. split; vm_compute; reflexivity.
Qed.
