(** C55: NetBufDecoder and option_iterator on a message in one chunk. *)
From Verif Require Import Base UIntModel UIntSpec UIntProofs HeaderModel HeaderProofs OptEncModel OptSpec OptDecModel OptDecProofs
  DecoderModel DecoderSpec DecoderProofs SubjectProofs NetDecModel NetDecSpec NetDecProofs.
Local Open Scope N_scope.

(** C55: header() and token() return the header and the token of every datagram that holds
    them, whatever follows and whether or not the chunk is the last one, and leave the
    decoder behind the token. *)
Theorem C55_header_token : forall last d h tok rest, idle d -> bytes_ok tok -> h0 h mod 16 = len tok -> (length tok <= 8)%nat ->
  let c := hdr_bytes h ++ tok ++ rest in
  exists x1 x2, nd_header c last (ND d 0) = Ok (h, x1) /\ nd_token c last x1 = Ok (tok, x2) /\
    nd_state x2 = OptionsStart /\ n_pos x2 = (4 + length tok)%nat.
Proof.
  intros last d h tok rest Hd Hk Ht H8 c. rewrite <- tkl_mod in Ht.
  destruct (header_token last d h tok rest Hd Hk Ht H8) as (x1 & x2 & A & B & C1 & C2 & _). exists x1, x2. auto.
Qed.
Print Assumptions C55_header_token.

(** ... and every other datagram runs into the ten attempts assertion of
    process_until_experimental, or past the token buffer: fewer than four bytes in header(),
    a token that is cut off or longer than eight bytes in token(). *)
Theorem C55_short_header : forall c last d, idle d -> (length c < 4)%nat -> nd_header c last (ND d 0) = Fault.
Proof. exact header_short. Qed.
Print Assumptions C55_short_header.

Theorem C55_short_token : forall last d h rest, idle d -> let c := hdr_bytes h ++ rest in
  8 < h0 h mod 16 \/ len rest < h0 h mod 16 ->
  exists x, nd_header c last (ND d 0) = Ok (h, x) /\ nd_token c last x = Fault.
Proof.
  intros last d h rest Hd c Ht. rewrite <- tkl_mod in Ht. apply token_short; auto.
  rewrite tkl_mod. apply N.mod_lt. discriminate.
Qed.
Print Assumptions C55_short_token.

(** C55: header, token and then the option loop, over every well-formed message: the exact
    list of numbers and values the loop visits, the exact final state, and the payload. *)
Theorem C55_iterator : forall m d fuel, msg_ok m -> idle d -> not_stale m d -> (length (m_opts m) < fuel)%nat ->
  exists x, nd_read fuel (msg_bytes m) true d = Ok (m_hdr m, m_tok m, shown (has (m_pay m)) (m_opts m), x) /\
    nd_state x = left_in (has (m_pay m)) (m_opts m) /\
    forall b, m_pay m = Some b -> nd_payload (msg_bytes m) x = b.
Proof. intros m d fuel Hm Hd Hs Hf. apply read_message; assumption. Qed.
Print Assumptions C55_iterator.

(** The one case left out, a bare header read by a decoder object whose memory still looks as
    if a payload marker had been seen: everything else is the same, but the decoder ends in
    the state Payload, with an empty payload. *)
Theorem C55_stale : forall m d fuel, msg_ok m -> idle d -> ~ not_stale m d -> (0 < fuel)%nat ->
  exists x, nd_read fuel (msg_bytes m) true d = Ok (m_hdr m, [], [], x) /\ nd_state x = RPayload /\ nd_payload (msg_bytes m) x = [] /\
    m_tok m = [] /\ m_opts m = [] /\ m_pay m = None.
Proof.
  intros m d fuel (M1 & M2 & M3 & M4 & M5 & M6) Hd Hs Hf. destruct m as [h tok os p]. cbn [m_hdr m_tok m_opts m_pay] in *. unfold not_stale in Hs. cbn [m_opts m_pay m_tok] in Hs.
  assert (os = []) as -> by (destruct os; [reflexivity|exfalso; apply Hs; left; discriminate]).
  assert (p = None) as -> by (destruct p; [exfalso; apply Hs; right; left; discriminate|reflexivity]).
  assert (tok = []) as -> by (destruct tok; [reflexivity|exfalso; apply Hs; right; right; left; discriminate]).
  assert (O : d_st (k_od d) = OPayload) by (destruct (d_st (k_od d)) eqn:E; try reflexivity; exfalso; apply Hs; do 3 right; discriminate).
  assert (Ht : hdr_tkl h = len []) by (rewrite tkl_mod; exact M2).
  destruct (header_token true d h [] [] Hd M4 Ht M3) as (x1 & x2 & E1 & E2 & D1 & D2 & D3 & D4 & D5).
  cbn zeta in *. change (msg_bytes (Msg h [] [] None)) with (hdr_bytes h ++ [] ++ []). unfold nd_read. rewrite E1. cbn [bind fst snd]. rewrite E2. cbn [bind fst snd].
  set (c := hdr_bytes h ++ [] ++ []) in *. assert (LC : length c = 4%nat) by reflexivity.
  cbn [length Nat.add] in D2. unfold nd_state in D1.
  assert (I1 : nd_iter c true x2 = Ok (ND (k_goto OptionsDone (n_dec x2)) 4)).
  { rewrite <- D2. eapply iter_of. apply iterate_intro; [|rewrite D2, LC; lia]. unfold dec_step. rewrite D1. unfold remainder. rewrite D2. reflexivity. }
  assert (I2 : nd_iter c true (ND (k_goto OptionsDone (n_dec x2)) 4) = Ok (ND (k_goto RPayload (k_goto OptionsDone (n_dec x2))) 4)).
  { eapply iter_of. cbn [n_dec n_pos]. apply iterate_intro; [|rewrite LC; lia]. unfold dec_step. cbn [k_st k_goto k_od]. rewrite D4, O by reflexivity. reflexivity. }
  unfold it_new, nd_begin, nd_from, nd_state. rewrite D1. cbn [rstate_eqb]. rewrite I1. cbn [bind n_dec k_st k_goto rstate_eqb]. rewrite I2. cbn [bind fst snd].
  destruct fuel as [|fuel]; [lia|]. cbn [it_loop it_valid nd_state n_dec k_st k_goto rstate_eqb bind fst snd].
  eexists. split; [reflexivity|]. repeat split; reflexivity.
Qed.
Print Assumptions C55_stale.

(** So, whatever is in memory, what is read of a well-formed message is the same. *)
Theorem C55_any_memory : forall m d fuel, msg_ok m -> idle d -> (length (m_opts m) < fuel)%nat ->
  exists x, nd_read fuel (msg_bytes m) true d = Ok (m_hdr m, m_tok m, shown (has (m_pay m)) (m_opts m), x) /\
    forall b, m_pay m = Some b -> nd_payload (msg_bytes m) x = b.
Proof.
  intros m d fuel Hm Hd Hf.
  assert (S : not_stale m d \/ ~ not_stale m d).
  { unfold not_stale. destruct (m_opts m); [|left; left; discriminate]. destruct (m_pay m); [left; right; left; discriminate|].
    destruct (m_tok m); [|left; do 2 right; left; discriminate].
    destruct (d_st (k_od d)); try (left; do 3 right; discriminate). right. intros [X|[X|[X|X]]]; congruence. }
  destruct S as [S|S].
  - destruct (C55_iterator m d fuel Hm Hd S Hf) as (x & A & _ & B). eauto.
  - destruct (C55_stale m d fuel Hm Hd S ltac:(lia)) as (x & A & _ & _ & B & C & D). exists x. rewrite B, C, D. split; [exact A|]. intros b X. discriminate.
Qed.
Print Assumptions C55_any_memory.

Example C55_stale_case : let m := Msg (Hdr 64 1 0 5) [] [] None in
  let d := Dec RDone (Hdr 64 1 0 4) 4 [0; 0; 0; 0; 0; 0; 0; 0] 0 (ODec OPayload 9 9 9 9 0) (Holder 11 1) in
  msg_ok m /\ idle d /\ ~ not_stale m d /\ match nd_read 1 (msg_bytes m) true d with Ok (h, t, os, x) => h = m_hdr m /\ t = [] /\ os = [] /\ nd_state x = RPayload | _ => False end.
Proof.
  cbn zeta. split. { unfold msg_ok, hdr_ok, bytes_ok, byte_ok. cbn. repeat split; repeat constructor; try lia. }
  split. { unfold idle, dec_mem, bytes_ok, byte_ok. cbn. repeat split; auto; repeat constructor; lia. }
  split; [unfold not_stale; cbn; intros [X|[X|[X|X]]]; congruence|]. vm_compute. auto.
Qed.

(** C55 as its users expect it is false: all options are visited with their values only when
    there are none, or a single one without a value. *)
Lemma shown_length : forall pay os, (length (shown pay os) <= length os)%nat.
Proof.
  intros pay os. induction os as [|[n v]|[n1 v1] [n v]|[n1 v1] [n2 v2] o3 r IH] using shown_ind; cbn [shown].
  - cbn; lia.
  - destruct pay, v; cbn; lia.
  - cbn; lia.
  - cbn [length]. lia.
Qed.

Theorem C55_all_options_refuted : forall pay os, shown pay os = os <-> (os = [] \/ exists n, os = [(n, [])]).
Proof.
  intros pay os. split.
  - destruct os as [|[n v] [|[n2 v2] [|o3 r]]]; [auto|..]; intro H.
    + right. exists n. cbn [shown] in H. destruct pay; [injection H as <-; reflexivity|]. destruct v; [reflexivity|discriminate].
    + discriminate.
    + exfalso. apply (f_equal (@length opt)) in H. cbn [shown length] in H. pose proof (shown_length pay r). unfold opt in *. lia.
  - intros [->|(n & ->)]; [reflexivity|]. destruct pay; reflexivity.
Qed.
Print Assumptions C55_all_options_refuted.

(** the value of the first option is never seen, and the second option is never visited *)
Theorem C55_first_value_refuted : forall pay n v os, shown pay ((n, v) :: os) = [] \/ exists l, shown pay ((n, v) :: os) = (n, []) :: l.
Proof.
  intros pay n v os. destruct os as [|[n2 v2] [|o3 r]]; cbn [shown]; eauto. destruct pay, v; eauto.
Qed.
Print Assumptions C55_first_value_refuted.

Theorem C55_second_refuted : forall pay o1 o2 os, shown pay (o1 :: o2 :: os) = shown pay [o1; o2] ++
  match os with [] => [] | o3 :: r => o3 :: shown pay r end.
Proof. intros pay [n1 v1] [n2 v2] os. destruct os; reflexivity. Qed.
Print Assumptions C55_second_refuted.

(** how many are visited *)
Theorem C55_count : forall pay os, length (shown pay os) =
  (2 * (length os / 3) + match (length os mod 3)%nat with
                         | O => 0
                         | S O => match left_in pay os with OptionsDone => 0 | _ => 1 end
                         | _ => 1 end)%nat.
Proof.
  intros pay os. induction os as [|[n v]|[n1 v1] [n v]|[n1 v1] [n2 v2] o3 r IH] using shown_ind.
  - reflexivity.
  - destruct pay, v; reflexivity.
  - reflexivity.
  - cbn [shown length left_in]. rewrite IH. replace (S (S (S (length r)))) with (length r + 1 * 3)%nat by lia.
    rewrite Nat.div_add, Nat.mod_add by lia. lia.
Qed.
Print Assumptions C55_count.

(** the state an application sees before it reads the payload *)
Theorem C55_payload_state : forall os, left_in true os = if Nat.eqb (length os mod 3) 2 then OptionsDone else RPayload.
Proof.
  intro os. induction os as [|[n v]|[n1 v1] [n v]|[n1 v1] [n2 v2] o3 r IH] using shown_ind; try reflexivity.
  cbn [left_in length]. rewrite IH. replace (S (S (S (length r)))) with (length r + 1 * 3)%nat by lia. rewrite Nat.mod_add by lia. reflexivity.
Qed.
Print Assumptions C55_payload_state.

(** C55: uint16() and uint32() are the integer of the value the iterator shows, as far as
    the type holds it; uint8() is the first byte of the value, its most significant one. *)
Theorem C55_uint : forall w c x v l, 8 < w -> it_opaque c x = Ok (v, l) -> bytes_ok v ->
  it_uint w c x = Ok (be v mod 2 ^ w).
Proof. intros w c x v l Hw H Hv. unfold it_uint. rewrite H. cbn [bind fst]. now rewrite uint_get_t_be. Qed.
Print Assumptions C55_uint.

Theorem C55_uint8 : forall c x v l, it_opaque c x = Ok (v, l) -> bytes_ok v ->
  it_uint8 c x = Ok (be v / 256 ^ N.pred (len v)).
Proof.
  intros c x v l H Hv. unfold it_uint8. rewrite H. cbn [bind fst]. f_equal. destruct v as [|b r]; [reflexivity|].
  cbn [be]. unfold len. cbn [length]. rewrite Nat2N.inj_succ, N.pred_succ. inversion Hv as [|b' r' Hb Hr]; subst.
  rewrite N.div_add_l by (apply N.pow_nonzero; discriminate). rewrite N.div_small; [symmetry; apply N.add_0_r|apply be_bound; exact Hr].
Qed.
Print Assumptions C55_uint8.

(** so uint8() is the value modulo 256 only by chance if there is more than one byte, e.g.
    Size1 = 256 reads 1 *)
Theorem C55_uint8_refuted : forall c x a b l, it_opaque c x = Ok ([a; b], l) -> a <> b -> byte_ok a -> byte_ok b ->
  it_uint8 c x <> Ok (be [a; b] mod 256).
Proof.
  intros c x a b l H Hab Ha Hb. unfold it_uint8. rewrite H. cbn [bind fst]. intro E. injection E as E.
  cbn [be length N.of_nat] in E. change (256 ^ N.of_nat 1) with 256 in E. change (256 ^ N.of_nat 0) with 1 in E.
  rewrite N.mul_1_r, N.add_0_r, N.add_comm, N.mod_add in E by discriminate. rewrite N.mod_small in E by exact Hb. contradiction.
Qed.
Print Assumptions C55_uint8_refuted.

(** C55: the calls must come in order: token() after header(), the iterator after token(),
    ++ only on a valid iterator; anything else is an assertion. *)
Theorem C55_order : forall c last x,
  (~ In (nd_state x) [TokenStart; TokenDone; OptionsStart] -> nd_token c last x = Fault) /\
  (nd_state x <> OptionsStart -> it_new c last x = Fault) /\
  (it_valid x = false -> it_next c last x = Fault).
Proof.
  intros c last x. unfold nd_token, nd_tkl, it_new, nd_begin, it_next, nd_next, nd_from, it_valid.
  destruct (nd_state x); cbn; repeat split; intro H; try reflexivity; try discriminate; try (exfalso; tauto).
Qed.
Print Assumptions C55_order.

(** A GET with Uri-Path: a, Uri-Path: b, Uri-Query: c=1, Accept: 40 and a payload: the loop
    sees an empty path segment, the query and an empty Accept. *)
Example C55_case :
  let m := Msg (Hdr 66 1 0 5) [7; 8] [(11, [97]); (11, [98]); (15, [99; 61; 49]); (17, [40])] (Some [1; 2; 3]) in
  let d := Dec Uninitialized (Hdr 0 0 0 0) 0 [0; 0; 0; 0; 0; 0; 0; 0] 0 (ODec OptionDone 9 9 9 9 0) (Holder 0 0) in
  msg_ok m /\ idle d /\ not_stale m d /\
  match nd_read 10 (msg_bytes m) true d with
  | Ok (h, t, os, x) => h = m_hdr m /\ t = [7; 8] /\ os = [(11, []); (15, [99; 61; 49]); (17, [])] /\
      nd_state x = RPayload /\ nd_payload (msg_bytes m) x = [1; 2; 3]
  | _ => False
  end /\
  nd_header [66; 1; 0] true (ND d 0) = Fault /\
  (exists x, nd_header [66; 1; 0; 5; 7] true (ND d 0) = Ok (Hdr 66 1 0 5, x) /\ nd_token [66; 1; 0; 5; 7] true x = Fault) /\
  match nd_read 10 (msg_bytes (Msg (Hdr 64 1 0 5) [] [(11, [97])] None)) true d with
  | Ok (_, _, os, x) => os = [] /\ nd_state x = OptionsDone
  | _ => False
  end /\
  (* on the third option, Size1 = 258: uint8() is 1, uint16() 258 *)
  (let c := [64;1;0;5; 177;97; 1;98; 210;36;1;2; 255;1] in
   match bind (nd_header c true (ND d 0)) (fun a => bind (nd_token c true (snd a)) (fun b =>
           bind (it_new c true (snd b)) (fun x => it_next c true x))) with
   | Ok x => it_opaque c x = Ok ([1; 2], true) /\ it_number x = 60 /\ it_uint8 c x = Ok 1 /\ it_uint 16 c x = Ok 258 /\
       it_valid x = true /\ it_new c true x = Fault
   | _ => False
   end).
Proof.
  cbn zeta. split.
  { split; [apply hdr_ok_iff; repeat split; vm_compute; reflexivity|]. split; [reflexivity|]. split; [cbn; lia|].
    split; [repeat constructor; unfold byte_ok; lia|]. split; [cbn; unfold len, bytes_ok, byte_ok; cbn; repeat split; try lia; repeat constructor; lia|].
    cbn. repeat constructor; unfold byte_ok; lia. }
  split. { split; [left; reflexivity|]. unfold dec_mem, od_bytes, byte_ok. cbn. repeat split; try lia. repeat constructor; unfold byte_ok; lia. }
  split; [left; discriminate|]. split; [vm_compute; repeat split; reflexivity|]. split; [vm_compute; reflexivity|].
  split; [eexists; split; vm_compute; reflexivity|]. split; [vm_compute; auto|]. vm_compute. repeat split; reflexivity.
Qed.
