(** C63: the CBOR server of test/posix/cbor. *)
From Coq Require Import ZArith.
From Verif Require Import Base HeaderModel HeaderSpec HeaderProofs OptSpec OptEncModel StreambufModel NetbufModel OptDecModel DecoderModel DecoderSpec DecoderProofs
  ContextModel NetDecModel NetDecSpec NetDecProofs NetDecProps ObserveModel RespModel RespSpec RespProofs CborModel CborSpec CborProofs
  CborRespModel CborRespSpec CborRespProofs.
Local Open Scope N_scope.

Lemma has_payload_at : forall m x Q, msg_ok m -> at_place (msg_bytes m) (m_pay m) Q x -> p_st Q = left_in (has (m_pay m)) (m_opts m) ->
  exists y, nd_has_payload (msg_bytes m) true x = Ok (has (m_pay m), y) /\ forall b, m_pay m = Some b -> nd_payload (msg_bytes m) y = b.
Proof.
  intros m x Q (M1 & M2 & M3 & M4 & M5 & M6) A SQ.
  assert (F : forall y, at_place (msg_bytes m) (m_pay m) (if has (m_pay m) then LP else LD) y ->
    rstate_eqb (nd_state y) RPayload = has (m_pay m) /\ forall b, m_pay m = Some b -> nd_payload (msg_bytes m) y = b).
  { intros y B. rewrite (at_st _ _ _ _ B). destruct (m_pay m) as [b0|]; cbn [has p_st] in *; (split; [reflexivity|]); intros b E; [|discriminate].
    destruct B as (_ & _ & B). injection B as ->. injection E as <-. reflexivity. }
  unfold nd_has_payload. destruct Q as [n os|n v os|n| | |]; try (exfalso; exact (left_in_not_options _ _ (eq_sym SQ))).
  - destruct (place_iter _ _ LE x A ltac:(discriminate) ltac:(discriminate) M6) as (y & E & B). rewrite (at_st _ _ _ _ A). cbn [p_st rstate_eqb]. rewrite E. cbn [bind].
    cbn [p_step] in B. destruct (F y B) as [-> F2]. eauto.
  - rewrite (at_st _ _ _ _ A). cbn [p_st rstate_eqb bind]. exists x.
    assert (H : has (m_pay m) = true) by (destruct A as (_ & _ & ->); reflexivity).
    rewrite (at_st _ _ _ _ A). rewrite H in *. cbn [p_st rstate_eqb]. split; [reflexivity|]. apply F. exact A.
  - rewrite (at_st _ _ _ _ A). cbn [p_st rstate_eqb bind]. exists x.
    assert (H : has (m_pay m) = false) by (destruct A as (_ & _ & -> & _); reflexivity).
    rewrite (at_st _ _ _ _ A). rewrite H in *. cbn [p_st rstate_eqb]. split; [reflexivity|]. apply F. exact A.
Qed.

(** C63: on every well-formed message, whatever its options, the server reads exactly the
    payload and, unless that is a fault, answers 2.03 with the token and nothing else. *)
Theorem C63_server : forall debug cap fuel jh junk m behind d buf hd p, hdr_ok jh -> msg_ok m -> idle d -> not_stale m d ->
  (length (m_opts m) < fuel)%nat -> (4 + length (m_tok m) <= cap)%nat -> answerable (m_hdr m) ->
  cbor_server debug cap fuel jh junk (msg_bytes m) behind d buf hd p =
    bind (match m_pay m with None => Ok [] | Some b => cr_print (b ++ behind) (length b) buf hd p end) (fun o =>
      Ok (o, answer_head 67 (m_hdr m) (m_tok m))).
Proof.
  intros debug cap fuel jh junk m behind d buf hd p Hj Hm Hd Hs Hf Hc R.
  destruct (read_place m d fuel Hm Hd Hf Hs) as (x4 & Q & RD & A4 & SQ).
  unfold nd_read in RD.
  destruct (nd_header (msg_bytes m) true (ND d 0)) as [[h x1]| |] eqn:A; cbn [bind fst snd] in RD; try discriminate.
  destruct (nd_token (msg_bytes m) true x1) as [[t x2]| |] eqn:B; cbn [bind fst snd] in RD; try discriminate.
  destruct (it_new (msg_bytes m) true x2) as [x3| |] eqn:C; cbn [bind] in RD; try discriminate.
  destruct (it_loop fuel (msg_bytes m) true x3) as [[l x5]| |] eqn:D; cbn [bind fst snd] in RD; try discriminate.
  assert (h = m_hdr m /\ t = m_tok m /\ x5 = x4) as (-> & -> & ->) by (inversion RD; auto).
  pose proof Hm as (Hh & Ht & H8 & _). rewrite <- tkl_mod in Ht.
  destruct (begin_ok junk _ _ _ _ _ _ A B H8 Ht) as (k & K1 & K2 & K3).
  unfold cbor_server. rewrite K1. cbn [bind fst snd]. rewrite C. cbn [bind]. rewrite (skip_of_loop _ _ _ _ _ _ D). cbn [bind].
  destruct (has_payload_at m x4 Q Hm A4 SQ) as (y & -> & P). cbn [bind fst snd].
  destruct (head_sink debug cap jh k AppModel.code_valid _ _ Hj Hh eq_refl K2 K3 Ht Hc R) as (b & -> & S1 & _). cbn [bind]. rewrite S1.
  destruct (m_pay m) as [pl|]; cbn [has]; [|reflexivity]. rewrite (P pl eq_refl).
  destruct (cr_print (pl ++ behind) (length pl) buf hd p); reflexivity.
Qed.
Print Assumptions C63_server.

(** The case left out: a bare header, while the memory of the decoder object still looks as if
    a payload marker had been seen (C55_stale), is taken for a message with an empty payload;
    what lies behind the datagram is printed. *)
Theorem C63_stale : forall debug cap fuel jh junk m behind d buf hd p, hdr_ok jh -> msg_ok m -> idle d -> ~ not_stale m d ->
  (0 < fuel)%nat -> (4 <= cap)%nat -> answerable (m_hdr m) ->
  cbor_server debug cap fuel jh junk (msg_bytes m) behind d buf hd p =
    bind (cr_print behind 0 buf hd p) (fun o => Ok (o, answer_head 67 (m_hdr m) [])).
Proof.
  intros debug cap fuel jh junk m behind d buf hd p Hj Hm Hd Hs Hf Hc R.
  destruct (C55_stale m d fuel Hm Hd Hs Hf) as (x4 & RD & S4 & P4 & E1 & E2 & E3).
  unfold nd_read in RD.
  destruct (nd_header (msg_bytes m) true (ND d 0)) as [[h x1]| |] eqn:A; cbn [bind fst snd] in RD; try discriminate.
  destruct (nd_token (msg_bytes m) true x1) as [[t x2]| |] eqn:B; cbn [bind fst snd] in RD; try discriminate.
  destruct (it_new (msg_bytes m) true x2) as [x3| |] eqn:C; cbn [bind] in RD; try discriminate.
  destruct (it_loop fuel (msg_bytes m) true x3) as [[l x5]| |] eqn:D; cbn [bind fst snd] in RD; try discriminate.
  assert (h = m_hdr m /\ t = [] /\ x5 = x4) as (-> & -> & ->) by (inversion RD; auto).
  pose proof Hm as (Hh & Ht & H8 & _). rewrite <- tkl_mod in Ht. rewrite E1 in Ht, H8.
  destruct (begin_ok junk _ _ _ _ _ _ A B H8 Ht) as (k & K1 & K2 & K3).
  unfold cbor_server. rewrite K1. cbn [bind fst snd]. rewrite C. cbn [bind]. rewrite (skip_of_loop _ _ _ _ _ _ D). cbn [bind].
  unfold nd_has_payload. rewrite S4. cbn [rstate_eqb bind]. rewrite S4. cbn [rstate_eqb bind fst snd]. rewrite P4.
  destruct (head_sink debug cap jh k AppModel.code_valid _ _ Hj Hh eq_refl K2 K3 Ht Hc R) as (b & -> & S1 & _). cbn [bind]. rewrite S1.
  cbn [app length]. destruct (cr_print behind 0 buf hd p); reflexivity.
Qed.
Print Assumptions C63_stale.

Example C63_stale_case : let d := Dec RDone (Hdr 64 1 0 4) 4 [0; 0; 0; 0; 0; 0; 0; 0] 0 (OptDecModel.ODec OPayload 9 9 9 9 0) (Holder 11 1) in
  cbor_server false 64 9 (Hdr 0 0 0 0) (repeat 0 8) [64; 1; 0; 5] [0x65; 1] d [0; 0; 0; 0] 0 0 = Ok ([RType 3], [96; 67; 0; 5]).
Proof. vm_compute. reflexivity. Qed.

(** Of a well-formed sequence of items all are printed in order, and then, if the last one
    is a string, an array or a map, or there is none, the major type of the byte that
    happens to follow the payload in memory. *)
Theorem C63_items : forall its g behind buf hd p, Forall item_ok its -> short_strings its -> length buf = 4%nat ->
  cr_print (items_bytes its ++ g :: behind) (length (items_bytes its)) buf hd p =
    Ok (flat_map said its ++ if ends_plain its then [] else [RType (g / 32)]).
Proof. intros. rewrite print_items by assumption. rewrite N.shiftr_div_pow2. reflexivity. Qed.
Print Assumptions C63_items.

(** The number printed is the one sent only if it fits in fifteen bits, and if negative is
    below -24. *)
Theorem C63_number : forall m v, v < 2 ^ 32 -> (number m v = rfc_int m v <-> v < 2 ^ 15 /\ (m = 1 -> 24 <= v)).
Proof.
  intros m v Hv. change (2 ^ 32) with 4294967296 in Hv. change (2 ^ 15) with 32768.
  assert (L : low16 v = Z.of_N v <-> v < 32768).
  { unfold low16. pose proof (Z.div_mod (Z.of_N v + 32768) 65536 ltac:(discriminate)). pose proof (Z.mod_pos_bound (Z.of_N v + 32768) 65536 ltac:(reflexivity)). lia. }
  unfold number, rfc_int. destruct (N.ltb_spec v 24).
  - destruct (N.eqb_spec m 1); [|split; [intros _; split; [lia|congruence]|reflexivity]]. split; [lia|]. intros [_ X]. specialize (X e). lia.
  - destruct (N.eqb_spec m 1); (split; [intro X; split; [apply L; lia|auto]|intros [X _]; apply L in X; lia]).
Qed.
Print Assumptions C63_number.

(** A text string that announces more than the payload has is printed from whatever lies
    behind it in memory ... *)
Theorem C63_overrun_refuted : forall its n s behind buf hd p, Forall item_ok its -> short_strings its -> length buf = 4%nat -> n < 2 ^ 32 ->
  N.of_nat (length s) < n mod 65536 <= N.of_nat (length (s ++ behind)) ->
  cr_print ((items_bytes its ++ rfc_head 3 n ++ s) ++ behind) (length (items_bytes its ++ rfc_head 3 n ++ s)) buf hd p =
    Ok (flat_map said its ++ [RType 3; RText (firstn (N.to_nat (n mod 65536)) (s ++ behind)); RSkip (n mod 65536)]).
Proof. exact print_over. Qed.
Print Assumptions C63_overrun_refuted.

(** ... or from outside it *)
Theorem C63_outside_refuted : forall its n s g behind buf hd p, Forall item_ok its -> short_strings its -> length buf = 4%nat -> n < 2 ^ 32 ->
  N.of_nat (length (s ++ g :: behind)) < n mod 65536 ->
  cr_print ((items_bytes its ++ rfc_head 3 n ++ s) ++ g :: behind) (length (items_bytes its ++ rfc_head 3 n ++ s)) buf hd p = Fault.
Proof. exact print_outside. Qed.
Print Assumptions C63_outside_refuted.

(** The length of a string is taken modulo 65536: the bytes after that many are read as
    the next items. *)
Theorem C63_wraps_refuted : forall its n s its2 g behind buf hd p, Forall item_ok its -> short_strings its -> Forall item_ok its2 -> short_strings its2 ->
  length buf = 4%nat -> n < 2 ^ 32 -> n mod 65536 = N.of_nat (length s) ->
  cr_print ((items_bytes its ++ rfc_head 3 n ++ s ++ items_bytes its2) ++ g :: behind)
      (length (items_bytes its ++ rfc_head 3 n ++ s ++ items_bytes its2)) buf hd p =
    Ok (flat_map said (its ++ CS 3 s :: its2) ++ if ends_plain its2 then [] else [RType (g / 32)]).
Proof. intros. rewrite print_wrap by assumption. rewrite N.shiftr_div_pow2. reflexivity. Qed.
Print Assumptions C63_wraps_refuted.

(** An eight byte argument, a reserved one and an indefinite length overrun the buffer of
    the decoder: six bytes after any valid items are enough. *)
Theorem C63_overflow_refuted : forall its b post g behind buf hd p, Forall item_ok its -> short_strings its -> length buf = 4%nat ->
  b < 256 -> 27 <= b mod 32 -> (5 <= length post)%nat ->
  cr_print ((items_bytes its ++ b :: post) ++ g :: behind) (length (items_bytes its ++ b :: post)) buf hd p = Fault.
Proof. exact print_overflow. Qed.
Print Assumptions C63_overflow_refuted.

(** The server reads behind the payload whatever it is, unless a string that announces too
    much is the last thing it comes to; so always if the items are well-formed. *)
Theorem C63_reads_on : forall payload buf hd p l, cr_print payload (length payload) buf hd p = Ok l -> exists a n, l = a ++ [RSkip n].
Proof. exact print_no_room. Qed.
Print Assumptions C63_reads_on.

Theorem C63_reads_on_refuted : forall its buf hd p, Forall item_ok its -> short_strings its -> length buf = 4%nat ->
  cr_print (items_bytes its) (length (items_bytes its)) buf hd p = Fault.
Proof. exact print_items_alone. Qed.
Print Assumptions C63_reads_on_refuted.

(** The loop ends on every payload. *)
Theorem C63_ends : forall mem len buf hd p, cr_print mem len buf hd p <> NoFuel.
Proof. exact print_ends. Qed.
Print Assumptions C63_ends.

(** A confirmable POST with Uri-Path: a, Uri-Path: b and the payload { "t": -1, "x": 100000 },
    h'0102': the options leave the decoder in OptionsDone; then two malformed ones. *)
Definition c63_hdr : hdr := Hdr 0x42 0x02 0x12 0x34.
Definition c63_items : list citem := [CI 5 2; CS 3 [116]; CI 1 0; CS 3 [120]; CI 0 100000; CS 2 [1; 2]].
Definition c63_msg (pl : list N) : msg := Msg c63_hdr [0xAA; 0xBB] [(11, [97]); (11, [98])] (Some pl).

Example C63_hypotheses : Forall item_ok c63_items /\ short_strings c63_items /\ msg_ok (c63_msg (items_bytes c63_items)) /\ answerable c63_hdr.
Proof.
  split; [|split; [|split]].
  - unfold c63_items. repeat (constructor; [cbn; repeat split; lia|]). constructor.
  - unfold short_strings, c63_items. repeat (constructor; [cbn; lia || exact I|]). constructor.
  - unfold msg_ok. cbn. repeat split; try lia; repeat constructor; lia.
  - vm_compute. auto.
Qed.

Definition c63_mem : dec := Dec Uninitialized (Hdr 0 0 0 0) 0 [0; 0; 0; 0; 0; 0; 0; 0] 0 (OptDecModel.ODec OptionDone 9 9 9 9 0) (Holder 0 0).
Definition c63_run (pl behind : list N) : res (list cout * list N) :=
  cbor_server true 64 9 c63_hdr [3; 3; 3; 3; 3; 3; 3; 3] (msg_bytes (c63_msg pl)) behind c63_mem [7; 7; 7; 7] 0xFF 5.

Example C63_case :
  c63_run (items_bytes c63_items) [0x65; 0x66] =
    Ok ([RType 5; RNest; RType 3; RText [116]; RSkip 1; RType 1; RNumber 0; RType 3; RText [120]; RSkip 1; RType 0; RNumber (-31072);
         RType 2; RSkip 2; RType 3], [0x62; 0x43; 0x12; 0x34; 0xAA; 0xBB]) /\
  c63_run [0x18; 200] [] = Fault /\ c63_run [0x18; 200] [0] = Ok ([RType 0; RNumber 200], [0x62; 0x43; 0x12; 0x34; 0xAA; 0xBB]) /\
  c63_run [0x39; 1; 0] [0] = Ok ([RType 1; RNumber (-257)], [0x62; 0x43; 0x12; 0x34; 0xAA; 0xBB]) /\
  (* a text string of six bytes of which one is there *)
  c63_run [0x66; 104] [115; 101; 99; 114; 101; 116] =
    Ok ([RType 3; RText [104; 115; 101; 99; 114; 101]; RSkip 6], [0x62; 0x43; 0x12; 0x34; 0xAA; 0xBB]) /\
  c63_run [0x66; 104] [115; 101] = Fault /\
  (* 65537 bytes announced *)
  c63_run [0x7A; 0; 1; 0; 1; 104; 0x0A] [0] = Ok ([RType 3; RText [104]; RSkip 1; RType 0; RNumber 10], [0x62; 0x43; 0x12; 0x34; 0xAA; 0xBB]) /\
  (* an eight byte integer *)
  c63_run [0x1B; 0; 0; 0; 0; 0; 0; 0; 1] [0; 0] = Fault.
Proof. vm_compute. repeat split. Qed.
