(** C41: the context filled while a request is decoded, and minimal replies. *)
From Verif Require Import Base HeaderModel HeaderSpec HeaderProofs OptEncModel OptSpec StreambufModel OptDecModel OptDecSpec
  DecoderModel DecoderSpec DecoderProofs DecoderProps CodecProps ContextModel NetbufModel NetbufProofs.
Local Open Scope N_scope.

(** what a reply to a request with header [h] and token [tok] looks like *)
Definition reply_wire (t code : N) (h : hdr) (tok : list N) : list N :=
  wire (Fields (hdr_version h) t (hdr_tkl h) code (hdr_mid h)) ++ tok.

Lemma reply_hdr : forall h code, hdr_ok h -> code < 256 ->
  hdr_ok (hdr_set_type ACK (hdr_set_code code h)) /\
  hdr_bytes (hdr_set_type ACK (hdr_set_code code h)) = wire (Fields (hdr_version h) ACK (hdr_tkl h) code (hdr_mid h)).
Proof.
  intros h code Hh Hc.
  destruct (hop_run_fields [HCode code; HType ACK] h Hh) as (h' & E & Hok & Hf).
  { repeat constructor; cbn; try assumption. }
  cbn [hop_run hop_step bind] in E. injection E as <-. destruct (wire_fields_of _ Hok) as [Hw _].
  split; [exact Hok|]. rewrite <- Hw, Hf. cbn [last_of p_type p_code p_mid p_tkl]. reflexivity.
Qed.

(** C41: the bytes of the reply, for any context and any encoder with room. *)
Theorem C41_reply : forall c code b, hdr_ok (c_hdr c) -> hdr_tkl (c_hdr c) <= 8 -> length (c_buf c) = 8%nat -> code < 256 ->
  (4 + N.to_nat (hdr_tkl (c_hdr c)) <= s_room (sb_sink b))%nat ->
  exists b', build_reply c code b = Ok b' /\
    s_out (sb_sink b') = s_out (sb_sink b) ++ reply_wire ACK code (c_hdr c) (firstn (N.to_nat (hdr_tkl (c_hdr c))) (c_buf c)).
Proof.
  intros [h buf p] code [e [room out]] Hh Hk Hb Hc Hr. cbn [c_hdr c_buf sb_sink s_room s_out] in *.
  unfold build_reply, ctx_token. cbn [c_hdr c_buf]. destruct (N.leb_spec (hdr_tkl h) 8); [|lia]. cbn [bind].
  eexists. split; [reflexivity|]. destruct (reply_hdr h code Hh Hc) as [Hok Hw].
  unfold sb_token, sb_header, sb_write. cbn [sb_sink sb_enc].
  rewrite sputn_fits by (cbn [hdr_bytes length]; lia). cbn [snd]. change (length (hdr_bytes _)) with 4%nat.
  rewrite sputn_fits by (rewrite firstn_length; lia). cbn [snd s_out]. rewrite Hw. unfold reply_wire. rewrite <- app_assoc. reflexivity.
Qed.
Print Assumptions C41_reply.

Lemma observe_app : forall a b c, ctx_observe (a ++ b) c = bind (ctx_observe a c) (ctx_observe b).
Proof.
  induction a as [|e a IH]; intros b c; [reflexivity|]. cbn [app ctx_observe].
  destruct (ctx_notify e c); cbn [bind]; [apply IH|reflexivity..].
Qed.

Lemma observe_opts : forall os c, ctx_observe (opt_events os) c = Ok c.
Proof. induction os as [|o os IH]; intros c; [reflexivity|]. cbn. apply IH. Qed.

(** The context after the events of a message holds its header and token. *)
Theorem C41_context : forall m c, msg_ok m -> length (c_buf c) = 8%nat ->
  exists c', ctx_observe (msg_events m) c = Ok c' /\ c_hdr c' = m_hdr m /\ ctx_token c' = Ok (m_tok m) /\
    c_present c' = true /\ (ctx_have_header c' = true <-> hdr_version (m_hdr m) <> 0) /\ length (c_buf c') = 8%nat.
Proof.
  intros [h tok os p] c (Hh & Ht & Hl & _) Hb. cbn [m_hdr m_tok m_opts m_pay] in *.
  unfold msg_events. cbn [m_hdr m_tok m_opts m_pay app ctx_observe ctx_notify bind ctx_set_header c_hdr c_buf c_present].
  unfold ctx_set_token. destruct (Nat.leb_spec (length tok) 8); [|lia]. cbn [bind c_hdr c_buf c_present].
  rewrite observe_app, observe_opts. cbn [bind]. eexists. split; [destruct p; reflexivity|].
  cbn [ctx_set_header c_hdr c_buf c_present]. split; [reflexivity|]. split.
  - unfold ctx_token. cbn [c_hdr c_buf]. rewrite tkl_mod, Ht.
    destruct (N.leb_spec (N.of_nat (length tok)) 8); [|lia]. f_equal. rewrite Nnat.Nat2N.id.
    rewrite firstn_app, firstn_all, Nat.sub_diag. cbn [firstn]. apply app_nil_r.
  - split; [reflexivity|]. split; [|rewrite app_length, skipn_length; lia]. unfold ctx_have_header. cbn [c_hdr]. lia.
Qed.
Print Assumptions C41_context.

(** From the bytes of a request to the bytes of the reply: whatever the decoder
    and the context held before, the reply carries the request's version, token
    length, message id and token, the given code and the type ACK. *)
Theorem C41_request_to_reply : forall m d c fuel code cap, msg_ok m -> m_opts m <> [] \/ m_pay m <> None -> idle d ->
  length (c_buf c) = 8%nat -> (dec_fuel (msg_bytes m) <= fuel)%nat -> code < 256 -> (12 <= cap)%nat ->
  exists es d' c' b, dec_run fuel (msg_bytes m) d 0 = Ok (es, d', length (msg_bytes m)) /\ ctx_observe es c = Ok c' /\
    build_reply c' code (sb_init cap) = Ok b /\ s_out (sb_sink b) = reply_wire ACK code (m_hdr m) (m_tok m).
Proof.
  intros m d c fuel code cap Hm Hne Hd Hb Hf Hc Hcap.
  destruct (C14_whole_message m d fuel Hm Hne Hd Hf) as (d1 & E & _).
  destruct (C41_context m c Hm Hb) as (c' & O & A & B & _ & _ & L).
  destruct Hm as (Hh & Ht & Hl & _).
  assert (K : hdr_tkl (c_hdr c') = N.of_nat (length (m_tok m))) by (rewrite A, tkl_mod; exact Ht).
  destruct (C41_reply c' code (sb_init cap)) as (b & R & S); [rewrite A; exact Hh|lia|exact L|exact Hc|cbn; lia|].
  exists (msg_events m), d1, c', b. split; [exact E|]. split; [exact O|]. split; [exact R|].
  rewrite S. cbn [sb_init sb_sink s_out app]. unfold ctx_token in B. destruct (hdr_tkl (c_hdr c') <=? 8); [|discriminate].
  injection B as ->. rewrite A. reflexivity.
Qed.
Print Assumptions C41_request_to_reply.

(** The reply, read by any decoder between messages: its header has the fields
    above and its token is the request's. *)
Theorem C41_reply_read_back : forall h tok code d fuel, hdr_ok h -> bytes_ok tok -> hdr_tkl h = N.of_nat (length tok) ->
  (0 < length tok <= 8)%nat -> code < 256 -> idle d -> (20 <= fuel)%nat ->
  exists h' d', dec_run fuel (reply_wire ACK code h tok) d 0 =
      Ok ([EHeader h'; EToken tok; EOptStart; EOptDone; ECompleted], d', (4 + length tok)%nat) /\
    hdr_version h' = hdr_version h /\ hdr_type h' = ACK /\ hdr_code h' = code /\ hdr_mid h' = hdr_mid h /\ hdr_tkl h' = hdr_tkl h.
Proof.
  intros h tok code d fuel Hh Hb Ht Hl Hc Hd Hf. destruct (reply_hdr h code Hh Hc) as [Hok Hw].
  set (h' := hdr_set_type ACK (hdr_set_code code h)) in *.
  destruct (wire_fields_of h' Hok) as [Hw' Hf']. rewrite <- Hw' in Hw.
  apply wire_inj in Hw; [|exact Hf'|].
  2:{ destruct (wire_fields_of h Hh) as [_ (V & T & K & C & M)]. unfold fields_of in *. cbn [f_ver f_type f_tkl f_code f_mid] in *. repeat split; cbn; auto. }
  pose proof (f_equal f_ver Hw) as A. pose proof (f_equal f_type Hw) as B. pose proof (f_equal f_tkl Hw) as C.
  pose proof (f_equal f_code Hw) as D. pose proof (f_equal f_mid Hw) as E.
  unfold fields_of in A, B, C, D, E. cbn [f_ver f_type f_tkl f_code f_mid] in A, B, C, D, E. clearbody h'.
  destruct (C15_token_only d h' tok fuel Hd Hok Hb) as (d' & R & _); [rewrite <- tkl_mod, C; exact Ht|exact Hl|exact Hf|].
  exists h', d'. split; [|repeat split; assumption]. unfold reply_wire. rewrite <- R. f_equal. f_equal.
  rewrite <- Hw'. unfold fields_of. rewrite A, B, C, D, E. reflexivity.
Qed.
Print Assumptions C41_reply_read_back.

(** Full claim (false): a reply to a NON request is not an acknowledgement (RFC 7252
    4.3: a NON message must not be acknowledged).  build_reply answers every NON
    request with an ACK ... *)
Theorem C41_non_refuted : forall c code b b', hdr_ok (c_hdr c) -> hdr_type (c_hdr c) = NON -> code < 256 ->
  (4 <= s_room (sb_sink b))%nat -> build_reply c code b = Ok b' ->
  exists x rest, s_out (sb_sink b') = s_out (sb_sink b) ++ x :: rest /\ (x / 16) mod 4 = ACK.
Proof.
  intros [h buf p] code [e [room out]] b' Hh Hn Hc Hr H. cbn [c_hdr sb_sink s_room s_out] in *.
  unfold build_reply in H. cbn [c_hdr] in H. destruct (ctx_token _) as [tok| |]; cbn [bind] in H; try discriminate. injection H as <-.
  destruct (reply_hdr h code Hh Hc) as [Hok Hw]. unfold sb_token, sb_header, sb_write. cbn [sb_sink sb_enc].
  rewrite sputn_fits by (cbn [hdr_bytes length]; lia). rewrite Hw. cbn [snd]. unfold sputn. cbn [snd s_out s_room].
  unfold wire. cbn [f_ver f_type f_tkl f_code f_mid app].
  eexists. eexists. rewrite <- app_assoc. split; [cbn [app]; reflexivity|].
  destruct (wire_fields_of h Hh) as [_ (V & T & K & C & M)]. unfold fields_of in *. cbn [f_ver f_type f_tkl f_code f_mid] in *.
  unfold ACK. lia.
Qed.
Print Assumptions C41_non_refuted.

(** ... unlike NetBufEncoder::header_and_token, which answers CON with ACK and NON
    with NON (and asserts on ACK and RST). *)
Theorem C41_netbuf_reply : forall debug junk h tok code cap, hdr_ok junk -> hdr_ok h -> code < 256 -> hdr_tkl h = N.of_nat (length tok) ->
  (4 + length tok <= cap)%nat ->
  match nbe_header_and_token junk h tok code (nbe_init debug cap) with
  | Ok (ok, b) => ok = true /\ (hdr_type h = CON \/ hdr_type h = NON) /\
      s_out (n_sink b) = reply_wire (if hdr_type h =? CON then ACK else NON) code h tok
  | Fault => hdr_type h = ACK \/ hdr_type h = RST
  | NoFuel => False
  end.
Proof.
  intros debug junk h tok code cap Hj Hh Hc Ht Hr. unfold nbe_header_and_token.
  assert (T : hdr_type h = CON \/ hdr_type h = NON \/ hdr_type h = ACK \/ hdr_type h = RST).
  { destruct (wire_fields_of h Hh) as [_ (V & T & _)]. unfold fields_of in T. cbn [f_type] in T. unfold CON, NON, ACK, RST. lia. }
  assert (R : (hdr_type h = CON \/ hdr_type h = NON) \/ (hdr_type h = ACK \/ hdr_type h = RST)) by tauto. clear T.
  destruct R as [R|R].
  - destruct (create_response_spec junk h code Hj Hh Hc R) as (h' & -> & Hok & Hf). cbn [bind].
    destruct (wire_fields_of h' Hok) as [Hw _].
    unfold nbe_header, nbe_init. unfold assert_state at 1. cbn [n_debug n_state rstate_eqb]. rewrite orb_true_r. cbn [bind n_sink s_room].
    destruct (Nat.leb_spec 4 cap); [|lia]. rewrite sputn_all by (cbn [hdr_bytes length]; lia). change (length (hdr_bytes _)) with 4%nat. cbn [snd bind fst].
    unfold nbe_token, assert_state. cbn [n_set_state n_set_sink n_set_enc n_debug n_state n_sink].
    assert (A : negb debug || rstate_eqb (if debug then RHeaderDone else RHeader) RHeaderDone = true) by (destruct debug; reflexivity). rewrite A. cbn [bind].
    rewrite sputn_all by lia. rewrite Nat.eqb_refl. split; [reflexivity|]. split; [exact R|]. cbn [n_sink n_set_written n_set_state n_set_sink n_set_enc s_out app].
    rewrite <- Hw, Hf. unfold reply_wire. destruct R as [R|R]; rewrite R; reflexivity.
  - rewrite (create_response_fault junk h code Hj Hh R). exact R.
Qed.
Print Assumptions C41_netbuf_reply.

(** A buffer that is too small cuts the reply, and nobody is told. *)
Theorem C41_cut_refuted : forall c code cap, hdr_ok (c_hdr c) -> hdr_tkl (c_hdr c) <= 8 -> length (c_buf c) = 8%nat -> code < 256 ->
  exists b, build_reply c code (sb_init cap) = Ok b /\
    s_out (sb_sink b) = firstn cap (reply_wire ACK code (c_hdr c) (firstn (N.to_nat (hdr_tkl (c_hdr c))) (c_buf c))).
Proof.
  intros [h buf p] code cap Hh Hk Hb Hc. cbn [c_hdr c_buf] in *. unfold build_reply, ctx_token. cbn [c_hdr c_buf].
  destruct (N.leb_spec (hdr_tkl h) 8); [|lia]. cbn [bind]. eexists. split; [reflexivity|].
  destruct (reply_hdr h code Hh Hc) as [Hok Hw]. unfold sb_token, sb_header, sb_write, sb_init. rewrite Hw. unfold reply_wire.
  set (w := wire _). assert (W : length w = 4%nat) by reflexivity. clearbody w.
  cbn [sb_sink sb_enc]. unfold sputn. cbn [s_room s_out snd sb_sink sb_enc app]. rewrite W, firstn_app, W. f_equal.
  - destruct (Nat.le_ge_cases 4 cap).
    + rewrite Nat.min_l by assumption. rewrite !firstn_all2 by lia. reflexivity.
    + rewrite Nat.min_r by assumption. reflexivity.
  - set (t := firstn (N.to_nat (hdr_tkl h)) buf). replace (cap - Nat.min 4 cap)%nat with (cap - 4)%nat by lia.
    destruct (Nat.le_ge_cases (length t) (cap - 4)).
    + rewrite Nat.min_l by assumption. rewrite firstn_all. rewrite firstn_all2 by assumption. reflexivity.
    + rewrite Nat.min_r by assumption. reflexivity.
Qed.
Print Assumptions C41_cut_refuted.

(** A received token length of 9 to 15 makes the reply read outside the context. *)
Theorem C41_long_token_fault : forall c code b, 8 < hdr_tkl (c_hdr c) -> build_reply c code b = Fault.
Proof. intros c code b H. unfold build_reply, ctx_token. destruct (N.leb_spec (hdr_tkl (c_hdr c)) 8); [lia|reflexivity]. Qed.
Print Assumptions C41_long_token_fault.

Example C41_case : exists d c b,
  dec_run 400 (msg_bytes sample_msg) sample_dec 0 = Ok (msg_events sample_msg, d, 19%nat) /\
  ctx_observe (msg_events sample_msg) (ctx_new [1;2;3;4;5;6;7;8]) = Ok c /\
  build_reply c 69 (sb_init 12) = Ok b /\ s_out (sb_sink b) = reply_wire ACK 69 (m_hdr sample_msg) (m_tok sample_msg) /\
  build_reply (Ctx (Hdr 0x52 1 7 9) [1;2;3;4;5;6;7;8] true) 69 (sb_init 12) = Ok (SB oenc_init (Sink 6 [0x62; 69; 7; 9; 1; 2])).
Proof.
  do 3 eexists. split; [vm_compute; reflexivity|]. split; [vm_compute; reflexivity|]. split; [vm_compute; reflexivity|].
  split; vm_compute; reflexivity.
Qed.

(** C41: a token of up to eight bytes is kept; a longer one overruns the array. *)
Theorem C41_token_room : forall t c, (ctx_notify (EToken t) c = Fault <-> (8 < length t)%nat) /\
  ((length t <= 8)%nat -> exists c', ctx_notify (EToken t) c = Ok c' /\ firstn (length t) (c_buf c') = t /\ c_present c' = true).
Proof.
  intros t c. unfold ctx_notify, ctx_set_token. destruct (Nat.leb_spec (length t) 8) as [L|L]; split.
  - split; [discriminate|lia].
  - intros _. eexists. split; [reflexivity|]. cbn [c_buf c_present]. rewrite firstn_app, firstn_all, Nat.sub_diag, app_nil_r. auto.
  - split; [intros _; exact L|reflexivity].
  - lia.
Qed.
Print Assumptions C41_token_room.

Example C41_token_case : forall c, ctx_notify (EToken [1; 2; 3; 4; 5; 6; 7; 8; 9]) c = Fault.
Proof. reflexivity. Qed.
