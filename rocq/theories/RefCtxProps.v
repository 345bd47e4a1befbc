(** C94: a context that keeps a pointer to the token (TokenContext<false>). *)
From Verif Require Import Base HeaderModel HeaderSpec HeaderProofs OptEncModel OptSpec StreambufModel OptDecModel OptDecSpec
  DecoderModel DecoderSpec DecoderProofs DecoderProps CodecProps ContextModel NetbufModel NetbufProofs ReplyProps RefCtxModel RefCtxSpec RefCtxProofs.
Local Open Scope N_scope.

(** The observer is called for the events of C14-C19, in the same order, and the decoder ends the same. *)
Theorem C94_same_events : forall fuel chunk d pos mem c,
  match dec_run fuel chunk d pos with
  | Ok (es, d1, p1) => exists l, ref_run fuel chunk d pos mem c = Ok (l, d1, p1) /\ map event_of l = es
  | Fault => ref_run fuel chunk d pos mem c = Fault
  | NoFuel => ref_run fuel chunk d pos mem c = NoFuel
  end.
Proof.
  intros fuel chunk d pos mem c. rewrite <- (ref_erased fuel chunk d pos mem c).
  destruct (ref_run fuel chunk d pos mem c) as [[[l d1] p1]| |]; cbn; eauto.
Qed.
Print Assumptions C94_same_events.

Lemma finds_mem : forall h (tok : list N) mem e, hdr_tkl h = N.of_nat (length tok) -> (length tok <= 8)%nat -> length mem = 8%nat ->
  finds (e, RCtx h true, mem) h (firstn (length tok) mem).
Proof.
  intros h tok mem e Ht H8 Hm. split; [reflexivity|]. unfold rctx_token. cbn [fst snd r_hdr r_set andb]. rewrite Ht, Nat2N.id.
  destruct (N.eqb_spec (N.of_nat (length tok)) 0) as [E|E].
  - assert (length tok = 0%nat) as -> by lia. reflexivity.
  - destruct (N.leb_spec (N.of_nat (length tok)) 8); [reflexivity|lia].
Qed.

Lemma blank_wiped : forall (tok : list N) mem, blank mem -> (length tok <= 8)%nat -> wiped tok (firstn (length tok) mem).
Proof.
  intros tok mem (L & F) H8. split; [rewrite firstn_length; lia|]. intros i I1 I2.
  destruct mem as [|a [|b [|c mem]]]; try discriminate. cbn in F. injection F as -> -> ->.
  destruct (length tok) as [|[|[|n]]]; [lia|..]; destruct i as [|[|[|i]]]; try lia; reflexivity.
Qed.

(** Whatever follows the token: before the token event there is none in a new context; at the token and when the options start the context gives the token.
    From then on it does only if nothing follows; otherwise the first three bytes read as zero. *)
Theorem C94_seen : forall fuel d h tok rest mem c l d1 p1,
  idle d -> bytes_ok (hdr_bytes h ++ tok ++ rest) -> hdr_tkl h = N.of_nat (length tok) -> (length tok <= 8)%nat -> length mem = 8%nat ->
  ref_run fuel (hdr_bytes h ++ tok ++ rest) d 0 mem c = Ok (l, d1, p1) ->
  exists x y z l1, l = x :: y :: z :: l1 /\ event_of x = EHeader h /\ event_of y = EToken tok /\ event_of z = EOptStart /\
    (tok <> [] -> r_set c = false -> rctx_token (snd x) (snd (fst x)) = Fault) /\ finds y h tok /\ finds z h tok /\
    (rest = [] -> Forall (fun s => finds s h tok) l1) /\
    (rest <> [] -> Forall (fun s => exists t, finds s h t /\ wiped tok t) l1).
Proof.
  intros fuel d h tok rest mem c l d1 p1 Hd Hok Ht H8 Hm H.
  destruct (whole_run _ _ _ _ _ _ _ _ _ _ Hd Hok Ht H8 Hm H) as (mem1 & l1 & L1 & F1 & -> & A & B & C).
  assert (G : forall e, finds (e, RCtx h true, mem1) h tok).
  { intros e. assert (Q := finds_mem h tok mem1 e Ht H8 L1). rewrite F1 in Q. exact Q. }
  do 3 eexists. exists l1. split; [reflexivity|]. do 3 (split; [reflexivity|]).
  split.
  { intros T0 C0. unfold rctx_token. cbn [fst snd r_hdr r_set]. rewrite C0, Ht.
    destruct (N.eqb_spec (N.of_nat (length tok)) 0); [destruct tok; [congruence|cbn in *; lia]|reflexivity]. }
  split; [apply G|]. split; [apply G|]. split; intros R.
  - specialize (B R). clear C H. induction l1 as [|[[e c1] m1] l1 IH]; [constructor|].
    inversion A as [|x1 x2 A1 A2 A3]. inversion B as [|y1 y2 B1 B2 B3]. subst. cbn [fst snd] in *. subst.
    constructor; [apply G|now apply IH].
  - specialize (C R). clear B H. induction l1 as [|[[e c1] m1] l1 IH]; [constructor|].
    inversion A as [|x1 x2 A1 A2 A3]. inversion C as [|y1 y2 B1 B2 B3]. subst. cbn [fst snd] in *. subst.
    constructor; [|now apply IH]. exists (firstn (length tok) m1). split; [apply finds_mem; auto; apply B1|now apply blank_wiped].
Qed.
Print Assumptions C94_seen.

(** A new context gives no token: one that is asked for at the header is read through NULL, and so is the one
    of a reply built there. *)
Theorem C94_new : forall fuel d h tok rest mem l d1 p1 code b,
  idle d -> bytes_ok (hdr_bytes h ++ tok ++ rest) -> hdr_tkl h = N.of_nat (length tok) -> (length tok <= 8)%nat -> tok <> [] -> length mem = 8%nat ->
  ref_run fuel (hdr_bytes h ++ tok ++ rest) d 0 mem rctx_new = Ok (l, d1, p1) ->
  exists x l1, l = x :: l1 /\ event_of x = EHeader h /\ ref_build_reply (snd x) (snd (fst x)) code b = Fault.
Proof.
  intros fuel d h tok rest mem l d1 p1 code b Hd Hok Ht H8 T Hm H.
  destruct (C94_seen _ _ _ _ _ _ _ _ _ _ Hd Hok Ht H8 Hm H) as (x & y & z & l1 & -> & E & _ & _ & F & _).
  do 2 eexists. split; [reflexivity|]. split; [exact E|]. unfold ref_build_reply. rewrite (F T eq_refl). reflexivity.
Qed.
Print Assumptions C94_new.

(** a wiped token is another one unless the token begins with zeros *)
Lemma wiped_telling : forall tok t, telling tok -> wiped tok t -> t <> tok.
Proof.
  intros tok t (i & x & I & E & X) (_ & W) ->. assert (L : (i < length tok)%nat) by (apply nth_error_Some; congruence).
  rewrite (W i I L) in E. congruence.
Qed.

(** The reply of build_reply: ACK, the code, the request's id, and what the context gives as token. *)
Theorem C94_reply : forall e c mem h t code b, finds (e, c, mem) h t -> hdr_ok h -> hdr_tkl h = N.of_nat (length t) -> code < 256 ->
  (4 + length t <= s_room (sb_sink b))%nat ->
  exists b', ref_build_reply mem c code b = Ok b' /\ s_out (sb_sink b') = s_out (sb_sink b) ++ reply_wire ACK code h t.
Proof.
  intros e c mem h t code [en [room out]] (Hc & Hf) Hh Ht Hcode Hr. cbn [fst snd sb_sink s_room s_out] in *. subst h.
  unfold ref_build_reply. rewrite Hf. cbn [bind]. eexists. split; [reflexivity|]. destruct (reply_hdr (r_hdr c) code Hh Hcode) as [Hok Hw].
  unfold sb_token, sb_header, sb_write. cbn [sb_sink sb_enc].
  rewrite sputn_fits by (cbn [hdr_bytes length]; lia). cbn [snd]. change (length (hdr_bytes _)) with 4%nat.
  rewrite sputn_fits by lia. cbn [snd s_out]. rewrite Hw. unfold reply_wire. rewrite <- app_assoc. reflexivity.
Qed.
Print Assumptions C94_reply.

(** Full claim (false): the reply to a message carries its token.  For a message with options or payload whose
    token has a byte other than zero among its first three, a reply built at the end of the options, at the
    payload or at the end carries another token of the same length. *)
Theorem C94_token_refuted : forall fuel d m mem c l d1 p1 code cap,
  idle d -> msg_ok m -> m_opts m <> [] \/ m_pay m <> None -> telling (m_tok m) -> length mem = 8%nat -> code < 256 -> (12 <= cap)%nat ->
  ref_run fuel (msg_bytes m) d 0 mem c = Ok (l, d1, p1) ->
  forall s, In s l -> (event_of s = EOptDone \/ event_of s = ECompleted \/ exists bs last, event_of s = EPayload bs last) ->
  exists t b, length t = length (m_tok m) /\ t <> m_tok m /\
    ref_build_reply (snd s) (snd (fst s)) code (sb_init cap) = Ok b /\ s_out (sb_sink b) = reply_wire ACK code (m_hdr m) t.
Proof.
  intros fuel d m mem c l d1 p1 code cap Hd Hm Hne Ht Hl Hcode Hcap H s Hin He.
  assert (Hm' := Hm). destruct Hm' as (Hh & Hk & H8 & Htok & Hopts & Hpay).
  assert (Hb : bytes_ok (hdr_bytes (m_hdr m) ++ m_tok m ++ opts_bytes 0 (m_opts m) ++ pay_bytes (m_pay m))) by apply (msg_bytes_ok m Hm).
  assert (Htkl : hdr_tkl (m_hdr m) = N.of_nat (length (m_tok m))) by (rewrite tkl_mod; exact Hk).
  assert (R : opts_bytes 0 (m_opts m) ++ pay_bytes (m_pay m) <> []).
  { destruct (m_opts m) as [|[num v] os]; [|cbn [opts_bytes opt_head app]; discriminate]. destruct (m_pay m); [discriminate|]. destruct Hne; congruence. }
  destruct (C94_seen _ _ _ _ _ _ _ _ _ _ Hd Hb Htkl H8 Hl H) as (x & y & z & l1 & -> & E1 & E2 & E3 & _ & _ & _ & _ & W). specialize (W R).
  destruct Hin as [<-|[<-|[<-|Hin]]]; try (rewrite ?E1, ?E2, ?E3 in He; destruct He as [He|[He|(? & ? & He)]]; discriminate He).
  rewrite Forall_forall in W. destruct (W s Hin) as (t & F & Wt). exists t.
  destruct s as [[e c1] m1]. cbn [fst snd]. destruct Wt as [Wl Wz].
  destruct (C94_reply e c1 m1 (m_hdr m) t code (sb_init cap) F Hh) as (b & B1 & B2); [congruence|exact Hcode|cbn; lia|].
  exists b. split; [exact Wl|]. split; [apply wiped_telling; [exact Ht|now split]|]. split; [exact B1|exact B2].
Qed.
Print Assumptions C94_token_refuted.

(** a request for a resource, with a token of four bytes and a payload; one without anything but the token *)
Definition c94_dec : dec := Dec Uninitialized (Hdr 0 0 0 0) 0 [9; 9; 9; 9; 9; 9; 9; 9] 0 (ODec OptionDone 9 9 9 9 9) (Holder 0 0).
Definition c94_msg : msg := Msg (Hdr 0x44 1 0x12 0x34) [0xA1; 0xA2; 0xA3; 0xA4] [(11, [0x78])] (Some [0x31]).
Definition replies (r : res (list sight * dec * nat)) : res (list (list N)) :=
  match r with
  | Ok (l, _, _) => Ok (map (fun s => match ref_build_reply (snd s) (snd (fst s)) 69 (sb_init 12) with Ok b => s_out (sb_sink b) | _ => [] end) (skipn 1 l))
  | Fault => Fault
  | NoFuel => NoFuel
  end.
Example C94_case : msg_ok c94_msg /\ idle c94_dec /\ telling (m_tok c94_msg) /\
  (exists l d1 p1, ref_run 40 (msg_bytes c94_msg) c94_dec 0 [9; 9; 9; 9; 9; 9; 9; 9] rctx_new = Ok (l, d1, p1) /\ map event_of l = msg_events c94_msg) /\
  (exists z, replies (ref_run 40 (msg_bytes c94_msg) c94_dec 0 [9; 9; 9; 9; 9; 9; 9; 9] rctx_new) = Ok z /\
     nth_error z 0 = Some [0x64; 69; 0x12; 0x34; 0xA1; 0xA2; 0xA3; 0xA4] /\ nth_error z 5 = Some [0x64; 69; 0x12; 0x34; 0; 0; 0; 0] /\ length z = 6%nat) /\
  replies (ref_run 40 [0x44; 1; 0x12; 0x34; 0xA1; 0xA2; 0xA3; 0xA4] c94_dec 0 [9; 9; 9; 9; 9; 9; 9; 9] rctx_new) =
    Ok (repeat [0x64; 69; 0x12; 0x34; 0xA1; 0xA2; 0xA3; 0xA4] 4).
Proof.
  split; [unfold msg_ok, hdr_ok, bytes_ok, byte_ok; cbn; repeat split; repeat constructor; try lia|].
  split; [split; [left; reflexivity|]; unfold dec_mem, od_bytes, bytes_ok, byte_ok; cbn; repeat split; repeat constructor; lia|].
  split; [exists 0%nat, 0xA1; repeat split; lia|].
  split; [do 3 eexists; split; vm_compute; reflexivity|].
  split; [eexists; split; [vm_compute; reflexivity|]; vm_compute; repeat split|]. vm_compute. reflexivity.
Qed.
Example C94_new_case : exists x l d1 p1, ref_run 40 (msg_bytes c94_msg) c94_dec 0 [9; 9; 9; 9; 9; 9; 9; 9] rctx_new = Ok (x :: l, d1, p1) /\
  ref_build_reply (snd x) (snd (fst x)) 69 (sb_init 12) = Fault /\ m_tok c94_msg <> [].
Proof. do 4 eexists. split; [vm_compute; reflexivity|]. split; [reflexivity|discriminate]. Qed.
