(** C59: the echo server. *)
From Verif Require Import Base HeaderModel HeaderProofs OptEncModel OptSpec OptDecModel DecoderModel DecoderSpec DecoderProofs
  SbDecModel SbDecSpec SbDecProofs SbDecProps ChunkSpec EchoModel EchoProofs.
Local Open Scope N_scope.

(** an acknowledgement 2.03 with the version, token length and message id of [h] *)
Definition valid_ack (h : hdr) : list N := [h0 h / 64 * 64 + 32 + h0 h mod 16; 67; h2 h; h3 h].
Definition fresh (d : dec) : Prop := k_st d = Uninitialized /\ dec_mem d.

(** C59: every datagram with a header and a token of one to eight bytes is acknowledged
    with its message id and token, however it is cut and whatever follows. *)
Theorem C59_token : forall sg neg L d h tok rest, fresh d -> hdr_ok h -> h0 h mod 16 = len tok -> (0 < length tok <= 8)%nat ->
  (sg = true -> ~ In 255 (hdr_bytes h ++ tok)) -> concat L = hdr_bytes h ++ tok ++ rest ->
  echo sg neg d L = Ok (valid_ack h ++ tok).
Proof.
  intros sg neg L d h tok rest (Hst & Hm) Hh Ht Hl Hs HL. apply (echo_token L sg neg d h tok rest); try assumption.
  - apply Hm.
  - apply hdr_ok_iff in Hh. apply Hh.
Qed.
Print Assumptions C59_token.

(** C59: so is every well formed message without a token; here the options are looked at. *)
Theorem C59_plain : forall sg neg L d m, fresh d -> msg_ok m -> m_tok m = [] ->
  (sg = true -> ~ In 255 (hdr_bytes (m_hdr m))) ->
  (neg = true -> m_pay m = None -> ~ exists os n, m_opts m = os ++ [(n, [])]) ->
  concat L = msg_bytes m -> echo sg neg d L = Ok (valid_ack (m_hdr m)).
Proof.
  intros sg neg L d m (Hst & Hmem) Hm Htok Hs Hneg HL.
  assert (Hid : idle d) by (split; [left; exact Hst|exact Hmem]).
  assert (RUN : exists F r, sbd_run F sg neg false d (SBuf [] L) = Ok r).
  { assert (D : (m_opts m <> [] \/ m_pay m <> None) \/ (m_opts m = [] /\ m_pay m = None)).
    { destruct (m_opts m); [|left; left; discriminate]. destruct (m_pay m); [left; right; discriminate|auto]. }
    destruct D as [D|(D1 & D2)].
    - destruct (C53_message sg neg false L d m Hm D Hid) as (F & d1 & s1 & _ & _ & H); try assumption.
      { rewrite Htok, app_nil_r. exact Hs. } exists F, (seg_events false m L, d1, s1). apply H. lia.
    - destruct m as [h tok os p]. cbn [m_hdr m_tok m_opts m_pay] in *. subst. destruct Hm as (A & B & C & _). cbn [m_hdr m_tok] in *.
      destruct (C53_bare sg neg false L d h [] A (Forall_nil _) Hid B C) as (F & d1 & s1 & _ & _ & H).
      { rewrite app_nil_r. exact Hs. } { exact HL. } eexists F, _. apply H. lia. }
  destruct RUN as (F & r & HR). destruct m as [h tok os p]. cbn [m_hdr m_tok m_opts m_pay] in *. subst tok. destruct Hm as (A & B & _). cbn [m_hdr m_tok] in *.
  apply (echo_plain L sg neg false F r d h (opts_bytes 0 os ++ pay_bytes p)); try assumption; try reflexivity.
  - apply Hmem.
  - apply hdr_ok_iff in A. apply A.
Qed.
Print Assumptions C59_plain.

(** C59 in full (requests are answered, nothing else) is false: whatever the type and code
    of the message, and in particular the reply itself: two such servers answer each other
    for ever. *)
Theorem C59_ack_refuted : forall sg neg L L1 d d1 h tok rest, fresh d -> fresh d1 -> hdr_ok h -> h0 h mod 16 = len tok -> (0 < length tok <= 8)%nat ->
  (sg = true -> ~ In 255 (hdr_bytes h ++ tok)) -> concat L = hdr_bytes h ++ tok ++ rest ->
  concat L1 = valid_ack h ++ tok ->
  echo sg neg d L = Ok (concat L1) /\ echo sg neg d1 L1 = Ok (concat L1).
Proof.
  intros sg neg L L1 d d1 h tok rest Hd Hd1 Hh Ht Hl Hs HL HL1. split; [rewrite HL1; eapply C59_token; eassumption|].
  assert (Hb := proj1 (hdr_ok_iff h) Hh). set (x := h0 h / 64 * 64 + 32 + h0 h mod 16) in *.
  assert (Hm : h0 h mod 16 < 16) by (apply N.mod_lt; discriminate).
  assert (Hd0 : h0 h / 64 < 4) by (apply N.div_lt_upper_bound; [discriminate|apply Hb]).
  assert (X : x = h0 h mod 16 + (h0 h / 64 * 4 + 2) * 16) by (unfold x; lia).
  assert (X16 : x mod 16 = h0 h mod 16) by (rewrite X, N.mod_add by discriminate; apply N.mod_mod; discriminate).
  assert (X64 : x / 64 = h0 h / 64).
  { unfold x. rewrite <- N.add_assoc, N.div_add_l by discriminate. rewrite (N.div_small (32 + h0 h mod 16)) by lia. apply N.add_0_r. }
  assert (V : valid_ack (Hdr x 67 (h2 h) (h3 h)) = valid_ack h).
  { unfold valid_ack. cbn [h0 h2 h3]. rewrite X16, X64. reflexivity. }
  rewrite HL1, <- V. apply (C59_token sg neg L1 d1 (Hdr x 67 (h2 h) (h3 h)) tok []); try assumption.
  - apply hdr_ok_iff. cbn [h0 h1 h2 h3]. destruct Hb as (_ & _ & B2 & B3). unfold byte_ok in *. repeat split; try assumption; try lia.
  - cbn [h0]. rewrite X16. exact Ht.
  - intros H I. apply (Hs H). apply in_app_or in I. apply in_or_app. destruct I as [I|I]; [left|now right].
    unfold hdr_bytes in *. cbn [h0 h1 h2 h3 In] in *. destruct I as [I|[I|[I|[I|[]]]]]; [lia|discriminate|auto|auto].
  - rewrite app_nil_r, HL1. reflexivity.
Qed.
Print Assumptions C59_ack_refuted.

(** C59: where [char] is signed, a datagram that ends before the fourth byte, or whose
    header ends in a byte 0xFF, is acknowledged all the same: the bytes that are missing
    are those the memory of the decoder held, and so is the token. *)
Theorem C59_cut_refuted : forall neg L d bs tl x, fresh d -> (length bs < 4)%nat -> ~ In 255 bs -> concat L = bs ++ tl -> tl = [] \/ tl = [255] ->
  hdr_bytes x = bs ++ skipn (length bs) (hdr_bytes (k_h d)) -> byte_ok (h0 x) -> h0 x mod 16 <= 8 ->
  echo true neg d L = Ok (valid_ack x ++ firstn (N.to_nat (h0 x mod 16)) (k_tok d)).
Proof. intros neg L d bs tl x (Hst & Hm) Hl Hn HL Ht Hx Hb H8. apply (echo_cut L neg d bs tl x); try assumption. apply Hm. Qed.
Print Assumptions C59_cut_refuted.

(** C59: a token length above 8 never gets a reply: memory past the token is written or
    read. *)
Theorem C59_long_token_refuted : forall L sg neg d h rest r, fresh d -> 8 < h0 h mod 16 -> (sg = true -> ~ In 255 (hdr_bytes h)) ->
  concat L = hdr_bytes h ++ rest -> echo sg neg d L <> Ok r.
Proof. intros L sg neg d h rest r (Hst & _). now apply echo_long. Qed.
Print Assumptions C59_long_token_refuted.

(** A confirmable GET with token 7 8, cut inside the token and followed by an unfinished
    option; a ping with message id 0x12FF; a message without token whose first option is
    malformed. *)
Example C59_case :
  let d := Dec Uninitialized (Hdr 0 0 0 9) 0 [0; 0; 0; 0; 0; 0; 0; 0] 0 (ODec OptionDone 9 9 9 9 0) (Holder 0 0) in
  fresh d /\
  echo true false d [[66; 1; 18]; [52; 7]; []; [8; 181; 97]] = Ok [98; 67; 18; 52; 7; 8] /\
  echo false false d [[66; 1; 18; 255; 7; 8]] = Ok [98; 67; 18; 255; 7; 8] /\
  echo true false d [[65; 1; 18; 52; 7; 240]] = Ok [97; 67; 18; 52; 7] /\
  echo true false d [[64; 1; 18; 52; 176; 240; 1]] = Ok [96; 67; 18; 52] /\
  echo true false d [[64; 1; 18; 52]] = Ok [96; 67; 18; 52] /\
  echo true false d [[64; 0; 18; 255]] = Ok [96; 67; 18; 9] /\
  echo true false d [] = Ok [32; 67; 0; 9] /\
  echo true false d [[64; 1; 18; 52; 240; 1; 1]] = Fault /\
  echo true false d [[73; 1; 18; 52; 1; 2; 3; 4; 5; 6; 7; 8; 9]] = Fault.
Proof.
  cbn zeta. split.
  { split; [reflexivity|]. unfold dec_mem, od_bytes, byte_ok. cbn. repeat split; try lia. repeat constructor; unfold byte_ok; lia. }
  vm_compute. repeat split; reflexivity.
Qed.
