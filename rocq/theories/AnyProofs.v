(** Proofs for C83: the stream decoder on datagrams cut inside the header. *)
From Coq Require Import ZArith.
From Verif Require Import Base UIntModel HeaderModel HeaderSpec HeaderProofs OptEncModel OptSpec StreambufModel OptDecModel OptDecSpec OptDecProofs
  DecoderModel DecoderSpec DecoderProofs DecoderProps ChunkSpec ChunkProofs ChunkProps SbDecModel SbDecSpec SbDecProofs SbDecProps.
Local Open Scope N_scope.

(** what is missing of the header is read as 0xFF, and the token length so read is 0 *)
Lemma padded_bare : forall L neg eat h k d, idle d -> hdr_tkl h = 0 -> hdr_bytes h = concat L ++ repeat 255 k ->
  SR false neg eat d (SBuf [] L) ([EHeader h; EToken []; EOptStart] ++ [EOptDone] ++
    (if ostate_eqb (d_st (k_od d)) OPayload then [EPayload [] true] else []) ++ [ECompleted]).
Proof.
  intros L neg eat h k d (Hst & Hmem) Ht HL.
  assert (HP : padded (SBuf [] L) (hdr_bytes h ++ [])) by (exists k; rewrite app_nil_r; exact HL).
  assert (UN : forall d0 s0, k_st d0 = Uninitialized -> dec_mem d0 -> padded s0 (hdr_bytes h ++ []) -> SR false neg eat d0 s0
     ([] ++ [EHeader h] ++ [EToken []] ++ [EOptStart] ++ [EOptDone] ++
      (if ostate_eqb (d_st (k_od d0)) OPayload then [EPayload [] true] else []) ++ [ECompleted])).
  { intros d0 s0 D1 D2 D3.
    set (d1 := Dec RHeader (k_h d0) 0 (k_tok d0) (k_tpos d0) (k_od d0) (k_hold d0)).
    eapply (SR_step _ _ _ _ _ [] d1 (sb_fill s0) (is_nil (s_cur (sb_fill s0)))); [|discriminate|].
    { unfold sbd_notify, sbd_step, sb_eof. rewrite D1. reflexivity. }
    destruct (hdr_loop_pad (sb_fill (sb_fill s0)) (k_h d0) h [] ltac:(now apply pad_fill, pad_fill)) as (s2 & E2 & P2).
    set (d2 := Dec HeaderDone h 4 (k_tok d0) (k_tpos d0) (k_od d0) (k_hold d0)).
    eapply (SR_step _ _ _ _ _ [EHeader h] d2 s2 (is_nil (s_cur (sb_fill (sb_fill s0))))); [|discriminate|].
    { unfold sbd_notify, sbd_step, sb_eof. cbn [k_st d1 k_h k_hpos]. rewrite E2. reflexivity. }
    apply padded_nil in P2.
    eapply (SR_step _ _ _ _ _ [EToken []] (k_goto TokenDone d2) (SBuf [] []) true); [|discriminate|].
    { unfold sbd_notify, sbd_step, sb_eof, sbd_events, dec_tkl. rewrite (flat_nil s2 P2). cbn [k_st d2 k_h]. rewrite Ht. cbn [bind fst snd k_goto k_st k_h k_tok]. 
      change (0 <? 0) with false. cbn. unfold dec_tkl. cbn [k_h]. rewrite ?Ht. reflexivity. }
    eapply (SR_step _ _ _ _ _ [EOptStart] (k_goto OptionsStart d2) (SBuf [] []) true); [reflexivity|discriminate|].
    eapply (SR_step _ _ _ _ _ [EOptDone] (k_goto OptionsDone d2) (SBuf [] []) true); [reflexivity|discriminate|].
    destruct (ostate_eqb (d_st (k_od d0)) OPayload) eqn:E.
    - apply ostate_eqb_eq in E.
      eapply (SR_step _ _ _ _ _ _ (k_goto RPayload d2) (SBuf [] []) true); [|discriminate|apply pay_over; [reflexivity|exact D2|reflexivity]].
      unfold sbd_notify, sbd_step, sb_eof. cbn [sb_fill s_cur sb_next s_rest is_nil k_st k_goto k_od d2]. rewrite E. cbn. destruct eat; reflexivity.
    - apply finish_plain; [reflexivity|cbn; intro X; rewrite X in E; discriminate|exact D2|reflexivity]. }
  destruct Hst as [Hst|Hst]; [now apply UN|].
  match goal with |- SR _ _ _ _ _ ?es => change es with ([] ++ es) end.
  eapply (SR_step _ _ _ _ _ [] (k_goto Uninitialized d) (sb_fill (SBuf [] L)) (is_nil (s_cur (sb_fill (SBuf [] L))))); [|discriminate|].
  { unfold sbd_notify, sbd_step, sb_eof. rewrite Hst. reflexivity. }
  apply (UN (k_goto Uninitialized d)); [reflexivity|exact Hmem|now apply pad_fill].
Qed.
