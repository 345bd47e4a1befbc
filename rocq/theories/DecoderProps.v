(** C14-C19, C21: the message decoder on a single (last) chunk. *)
From Verif Require Import Base HeaderModel HeaderProofs OptEncModel OptSpec OptDecModel OptDecSpec OptDecProofs
  DecoderModel DecoderSpec DecoderProofs CutProofs.
Local Open Scope N_scope.

(** C14: for every well-formed message with an option or a payload, and whatever a
    decoder object between messages contains, calling decode_and_notify until Done
    reports exactly the message. *)
Theorem C14_whole_message : forall m d fuel, msg_ok m -> m_opts m <> [] \/ m_pay m <> None -> idle d ->
  (dec_fuel (msg_bytes m) <= fuel)%nat ->
  exists d1, dec_run fuel (msg_bytes m) d 0 = Ok (msg_events m, d1, length (msg_bytes m)) /\ idle d1.
Proof.
  intros m d fuel Hm Hne Hd Hf. destruct (whole_message m d fuel Hm Hne Hd Hf) as (d1 & A & B & C & _).
  exists d1. split; [exact A|]. split; [right; assumption|assumption].
Qed.
Print Assumptions C14_whole_message.

(** ... one decoder object used for any number of messages in a row. *)
Theorem C14_session : forall ms d, Forall (fun m => msg_ok m /\ (m_opts m <> [] \/ m_pay m <> None)) ms -> idle d ->
  exists d1, dec_session (map msg_bytes ms) d = Ok (map msg_events ms, d1).
Proof.
  induction ms as [|m ms IH]; intros d Hms Hd; [eexists; reflexivity|].
  inversion Hms as [|? ? (H1 & H2) H3]; subst. cbn [map dec_session].
  destruct (C14_whole_message m d _ H1 H2 Hd (le_n _)) as (d1 & -> & Hd1). cbn [bind].
  destruct (IH d1 H3 Hd1) as (d2 & ->). cbn. eauto.
Qed.
Print Assumptions C14_session.

(** C14: for arbitrary bytes after a complete token, well formed or not, the
    report is the one of the RFC reading of the options ([parse]): the options
    seen, with the bytes they have, then what [opt_tail] says.  The two ends at
    which the decoder may assert are a reserved nibble and a stream that stops
    inside an option header. *)
Theorem C14_refines_parser : forall d h tok rest fuel,
  idle d -> bytes_ok (hdr_bytes h ++ tok ++ rest) ->
  h0 h mod 16 = N.of_nat (length tok) -> (length tok <= 8)%nat -> rest <> [] ->
  let chunk := hdr_bytes h ++ tok ++ rest in
  (dec_fuel chunk <= fuel)%nat ->
  let '(vs, e) := parse 0 (4 + length tok) rest in
  match e with
  | EndReserved => dec_run fuel chunk d 0 = Fault
  | EndInHead =>
      dec_run fuel chunk d 0 = Fault \/
      exists es d1, Forall hollow es /\ idle d1 /\
        dec_run fuel chunk d 0 = Ok ([EHeader h; EToken tok; EOptStart] ++
           map (vev 0 chunk) vs ++ es ++ [EOptDone; ECompleted], d1, length chunk)
  | _ =>
      exists d1, idle d1 /\ dec_run fuel chunk d 0 = Ok ([EHeader h; EToken tok; EOptStart] ++
          map (vev 0 chunk) vs ++ opt_tail e chunk, d1, length chunk)
  end.
Proof.
  intros d h tok rest fuel Hd Hok Ht H8 Hr chunk Hf.
  assert (HM := message_run d h tok rest (length tok) fuel Hd Hok ltac:(rewrite tkl_mod; exact Ht) eq_refl H8 Hr Hf).
  cbn zeta in HM. fold chunk in HM.
  assert (HI : forall es d1 p, dec_run fuel chunk d 0 = Ok (es, d1, p) -> idle d1) by (intros; eapply run_idle_again; eassumption).
  destruct (parse 0 (4 + length tok) rest) as [vs e].
  destruct e; try exact HM;
    try (destruct HM as (d1 & A & _); exists d1; split; [eapply HI; exact A|exact A]).
  destruct HM as [HM|(es & d1 & A & B & C)]; [left; exact HM|right].
  exists es, d1. split; [assumption|]. split; [eapply HI; exact B|exact B].
Qed.
Print Assumptions C14_refines_parser.

Definition sample_dec : dec := Dec Uninitialized (Hdr 9 9 9 9) 7 [1;2;3;4;5;6;7;8] 3 (ODec OPayload 1 2 3 4 5) (Holder 8 9).
Lemma sample_idle : idle sample_dec.
Proof.
  split; [left; reflexivity|]. unfold dec_mem, od_bytes, byte_ok. cbn.
  split; [reflexivity|]. split; [repeat constructor; unfold byte_ok; lia|]. lia.
Qed.
Definition sample_msg : msg :=
  Msg (Hdr 66 1 18 52) [170; 187] [(3, [104]); (11, [97; 98]); (11, []); (300, [1])] (Some [104; 105]).
Example C14_case : msg_ok sample_msg /\ idle sample_dec /\
  msg_bytes sample_msg = [66;1;18;52; 170;187; 49;104; 130;97;98; 0; 225;0;20;1; 255; 104;105] /\
  exists d1, dec_run 40 (msg_bytes sample_msg) sample_dec 0 =
    Ok ([EHeader (Hdr 66 1 18 52); EToken [170;187]; EOptStart; EOption 3 [104] true; EOption 11 [97;98] true;
         EOption 11 [] true; EOption 300 [1] true; EOptDone; EPayload [104;105] true; ECompleted], d1, 19%nat).
Proof.
  split; [|split; [apply sample_idle|split; [reflexivity|eexists; vm_compute; reflexivity]]].
  unfold msg_ok, hdr_ok, bytes_ok, byte_ok. cbn.
  repeat split; try lia; repeat constructor; unfold byte_ok; try lia.
Qed.

(** C15: header and token only.  With a token there is never a payload event,
    whatever memory contained; without one there is exactly if the memory of the
    option decoder reads as Payload. *)
Theorem C15_token_only : forall d h tok fuel,
  idle d -> hdr_ok h -> bytes_ok tok -> h0 h mod 16 = N.of_nat (length tok) -> (0 < length tok <= 8)%nat -> (20 <= fuel)%nat ->
  exists d1, dec_run fuel (hdr_bytes h ++ tok) d 0 =
    Ok ([EHeader h; EToken tok; EOptStart; EOptDone; ECompleted], d1, (4 + length tok)%nat) /\ idle d1.
Proof.
  intros d h tok fuel Hd Hh Hb Ht Hl Hf.
  assert (Hok : bytes_ok (hdr_bytes h ++ tok ++ [])) by (rewrite app_nil_r; apply bytes_ok_app; auto).
  destruct (message_run_bare d h tok (length tok) fuel Hd Hok ltac:(rewrite tkl_mod; exact Ht) eq_refl ltac:(lia) Hf) as (d1 & A & B & C).
  rewrite app_nil_r in A. exists d1. rewrite A.
  destruct (Nat.eqb_spec (length tok) 0); [lia|]. cbn [andb app]. rewrite app_length.
  split; [reflexivity|]. split; [right; assumption|assumption].
Qed.
Print Assumptions C15_token_only.

Theorem C15_header_only : forall d h fuel,
  idle d -> hdr_ok h -> h0 h mod 16 = 0 -> (20 <= fuel)%nat ->
  exists d1, dec_run fuel (hdr_bytes h) d 0 =
    Ok ([EHeader h; EToken []; EOptStart; EOptDone] ++
        (if ostate_eqb (d_st (k_od d)) OPayload then [EPayload [] true] else []) ++ [ECompleted], d1, 4%nat) /\ idle d1.
Proof.
  intros d h fuel Hd Hh Ht Hf.
  destruct (message_run_bare d h [] 0 fuel Hd Hh ltac:(rewrite tkl_mod; exact Ht) eq_refl ltac:(lia) Hf) as (d1 & A & B & C).
  exists d1. cbn [app] in A. rewrite app_nil_r in A. split; [exact A|]. split; [right; assumption|assumption].
Qed.
Print Assumptions C15_header_only.

(** C15: hence a decoder that has just decoded any message with a payload reports
    a payload for every following 4 byte message. *)
Theorem C15_stale_payload_refuted : forall m h d, msg_ok m -> m_pay m <> None -> idle d -> hdr_ok h -> h0 h mod 16 = 0 ->
  exists d1, dec_session [msg_bytes m; hdr_bytes h] d =
    Ok ([msg_events m; [EHeader h; EToken []; EOptStart; EOptDone; EPayload [] true; ECompleted]], d1).
Proof.
  intros m h d Hm Hp Hd Hh Ht. cbn [dec_session].
  destruct (whole_message m d _ Hm (or_intror Hp) Hd (le_n _)) as (d1 & -> & A & B & C). cbn [bind].
  destruct (C15_header_only d1 h (dec_fuel (hdr_bytes h)) ltac:(split; [right; assumption|assumption]) Hh Ht) as (d2 & -> & _).
  { unfold dec_fuel. lia. }
  destruct (m_pay m); [|congruence]. rewrite C. cbn. eauto.
Qed.
Print Assumptions C15_stale_payload_refuted.

(** ... while after a message without payload it does not. *)
Theorem C15_no_stale_payload : forall m h d, msg_ok m -> m_pay m = None -> m_opts m <> [] -> idle d -> hdr_ok h -> h0 h mod 16 = 0 ->
  exists d1, dec_session [msg_bytes m; hdr_bytes h] d =
    Ok ([msg_events m; [EHeader h; EToken []; EOptStart; EOptDone; ECompleted]], d1).
Proof.
  intros m h d Hm Hp Ho Hd Hh Ht. cbn [dec_session].
  destruct (whole_message m d _ Hm (or_introl Ho) Hd (le_n _)) as (d1 & -> & A & B & C). cbn [bind].
  destruct (C15_header_only d1 h (dec_fuel (hdr_bytes h)) ltac:(split; [right; assumption|assumption]) Hh Ht) as (d2 & -> & _).
  { unfold dec_fuel. lia. }
  rewrite Hp in C. rewrite C. cbn. eauto.
Qed.
Print Assumptions C15_no_stale_payload.

Example C15_case : msg_ok sample_msg /\ m_pay sample_msg <> None /\ hdr_ok (Hdr 64 1 0 1) /\
  exists d1 d2, dec_run 40 (msg_bytes sample_msg) sample_dec 0 = Ok (msg_events sample_msg, d1, 19%nat) /\
    dec_run 40 [64; 1; 0; 1] d1 0 =
    Ok ([EHeader (Hdr 64 1 0 1); EToken []; EOptStart; EOptDone; EPayload [] true; ECompleted], d2, 4%nat).
Proof.
  split; [apply C14_case|]. split; [discriminate|]. split; [unfold hdr_ok, bytes_ok; repeat constructor; unfold byte_ok; lia|].
  set (r1 := dec_run 40 (msg_bytes sample_msg) sample_dec 0).
  set (d1 := match r1 with Ok (_, d, _) => d | _ => sample_dec end).
  exists d1, (match dec_run 40 [64; 1; 0; 1] d1 0 with Ok (_, d, _) => d | _ => sample_dec end).
  unfold d1, r1. clear d1 r1. split; vm_compute; reflexivity.
Qed.

(** C16: every byte string that contains its token is decoded, or trips an
    assertion, within [dec_fuel] iterations; the decoder is ready for the next
    message afterwards. *)
Theorem C16_total : forall d h tok rest fuel,
  idle d -> bytes_ok (hdr_bytes h ++ tok ++ rest) ->
  h0 h mod 16 = N.of_nat (length tok) -> (length tok <= 8)%nat ->
  let chunk := hdr_bytes h ++ tok ++ rest in
  (dec_fuel chunk <= fuel)%nat ->
  (dec_run fuel chunk d 0 = Fault /\
     (snd (parse 0 (4 + length tok) rest) = EndReserved \/ snd (parse 0 (4 + length tok) rest) = EndInHead)) \/
  exists es d1, dec_run fuel chunk d 0 = Ok (es, d1, length chunk) /\ idle d1.
Proof.
  intros d h tok rest fuel Hd Hok Ht H8 chunk Hf. destruct rest as [|c r].
  - right. destruct (message_run_bare d h tok (length tok) fuel Hd Hok ltac:(rewrite tkl_mod; exact Ht) eq_refl H8) as (d1 & A & B & C).
    { unfold dec_fuel in Hf. lia. }
    do 2 eexists. split; [exact A|]. split; [right; assumption|assumption].
  - assert (HM := C14_refines_parser d h tok (c :: r) fuel Hd Hok Ht H8 ltac:(discriminate) Hf).
    cbn zeta in HM. fold chunk in HM. destruct (parse 0 (4 + length tok) (c :: r)) as [vs e]. cbn [snd].
    destruct e; try (destruct HM as (d1 & A & B); right; do 2 eexists; split; [exact B|exact A]).
    + left. auto.
    + destruct HM as [HM|(es & d1 & A & B & C)]; [left; auto|right]. do 2 eexists. split; [exact C|exact B].
Qed.
Print Assumptions C16_total.

(** the same for the raw byte string *)
Theorem C16_total_bytes : forall d b0 bs fuel, idle d -> bytes_ok (b0 :: bs) -> b0 mod 16 <= 8 ->
  (3 + N.to_nat (b0 mod 16) <= length bs)%nat -> (dec_fuel (b0 :: bs) <= fuel)%nat ->
  dec_run fuel (b0 :: bs) d 0 = Fault \/
  exists es d1, dec_run fuel (b0 :: bs) d 0 = Ok (es, d1, S (length bs)) /\ idle d1.
Proof.
  intros d b0 bs fuel Hd Hok Ht Hl Hf.
  destruct bs as [|b1 [|b2 [|b3 r]]]; cbn [length] in Hl; try lia.
  set (h := Hdr b0 b1 b2 b3). set (k := N.to_nat (b0 mod 16)) in *.
  assert (E : b0 :: b1 :: b2 :: b3 :: r = hdr_bytes h ++ firstn k r ++ skipn k r).
  { rewrite firstn_skipn. reflexivity. }
  assert (Ek : length (firstn k r) = k) by (rewrite firstn_length; lia).
  destruct (C16_total d h (firstn k r) (skipn k r) fuel Hd) as [(A & _)|(es & d1 & A & B)].
  - rewrite <- E. exact Hok.
  - rewrite Ek. unfold k. cbn. lia.
  - lia.
  - rewrite <- E. exact Hf.
  - left. rewrite E. exact A.
  - right. exists es, d1. rewrite E, A. split; [|exact B]. rewrite <- E. reflexivity.
Qed.
Print Assumptions C16_total_bytes.

(** C16: the cursor never moves back and never passes the end, in any call. *)
Theorem C16_cursor : forall chunk last d pos es d1 pos1 fin,
  dec_notify chunk last d pos = Ok (es, d1, pos1, fin) -> (pos <= length chunk)%nat ->
  (pos <= pos1 <= length chunk)%nat.
Proof. exact notify_pos. Qed.
Print Assumptions C16_cursor.

(** C16, the part that is false without the length condition: a datagram shorter
    than its header, or than its token, is never finished. *)
Theorem C16_short_header_refuted : forall bs d fuel, idle d -> (length bs < 4)%nat -> dec_run fuel bs d 0 = NoFuel.
Proof. exact short_header. Qed.
Print Assumptions C16_short_header_refuted.

Theorem C16_short_token_refuted : forall d h rest fuel, idle d ->
  N.of_nat (length rest) < h0 h mod 16 -> (length rest <= 8)%nat ->
  dec_run fuel (hdr_bytes h ++ rest) d 0 = NoFuel.
Proof.
  intros d h rest fuel Hd Hl H8. apply (short_token d h rest (N.to_nat (h0 h mod 16))); [assumption| |lia|assumption].
  rewrite tkl_mod. lia.
Qed.
Print Assumptions C16_short_token_refuted.

Example C16_case : idle sample_dec /\
  dec_run 100 [65; 1; 0; 1; 7; 240; 1] sample_dec 0 = Fault /\
  (exists es d1, dec_run 100 [65; 1; 0; 1; 7; 209] sample_dec 0 = Ok (es, d1, 6%nat)) /\
  dec_run 1000 [65; 1; 0; 1] sample_dec 0 = NoFuel.
Proof.
  split; [apply sample_idle|]. split; [vm_compute; reflexivity|].
  split; [do 2 eexists; vm_compute; reflexivity|vm_compute; reflexivity].
Qed.

(** C17: on a single chunk, whatever bytes it contains and however far decoding
    gets, the events come in the fixed order, each at most once except options. *)
Theorem C17_order : forall n bs d, idle d -> exists q, phase_run P0 (dec_trace n bs true d 0) = Some q.
Proof.
  intros n bs d (Hs & _). destruct Hs as [Hs|Hs].
  - replace P0 with (ph (k_st d)) by (rewrite Hs; reflexivity). apply trace_phase. rewrite Hs. discriminate.
  - destruct n as [|n]; [eexists; reflexivity|]. cbn [dec_trace].
    unfold dec_notify, dec_iterate, dec_step. rewrite Hs. cbn [bind Nat.leb dec_events k_st k_goto rstate_eqb app].
    apply (trace_phase n bs (k_goto Uninitialized d) 0%nat). discriminate.
Qed.
Print Assumptions C17_order.

(** C17: for any sequence of calls with any chunks the order is the same, except
    that several payload events may follow each other. *)
Theorem C17_order_any_calls : forall calls d, k_st d = Uninitialized ->
  exists q, phase_run' P0 (dec_calls calls d) = Some q.
Proof.
  intros calls d Hs. replace P0 with (ph (k_st d)) by (rewrite Hs; reflexivity). apply calls_phase. rewrite Hs. discriminate.
Qed.
Print Assumptions C17_order_any_calls.

(** the automaton does reject: payload before options, a repeated header, a second
    completion *)
Example C17_case :
  phase_run P0 (dec_trace 40 (msg_bytes sample_msg) true sample_dec 0) = Some P6 /\
  length (dec_trace 40 (msg_bytes sample_msg) true sample_dec 0) = 10%nat /\
  phase_run P0 [EHeader (Hdr 0 0 0 0); EHeader (Hdr 0 0 0 0)] = None /\
  phase_run P0 [EHeader (Hdr 0 0 0 0); EToken []; EPayload [] true] = None /\
  phase_run P4 [ECompleted; ECompleted] = None /\ phase_run P4 [EPayload [] true; EPayload [] true] = None.
Proof. vm_compute. auto 10. Qed.

(** C18: nibble 9..15 with more than eight bytes following: the ninth byte is
    written behind the token buffer. *)
Theorem C18_long_token_refuted : forall d h rest fuel, idle d -> 8 < h0 h mod 16 -> (8 < length rest)%nat -> (6 <= fuel)%nat ->
  dec_run fuel (hdr_bytes h ++ rest) d 0 = Fault.
Proof.
  intros d h rest fuel Hd Ht Hl Hf. apply (long_token d h rest (N.to_nat (h0 h mod 16))); try assumption; [|lia].
  rewrite tkl_mod. lia.
Qed.
Print Assumptions C18_long_token_refuted.

(** C18: the token loop itself stays inside the 8 byte buffer iff the nibble is at
    most 8 (given enough bytes). *)
Theorem C18_token_bounds : forall tkl bs t, (0 < tkl < 16)%nat -> length t = 8%nat -> (tkl <= length bs)%nat ->
  (tok_loop (N.of_nat tkl) bs t 0 0 <> Fault <-> (tkl <= 8)%nat) /\
  ((tkl <= 8)%nat -> exists tp n, tok_loop (N.of_nat tkl) bs t 0 0 = Ok (firstn tkl bs ++ skipn tkl t, tp, n, true)).
Proof.
  intros tkl bs t Ht Hl Hb.
  assert (G : (tkl <= 8)%nat -> exists tp n, tok_loop (N.of_nat tkl) bs t 0 0 = Ok (firstn tkl bs ++ skipn tkl t, tp, n, true)).
  { intros H8. pose proof (tok_loop_all tkl bs t 0 0 ltac:(lia) ltac:(lia) Hl Hb) as H.
    change (0 + tkl)%nat with tkl in H. change (N.of_nat 0) with 0 in H. rewrite H. do 2 eexists. reflexivity. }
  split; [|exact G]. split.
  - intros H. destruct (Nat.leb_spec tkl 8); [assumption|]. exfalso. apply H.
    change 0 with (N.of_nat 0) at 1. apply (tok_loop_over 8); lia.
  - intros H. destruct (G H) as (tp & n & ->). discriminate.
Qed.
Print Assumptions C18_token_bounds.

(** C18: within the limit nothing but the token bytes is written: the rest of the
    buffer keeps its contents, for a token arriving in any chunk. *)
Theorem C18_partial_token : forall tkl bs t, (length bs < tkl <= 8)%nat -> length t = 8%nat ->
  tok_loop (N.of_nat tkl) bs t 0 0 = Ok (bs ++ skipn (length bs) t, N.of_nat (length bs), length bs, false).
Proof.
  intros tkl bs t Ht Hl. pose proof (tok_loop_some bs t 0 tkl 0 ltac:(lia) ltac:(lia) Hl) as H. exact H.
Qed.
Print Assumptions C18_partial_token.

Example C18_case : dec_run 100 ([73; 1; 0; 1] ++ [1;2;3;4;5;6;7;8;9]) sample_dec 0 = Fault /\
  exists es d1, dec_run 100 ([72; 1; 0; 1] ++ [1;2;3;4;5;6;7;8]) sample_dec 0 = Ok (es, d1, 12%nat) /\
    In (EToken [1;2;3;4;5;6;7;8]) es.
Proof. split; [vm_compute; reflexivity|]. do 2 eexists. split; [vm_compute; reflexivity|]. cbn. auto. Qed.

(** C19: a message cut anywhere inside the value of its last option: the option
    is reported with the bytes that are there and completed=false (and the message
    is reported completed all the same). *)
Theorem C19_cut_value : forall h tok os num v j d fuel,
  msg_ok (Msg h tok (os ++ [(num, v)]) None) -> (j < length v)%nat -> idle d ->
  let bs := hdr_bytes h ++ tok ++ opts_bytes 0 os ++ opt_head (num - last_number 0 os) (len v) ++ firstn j v in
  (dec_fuel bs <= fuel)%nat ->
  exists d1, dec_run fuel bs d 0 = Ok ([EHeader h; EToken tok; EOptStart] ++ opt_events os ++
      [EOption num (firstn j v) false; EOptDone; ECompleted], d1, length bs) /\ idle d1.
Proof. exact cut_message. Qed.
Print Assumptions C19_cut_value.

(** C19: a message cut inside an option header: whatever is reported beyond the
    complete options has no value bytes; the message is still reported completed
    unless an assertion fires. *)
Theorem C19_cut_header : forall h tok rest vs d fuel,
  idle d -> bytes_ok (hdr_bytes h ++ tok ++ rest) ->
  h0 h mod 16 = N.of_nat (length tok) -> (length tok <= 8)%nat -> rest <> [] ->
  parse 0 (4 + length tok) rest = (vs, EndInHead) ->
  let chunk := hdr_bytes h ++ tok ++ rest in (dec_fuel chunk <= fuel)%nat ->
  dec_run fuel chunk d 0 = Fault \/
  exists es d1, Forall hollow es /\
    dec_run fuel chunk d 0 = Ok ([EHeader h; EToken tok; EOptStart] ++ map (vev 0 chunk) vs ++ es ++ [EOptDone; ECompleted], d1, length chunk).
Proof.
  intros h tok rest vs d fuel Hd Hok Ht H8 Hr Hp chunk Hf.
  assert (HM := C14_refines_parser d h tok rest fuel Hd Hok Ht H8 Hr Hf). rewrite Hp in HM. cbn zeta in HM.
  destruct HM as [HM|(es & d1 & A & _ & B)]; [left; exact HM|right; eauto].
Qed.
Print Assumptions C19_cut_header.

(** What exactly is reported for it: one option without a value, under a number
    that lacks the delta unless its extension bytes are all there, and marked
    complete if the length nibble is 0, or if the length is extended and the
    option before was empty (or there was none). *)
Theorem C19_cut_header_exact : forall h tok os b r d fuel,
  msg_ok (Msg h tok os None) -> bytes_ok (b :: r) -> b <> 255 -> idle d ->
  b / 16 <> 15 -> b mod 16 <> 15 -> (length r < ext_count (b / 16) + ext_count (b mod 16))%nat ->
  let bs := hdr_bytes h ++ tok ++ opts_bytes 0 os ++ b :: r in
  (dec_fuel bs <= fuel)%nat ->
  exists d1, dec_run fuel bs d 0 = Ok ([EHeader h; EToken tok; EOptStart] ++ opt_events os ++
      [EOption (cut_num (last_number 0 os) b r) [] (cut_len (last_len 0 os) b =? 0); EOptDone; ECompleted], d1, length bs) /\ idle d1.
Proof. intros. now apply cut_header_message. Qed.
Print Assumptions C19_cut_header_exact.

(** A reserved nibble trips the assertion whatever follows, also if nothing does. *)
Theorem C19_reserved_nibble : forall h tok os b r d fuel,
  msg_ok (Msg h tok os None) -> bytes_ok (b :: r) -> b <> 255 -> idle d ->
  b / 16 = 15 \/ b mod 16 = 15 ->
  let bs := hdr_bytes h ++ tok ++ opts_bytes 0 os ++ b :: r in
  (dec_fuel bs <= fuel)%nat -> dec_run fuel bs d 0 = Fault.
Proof. intros. now apply cut_header_message. Qed.
Print Assumptions C19_reserved_nibble.

(** Option 11 (value "a"), then a header announcing two extension bytes of
    delta and one of length, of which two bytes are there / one byte is there. *)
Example C19_cut_header_case :
  msg_ok (Msg (Hdr 64 1 0 1) [] [(11, [97])] None) /\ bytes_ok [237; 1; 2] /\ 237 / 16 = 14 /\ 237 mod 16 = 13 /\
  (length [1; 2] < ext_count 14 + ext_count 13)%nat /\
  cut_num 11 237 [1; 2] = 11 + 269 + 256 + 2 /\ cut_num 11 237 [1] = 11 /\ cut_len 1 237 = 1 /\ cut_len 0 237 = 0 /\ cut_len 1 208 = 0 /\
  map fst (match dec_run 400 [64; 1; 0; 1; 177; 97; 237; 1; 2] sample_dec 0 with Ok (es, _, p) => [(es, p)] | _ => [] end) =
    [[EHeader (Hdr 64 1 0 1); EToken []; EOptStart; EOption 11 [97] true; EOption 538 [] false; EOptDone; ECompleted]] /\
  map fst (match dec_run 400 [64; 1; 0; 1; 177; 97; 237; 1] sample_dec 0 with Ok (es, _, p) => [(es, p)] | _ => [] end) =
    [[EHeader (Hdr 64 1 0 1); EToken []; EOptStart; EOption 11 [97] true; EOption 11 [] false; EOptDone; ECompleted]] /\
  dec_run 400 [64; 1; 0; 1; 177; 97; 31] sample_dec 0 = Fault.
Proof.
  split. { unfold msg_ok, hdr_ok, bytes_ok, byte_ok. cbn. repeat split; try lia; repeat constructor; unfold byte_ok; try lia. }
  split; [repeat constructor; unfold byte_ok; lia|].
  repeat split; vm_compute; reflexivity.
Qed.

(** C19, full claim refuted: a truncated message is reported as completed, and an
    option that was never sent (number 11 again, empty) is reported as complete. *)
Theorem C19_truncation_detected_refuted : exists m n d d1, msg_ok m /\ (n < length (msg_bytes m))%nat /\ idle d /\
  dec_run 400 (firstn n (msg_bytes m)) d 0 =
    Ok ([EHeader (m_hdr m); EToken []; EOptStart; EOption 11 [97] true; EOption 11 [] true; EOptDone; ECompleted], d1, n) /\
  ~ In (11, []) (m_opts m).
Proof.
  exists (Msg (Hdr 64 1 0 1) [] [(11, [97]); (60, [])] None), 7%nat, sample_dec. eexists.
  split. { unfold msg_ok, hdr_ok, bytes_ok, byte_ok. cbn. repeat split; try lia; repeat constructor; unfold byte_ok; try lia. }
  split; [vm_compute; lia|]. split; [apply sample_idle|]. split; [vm_compute; reflexivity|].
  cbn. intros [H|[H|[]]]; discriminate.
Qed.
Print Assumptions C19_truncation_detected_refuted.

Example C19_case : msg_ok (Msg (Hdr 64 1 0 1) [] ([(3, [104])] ++ [(11, [97; 98; 99])]) None) /\
  exists d1, dec_run 400 [64; 1; 0; 1; 49; 104; 131; 97; 98] sample_dec 0 =
   Ok ([EHeader (Hdr 64 1 0 1); EToken []; EOptStart; EOption 3 [104] true; EOption 11 [97; 98] false; EOptDone; ECompleted], d1, 9%nat).
Proof.
  split; [|eexists; vm_compute; reflexivity].
  unfold msg_ok, hdr_ok, bytes_ok, byte_ok. cbn. repeat split; try lia; repeat constructor; unfold byte_ok; try lia.
Qed.

(** C21: process_experimental on a non-empty buffer never delivers completed. *)
Theorem C21_no_completed : forall fuel bs d es d1 pos, idle d -> bs <> [] ->
  dec_drain fuel bs true d 0 = Ok (es, d1, pos) -> ~ In ECompleted es.
Proof.
  intros fuel bs d es d1 pos (Hs & _) Hne H. eapply drain_no_completed; [|split|exact H].
  - destruct bs; [congruence|cbn; lia].
  - destruct Hs as [Hs|Hs]; rewrite Hs; discriminate.
  - destruct Hs as [Hs|Hs]; rewrite Hs; discriminate.
Qed.
Print Assumptions C21_no_completed.

(** C21: what it does deliver, for arbitrary bytes after the token. *)
Theorem C21_refines_parser : forall d h tok rest fuel,
  idle d -> bytes_ok (hdr_bytes h ++ tok ++ rest) ->
  h0 h mod 16 = N.of_nat (length tok) -> (length tok <= 8)%nat -> rest <> [] ->
  let chunk := hdr_bytes h ++ tok ++ rest in
  (3 * length chunk + 10 <= fuel)%nat ->
  let '(vs, e) := parse 0 (4 + length tok) rest in
  match e with
  | EndReserved => dec_drain fuel chunk true d 0 = Fault
  | _ => exists d1, dec_drain fuel chunk true d 0 =
      Ok ([EHeader h; EToken tok; EOptStart] ++ map (vev 0 chunk) vs ++ drain_tail e chunk, d1, length chunk)
  end.
Proof.
  intros d h tok rest fuel Hd Hok Ht H8 Hr chunk Hf.
  assert (HM := message_drain d h tok rest (length tok) fuel Hd Hok ltac:(rewrite tkl_mod; exact Ht) eq_refl H8 Hr Hf).
  cbn zeta in HM. fold chunk in HM. destruct (parse 0 (4 + length tok) rest) as [vs e]. destruct e; exact HM.
Qed.
Print Assumptions C21_refines_parser.

(** C21: header and token only: not even the start of the options is reported, and
    without a token not the (empty) token either. *)
Theorem C21_bare : forall d h tok fuel,
  idle d -> h0 h mod 16 = N.of_nat (length tok) -> (length tok <= 8)%nat -> (10 <= fuel)%nat ->
  exists d1, dec_drain fuel (hdr_bytes h ++ tok) true d 0 =
    Ok (EHeader h :: (match tok with [] => [] | _ => [EToken tok] end), d1, (4 + length tok)%nat).
Proof.
  intros d h tok fuel Hd Ht H8 Hf.
  destruct (drain_bare d h tok (length tok) fuel Hd ltac:(rewrite tkl_mod; exact Ht) eq_refl H8 Hf) as (d1 & ->).
  exists d1. destruct tok; reflexivity.
Qed.
Print Assumptions C21_bare.

(** C21: for a well-formed message: with a payload everything but completed; with
    an empty last option that option is lost too. *)
Theorem C21_message : forall m b d fuel, msg_ok m -> m_pay m = Some b -> b <> [] -> idle d ->
  (3 * length (msg_bytes m) + 10 <= fuel)%nat ->
  exists d1 es, dec_drain fuel (msg_bytes m) true d 0 = Ok (es, d1, length (msg_bytes m)) /\ msg_events m = es ++ [ECompleted].
Proof.
  intros m b d fuel Hm Hp Hb Hd Hf. assert (Hok := msg_bytes_ok m Hm).
  destruct m as [h tok os p]. destruct Hm as (A & B & C & D & E & F). cbn [m_hdr m_tok m_opts m_pay] in *. subst p.
  unfold msg_bytes in *. cbn [m_hdr m_tok m_opts m_pay pay_bytes] in *.
  assert (Hr : opts_bytes 0 os ++ 255 :: b <> []) by (destruct (opts_bytes 0 os); discriminate).
  assert (HM := C21_refines_parser d h tok _ fuel Hd Hok B C Hr Hf).
  rewrite parse_opts in HM; [|assumption|constructor; [unfold byte_ok; lia|assumption]|left; discriminate].
  cbn zeta in HM. unfold parse in HM. cbn [length oparse] in HM. change (255 =? 255) with true in HM.
  cbn iota in HM. cbn [fst snd] in HM. rewrite app_nil_r in HM.
  destruct HM as (d1 & ->). exists d1. eexists. split; [reflexivity|].
  unfold msg_events. cbn [m_hdr m_tok m_opts m_pay pay_events]. cbn [drain_tail].
  replace (hdr_bytes h ++ tok ++ opts_bytes 0 os ++ 255 :: b) with ((hdr_bytes h ++ tok) ++ opts_bytes 0 os ++ 255 :: b) at 1 by (rewrite <- app_assoc; reflexivity).
  replace (4 + length tok)%nat with (length (hdr_bytes h ++ tok)) at 1 by (rewrite app_length; reflexivity).
  unfold pview, oview in *. rewrite views_events.
  rewrite pay_at by reflexivity.
  destruct (Nat.eqb_spec (4 + length tok + length (opts_bytes 0 os) + 1) (length (hdr_bytes h ++ tok ++ opts_bytes 0 os ++ 255 :: b))) as [X|X].
  - exfalso. rewrite !app_length in X. cbn [hdr_bytes length] in X. destruct b; [congruence|cbn in X; lia].
  - rewrite <- !app_assoc. reflexivity.
Qed.
Print Assumptions C21_message.

Theorem C21_all_delivered_refuted : exists m d d1, msg_ok m /\ idle d /\
  dec_drain 400 (msg_bytes m) true d 0 = Ok ([EHeader (m_hdr m); EToken (m_tok m); EOptStart], d1, length (msg_bytes m)) /\
  m_opts m = [(5, [])].
Proof.
  exists (Msg (Hdr 65 1 0 1) [7] [(5, [])] None), sample_dec. eexists.
  split. { unfold msg_ok, hdr_ok, bytes_ok, byte_ok. cbn. repeat split; try lia; repeat constructor; unfold byte_ok; try lia. }
  split; [apply sample_idle|]. split; [vm_compute; reflexivity|reflexivity].
Qed.
Print Assumptions C21_all_delivered_refuted.

Example C21_case : msg_ok sample_msg /\ idle sample_dec /\ exists d1,
  dec_drain 400 (msg_bytes sample_msg) true sample_dec 0 = Ok (removelast (msg_events sample_msg), d1, 19%nat).
Proof. split; [apply C14_case|]. split; [apply sample_idle|]. eexists. vm_compute. reflexivity. Qed.

Lemma notify_done : forall chunk last d pos es d1 pos1 fin, dec_notify chunk last d pos = Ok (es, d1, pos1, fin) ->
  k_st d1 = RDone -> es = [ECompleted].
Proof.
  intros chunk last d pos es d1 pos1 fin H HS. unfold dec_notify in H. destruct (dec_iterate chunk last d pos) as [[[x y] z]| |]; cbn [bind] in H; try discriminate.
  destruct (dec_events chunk last x y) as [e| |] eqn:E; cbn [bind] in H; try discriminate. injection H as <- <- <- <-.
  unfold dec_events in E. rewrite HS in E. now injection E as <-.
Qed.

Lemma run_completed : forall fuel chunk d pos es d1 p, dec_run fuel chunk d pos = Ok (es, d1, p) -> exists fs, es = fs ++ [ECompleted].
Proof.
  induction fuel as [|k IH]; intros chunk d pos es d1 p H; cbn [dec_run] in H; [discriminate|].
  destruct (dec_notify chunk true d pos) as [[[[e x] y] z]| |] eqn:EN; cbn [bind] in H; try discriminate.
  destruct (rstate_eqb (k_st x) RDone) eqn:ES.
  - injection H as <- <- <-. exists []. apply (notify_done _ _ _ _ _ _ _ _ EN). destruct (k_st x); discriminate || reflexivity.
  - destruct (dec_run k chunk x y) as [[[e1 x1] y1]| |] eqn:ER; cbn [bind] in H; try discriminate. injection H as <- <- <-.
    destruct (IH _ _ _ _ _ _ ER) as (fs & ->). exists (e ++ fs). now rewrite app_assoc.
Qed.

Lemma drain_run : forall fuel fuel' chunk d pos es d1 p fs d2 p2, dec_drain fuel chunk true d pos = Ok (es, d1, p) -> ~ In ECompleted es ->
  dec_run fuel' chunk d pos = Ok (fs, d2, p2) -> exists more, fs = es ++ more ++ [ECompleted].
Proof.
  induction fuel as [|k IH]; intros fuel' chunk d pos es d1 p fs d2 p2 H HC HR; cbn [dec_drain] in H; [discriminate|].
  destruct fuel' as [|k']; [discriminate|]. cbn [dec_run] in HR.
  destruct (dec_notify chunk true d pos) as [[[[e x] y] z]| |] eqn:EN; cbn [bind] in H, HR; try discriminate.
  assert (Hpre : exists r, es = e ++ r).
  { destruct z; [injection H as <- <- <-; exists []; now rewrite app_nil_r|].
    destruct (dec_drain k chunk true x y) as [[[e1 x1] y1]| |]; cbn [bind] in H; try discriminate. injection H as <- <- <-. eauto. }
  destruct (rstate_eqb (k_st x) RDone) eqn:ES.
  { exfalso. assert (X : e = [ECompleted]) by (apply (notify_done _ _ _ _ _ _ _ _ EN); destruct (k_st x); discriminate || reflexivity).
    destruct Hpre as (r & ->). apply HC. rewrite X. now left. }
  destruct (dec_run k' chunk x y) as [[[f1 x2] y2]| |] eqn:ER; cbn [bind] in HR; try discriminate. injection HR as <- <- <-.
  destruct z.
  - injection H as <- <- <-. destruct (run_completed _ _ _ _ _ _ _ ER) as (fs & ->). now exists fs.
  - destruct (dec_drain k chunk true x y) as [[[e1 x1] y1]| |] eqn:ED; cbn [bind] in H; try discriminate. injection H as <- <- <-.
    destruct (IH _ _ _ _ _ _ _ _ _ _ ED ltac:(intros Hi; apply HC, in_or_app; now right) ER) as (more & ->). exists more. now rewrite <- app_assoc.
Qed.

(** C21: whatever the buffer, what it delivers is a proper prefix of what the loop
    until Done delivers; completed is always among what is missing. *)
Theorem C21_prefix : forall fuel fuel' bs d es d1 p fs d2 p2, idle d -> bs <> [] ->
  dec_drain fuel bs true d 0 = Ok (es, d1, p) -> dec_run fuel' bs d 0 = Ok (fs, d2, p2) ->
  exists more, fs = es ++ more ++ [ECompleted].
Proof.
  intros fuel fuel' bs d es d1 p fs d2 p2 Hd Hne H HR. eapply drain_run; eauto. eapply C21_no_completed; eauto.
Qed.
Print Assumptions C21_prefix.

Example C21_prefix_case : exists d1 d2 m, idle sample_dec /\
  dec_drain 400 [0x41; 1; 0; 1; 7; 0x51; 9; 0x10] true sample_dec 0 = Ok ([EHeader (Hdr 0x41 1 0 1); EToken [7]; EOptStart; EOption 5 [9] true], d1, 8%nat) /\
  dec_run 400 [0x41; 1; 0; 1; 7; 0x51; 9; 0x10] sample_dec 0 =
    Ok ([EHeader (Hdr 0x41 1 0 1); EToken [7]; EOptStart; EOption 5 [9] true] ++ m ++ [ECompleted], d2, 8%nat) /\ m = [EOption 6 [] true; EOptDone].
Proof.
  do 2 eexists. exists [EOption 6 [] true; EOptDone]. split; [apply sample_idle|]. split; [vm_compute; reflexivity|]. split; [vm_compute; reflexivity|reflexivity].
Qed.
