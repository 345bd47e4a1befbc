(** What a CoAP message is (RFC 7252 section 3) and what a receiver should be told. *)
From Verif Require Import Base HeaderModel OptSpec OptDecModel OptDecSpec DecoderModel.
Local Open Scope N_scope.

(** a message: header bytes, token, options, optional payload *)
Record msg : Type := Msg { m_hdr : hdr; m_tok : list N; m_opts : list opt; m_pay : option (list N) }.

Definition pay_bytes (p : option (list N)) : list N :=
  match p with None => [] | Some b => 255 :: b end.

Definition msg_bytes (m : msg) : list N :=
  hdr_bytes (m_hdr m) ++ m_tok m ++ opts_bytes 0 (m_opts m) ++ pay_bytes (m_pay m).

Definition msg_ok (m : msg) : Prop :=
  hdr_ok (m_hdr m) /\ h0 (m_hdr m) mod 16 = N.of_nat (length (m_tok m)) /\
  (length (m_tok m) <= 8)%nat /\ bytes_ok (m_tok m) /\ opts_ok 0 (m_opts m) /\
  match m_pay m with None => True | Some b => bytes_ok b end.

Definition opt_events (os : list opt) : list event :=
  map (fun o => EOption (fst o) (snd o) true) os.

Definition pay_events (p : option (list N)) : list event :=
  match p with None => [] | Some b => [EPayload b true] end.

(** the complete report of a message received in one piece *)
Definition msg_events (m : msg) : list event :=
  [EHeader (m_hdr m); EToken (m_tok m); EOptStart] ++ opt_events (m_opts m) ++
  [EOptDone] ++ pay_events (m_pay m) ++ [ECompleted].

(** the order in which events may appear; [phase] after an event, or none *)
Inductive phase : Type := P0 | P1 | P2 | P3 | P4 | P5 | P6.
Definition phase_next (p : phase) (e : event) : option phase :=
  match p, e with
  | P0, EHeader _ => Some P1
  | P1, EToken _ => Some P2
  | P2, EOptStart => Some P3
  | P3, EOption _ _ _ => Some P3
  | P3, EOptDone => Some P4
  | P4, EPayload _ _ => Some P5
  | P4, ECompleted => Some P6
  | P5, ECompleted => Some P6
  | _, _ => None
  end.
Fixpoint phase_run (p : phase) (es : list event) : option phase :=
  match es with
  | [] => Some p
  | e :: r => match phase_next p e with Some q => phase_run q r | None => None end
  end.

(** the same order, except that the payload may arrive in several events *)
Definition phase_next' (p : phase) (e : event) : option phase :=
  match p, e with P5, EPayload _ _ => Some P5 | _, _ => phase_next p e end.
Fixpoint phase_run' (p : phase) (es : list event) : option phase :=
  match es with
  | [] => Some p
  | e :: r => match phase_next' p e with Some q => phase_run' q r | None => None end
  end.

(** memory holds bytes and the token buffer has eight; nothing else is assumed
    about what a decoder object contains before its first message *)
Definition od_bytes (d : odec) : Prop :=
  byte_ok (d_b0 d) /\ byte_ok (d_b1 d) /\ byte_ok (d_b2 d) /\ byte_ok (d_b3 d) /\ byte_ok (d_pos d).
Definition dec_mem (d : dec) : Prop :=
  length (k_tok d) = 8%nat /\ bytes_ok (k_tok d) /\ od_bytes (k_od d).

(** a decoder object between messages: new, or one that has reported completion *)
Definition idle (d : dec) : Prop := (k_st d = Uninitialized \/ k_st d = RDone) /\ dec_mem d.

(** iterations that are enough for any message *)
Definition dec_fuel (chunk : list N) : nat := (3 * length chunk + N.to_nat 65600)%nat.

(** the events delivered by the first [n] iterations, up to completion or a fault *)
Fixpoint dec_trace (n : nat) (chunk : list N) (last : bool) (d : dec) (pos : nat) : list event :=
  match n with
  | O => []
  | S k =>
      match dec_notify chunk last d pos with
      | Ok (es, d1, pos1, _) =>
          if rstate_eqb (k_st d1) RDone then es else es ++ dec_trace k chunk last d1 pos1
      | _ => []
      end
  end.

(** several messages, one after the other, with the same decoder object *)
Fixpoint dec_session (ms : list (list N)) (d : dec) : res (list (list event) * dec) :=
  match ms with
  | [] => Ok ([], d)
  | m :: r =>
      bind (dec_run (dec_fuel m) m d 0) (fun x =>
        let '(es, d1, _) := x in
        bind (dec_session r d1) (fun y => Ok (es :: fst y, snd y)))
  end.

(** any sequence of decode_and_notify calls up to completion, whatever chunk,
    cursor and last-chunk flag the caller passes in each *)
Fixpoint dec_calls (calls : list (list N * bool * nat)) (d : dec) : list event :=
  match calls with
  | [] => []
  | (chunk, last, pos) :: r =>
      match dec_notify chunk last d pos with
      | Ok (es, d1, _, _) => if rstate_eqb (k_st d1) RDone then es else es ++ dec_calls r d1
      | _ => []
      end
  end.

(** the event for a view; the chunk starts at stream offset [c0] *)
Definition vev (c0 : nat) (chunk : list N) (v : pview) : event :=
  let '(num, l, o) := v in
  let rem := skipn (o - c0) chunk in
  EOption num (firstn (N.to_nat l) rem) (N.to_nat l <=? length rem)%nat.

(** what follows the options of a single last chunk, by how they end *)
Definition opt_tail (e : oend) (chunk : list N) : list event :=
  match e with
  | EndMarker p => [EOptDone; EPayload (skipn p chunk) true; ECompleted]
  | EndAfterHead num l => [EOption num [] (l =? 0); EOptDone; ECompleted]
  | _ => [EOptDone; ECompleted]
  end.

(** an option report without a single value byte *)
Definition hollow (e : event) : Prop := exists n c, e = EOption n [] c.

(** what process_experimental delivers after the options, by how they end *)
Definition drain_tail (e : oend) (chunk : list N) : list event :=
  match e with
  | EndClean => [EOptDone]
  | EndMarker p => EOptDone :: (if Nat.eqb p (length chunk) then [] else [EPayload (skipn p chunk) true])
  | _ => []
  end.

(** * An option header that is cut off by the end of the message *)

(** extension bytes announced by a nibble (RFC 7252 section 3.1) *)
Definition ext_count (nb : N) : nat := if nb =? 13 then 1%nat else if nb =? 14 then 2%nat else 0%nat.

(** length of the last option, [l0] if there is none *)
Definition last_len (l0 : N) (os : list opt) : N := last (map (fun o => len (snd o)) os) l0.

(** Number and length the client is left with: [b] is the first byte of the cut
    header and [r] the bytes after it.  The number counts only if its extension
    bytes are all there; a length that needs extension bytes never does, and then
    the length of the option before is still in place. *)
Definition cut_num (prev b : N) (r : list N) : N :=
  match take_ext (b / 16) r with OptDecSpec.Got delta _ => (prev + delta) mod 65536 | _ => prev end.
Definition cut_len (stale b : N) : N := if b mod 16 <? 13 then b mod 16 else stale.
