(** Model of src/coap/decoder.h, decoder.hpp, decoder.cpp, decoder/simple.h and of
    decode_and_notify in src/coap/decoder/subject.hpp. *)
From Verif Require Import Base HeaderModel OptEncModel OptDecModel.
Local Open Scope N_scope.

(** src/coap.h 83-99, Root::State *)
Inductive rstate : Type :=
| Uninitialized | RHeader | HeaderDone | TokenStart | RToken | TokenDone
| OptionsStart | ROptions | OptionsDone | RPayload | PayloadDone | RDone.

(** src/coap/decoder.h 131-145, 208 and decoder/simple.h.  [k_h]/[k_hpos]: the
    HeaderDecoder; [k_tok]/[k_tpos]: the RawDecoder<8> used for the token;
    [k_od]: the OptionDecoder that shares the token decoder's storage;
    [k_hold]: optionHolder. *)
Record dec : Type := Dec {
  k_st : rstate;
  k_h : hdr; k_hpos : N;
  k_tok : list N; k_tpos : N;
  k_od : odec; k_hold : holder }.

(** src/coap/decoder.h 131-145: state(s), the rest untouched. *)
Definition k_goto (s : rstate) (d : dec) : dec :=
  Dec s (k_h d) (k_hpos d) (k_tok d) (k_tpos d) (k_od d) (k_hold d).

(** src/coap/decoder/simple.h 81: bytes[pos] = value *)
Definition hdr_put (i v : N) (h : hdr) : res hdr :=
  match i with
  | 0 => Ok (Hdr v (h1 h) (h2 h) (h3 h))
  | 1 => Ok (Hdr (h0 h) v (h2 h) (h3 h))
  | 2 => Ok (Hdr (h0 h) (h1 h) v (h3 h))
  | 3 => Ok (Hdr (h0 h) (h1 h) (h2 h) v)
  | _ => Fault
  end.

(** src/coap/decoder.hpp 8-23 with decoder/simple.h 42-45, 79-83: bytes are
    taken until four are counted or the chunk is used up.  Result: header, pos,
    bytes consumed, done. *)
Fixpoint hdr_loop (bs : list N) (h : hdr) (hpos : N) (n : nat) : res (hdr * N * nat * bool) :=
  match bs with
  | [] => Ok (h, hpos, n, false)
  | b :: r =>
      bind (hdr_put hpos b h) (fun h1 =>
        let p := (hpos + 1) mod 256 in
        if 4 <=? p then Ok (h1, p, S n, true) else hdr_loop r h1 p (S n))
  end.

(** buffer[i] = v in an 8 byte array *)
Definition tok_put (i v : N) (t : list N) : res (list N) :=
  if i <? 8 then Ok (firstn (N.to_nat i) t ++ v :: skipn (S (N.to_nat i)) t) else Fault.

(** src/coap/decoder.hpp 26-42 with decoder/simple.h 63-67. *)
Fixpoint tok_loop (tkl : N) (bs : list N) (t : list N) (tpos : N) (n : nat)
  : res (list N * N * nat * bool) :=
  match bs with
  | [] => Ok (t, tpos, n, false)
  | b :: r =>
      bind (tok_put tpos b t) (fun t1 =>
        let p := (tpos + 1) mod 256 in
        if tkl <=? p then Ok (t1, p, S n, true) else tok_loop tkl r t1 p (S n))
  end.

(** src/coap/decoder.h 132-136: the union.  What the OptionDecoder reads as after
    the token decoder was written: RawDecoder is {pos, buffer[8]}, OptionDecoder
    is {state (4 bytes), buffer[4], pos}.  Only the comparison of the state with
    Payload (= 11) matters; every other value is represented by OptionDone.
    Simplification: little endian layout without padding before [buffer]. *)
Definition tok_alias (t : list N) (tpos : N) : odec :=
  let b i := nth i t 0 in
  ODec (if tpos + 256 * b 0%nat + 65536 * b 1%nat + 16777216 * b 2%nat =? 11 then OPayload else OptionDone)
       (b 3%nat) (b 4%nat) (b 5%nat) (b 6%nat) (b 7%nat).

(** src/coap/header.h: token_length() *)
Definition dec_tkl (d : dec) : N := hdr_tkl (k_h d).

(** src/coap/decoder.h 76-81, DecoderContext::remainder *)
Definition remainder (chunk : list N) (pos : nat) : list N := skipn pos chunk.

(** src/coap/decoder.cpp 38-209, Decoder::process_iterate: new decoder, new pos. *)
Definition dec_step (chunk : list N) (last : bool) (d : dec) (pos : nat) : res (dec * nat) :=
  let rem := remainder chunk pos in
  let at_eof := Nat.eqb pos (length chunk) && last in
  match k_st d with
  | Uninitialized =>                                                     (* 48-52 *)
      Ok (Dec RHeader (k_h d) 0 (k_tok d) (k_tpos d) (k_od d) (k_hold d), pos)
  | RHeader =>                                                           (* 54-61 *)
      bind (hdr_loop rem (k_h d) (k_hpos d) 0) (fun x =>
        let '(h, hp, n, done) := x in
        Ok (Dec (if done then HeaderDone else RHeader) h hp (k_tok d) (k_tpos d) (k_od d) (k_hold d),
            (pos + n)%nat))
  | HeaderDone => Ok (k_goto (if 0 <? dec_tkl d then TokenStart else TokenDone) d, pos)   (* 63-74 *)
  | TokenStart =>                                                        (* 76-81 *)
      Ok (Dec RToken (k_h d) (k_hpos d) (k_tok d) 0 (k_od d) (k_hold d), pos)
  | RToken =>                                                            (* 83-90 *)
      bind (tok_loop (dec_tkl d) rem (k_tok d) (k_tpos d) 0) (fun x =>
        let '(t, tp, n, done) := x in
        Ok (Dec (if done then TokenDone else RToken) (k_h d) (k_hpos d) t tp
                (if Nat.eqb n 0 then k_od d else tok_alias t tp) (k_hold d), (pos + n)%nat))
  | TokenDone => Ok (k_goto OptionsStart d, pos)                         (* 92-94 *)
  | OptionsStart =>                                                      (* 98-125 *)
      if Nat.eqb (length rem) 0 && last then Ok (k_goto OptionsDone d, pos)
      else
        bind (od_chunk_last (od_goto FirstByte (k_od d)) holder_reset rem last) (fun x =>
          let '(o, h, n) := x in
          Ok (Dec (if ostate_eqb (d_st o) OPayload then OptionsDone else ROptions)
                  (k_h d) (k_hpos d) (k_tok d) (k_tpos d) o h, (pos + n)%nat))
  | ROptions =>                                                          (* 127-148 *)
      bind (od_chunk_last (k_od d) (k_hold d) rem last) (fun x =>
        let '(o, h, n) := x in
        let pos1 := (pos + n)%nat in
        let st := if ostate_eqb (d_st o) OPayload then OptionsDone
                  else if (Nat.eqb pos1 (length chunk) && last) && ostate_eqb (d_st o) OptionValueDone
                       then OptionsDone else ROptions in
        Ok (Dec st (k_h d) (k_hpos d) (k_tok d) (k_tpos d) o h, pos1))
  | OptionsDone =>                                                       (* 150-186 *)
      if ostate_eqb (d_st (k_od d)) OPayload then Ok (k_goto RPayload d, pos)
      else if at_eof then Ok (k_goto RDone d, pos)
      else match rem with
           | [] => Fault                              (* chunk[pos] outside the chunk *)
           | b :: _ => if b =? 255 then Ok (k_goto RPayload d, S pos) else Ok (k_goto RDone d, pos)
           end
  | RPayload => Ok (k_goto (if last then PayloadDone else RPayload) d, length chunk)     (* 188-193 *)
  | PayloadDone => Ok (k_goto RDone d, pos)                              (* 195-197 *)
  | RDone => Ok (k_goto Uninitialized d, pos)                            (* 199-201 *)
  end.

(** src/coap/decoder.cpp 206-208: final assertion, and the returned flag. *)
Definition dec_iterate (chunk : list N) (last : bool) (d : dec) (pos : nat) : res (dec * nat * bool) :=
  bind (dec_step chunk last d pos) (fun x =>
    let '(d1, pos1) := x in
    if (pos1 <=? length chunk)%nat then Ok (d1, pos1, Nat.eqb pos1 (length chunk)) else Fault).

(** src/exp/events.h.  The number-only option event (60-61) carries an empty
    chunk flagged last, so it is [EOption n [] true]. *)
Inductive event : Type :=
| EHeader (h : hdr)
| EToken (t : list N)
| EOptStart
| EOption (number : N) (value : list N) (completed : bool)
| EOptDone
| EPayload (bytes : list N) (last : bool)
| ECompleted.

(** src/coap/decoder.cpp 11-35, Decoder::option *)
Definition dec_option (chunk : list N) (d : dec) (pos : nat) : res (list N * bool) :=
  bind (od_length (k_od d)) (fun l =>
    let rem := remainder chunk pos in
    if (N.to_nat l <=? length rem)%nat then Ok (firstn (N.to_nat l) rem, true) else Ok (rem, false)).

(** src/coap/decoder/subject.hpp 37-99: the events fired after a step, by the
    state reached. *)
Definition dec_events (chunk : list N) (last : bool) (d : dec) (pos : nat) : res (list event) :=
  match k_st d with
  | HeaderDone => Ok [EHeader (k_h d)]
  | TokenDone => Ok [EToken (firstn (N.to_nat (dec_tkl d)) (k_tok d))]
  | OptionsStart => Ok [EOptStart]
  | ROptions =>
      match d_st (k_od d) with
      | ValueStart =>
          if 0 <? hd_len (k_hold d) then
            bind (dec_option chunk d pos) (fun x => Ok [EOption (hd_num (k_hold d)) (fst x) (snd x)])
          else Ok [EOption (hd_num (k_hold d)) [] true]
      | _ => Ok []
      end
  | OptionsDone => Ok [EOptDone]
  | RPayload => Ok [EPayload (remainder chunk pos) last]
  | RDone => Ok [ECompleted]
  | _ => Ok []
  end.

(** src/coap/decoder/subject.hpp 20-102, decode_and_notify. *)
Definition dec_notify (chunk : list N) (last : bool) (d : dec) (pos : nat)
  : res (list event * dec * nat * bool) :=
  bind (dec_iterate chunk last d pos) (fun x =>
    let '(d1, pos1, fin) := x in
    bind (dec_events chunk last d1 pos1) (fun es => Ok (es, d1, pos1, fin))).

(** Comparison of states, as in the C++ enum (src/coap.h 83-99). *)
Definition rstate_eqb (a b : rstate) : bool :=
  match a, b with
  | Uninitialized, Uninitialized | RHeader, RHeader | HeaderDone, HeaderDone
  | TokenStart, TokenStart | RToken, RToken | TokenDone, TokenDone
  | OptionsStart, OptionsStart | ROptions, ROptions | OptionsDone, OptionsDone
  | RPayload, RPayload | PayloadDone, PayloadDone | RDone, RDone => true
  | _, _ => false
  end.

(** The caller's loop for the last (or only) chunk: do decode_and_notify while
    state != Done, as in src/coap/platform/lwip/context.h 66-72.  [fuel] bounds
    the iterations. *)
Fixpoint dec_run (fuel : nat) (chunk : list N) (d : dec) (pos : nat)
  : res (list event * dec * nat) :=
  match fuel with
  | O => NoFuel
  | S k =>
      bind (dec_notify chunk true d pos) (fun x =>
        let '(es, d1, pos1, _) := x in
        if rstate_eqb (k_st d1) RDone then Ok (es, d1, pos1)
        else bind (dec_run k chunk d1 pos1) (fun y =>
               let '(fs, d2, pos2) := y in Ok (es ++ fs, d2, pos2)))
  end.

(** src/coap/decoder.h 260-264, process_experimental: until the flag is true. *)
Fixpoint dec_drain (fuel : nat) (chunk : list N) (last : bool) (d : dec) (pos : nat)
  : res (list event * dec * nat) :=
  match fuel with
  | O => NoFuel
  | S k =>
      bind (dec_notify chunk last d pos) (fun x =>
        let '(es, d1, pos1, fin) := x in
        if fin then Ok (es, d1, pos1)
        else bind (dec_drain k chunk last d1 pos1) (fun y =>
               let '(fs, d2, pos2) := y in Ok (es ++ fs, d2, pos2)))
  end.

(** A message arriving in several chunks: every chunk but the last is processed
    until it is used up (process_experimental), the last one until Done. *)
Fixpoint dec_chunks (fuel : nat) (cs : list (list N)) (final : list N) (d : dec)
  : res (list event * dec) :=
  match cs with
  | [] => bind (dec_run fuel final d 0) (fun x => let '(es, d1, _) := x in Ok (es, d1))
  | c :: r =>
      bind (dec_drain fuel c false d 0) (fun x =>
        let '(es, d1, _) := x in
        bind (dec_chunks fuel r final d1) (fun y => Ok (es ++ fst y, snd y)))
  end.
