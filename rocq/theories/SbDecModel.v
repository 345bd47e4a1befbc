(** Model of src/coap/decoder/streambuf.h/.hpp (StreambufDecoder) and of its
    decode_and_notify in src/coap/decoder/subject-core.hpp. *)
From Verif Require Import Base HeaderModel OptEncModel OptDecModel DecoderModel.
Local Open Scope N_scope.

(** The input streambuf (external; src/coap/decoder/streambuf.h 17): the bytes
    between gptr and egptr and the segments behind them (a chain of LwIP pbufs, or
    nothing behind a span). *)
Record sbuf : Type := SBuf { s_cur : list N; s_rest : list (list N) }.

(** the next segment that is not empty, for underflow() of the input streambuf
    (src/coap/decoder/streambuf.h 17) *)
Fixpoint sb_next (rest : list (list N)) : sbuf :=
  match rest with
  | [] => SBuf [] []
  | c :: r => match c with [] => sb_next r | _ => SBuf c r end
  end.

(** underflow(), used at src/coap/decoder/streambuf.hpp 11-20 and 265, as the standard defines it: nothing happens while bytes are left,
    otherwise the next segment becomes the get area; eof() if there is none. *)
Definition sb_fill (s : sbuf) : sbuf := match s_cur s with [] => sb_next (s_rest s) | _ => s end.

(** no bytes left; the comparison with 0 in src/coap/decoder/streambuf.hpp 11-20 *)
Definition is_nil {A} (l : list A) : bool := match l with [] => true | _ => false end.

(** src/coap/decoder/streambuf.hpp 11-20: in_avail() is the size of the get area,
    or 0 and underflow() is asked, or -1 for a certain end.  Either way: *)
Definition sb_eof (s : sbuf) : bool * sbuf := (is_nil (s_cur (sb_fill s)), sb_fill s).

(** sbumpc(), used at src/coap/decoder/streambuf.hpp 36 and 71: the next byte, [None] for eof() *)
Definition sb_bump (s : sbuf) : option N * sbuf :=
  let s1 := sb_fill s in
  match s_cur s1 with [] => (None, s1) | b :: r => (Some b, SBuf r (s_rest s1)) end.

(** src/coap/decoder/streambuf.hpp 36-40, 71-76: [char_type ch = sbumpc()] compared
    with eof(), which is -1.  If char is signed ([sg]) the byte 0xFF is -1 as well and
    ends the loop; if it is unsigned the end of the data is the byte 0xFF. *)
Definition sb_char (sg : bool) (x : option N) : option N :=
  match x with
  | None => if sg then None else Some 255
  | Some b => if sg && (b =? 255) then None else Some b
  end.

(** src/coap/decoder/streambuf.hpp 32-45 with decoder/simple.h 79-83.  The index
    stops the loop (bytes[4] is a fault), so five rounds are enough. *)
Fixpoint sb_hdr_loop (n : nat) (sg : bool) (s : sbuf) (h : hdr) (hpos : N) : res (hdr * N * sbuf * bool) :=
  match n with
  | O => NoFuel
  | S k =>
      let '(x, s1) := sb_bump s in
      match sb_char sg x with
      | None => Ok (h, hpos, s1, false)
      | Some b =>
          bind (hdr_put hpos b h) (fun h1 =>
            let p := (hpos + 1) mod 256 in
            if 4 <=? p then Ok (h1, p, s1, true) else sb_hdr_loop k sg s1 h1 p)
      end
  end.

(** src/coap/decoder/streambuf.hpp 67-81 with decoder/simple.h 63-67; nine rounds
    are enough. *)
Fixpoint sb_tok_loop (n : nat) (sg : bool) (tkl : N) (s : sbuf) (t : list N) (tpos : N) : res (list N * N * sbuf * bool) :=
  match n with
  | O => NoFuel
  | S k =>
      let '(x, s1) := sb_bump s in
      match sb_char sg x with
      | None => Ok (t, tpos, s1, false)
      | Some b =>
          bind (tok_put tpos b t) (fun t1 =>
            let p := (tpos + 1) mod 256 in
            if tkl <=? p then Ok (t1, p, s1, true) else sb_tok_loop k sg tkl s1 t1 p)
      end
  end.

(** src/coap/decoder/streambuf.hpp 260-281 [OptionDecoder::process_iterate_streambuf]:
    new decoder, holder and position.  [neg]: in_avail() is -1 (not 0) at the end of
    all data; stored in a size_t it is a huge length, and what follows the buffer
    is read. *)
Definition sb_options (neg : bool) (o : odec) (h : holder) (s : sbuf) : res (odec * holder * sbuf) :=
  match s_cur s with
  | [] =>
      let s1 := sb_fill s in
      match s_cur s1 with
      | [] => if neg then Fault else bind (od_step 0 o) (fun x => Ok (fst x, h, s1))
      | _ => Ok (o, h, s1)                             (* chunk of length 0 *)
      end
  | cur => bind (od_chunk o h cur) (fun x => let '(o1, h1, n) := x in Ok (o1, h1, SBuf (skipn n cur) (s_rest s)))
  end.

(** src/coap/decoder/streambuf.hpp 8-213 [process_iterate_streambuf]: new decoder,
    new position, the flag returned. *)
Definition sbd_step (sg neg : bool) (d : dec) (s : sbuf) : res (dec * sbuf * bool) :=
  let '(eof, s0) := sb_eof s in
  match k_st d with
  | Uninitialized =>                                                     (* 26-30 *)
      Ok (Dec RHeader (k_h d) 0 (k_tok d) (k_tpos d) (k_od d) (k_hold d), s0, eof)
  | RHeader =>                                                           (* 32-45 *)
      bind (sb_hdr_loop 5 sg s0 (k_h d) (k_hpos d)) (fun x =>
        let '(h, hp, s1, done) := x in
        Ok (Dec (if done then HeaderDone else RHeader) h hp (k_tok d) (k_tpos d) (k_od d) (k_hold d), s1, eof))
  | HeaderDone => Ok (k_goto (if 0 <? dec_tkl d then TokenStart else TokenDone) d, s0, eof)   (* 47-58 *)
  | TokenStart =>                                                        (* 60-65 *)
      Ok (Dec RToken (k_h d) (k_hpos d) (k_tok d) 0 (k_od d) (k_hold d), s0, eof)
  | RToken =>                                                            (* 67-81 *)
      bind (sb_tok_loop 9 sg (dec_tkl d) s0 (k_tok d) (k_tpos d)) (fun x =>
        let '(t, tp, s1, done) := x in
        Ok (Dec (if done then TokenDone else RToken) (k_h d) (k_hpos d) t tp
                (if tp =? k_tpos d then k_od d else tok_alias t tp) (k_hold d), s1, eof))
  | TokenDone => Ok (k_goto OptionsStart d, s0, eof)                     (* 83-85 *)
  | OptionsStart =>                                                      (* 89-117 *)
      if eof then Ok (k_goto OptionsDone d, s0, eof)
      else
        bind (sb_options neg (od_goto FirstByte (k_od d)) holder_reset s0) (fun x =>
          let '(o, h, s1) := x in
          Ok (Dec (if ostate_eqb (d_st o) OPayload then OptionsDone else ROptions)
                  (k_h d) (k_hpos d) (k_tok d) (k_tpos d) o h, s1, eof))
  | ROptions =>                                                          (* 119-145 *)
      bind (sb_options neg (k_od d) (k_hold d) s0) (fun x =>
        let '(o, h, s1) := x in
        let '(eof1, s2) := sb_eof s1 in
        Ok (Dec (if ostate_eqb (d_st o) OPayload then OptionsDone
                 else if eof1 && ostate_eqb (d_st o) OptionValueDone then OptionsDone else ROptions)
                (k_h d) (k_hpos d) (k_tok d) (k_tpos d) o h, s2, eof1))
  | OptionsDone =>                                                       (* 147-186 *)
      if ostate_eqb (d_st (k_od d)) OPayload then Ok (k_goto RPayload d, s0, eof)
      else if eof then Ok (k_goto RDone d, s0, eof)
      else match s_cur s0 with
           | 255 :: r => Ok (k_goto RPayload d, SBuf r (s_rest s0), eof)
           | _ => Ok (k_goto RDone d, s0, eof)
           end
  | RPayload => Ok (k_goto (if eof then PayloadDone else RPayload) d, s0, eof)     (* 188-200 *)
  | PayloadDone => Ok (k_goto RDone d, s0, eof)                          (* 202-204 *)
  | RDone => Ok (k_goto Uninitialized d, s0, eof)                        (* 206-208 *)
  end.

(** src/coap/decoder/streambuf.hpp 218-255 [StreambufDecoder::option]: the size of the
    span is the lesser of the value length and in_avail(), a fault if that is -1. *)
Definition sbd_option (neg : bool) (d : dec) (s : sbuf) : res (list N * bool) :=
  bind (od_length (k_od d)) (fun l =>
    match s_cur s with
    | [] => if neg && is_nil (concat (s_rest s)) then Fault else Ok ([], l =? 0)
    | cur => Ok (firstn (N.to_nat l) cur, (N.to_nat l <=? length cur)%nat)
    end).

(** src/coap/decoder/subject-core.hpp 32-136: events by the state reached, and the
    position afterwards.  A payload event hands out the streambuf; it is represented
    by the bytes its receiver reads.  [eat]: the receiver reads to the end of the
    data; otherwise it reads what is in the get area (or nothing at all: the get area
    is skipped after the event, 122-127), and the flag tells whether more is behind. *)
Definition sbd_events (neg eat : bool) (d : dec) (s : sbuf) : res (list event * sbuf) :=
  match k_st d with
  | HeaderDone => Ok ([EHeader (k_h d)], s)
  | TokenDone => Ok ([EToken (firstn (N.to_nat (dec_tkl d)) (k_tok d))], s)
  | OptionsStart => Ok ([EOptStart], s)
  | ROptions =>
      match d_st (k_od d) with
      | ValueStart =>
          if 0 <? hd_len (k_hold d) then
            bind (sbd_option neg d s) (fun x => Ok ([EOption (hd_num (k_hold d)) (fst x) (snd x)], s))
          else Ok ([EOption (hd_num (k_hold d)) [] true], s)
      | _ => Ok ([], s)
      end
  | OptionsDone => Ok ([EOptDone], s)
  | RPayload =>
      if eat then Ok ([EPayload (s_cur s ++ concat (s_rest s)) true], SBuf [] [])
      else Ok ([EPayload (s_cur s) (is_nil (concat (s_rest s)))], SBuf [] (s_rest s))
  | RDone => Ok ([ECompleted], s)
  | _ => Ok ([], s)
  end.

(** src/coap/decoder/subject-core.hpp 13-139, decode_and_notify. *)
Definition sbd_notify (sg neg eat : bool) (d : dec) (s : sbuf) : res (list event * dec * sbuf * bool) :=
  bind (sbd_step sg neg d s) (fun x =>
    let '(d1, s1, eof) := x in
    bind (sbd_events neg eat d1 s1) (fun y => Ok (fst y, d1, snd y, eof))).

(** src/coap/platform/lwip/context.h 64-73 [do_notify], and
    test/unit-tests/decoder-subject-test.cpp 201-204: until the state is Done. *)
Fixpoint sbd_run (fuel : nat) (sg neg eat : bool) (d : dec) (s : sbuf) : res (list event * dec * sbuf) :=
  match fuel with
  | O => NoFuel
  | S k =>
      bind (sbd_notify sg neg eat d s) (fun x =>
        let '(es, d1, s1, _) := x in
        if rstate_eqb (k_st d1) RDone then Ok (es, d1, s1)
        else bind (sbd_run k sg neg eat d1 s1) (fun y =>
               let '(fs, d2, s2) := y in Ok (es ++ fs, d2, s2)))
  end.
