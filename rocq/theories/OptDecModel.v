(** Model of src/coap/option-decoder.cpp and src/coap/decoder/option.h (OptionDecoder). *)
From Verif Require Import Base OptEncModel.
Local Open Scope N_scope.

(** src/coap/decoder/option.h 48-59: state, buffer[4], pos (uint8_t).  value_length
    shares the storage of buffer[0..1] (little endian order is assumed for the
    bytes; it is only ever read back as a whole).  The constructor (125) sets
    only the state, so the other fields start with arbitrary contents. *)
Record odec : Type := ODec { d_st : ostate; d_b0 : N; d_b1 : N; d_b2 : N; d_b3 : N; d_pos : N }.

(** src/coap/decoder/option.h 29-44 [Holder]: two uint16_t. *)
Record holder : Type := Holder { hd_num : N; hd_len : N }.
(** src/coap/decoder/option.h 29-44: both numbers zero, as the constructor and reset leave them. *)
Definition holder_reset : holder := Holder 0 0.

(** src/coap/decoder/option.h 48-59: state(s), the rest untouched. *)
Definition od_goto (s : ostate) (d : odec) : odec :=
  ODec s (d_b0 d) (d_b1 d) (d_b2 d) (d_b3 d) (d_pos d).
(** src/coap/decoder/option.h 48-59: pos = p, the rest untouched. *)
Definition od_setpos (p : N) (d : odec) : odec :=
  ODec (d_st d) (d_b0 d) (d_b1 d) (d_b2 d) (d_b3 d) p.

(** buffer[i] = v; outside the four bytes it is a fault. *)
Definition od_put (i v : N) (d : odec) : res odec :=
  match i with
  | 0 => Ok (ODec (d_st d) v (d_b1 d) (d_b2 d) (d_b3 d) (d_pos d))
  | 1 => Ok (ODec (d_st d) (d_b0 d) v (d_b2 d) (d_b3 d) (d_pos d))
  | 2 => Ok (ODec (d_st d) (d_b0 d) (d_b1 d) v (d_b3 d) (d_pos d))
  | 3 => Ok (ODec (d_st d) (d_b0 d) (d_b1 d) (d_b2 d) v (d_pos d))
  | _ => Fault
  end.

(** src/coap/decoder/option.h 63-64 *)
Definition raw_delta (d : odec) : N := N.shiftr (d_b0 d) 4.
(** src/coap/decoder/option.h 64 *)
Definition raw_length (d : odec) : N := N.land (d_b0 d) 15.

(** value_length, src/coap/decoder/option.h 52 *)
Definition od_vlen (d : odec) : N := d_b0 d + 256 * d_b1 d.
(** src/coap/decoder/option.h 52: assignment to value_length overwrites buffer[0..1]. *)
Definition od_set_vlen (v : N) (d : odec) : odec :=
  ODec (d_st d) (v mod 256) (v / 256) (d_b2 d) (d_b3 d) (d_pos d).

(** src/coap/decoder/option.h 67-105 [get_value]: the result is uint16_t; the
    RESERVED branch ends in ASSERT_ERROR(0, 15). *)
Definition get_value (nonext b1 b2 : N) : res N :=
  if nonext <? 13 then Ok nonext
  else if nonext =? 13 then Ok (13 + b1)
  else if nonext =? 14 then Ok ((269 + N.lor ((N.shiftl b1 8) mod 65536) b2) mod 65536)
  else Fault.

(** src/coap/decoder/option.h 108-116 *)
Definition od_delta (d : odec) : res N := get_value (raw_delta d) (d_b1 d) (d_b2 d).
(** src/coap/decoder/option.h 108-116: option_length. *)
Definition od_length (d : odec) : res N := get_value (raw_length d) (d_b1 d) (d_b2 d).

(** src/coap/option-decoder.cpp 9-26 [processOptionSize] *)
Definition process_option_size (root pos : N) : res bool :=
  if root =? 13 then Ok false
  else if root =? 14 then Ok (negb (pos =? 2))
  else Fault.

(** src/coap/option-decoder.cpp 31-222 [process_iterate(value, eof)].  The flag
    [eof] only appears in ASSERT_WARN and is left out.  The boolean is "byte
    consumed". *)
Definition od_step (value : N) (d : odec) : res (odec * bool) :=
  match d_st d with
  | OptionValueDone => Ok (od_goto FirstByte d, false)
  | FirstByte =>
      if value =? 255 then Ok (od_goto OPayload d, true)
      else Ok (ODec FirstByteDone value (d_b1 d) (d_b2 d) (d_b3 d) 1, false)
  | FirstByteDone =>
      if 13 <=? raw_delta d then
        if 13 <=? raw_length d then Ok (od_goto OptionDelta d, true)
        else Ok (od_goto OptionLengthDone d, true)
      else if 13 <=? raw_length d then Ok (od_goto OptionDeltaDone d, true)
      else Ok (od_goto OptionDeltaAndLengthDone d, true)
  | OptionDelta =>
      bind (od_put (d_pos d) value d) (fun d1 =>
        bind (process_option_size (raw_delta d) (d_pos d)) (fun more =>
          Ok (if more then od_setpos ((d_pos d + 1) mod 256) d1
              else od_goto OptionDeltaDone d1, true)))
  | OptionDeltaDone =>
      if 13 <=? raw_length d then Ok (od_setpos 1 (od_goto OptionLength d), false)
      else Ok (od_goto ValueStart d, false)
  | OptionLength =>
      bind (od_put (d_pos d) value d) (fun d1 =>
        bind (process_option_size (raw_length d) (d_pos d)) (fun more =>
          Ok (if more then od_setpos ((d_pos d + 1) mod 256) d1
              else od_goto OptionLengthDone d1, true)))
  | OptionLengthDone =>
      if 13 <=? raw_length d then Ok (od_goto ValueStart d, false)
      else Ok (od_goto OptionDelta d, false)
  | OptionDeltaAndLengthDone => Ok (od_goto ValueStart d, false)
  | ValueStart =>
      bind (od_length d) (fun l =>
        Ok (od_goto (if l =? 0 then OptionValueDone else OptionValue) (od_set_vlen l d), false))
  | OptionValue =>
      let l := (od_vlen d + 65535) mod 65536 in
      Ok (od_goto (if l =? 0 then OptionValueDone else OptionValue) (od_set_vlen l d), true)
  | OPayload => Fault
  | OptionDone => Ok (d, true)
  end.

(** src/coap/option-decoder.cpp 309-317: what the chunk loop does to the Holder
    after a step, by the state reached. *)
Definition hold_upd (d : odec) (h : holder) : res holder :=
  match d_st d with
  | OptionDeltaDone =>
      bind (od_delta d) (fun x => Ok (Holder ((hd_num h + x) mod 65536) (hd_len h)))
  | OptionDeltaAndLengthDone =>
      bind (od_delta d) (fun x =>
        bind (od_length d) (fun l => Ok (Holder ((hd_num h + x) mod 65536) l)))
  | OptionLengthDone => bind (od_length d) (fun l => Ok (Holder (hd_num h) l))
  | _ => Ok h
  end.

(** src/coap/option-decoder.cpp 327-339: states in which the loop returns. *)
Definition od_stops (s : ostate) : bool :=
  match s with ValueStart | OptionValueDone | OPayload => true | _ => false end.

(** src/coap/option-decoder.cpp 292-345, the while loop; [n] bytes consumed so far. *)
Fixpoint od_chunk_loop (fuel : nat) (d : odec) (h : holder) (bs : list N) (n : nat)
  : res (odec * holder * nat) :=
  match bs with
  | [] => Ok (d, h, n)
  | b :: r =>
      match fuel with
      | O => NoFuel
      | S k =>
          bind (od_step b d) (fun x =>
            bind (hold_upd (fst x) h) (fun h1 =>
              let n1 := if snd x then S n else n in
              let bs1 := if snd x then r else bs in
              if od_stops (d_st (fst x)) then Ok (fst x, h1, n1)
              else od_chunk_loop k (fst x) h1 bs1 n1))
      end
  end.

(** src/coap/option-decoder.cpp 282-348; [C13] shows the fuel suffices. *)
Definition od_chunk (d : odec) (h : holder) (bs : list N) : res (odec * holder * nat) :=
  od_chunk_loop (4 * length bs + 4) d h bs 0.

(** src/coap/option-decoder.cpp 268-280 *)
Definition od_chunk_last (d : odec) (h : holder) (bs : list N) (last : bool)
  : res (odec * holder * nat) :=
  match bs, last with
  | [], true => bind (od_step 0 d) (fun x => Ok (fst x, h, O))
  | _, _ => od_chunk d h bs
  end.

(** What a caller learns when the decoder pauses at ValueStart: option number,
    value length, offset of the value in the stream. *)
Definition oview : Type := (N * N * nat)%type.

(** The caller's loop: src/coap/decoder.cpp 127-148 repeated on one chunk (not
    flagged as last) that starts at stream offset [off], until the chunk is used
    up or the payload marker is seen. *)
Fixpoint od_drive_loop (fuel : nat) (d : odec) (h : holder) (off : nat) (bs : list N)
  : res (list oview * odec * holder * nat) :=
  match bs with
  | [] => Ok ([], d, h, off)
  | _ :: _ =>
      match fuel with
      | O => NoFuel
      | S k =>
          bind (od_chunk d h bs) (fun x =>
            let '(d1, h1, n) := x in
            match d_st d1 with
            | OPayload => Ok ([], d1, h1, off + n)%nat
            | ValueStart =>
                bind (od_drive_loop k d1 h1 (off + n) (skipn n bs)) (fun y =>
                  let '(vs, d2, h2, o2) := y in
                  Ok ((hd_num h1, hd_len h1, (off + n)%nat) :: vs, d2, h2, o2))
            | _ => od_drive_loop k d1 h1 (off + n) (skipn n bs)
            end)
      end
  end.

(** The caller's loop (src/coap/decoder.cpp 127-148) with enough fuel (C13). *)
Definition od_drive (d : odec) (h : holder) (off : nat) (bs : list N) :=
  od_drive_loop (3 * length bs + 3) d h off bs.

(** several chunks one after the other; nothing is fed after the payload marker *)
Fixpoint od_drive_chunks (d : odec) (h : holder) (off : nat) (cs : list (list N))
  : res (list oview * odec * holder * nat) :=
  match cs with
  | [] => Ok ([], d, h, off)
  | c :: r =>
      bind (od_drive d h off c) (fun x =>
        let '(vs, d1, h1, o1) := x in
        match d_st d1 with
        | OPayload => Ok (vs, d1, h1, o1)
        | _ => bind (od_drive_chunks d1 h1 o1 r) (fun y =>
                 let '(ws, d2, h2, o2) := y in Ok (vs ++ ws, d2, h2, o2))
        end)
  end.
