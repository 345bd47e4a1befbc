(** Model of src/cbor/encoder.h, src/cbor/decoder.h, src/cbor/decoder.cpp, and of
    the older decoder in src/cbor.h and src/cbor/cbor.cpp. *)
From Verif Require Import Base UIntModel.
Local Open Scope N_scope.

(** src/cbor/decoder.h 15-27, major types *)
Definition M_UINT : N := 0.
(** src/cbor/decoder.h 15-27: NegativeInteger *)
Definition M_NEG : N := 1.
(** src/cbor/decoder.h 15-27: ByteArray *)
Definition M_BYTES : N := 2.
(** src/cbor/decoder.h 15-27: String *)
Definition M_STRING : N := 3.
(** src/cbor/decoder.h 15-27: ItemArray *)
Definition M_ITEMS : N := 4.
(** src/cbor/decoder.h 15-27: Map *)
Definition M_MAP : N := 5.
(** src/cbor/decoder.h 15-27: Tag *)
Definition M_TAG : N := 6.
(** src/cbor/decoder.h 15-27: Float and SimpleData *)
Definition M_SIMPLE : N := 7.

(** * Encoder *)

(** src/cbor/encoder.h 29-42 *)
Definition info_from_wordsize (wordsize : N) : N :=
  if wordsize =? 1 then 24 else if wordsize =? 2 then 25
  else if wordsize =? 4 then 26 else if wordsize =? 8 then 27 else 0.

(** src/cbor/encoder.h 69-89, the switch over the bytes used *)
Definition round_wordsize (n : N) : N :=
  if n =? 3 then 4 else if (n =? 5) || (n =? 6) || (n =? 7) then 8 else n.

(** src/cbor/encoder.h 54-96 with tiny_field 20-24: the bytes written at d, for a
    value that is not negative (there is a TODO for the other case).  The length
    argument is not looked at by the code. *)
Definition mt_int (type value : N) : res (list N) :=
  if value <=? 24 then Ok [N.lor (N.shiftl type 5) value mod 256]
  else
    bind (assess_bytes_used value 0) (fun used =>
      let n := round_wordsize used in
      Ok (N.lor (N.shiftl type 5) (info_from_wordsize n) mod 256 :: uint_set_len (N.to_nat n) value)).

(** src/cbor/encoder.h 284-290, over a buffer of [cap] bytes ([cap] = 5 for
    layer1::Encoder, 319-326; given by the caller for layer3::Encoder).  Bytes
    beyond the buffer are a fault. *)
Definition enc_mt_int (cap : nat) (type value : N) : res (list N) :=
  bind (mt_int type value) (fun bs => if (length bs <=? cap)%nat then Ok bs else Fault).

(** src/cbor/encoder.h 292-299, EncoderBase::integer for a signed type of [w] bits.
    The negation is done in int (32 bits) for narrower types, else in the type itself;
    negating the least value of the type it is done in is undefined *)
Definition enc_integer (w : N) (cap : nat) (value : Z) : res (list N) :=
  if (0 <=? value)%Z then enc_mt_int cap M_UINT (Z.to_N value)
  else if (value =? - 2 ^ Z.of_N (N.max w 32 - 1))%Z then Fault
  else enc_mt_int cap M_NEG (Z.to_N (- value)).

(** src/cbor/encoder.h 302-315 *)
Definition enc_string (cap : nat) (length : N) : res (list N) := enc_mt_int cap M_STRING length.
(** src/cbor/encoder.h 312-315 *)
Definition enc_array (cap : nat) (length : N) : res (list N) := enc_mt_int cap M_BYTES length.

(** NetBufEncoder (src/cbor/encoder.h 99-265).  The netbuf is what has been written
    so far and the room left.  Simplification: one contiguous netbuf; [advance]
    moves by m_written; writing beyond the room is a fault for the header bytes
    (unchecked stores), while the content copies are cut to the room. *)
Record nb : Type := Nb { nb_out : list N; nb_room : nat }.

(** Unchecked stores at netbuf().unprocessed() and advance: src/cbor/encoder.h 111-138, 217-230. *)
Definition nb_store (bs : list N) (s : nb) : res nb :=
  if (length bs <=? nb_room s)%nat then Ok (Nb (nb_out s ++ bs) (nb_room s - length bs)) else Fault.

(** src/cbor/encoder.h 126-138 *)
Definition nb_mt_int (type value : N) (s : nb) : res nb :=
  bind (mt_int type value) (fun bs => nb_store bs s).

(** src/cbor/encoder.h 111-122 *)
Definition nb_tiny (type value : N) (s : nb) : res nb := nb_store [N.lor (N.shiftl type 5) value mod 256] s.

(** src/cbor/encoder.h 141-149 *)
Definition nb_null (s : nb) : res nb := nb_tiny M_SIMPLE 22 s.
(** src/cbor/encoder.h 146-149 *)
Definition nb_boolean (b : bool) (s : nb) : res nb := nb_tiny M_SIMPLE (if b then 21 else 20) s.

(** src/cbor/encoder.h 151-185, both string functions; the flag is the result
    (all bytes copied) *)
Definition nb_string (str : list N) (s : nb) : res (nb * bool) :=
  bind (nb_mt_int M_STRING (N.of_nat (length str)) s) (fun s1 =>
    let copied := firstn (nb_room s1) str in
    Ok (Nb (nb_out s1 ++ copied) (nb_room s1 - length copied), Nat.eqb (length copied) (length str))).

(** src/cbor/encoder.h 187-195; the negation as in [enc_integer] *)
Definition nb_integer (w : N) (value : Z) (s : nb) : res nb :=
  if (0 <=? value)%Z then nb_mt_int M_UINT (Z.to_N value) s
  else if (value =? - 2 ^ Z.of_N (N.max w 32 - 1))%Z then Fault
  else nb_mt_int M_NEG (Z.to_N (- value - 1)) s.

(** src/cbor/encoder.h 197-215 *)
Definition nb_map (count : N) (s : nb) : res nb := nb_mt_int M_MAP count s.
(** src/cbor/encoder.h 205-208 *)
Definition nb_array_header (len : N) (s : nb) : res nb := nb_mt_int M_BYTES len s.
(** src/cbor/encoder.h 212-215 *)
Definition nb_items_header (len : N) (s : nb) : res nb := nb_mt_int M_ITEMS len s.

(** src/cbor/encoder.h 217-230 and 242-255: the elements are stored as single
    bytes *)
Definition nb_array (vs : list N) (s : nb) : res nb :=
  bind (nb_array_header (N.of_nat (length vs)) s) (nb_store (map (fun v => v mod 256) vs)).
(** src/cbor/encoder.h 242-255 *)
Definition nb_items (vs : list N) (s : nb) : res nb :=
  bind (nb_items_header (N.of_nat (length vs)) s) (nb_store (map (fun v => v mod 256) vs)).

(** The calls of a NetBufEncoder (src/cbor/encoder.h 140-255) *)
Inductive nbop : Type :=
| ONull | OBool (b : bool) | OString (s : list N) | OInt (w : N) (v : Z)
| OMap (n : N) | OArrayHeader (n : N) | OItemsHeader (n : N).
(** One call, by its function above (src/cbor/encoder.h 140-255). *)
Definition nb_step (o : nbop) (s : nb) : res nb :=
  match o with
  | ONull => nb_null s
  | OBool b => nb_boolean b s
  | OString str => bind (nb_string str s) (fun p => Ok (fst p))
  | OInt w v => nb_integer w v s
  | OMap n => nb_map n s
  | OArrayHeader n => nb_array_header n s
  | OItemsHeader n => nb_items_header n s
  end.
(** Calls in a row (no code of its own). *)
Fixpoint nb_run (os : list nbop) (s : nb) : res nb :=
  match os with
  | [] => Ok s
  | o :: r => bind (nb_step o s) (nb_run r)
  end.

(** * Decoder (src/cbor/decoder.h) *)

(** src/cbor/decoder.h 73-85 *)
Inductive cstate : Type :=
| CHeaderStart | CHeader | CHeaderDone | CAdditionalStart | CAdditional | CAdditionalDone
| CLongStart | CLong | CLongDone | CItemDone.

(** src/cbor/decoder.h 111-122, without CBOR_FEATURE_64_BIT (src/cbor/features.h) *)
Record cdec : Type := CDec { c_buf : list N; c_hdr : N; c_pos : N; c_state : cstate }.
(** src/cbor/decoder.h 115: uint8_t buffer[4] *)
Definition BUF_LEN : nat := 4.

(** src/cbor/decoder.h 129-134, additional_raw *)
Definition c_raw (d : cdec) : N := N.land (c_hdr d) 31.
(** src/cbor/decoder.h 137-140, additional_length *)
Definition c_addlen (d : cdec) : N := (N.shiftl 1 (c_raw d - 24)) mod 256.
(** src/cbor/decoder.h 147-152, type *)
Definition c_type (d : cdec) : N := N.shiftr (c_hdr d) 5.
(** src/cbor/decoder.h 160-163, is_tiny_value *)
Definition c_tiny (d : cdec) : bool := c_raw d <? 24.
(** src/cbor/decoder.h 168-181, is_short_type *)
Definition c_short (d : cdec) : bool :=
  let t := c_type d in (t =? M_UINT) || (t =? M_NEG) || (t =? M_TAG) || (t =? M_SIMPLE).
(** src/cbor/decoder.h 218-229, is_indeterminate_type *)
Definition c_container (d : cdec) : bool :=
  let t := c_type d in (t =? M_MAP) || (t =? M_ITEMS).

(** src/cbor/decoder.h 126, state(s) *)
Definition c_set (d : cdec) (s : cstate) : cdec := CDec (c_buf d) (c_hdr d) (c_pos d) s.

(** src/cbor/decoder.cpp 6-65.  [m_pos] has three bits; storing outside the buffer
    is a fault. *)
Definition c_iterate (d : cdec) (ch : N) : res (cdec * bool) :=
  match c_state d with
  | CHeaderStart => Ok (c_set d CHeader, false)
  | CHeader => Ok (CDec (c_buf d) ch (c_pos d) CHeaderDone, true)
  | CHeaderDone =>
      Ok (c_set d (if c_tiny d then (if c_short d then CItemDone else CLongStart) else CAdditionalStart), false)
  | CAdditionalStart => Ok (CDec (c_buf d) (c_hdr d) 0 CAdditional, false)
  | CAdditional =>
      if (N.to_nat (c_pos d) <? BUF_LEN)%nat then
        let buf := firstn (N.to_nat (c_pos d)) (c_buf d) ++ [ch] ++ skipn (S (N.to_nat (c_pos d))) (c_buf d) in
        let pos := (c_pos d + 1) mod 8 in
        let d' := CDec buf (c_hdr d) pos CAdditional in
        Ok (if pos =? c_addlen d' then c_set d' CAdditionalDone else d', true)
      else Fault
  | CAdditionalDone => Ok (c_set d (if c_short d then CItemDone else CLongStart), false)
  | CLongStart => Ok (d, false)
  | CLong => Ok (d, false)
  | CLongDone => Ok (d, false)
  | CItemDone => Ok (c_set d CHeaderStart, false)
  end.

(** The conversion to a signed type of [w] bits (two's complement), as the template
    argument of src/cbor/decoder.h 231-241 asks for *)
Definition sgn (w x : N) : Z :=
  let y := x mod 2 ^ w in if y <? 2 ^ (w - 1) then Z.of_N y else (Z.of_N y - 2 ^ Z.of_N w)%Z.

(** src/cbor/decoder.h 231-241, integer<TInt> for a signed TInt of [w] bits.  Reading more bytes than
    the buffer has is a fault.  Simplification: shifts of a signed value wrap. *)
Definition c_integer (w : N) (d : cdec) : res Z :=
  if c_tiny d then Ok (Z.of_N (c_raw d))
  else
    let n := N.to_nat (c_addlen d) in
    if (n <=? BUF_LEN)%nat then
      let v := sgn w (uint_get w (firstn n (c_buf d))) in
      Ok (if c_type d =? M_NEG then (-1 - v)%Z else v)
    else Fault.

(** src/cbor/decoder.h 231-241: integer<unsigned>, 32 bits *)
Definition c_unsigned (d : cdec) : res N :=
  if c_tiny d then Ok (c_raw d)
  else
    let n := N.to_nat (c_addlen d) in
    if (n <=? BUF_LEN)%nat then
      let v := uint_get 32 (firstn n (c_buf d)) in
      Ok (if c_type d =? M_NEG then (2 ^ 32 - 1 - v) mod 2 ^ 32 else v)
    else Fault.

(** src/cbor/decoder.cpp 69-102, StreamDecoder::process over a context of the bytes
    [chunk].  With nothing left the loop still reads the byte after the chunk;
    its content is the parameter [g]. *)
Definition is_item_done (d : cdec) : bool := match c_state d with CItemDone => true | _ => false end.

(** src/cbor/decoder.cpp 71-101, the loop. *)
Fixpoint c_loop (fuel : nat) (chunk : list N) (g : N) (d : cdec) (pos : nat) : res (cdec * nat * bool) :=
  match fuel with
  | O => NoFuel
  | S f =>
      if (pos <? length chunk)%nat || ((pos =? length chunk)%nat && negb (is_item_done d)) then
        bind (c_iterate d (nth pos chunk g)) (fun r =>
          let '(d', adv) := r in
          let pos' := if adv then S pos else pos in
          match c_state d' with
          | CLongStart | CItemDone => Ok (d', pos', false)
          | _ => c_loop f chunk g d' pos'
          end)
      else Ok (d, pos, true)
  end.

(** Not in the code: a number of turns that always suffices (C43_terminates). *)
Definition c_fuel (chunk : list N) (pos : nat) : nat := (20 + 8 * (length chunk - pos))%nat.
(** src/cbor/decoder.cpp 69-102 *)
Definition c_process (chunk : list N) (g : N) (d : cdec) (pos : nat) : res (cdec * nat * bool) :=
  c_loop (c_fuel chunk pos) chunk g d pos.

(** src/cbor/decoder.h 307-319, fast_forward; 330-342, string_experimental, moves
    the same way.  Simplification: [pos] does not overflow an int. *)
Definition c_fast_forward (chunk : list N) (g : N) (d : cdec) (pos : nat) : res (cdec * nat * bool) :=
  if c_container d then c_process chunk g (c_set d CHeaderStart) pos
  else bind (c_unsigned d) (fun n => c_process chunk g (c_set d CHeaderStart) (pos + N.to_nat n)).

(** src/cbor/decoder.h 145: the constructor leaves everything but the state as it was in memory *)
Definition c_init (buf : list N) (hdr pos : N) : cdec := CDec buf hdr pos CHeaderStart.

(** what a reader sees of an item: its type, integer<int64_t>(), and for byte and
    text strings the bytes of the view string_experimental returns *)
Definition cobs : Type := (N * Z * list N)%type.
(** src/cbor/decoder.h 231-241 and 330-342: what the reader gets of the item at hand. *)
Definition c_see (chunk : list N) (d : cdec) (pos : nat) : res cobs :=
  bind (c_integer 64 d) (fun v =>
    match c_state d with
    | CLongStart =>
        if c_container d then Ok (c_type d, v, [])
        else bind (c_unsigned d) (fun n => Ok (c_type d, v, firstn (N.to_nat n) (skipn pos chunk)))
    | _ => Ok (c_type d, v, [])
    end).

(** A reader in the style of test/unit-tests/cbor-test.cpp: looks at each item and
    moves on by fast_forward / string_experimental from a long item and by process
    from a short one. *)
Fixpoint c_walk (fuel : nat) (chunk : list N) (g : N) (d : cdec) (pos : nat) : res (list cobs) :=
  match fuel with
  | O => NoFuel
  | S f =>
      match c_state d with
      | CItemDone =>
          bind (c_see chunk d pos) (fun o =>
          bind (c_process chunk g d pos) (fun r =>
            let '(d', pos', fin) := r in
            if fin : bool then Ok [o] else bind (c_walk f chunk g d' pos') (fun os => Ok (o :: os))))
      | CLongStart =>
          bind (c_see chunk d pos) (fun o =>
          bind (c_fast_forward chunk g d pos) (fun r =>
            let '(d', pos', _) := r in
            bind (c_walk f chunk g d' pos') (fun os => Ok (o :: os))))
      | _ => Ok []
      end
  end.

(** The reader from the start of the data (test/unit-tests/cbor-test.cpp). *)
Definition c_read (fuel : nat) (chunk : list N) (g : N) (d : cdec) : res (list cobs) :=
  bind (c_process chunk g d 0) (fun r => let '(d', pos', _) := r in c_walk fuel chunk g d' pos').

(** * The older decoder (src/cbor.h 58-397, src/cbor/cbor.cpp 55-270), without
    FEATURE_MCCBOR_NESTED and CBOR_FEATURE_64_BIT *)

(** src/cbor.h 92-110, State *)
Inductive ostate : Type :=
| OUninitialized | OMajorType | OMajorTypeDone | OAdditionalInteger | OAdditionalIntegerDone | ODone.

(** src/cbor.h 60-78: buffer[5] is kept as its first byte and the bytes after it *)
Record odec : Type := ODec { o_head : N; o_more : list N; o_state : ostate }.

(** src/cbor.h 133-136, 170-183 *)
Definition o_info (d : odec) : N := N.land (o_head d) 31.
(** src/cbor.h 170-183 *)
Definition o_has_additional (d : odec) : bool :=
  let i := o_info d in (i =? 24) || (i =? 25) || (i =? 26) || (i =? 27).

(** src/cbor/cbor.cpp 55-270; [pos] is one more than the length of [o_more] *)
Definition o_iterate (d : odec) (value : N) : res (odec * bool) :=
  match o_state d with
  | OUninitialized | OMajorType => Ok (ODec value [] OMajorTypeDone, false)
  | OMajorTypeDone =>
      Ok (ODec (o_head d) (o_more d) (if o_has_additional d then OAdditionalInteger else ODone), true)
  | OAdditionalInteger =>
      let more := o_more d ++ [value] in
      if (5 <? S (length more))%nat then Fault                    (* buffer[pos++] *)
      else if o_info d =? 27 then Fault                            (* "64 bit int not supported" *)
      else
        let done := if o_info d =? 24 then (S (length more) =? 2)%nat
                    else if o_info d =? 25 then (S (length more) =? 3)%nat
                    else if o_info d =? 26 then (S (length more) =? 5)%nat else false in
        if done then Ok (ODec (o_head d) more OAdditionalIntegerDone, false)
        else Ok (ODec (o_head d) more OAdditionalInteger, true)
  | OAdditionalIntegerDone => Ok (ODec (o_head d) (o_more d) ODone, true)
  | ODone => Ok (ODec (o_head d) (o_more d) OMajorType, false)
  end.

(** src/cbor.h 286-289: until the byte is taken *)
Fixpoint o_byte (fuel : nat) (d : odec) (value : N) : res odec :=
  match fuel with
  | O => NoFuel
  | S f => bind (o_iterate d value) (fun r => let '(d', taken) := r in if taken : bool then Ok d' else o_byte f d' value)
  end.

(** src/cbor.h 292-301; the bytes are read without a limit, reading beyond [bs] is
    a fault.  Result: the decoder and what is left. *)
Fixpoint o_process (d : odec) (bs : list N) : res (odec * list N) :=
  match bs with
  | [] => Fault
  | b :: r => bind (o_byte 4 d b) (fun d' => match o_state d' with ODone => Ok (d', r) | _ => o_process d' r end)
  end.

(** src/cbor.h 138-153, 204-211, 224-229: value<T> for an unsigned T of [w] bits *)
Definition o_wordsize (d : odec) : N :=
  let i := o_info d in
  if i =? 24 then 1 else if i =? 25 then 2 else if i =? 26 then 4 else if i =? 27 then 8 else 255.
(** src/cbor.h 204-211, 224-229 *)
Definition o_value (w : N) (d : odec) : res N :=
  if o_info d <=? 24 then Ok (o_info d)
  else if 8 * o_wordsize d <=? w then Ok (uint_get_t w (firstn (N.to_nat (o_wordsize d)) (o_more d)))
  else Fault.

(** src/cbor.h 318-338, get_int_experimental with a 32-bit int *)
Definition o_get_int (d : odec) (bs : list N) : res (option Z * list N) :=
  bind (o_process d bs) (fun r =>
    let '(d', rest) := r in
    let t := N.shiftr (o_head d') 5 in
    if t =? M_UINT then bind (o_value 32 d') (fun v => Ok (Some (sgn 32 v), rest))
    else if t =? M_NEG then bind (o_value 32 d') (fun v => Ok (Some (-1 - sgn 32 v)%Z, rest))
    else Ok (None, rest)).

(** src/cbor.h 357-386, get_string_experimental; [true] is OK, [false] Partial.
    [maxlen] is the caller's; the view is not checked against the data. *)
Definition o_get_string (maxlen : nat) (d : odec) (bs : list N) : res (option (list N * bool) * list N) :=
  bind (o_process d bs) (fun r =>
    let '(d', rest) := r in
    if N.shiftr (o_head d') 5 =? M_STRING then
      bind (o_value 64 d') (fun len =>
        let n := N.to_nat len in
        let m := if (maxlen <? n)%nat then maxlen else n in
        if (m <=? length rest)%nat then Ok (Some (firstn m rest, negb (maxlen <? n)%nat), skipn m rest) else Fault)
    else Ok (None, rest)).
