(** Model of src/coap-encoder.cpp and src/coap-encoder.h (OptionEncoder). *)
From Verif Require Import Base.
Local Open Scope N_scope.

(** src/coap/option.h 73-88, Option::State (the same enum serves encoder and decoder). *)
Inductive ostate : Type :=
| FirstByte | FirstByteDone
| OptionDelta | OptionDeltaDone
| OptionLength | OptionLengthDone
| OptionDeltaAndLengthDone
| ValueStart | OptionValue | OptionValueDone
| OptionDone | OPayload.

(** Comparison of states, as in the C++ enum (src/coap/option.h 73-88). *)
Definition ostate_eqb (a b : ostate) : bool :=
  match a, b with
  | FirstByte, FirstByte | FirstByteDone, FirstByteDone
  | OptionDelta, OptionDelta | OptionDeltaDone, OptionDeltaDone
  | OptionLength, OptionLength | OptionLengthDone, OptionLengthDone
  | OptionDeltaAndLengthDone, OptionDeltaAndLengthDone
  | ValueStart, ValueStart | OptionValue, OptionValue
  | OptionValueDone, OptionValueDone
  | OptionDone, OptionDone | OPayload, OPayload => true
  | _, _ => false
  end.

(** src/coap.h: COAP_EXTENDED8_BIT_MAX, COAP_EXTENDED16_BIT_MAX. *)
Definition EXT8_MAX : N := 242.
(** src/coap.h: COAP_EXTENDED16_BIT_MAX. *)
Definition EXT16_MAX : N := 65266.

(** src/coap_transmission.h 66-90 (layer2::OptionBase): number, length, value. *)
Record obase : Type := OBase { o_number : N; o_length : N; o_value : list N }.

(** src/coap-encoder.h 32-35: the encoder's state, current_option_number
    (uint16_t) and pos (uint8_t).  The option pointer is passed explicitly. *)
Record oenc : Type := OEnc { e_st : ostate; e_cur : N; e_pos : N }.

(** src/coap-encoder.cpp 11-16 *)
Definition oenc_init : oenc := OEnc FirstByte 0 0.

(** src/coap-encoder.h 82-96 [next]: pos and the option number are kept. *)
Definition oenc_next (e : oenc) : oenc := OEnc FirstByte (e_cur e) (e_pos e).

(** src/coap-encoder.h 121-126 [fast_forward] *)
Definition oenc_fast_forward (e : oenc) : res oenc :=
  match e_st e with
  | OptionValue => Ok (OEnc OptionDone (e_cur e) (e_pos e))
  | _ => Fault
  end.

(** src/coap-encoder.cpp 19-45 [generator_helper]; value is uint16_t.  The
    ASSERT_ERROR(false, false) compares equal values and so does not fire;
    [return -1] is 255 as uint8_t. *)
Definition generator_helper (value pos : N) : N :=
  if value <? 13 then value
  else if value <? EXT8_MAX then
    if pos =? 0 then 13
    else if pos =? 1 then (value - 13) mod 256
    else 255
  else if value <? EXT16_MAX then
    if pos =? 0 then 14
    else
      let v := (value + 65536 - 269) mod 65536 in
      if pos =? 1 then (N.shiftr v 8) mod 256
      else if pos =? 2 then N.land v 255
      else 255
  else 255.

(** option_base.number - current_option_number, converted to uint16_t *)
Definition odelta (o : obase) (e : oenc) : N := (o_number o + 65536 - e_cur e) mod 65536.

(** src/coap-encoder.cpp 50-170 [generate_iterate].  [None] is signal_continue. *)
Definition generate_iterate (o : obase) (e : oenc) : res (option N * oenc) :=
  let droot := generator_helper (odelta o e) 0 in
  let lroot := generator_helper (o_length o) 0 in
  let goto s := OEnc s (e_cur e) (e_pos e) in
  match e_st e with
  | FirstByte =>
      Ok (Some (N.lor lroot ((N.shiftl droot 4) mod 256)), OEnc FirstByteDone (e_cur e) 0)
  | FirstByteDone =>
      if 13 <=? droot then Ok (None, goto OptionDelta)
      else if 13 <=? lroot then Ok (None, goto OptionDeltaDone)
      else Ok (None, goto OptionDeltaAndLengthDone)
  | OptionDelta =>
      let pos := (e_pos e + 1) mod 256 in
      let b := generator_helper (odelta o e) pos in
      if droot =? 13 then Ok (Some b, OEnc OptionDeltaDone (e_cur e) pos)
      else if (droot =? 14) && (pos =? 2) then Ok (Some b, OEnc OptionDeltaDone (e_cur e) pos)
      else Ok (Some b, OEnc OptionDelta (e_cur e) pos)
  | OptionDeltaDone =>
      if 13 <=? lroot then Ok (None, OEnc OptionLength (o_number o) (e_pos e))
      else Ok (None, OEnc OptionLengthDone (o_number o) (e_pos e))
  | OptionLength =>
      let pos := (e_pos e + 1) mod 256 in
      let b := generator_helper (o_length o) pos in
      if b =? 13 then Ok (Some b, OEnc OptionLengthDone (e_cur e) pos)
      else if (b =? 14) && (pos =? 2) then Ok (Some b, OEnc OptionLengthDone (e_cur e) pos)
      else Ok (Some b, OEnc OptionLength (e_cur e) pos)
  | OptionDeltaAndLengthDone =>
      Ok (None, OEnc OptionLengthDone (o_number o) (e_pos e))
  | OptionLengthDone =>
      if o_length o =? 0 then Ok (None, goto OptionValueDone)
      else Ok (None, OEnc OptionValue (e_cur e) 0)
  | ValueStart => Ok (None, e)
  | OptionValue =>
      match nth_error (o_value o) (N.to_nat (e_pos e)) with
      | Some b =>
          Ok (Some b, OEnc (if e_pos e + 1 =? o_length o then OptionValueDone else OptionValue)
                           (e_cur e) ((e_pos e + 1) mod 256))
      | None => Fault
      end
  | OptionValueDone => Ok (None, goto OptionDone)
  | OptionDone => Ok (None, e)
  | OPayload => Ok (None, e)
  end.

(** src/coap-encoder.h 55-64 [generate]: until there is a byte.  [fuel] bounds the loop. *)
Fixpoint generate (fuel : nat) (o : obase) (e : oenc) : res (N * oenc) :=
  match fuel with
  | O => NoFuel
  | S f =>
      bind (generate_iterate o e) (fun r =>
        match fst r with Some b => Ok (b, snd r) | None => generate f o (snd r) end)
  end.

(** The caller's loop, test/unit-tests/coap.cpp 104-107: generate() while the state is
    not OptionValueDone.  [n] bounds the bytes. *)
Fixpoint pull (n fuel : nat) (o : obase) (e : oenc) : res (list N * oenc) :=
  if ostate_eqb (e_st e) OptionValueDone then Ok ([], e)
  else match n with
       | O => NoFuel
       | S k =>
           bind (generate fuel o e) (fun r =>
             bind (pull k fuel o (snd r)) (fun q => Ok (fst r :: fst q, snd q)))
       end.

(** src/coap-encoder.h 82-96: next(option), then the loop above, for each option. *)
Fixpoint pull_options (n fuel : nat) (os : list (N * list N)) (e : oenc) : res (list N * oenc) :=
  match os with
  | [] => Ok ([], e)
  | (num, v) :: r =>
      bind (pull n fuel (OBase (num mod 65536) (N.of_nat (length v) mod 65536) v) (oenc_next e)) (fun x =>
        bind (pull_options n fuel r (snd x)) (fun y => Ok (fst x ++ fst y, snd y)))
  end.
