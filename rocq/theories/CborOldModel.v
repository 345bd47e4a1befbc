(** Model of the rest of the older CBOR decoder (src/cbor.h, src/cbor/cbor.cpp): handing a
    whole text to an observer, map heads and simple values; and of the simple values of
    the newer one (src/cbor/decoder.h).  The decoder itself is in CborModel. *)
From Verif Require Import Base CborModel.
Local Open Scope N_scope.

(** src/cbor.h 277-282, type; a decoder that has taken a byte has [pos > 0] *)
Definition o_type (d : odec) : N := N.shiftr (o_head d) 5.

(** src/cbor/cbor.cpp 300-319, the body of the inner loop: what OnType is called with *)
Definition o_report (d : odec) : list odec :=
  match o_state d with
  | ODone => if (o_type d =? M_UINT) || (o_type d =? M_NEG) || (o_type d =? M_SIMPLE) then [d] else []
  | _ => []
  end.

(** src/cbor/cbor.cpp 298-320: until the byte is taken; at most [fuel] calls of
    process_iterate *)
Fixpoint o_offer (fuel : nat) (d : odec) (value : N) : res (odec * list odec) :=
  match fuel with
  | O => NoFuel
  | S f =>
      bind (o_iterate d value) (fun r =>
        let '(d', taken) := r in
        if taken : bool then Ok (d', [])
        else bind (o_offer f d' value) (fun x => Ok (fst x, o_report d' ++ snd x)))
  end.

(** src/cbor/cbor.cpp 296-321, the loop over the text; at most 2^31-1 bytes, as the counter
    is an int *)
Fixpoint o_loop (d : odec) (cbor : list N) : res (odec * list odec) :=
  match cbor with
  | [] => Ok (d, [])
  | b :: r =>
      bind (o_offer 4 d b) (fun x =>
        bind (o_loop (fst x) r) (fun y => Ok (fst y, snd x ++ snd y)))
  end.

(** src/cbor/cbor.cpp 284-322 and src/cbor.h 269-275, DecodeToObserver::decode; [head] and [more] are what
    lies in the buffer of the new decoder *)
Definition o_decode (head : N) (more : list N) (cbor : list N) : res (odec * list odec) :=
  o_loop (ODec head more OUninitialized) cbor.

(** src/cbor.h 303-314, ParseResult *)
Inductive parse_result : Type := POk | PPartial | PInvalidType.

(** src/cbor.h 341-353, get_map_experimental<TSize> for a TSize of [w] bits: the returned
    number, what *result holds afterwards, and what is left.  [result] is what it held before. *)
Definition o_get_map (w : N) (d : odec) (bs : list N) (result : parse_result) : res (N * parse_result * list N) :=
  bind (o_process d bs) (fun r =>
    let '(d', rest) := r in
    if o_type d' =? M_MAP then bind (o_value w d') (fun v => Ok (v, result, rest))
    else Ok (0, PInvalidType, rest)).

(** src/cbor.h 214-217 and 234 *)
Definition o_bits (d : odec) : option N :=
  if o_info d =? 24 then Some 8 else if o_info d =? 25 then Some 16
  else if o_info d =? 26 then Some 32 else if o_info d =? 27 then Some 64 else None.

(** src/cbor.h 237-240, is_simple_value *)
Definition o_is_simple (d : odec) : bool := (o_type d =? M_SIMPLE) && (o_info d <=? 24).
(** src/cbor.h 242-248, is_simple_type_bool *)
Definition o_is_bool (d : odec) : bool := (o_type d =? M_SIMPLE) && ((o_info d =? 20) || (o_info d =? 21)).
(** src/cbor.h 251-256, simple_value_bool *)
Definition o_bool (d : odec) : res bool := if o_is_bool d then Ok (o_info d =? 21) else Fault.
(** src/cbor.h 259-264, is_simple_value_null *)
Definition o_null (d : odec) : res bool := if o_is_simple d then Ok (o_info d =? 22) else Fault.

(** src/cbor/decoder.h 187-190, 348-356: is_simple_type, SimpleData::is_simple_data *)
Definition c_is_simple (d : cdec) : bool := c_type d =? M_SIMPLE.
(** src/cbor/decoder.h 193-196, 359-368, 397: is_true of the decoder, of SimpleData and of
    SimpleDataHelper (389-395), whose constructor only warns of another type *)
Definition c_is_true (d : cdec) : bool := c_raw d =? 21.
(** src/cbor/decoder.h 199-202, 370-379, 398 *)
Definition c_is_false (d : cdec) : bool := c_raw d =? 20.
(** src/cbor/decoder.h 206-209, 399 *)
Definition c_is_null (d : cdec) : bool := c_raw d =? 22.
