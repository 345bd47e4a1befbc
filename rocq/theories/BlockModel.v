(** Model of src/coap/blockwise.h (RFC 7959 block options). *)
From Verif Require Import Base UIntModel.
Local Open Scope N_scope.

(** src/coap/blockwise.h 13-18, option_block_decode_szx(uint8_t) *)
Definition decode_szx_byte (value : N) : N :=
  let value := N.land value 7 in
  let value := (value + 4) mod 256 in
  (N.shiftl 1 value) mod 2 ^ 16.

(** option_value[option_value.size() - 1]; an empty span is read out of bounds *)
Fixpoint last_byte (bs : list N) : res N :=
  match bs with
  | [] => Fault
  | [b] => Ok b
  | _ :: r => last_byte r
  end.

(** src/coap/blockwise.h 20-24 *)
Definition decode_szx (bs : list N) : res N := bind (last_byte bs) (fun b => Ok (decode_szx_byte b)).

(** src/coap/blockwise.h 27-33, for an unsigned TInt of [w] bits *)
Definition decode_num (w : N) (bs : list N) : N := N.shiftr (uint_get_t w bs) 4.

(** src/coap/blockwise.h 36-39 *)
Definition decode_m (bs : list N) : res bool := bind (last_byte bs) (fun b => Ok (negb (N.land b 8 =? 0))).

(** bs[size - 1] |= x, x converted to uint8_t; out of bounds when nothing was
    written *)
Fixpoint or_last (bs : list N) (x : N) : res (list N) :=
  match bs with
  | [] => Fault
  | [b] => Ok [N.lor b x mod 256]
  | b :: r => bind (or_last r x) (fun r' => Ok (b :: r'))
  end.

(** src/coap/blockwise.h 43-67.  [w]: bits of the type of [num << 4] (32 for
    uint32_t, 64 for uint64_t).  The result is the bytes written; the returned
    size is their number.  Lines 64-66 after the writes: [size > 0] holds
    whenever the writes were inside the buffer. *)
Definition block_encode (w num : N) (m : bool) (szx : N) : res (list N) :=
  bind (uint_set ((N.shiftl num 4) mod 2 ^ w)) (fun bs =>
  bind (or_last bs (if m then 8 else 0)) (fun bs =>
  or_last bs szx)).
