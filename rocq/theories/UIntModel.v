(** Model of src/coap/uint.h and src/coap/token.cpp. *)
From Verif Require Import Base.
Local Open Scope N_scope.

(** src/coap/uint.h 14-29, [internal::uint_get<TReturn>] for an unsigned
    [TReturn] of [w] bits.  [v <<= 8] wraps modulo 2^w; [v |= value[i]]. *)
Definition uint_get (w : N) (value : list N) : N :=
  match value with
  | [] => 0
  | b :: rest =>
      fold_left (fun v x => N.lor ((N.shiftl v 8) mod 2 ^ w) x) rest (b mod 2 ^ w)
  end.

(** src/coap/uint.h 32-41, the [uint8_t] specialisation: returns the first
    byte whatever the length is (ASSERT_WARN only). *)
Definition uint_get_u8 (value : list N) : N :=
  match value with
  | [] => 0
  | b :: _ => b
  end.

(** src/coap/uint.h 53-81, [UInt::get<TReturn>]: dispatches on the return type;
    the length checks are ASSERT_WARN / static_assert, not modelled. *)
Definition uint_get_t (w : N) (value : list N) : N :=
  if w =? 8 then uint_get_u8 value else uint_get w value.

(** src/coap/uint.h 86-109, [UInt::assess_bytes_used(input, headstart)] for
    unsigned [input]; [bytes_used] is a uint8_t.  The loop is fuelled by the
    bit size of the input plus one. *)
Fixpoint assess_loop (fuel : nat) (input bytes_used : N) : res N :=
  match fuel with
  | O => NoFuel
  | S f =>
      if input =? 0 then Ok bytes_used
      else assess_loop f (N.shiftr input 8) ((bytes_used + 1) mod 256)
  end.

(** src/coap/uint.h 86-109, the call with enough fuel (proved in C01/C02). *)
Definition assess_bytes_used (input headstart : N) : res N :=
  assess_loop (S (N.to_nat (N.size input))) input headstart.

(** Same loop for a signed [input] (two's complement, arithmetic shift), as
    instantiated by src/coap/encoder/streambuf.h 202-209 and
    src/coap/encoder.h 259-266 with [int]. *)
Fixpoint assess_loop_signed (fuel : nat) (input : Z) (bytes_used : N) : res N :=
  match fuel with
  | O => NoFuel
  | S f =>
      if (input =? 0)%Z then Ok bytes_used
      else assess_loop_signed f (Z.shiftr input 8) ((bytes_used + 1) mod 256)
  end.

(** src/coap/uint.h 154-162, [UInt::set(input, output, output_length)]: fills
    output[len-1] downto output[0] with the low byte, shifting right.  The
    result is the content of output[0..len-1]. *)
Fixpoint uint_set_len (len : nat) (input : N) : list N :=
  match len with
  | O => []
  | S k => uint_set_len k (N.shiftr input 8) ++ [N.land input 255]
  end.

(** src/coap/uint.h 167-175, [UInt::set(input, output)]; returns the bytes
    written (their number is the C++ return value). *)
Definition uint_set (input : N) : res (list N) :=
  bind (assess_bytes_used input 0) (fun n => Ok (uint_set_len (N.to_nat n) input)).

(** src/coap/uint.h 113-151, [UInt::set_padded(input, output, output_size)].
    [bytes_pad = output_size - bytes_used] is size_t arithmetic: when it
    underflows the first loop writes beyond the output: [Fault]. *)
Definition uint_set_padded (input : N) (output_size : nat) : res (list N) :=
  if input =? 0 then Ok (repeat 0 output_size)
  else
    bind (assess_bytes_used (N.shiftr input 8) 1) (fun used =>
      let used := N.to_nat used in
      if Nat.ltb output_size used then Fault
      else
        let pad := (output_size - used)%nat in
        Ok (repeat 0 pad ++ uint_set_len (output_size - pad) input)).

(** src/coap/uint.h 251-259, [layer2::UInt::set_uint24_t]: loop with i = 2,1,0. *)
Definition set_uint24 (input : N) : list N := uint_set_len 3 input.

(** src/coap/uint.h 261-269, [layer2::UInt<buffer_size>::set]: the bytes are
    written into the fixed buffer before any size check, so more bytes than
    [cap] overflow it: [Fault]. *)
Definition layer2_set (cap : nat) (input : N) : res (list N) :=
  bind (uint_set input) (fun bs =>
    if Nat.ltb cap (length bs) then Fault else Ok bs).

(** src/coap/uint.h 236-248 and 271-279: [get_uint16_t], [get_uint24_t],
    [get<TReturn>]: ASSERT_ERROR on the length, then the generic decoder. *)
Definition layer2_get (w : N) (maxlen : nat) (bs : list N) : res N :=
  if Nat.leb (length bs) maxlen then Ok (uint_get_t w bs) else Fault.

(** src/coap/uint.h 230-234: [get_uint8_t] requires exactly one byte. *)
Definition layer2_get_u8 (bs : list N) : res N :=
  match bs with
  | [b] => Ok b
  | _ => Fault
  end.

(** src/coap/token.cpp 10-20, [SimpleTokenGenerator::generate]: resize the token
    to the number of bytes needed, write [current++] (uint32_t) into it. *)
Definition token_generate (current : N) : res (list N * N) :=
  bind (assess_bytes_used current 0) (fun used =>
    bind (uint_set current) (fun bs =>
      if Nat.eqb (length bs) (N.to_nat used)
      then Ok (bs, (current + 1) mod 2 ^ 32)
      else Fault)).

(** [n] consecutive calls of [generate], collecting the tokens. *)
Fixpoint token_generate_n (n : nat) (current : N) : res (list (list N) * N) :=
  match n with
  | O => Ok ([], current)
  | S k =>
      bind (token_generate current) (fun p =>
        bind (token_generate_n k (snd p)) (fun q =>
          Ok (fst p :: fst q, snd q)))
  end.
