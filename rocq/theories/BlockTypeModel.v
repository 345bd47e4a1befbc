(** Model of option_block_encode of src/coap/blockwise.h for block numbers of any integer type. *)
From Coq Require Import ZArith.
From Verif Require Import Base UIntModel BlockModel.
Local Open Scope N_scope.

(** src/coap/blockwise.h 43-67 with TUInt of [w] bits, signed or not (the static_assert of
    line 47 is a comment).  [num << 4] of line 53 is done in int (32 bits) for a narrower type,
    else in the type itself.  In a signed type shifting a negative number, or one that leaves the
    type's positive values, is a fault (undefined; C++14 lets some of it through).  A
    non-negative int goes through UInt::set like an unsigned one (C01_nonnegative). *)
Definition block_encode_t (signed : bool) (w : N) (num : Z) (m : bool) (szx : N) : res (list N) :=
  let bits := N.max w 32 in
  if (signed || (w <? 32))%bool then
    if ((num <? 0) || (2 ^ Z.of_N (bits - 1) <=? num * 16))%Z then Fault
    else block_encode bits (Z.to_N num) m szx
  else block_encode bits (Z.to_N num) m szx.
