(** RFC 7959 section 2.2: the block option value is the uint
    NUM * 16 + M * 8 + SZX; the block size is 2^(SZX + 4). *)
From Verif Require Import Base.
Local Open Scope N_scope.

Definition block_value (num : N) (m : bool) (szx : N) : N := num * 16 + (if m then 8 else 0) + szx.
