(** Integer types and the numbers in them. *)
From Coq Require Import ZArith.
From Verif Require Import Base.
Local Open Scope Z_scope.

(** the widths there are *)
Definition width (w : N) : Prop := w = 8%N \/ w = 16%N \/ w = 32%N \/ w = 64%N.

(** [z] is a value of the type of [w] bits *)
Definition in_type (signed : bool) (w : N) (z : Z) : Prop :=
  if signed then - 2 ^ (Z.of_N w - 1) <= z < 2 ^ (Z.of_N w - 1) else 0 <= z < 2 ^ Z.of_N w.
