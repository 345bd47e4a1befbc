(** Specification vocabulary for CoAP uint values (RFC 7252 section 3.2):
    a byte string denotes its big-endian value. *)
From Verif Require Import Base.
Local Open Scope N_scope.

(** value of a byte string, most significant byte first *)
Fixpoint be (bs : list N) : N :=
  match bs with
  | [] => 0
  | b :: r => b * 256 ^ N.of_nat (length r) + be r
  end.

(** no superfluous leading zero byte *)
Definition minimal (bs : list N) : Prop :=
  match bs with
  | [] => True
  | b :: _ => b <> 0
  end.
