(** What the netbuf example servers make of any datagram (C84). *)
From Verif Require Import Base OptSpec OptDecSpec HeadCutSpec.
Local Open Scope N_scope.

(** the option bytes hold a reserved nibble where a header is read: in a complete header, or in
    the one that lacks bytes at the end *)
Definition unreadable (off : nat) (rest : list N) : Prop :=
  exists vs, parse 0 off rest = (vs, EndReserved) \/
    (parse 0 off rest = (vs, EndInHead) /\ exists pre b r, cut_after 0 off rest pre b r vs /\ (b / 16 = 15 \/ b mod 16 = 15)).

(** a piece of the datagram *)
Definition piece (c v : list N) : Prop := exists a b, c = a ++ v ++ b.

(** counting down from [k] in threes, no number met (above zero) is 15 modulo 16 *)
Fixpoint quiet (k : nat) : bool :=
  match k with
  | S (S (S j)) => negb (Nat.eqb (k mod 16) 15) && quiet j
  | _ => true
  end.
