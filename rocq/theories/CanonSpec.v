(** RFC 7252 section 3.1 read strictly: the options and payload of a message, or nothing (C82). *)
From Verif Require Import Base OptSpec.
Local Open Scope N_scope.

(** a 4-bit field with its extended bytes, in full *)
Definition field (nb : N) (bs : list N) : option (N * list N) :=
  if nb <? 13 then Some (nb, bs)
  else match bs with
       | a :: r =>
           if nb =? 13 then Some (13 + a, r)
           else if nb =? 14 then match r with b :: s => Some (269 + 256 * a + b, s) | [] => None end
           else None
       | [] => None
       end.

(** [n] bounds the number of options; numbers and lengths of more than 16 bits, reserved nibbles and
    anything cut short are refused *)
Fixpoint strict (n : nat) (prev : N) (bs : list N) : option (list opt * option (list N)) :=
  match n, bs with
  | _, [] => Some ([], None)
  | O, _ => None
  | S k, b :: r =>
      if b =? 255 then Some ([], Some r)
      else match field (b / 16) r with
           | None => None
           | Some (delta, r1) =>
               match field (b mod 16) r1 with
               | None => None
               | Some (l, r2) =>
                   if (prev + delta <? 65536) && (l <? 65536) && (N.to_nat l <=? length r2)%nat then
                     match strict k (prev + delta) (skipn (N.to_nat l) r2) with
                     | Some (os, p) => Some ((prev + delta, firstn (N.to_nat l) r2) :: os, p)
                     | None => None
                     end
                   else None
               end
           end
  end.

(** what follows the token; a marker with nothing after it reads as an empty payload *)
Definition strict_body (bs : list N) : option (list opt * option (list N)) := strict (length bs) 0 bs.

(** Ways of writing options, in any order: numbers and lengths count modulo 2^16, so that a delta may
    lead past 65535 to any smaller number, and small ones may be 65536 larger. *)
Inductive spelled : N -> list opt -> list N -> Prop :=
| sp_nil : forall prev, spelled prev [] []
| sp_opt : forall prev num v delta l os bs, delta < 65805 -> l < 65805 -> (prev + delta) mod 65536 = num -> l mod 65536 = len v -> bytes_ok v ->
    spelled num os bs -> spelled prev ((num, v) :: os) (opt_head delta l ++ v ++ bs).
