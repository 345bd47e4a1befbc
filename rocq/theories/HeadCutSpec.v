(** Streams that end inside an option header (C19, C53, C83). *)
From Verif Require Import Base OptSpec OptDecSpec.
Local Open Scope N_scope.

(** number and length of the last option seen *)
Definition last_num (vs : list pview) (n0 : N) : N := last (map (fun v => fst (fst v)) vs) n0.
Definition last_vlen (vs : list pview) (l0 : N) : N := last (map (fun v => snd (fst v)) vs) l0.

(** the options in [pre] are complete and are those in [vs]: with a payload marker after them the
    parser sees just them.  Then comes an option header, [b] and [r], of which bytes are missing. *)
Definition cut_after (prev : N) (off : nat) (bs pre : list N) (b : N) (r : list N) (vs : list pview) : Prop :=
  bs = pre ++ b :: r /\ b <> 255 /\
  (take_ext (b / 16) r = Short \/ exists delta r1, take_ext (b / 16) r = Got delta r1 /\ take_ext (b mod 16) r1 = Short) /\
  parse prev off (pre ++ [255]) = (vs, EndMarker (off + length pre + 1)).
