(** RFC 7252 section 3.1: option format. *)
From Verif Require Import Base.
Local Open Scope N_scope.

(** the 4-bit field for a delta or a length *)
Definition nib (x : N) : N := if x <? 13 then x else if x <? 269 then 13 else 14.

(** its extended bytes *)
Definition ext (x : N) : list N :=
  if x <? 13 then []
  else if x <? 269 then [x - 13]
  else [(x - 269) / 256; (x - 269) mod 256].

Definition opt_head (delta len : N) : list N := (nib delta * 16 + nib len) :: ext delta ++ ext len.

(** an option: absolute number and value *)
Definition opt : Type := (N * list N)%type.

Definition len (v : list N) : N := N.of_nat (length v).

Fixpoint opts_bytes (prev : N) (os : list opt) : list N :=
  match os with
  | [] => []
  | (num, v) :: r => opt_head (num - prev) (len v) ++ v ++ opts_bytes num r
  end.

(** option numbers never decrease and fit 16 bits; values are bytes and fit 16 bits *)
Fixpoint opts_ok (prev : N) (os : list opt) : Prop :=
  match os with
  | [] => True
  | (num, v) :: r => prev <= num /\ num < 65536 /\ len v < 65536 /\ bytes_ok v /\ opts_ok num r
  end.

(** The (delta, length) pairs for which the encoder is claimed to be right:
    short values ... *)
Definition enc_short (delta l : N) : Prop :=
  l < 13 /\ (delta <= 241 \/ (269 <= delta /\ delta <= 65265)).

(** ... and the sporadic long ones. *)
Definition enc_long (delta l : N) : Prop :=
  delta < 13 /\
  (l = 26 \/ (269 <= l /\ l <= 65265 /\ (l - 269) / 256 <> 13 /\
              ((l - 269) mod 256 = 13 \/ (l - 269) mod 256 = 14))).

(** together: by C08 exactly the pairs whose head comes out right *)
Definition enc_range (delta l : N) : Prop := enc_short delta l \/ enc_long delta l.

(** lists of options with non-decreasing numbers all inside the guard [g] *)
Fixpoint opts_within (g : N -> N -> Prop) (prev : N) (os : list opt) : Prop :=
  match os with
  | [] => True
  | (num, v) :: r => prev <= num /\ num < 65536 /\ g (num - prev) (len v) /\ opts_within g num r
  end.

Definition last_number (prev : N) (os : list opt) : N := last (map fst os) prev.
