(** What the CBOR server prints of any bytes: items one after the other, each a head with its
    argument and, for strings, the bytes after it. *)
From Coq Require Import ZArith.
From Verif Require Import Base UIntSpec CborRespModel CborRespSpec.
Local Open Scope N_scope.

(** bytes of the argument after the first byte of a head, by its low five bits (RFC 7049
    section 2.1); for 27 and more eight or none, of which the server looks at no more than four *)
Definition arg_size (ai : N) : nat :=
  if ai <? 24 then 0 else if ai =? 24 then 1 else if ai =? 25 then 2 else 4.

(** the argument *)
Definition arg_value (ai : N) (r : list N) : N := if ai <? 24 then ai else be (firstn (arg_size ai) r).

(** the number printed *)
Definition plain_number (m ai v : N) : Z :=
  if ai <? 24 then Z.of_N v else if m =? 1 then (-1 - low16 v)%Z else low16 v.

(** [printed after left r out]: with [left] bytes of the payload to go and the memory [r] from
    here on, [out] is printed ([Fault]: the server leaves its memory); [after]: the item before
    was a number, tag or simple value, and only then the end of the payload is seen. *)
Inductive printed : bool -> nat -> list N -> res (list cout) -> Prop :=
| Pr_end : forall r, printed true 0 r (Ok [])
| Pr_none : forall after left, after = false \/ (0 < left)%nat -> printed after left [] Fault
(* the argument ends behind the byte after the payload: only the type is printed *)
| Pr_cut : forall after left b r, after = false \/ (0 < left)%nat -> (left < 1 + arg_size (b mod 32))%nat ->
    printed after left (b :: r) (if (left <? length (b :: r))%nat then Ok [RType (b / 32)] else Fault)
(* an eight byte argument, a reserved one, an indefinite length *)
| Pr_wide : forall after left b r, (1 + arg_size (b mod 32) <= left)%nat -> 27 <= b mod 32 -> printed after left (b :: r) Fault
(* the byte after the argument is not in memory *)
| Pr_edge : forall after left b r, (1 + arg_size (b mod 32) <= left)%nat -> b mod 32 < 27 -> (length r <= arg_size (b mod 32))%nat ->
    printed after left (b :: r) Fault
(* an array or a map *)
| Pr_nest : forall after left b r out, let k := arg_size (b mod 32) in
    (1 + k <= left)%nat -> b mod 32 < 27 -> (k < length r)%nat -> b / 32 = 4 \/ b / 32 = 5 ->
    printed false (left - (1 + k)) (skipn k r) out ->
    printed after left (b :: r) (bind out (fun l => Ok ([RType (b / 32); RNest] ++ l)))
(* a number, tag or simple value *)
| Pr_number : forall after left b r out, let k := arg_size (b mod 32) in
    (1 + k <= left)%nat -> b mod 32 < 27 -> (k < length r)%nat -> ~ In (b / 32) [2; 3; 4; 5] ->
    printed true (left - (1 + k)) (skipn k r) out ->
    printed after left (b :: r)
      (bind out (fun l => Ok ([RType (b / 32); RNumber (plain_number (b / 32) (b mod 32) (arg_value (b mod 32) r))] ++ l)))
(* a text string that does not end in memory *)
| Pr_outside : forall after left b r, let k := arg_size (b mod 32) in let n := arg_value (b mod 32) r mod 65536 in
    (1 + k <= left)%nat -> b mod 32 < 27 -> (k < length r)%nat -> b / 32 = 3 -> (length (skipn k r) < N.to_nat n)%nat ->
    printed after left (b :: r) Fault
(* a string that ends behind the payload *)
| Pr_over : forall after left b r, let k := arg_size (b mod 32) in let n := arg_value (b mod 32) r mod 65536 in
    (1 + k <= left)%nat -> b mod 32 < 27 -> (k < length r)%nat -> b / 32 = 2 \/ b / 32 = 3 /\ (N.to_nat n <= length (skipn k r))%nat ->
    (left - (1 + k) < N.to_nat n)%nat ->
    printed after left (b :: r)
      (Ok ([RType (b / 32)] ++ (if b / 32 =? 3 then [RText (firstn (N.to_nat n) (skipn k r))] else []) ++ [RSkip n]))
(* a string in the payload *)
| Pr_string : forall after left b r out, let k := arg_size (b mod 32) in let n := arg_value (b mod 32) r mod 65536 in
    (1 + k <= left)%nat -> b mod 32 < 27 -> (k < length r)%nat -> b / 32 = 2 \/ b / 32 = 3 /\ (N.to_nat n <= length (skipn k r))%nat ->
    (N.to_nat n <= left - (1 + k))%nat ->
    printed false (left - (1 + k) - N.to_nat n) (skipn (N.to_nat n) (skipn k r)) out ->
    printed after left (b :: r)
      (bind out (fun l => Ok (([RType (b / 32)] ++ (if b / 32 =? 3 then [RText (firstn (N.to_nat n) (skipn k r))] else []) ++ [RSkip n]) ++ l))).
