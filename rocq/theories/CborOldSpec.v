(** RFC 7049: a text as a sequence of heads, and the simple values. *)
From Verif Require Import Base CborModel.
Local Open Scope N_scope.

(** section 2: how many bytes follow an initial byte *)
Definition arg_len (b : N) : nat :=
  let x := b mod 32 in if x =? 24 then 1%nat else if x =? 25 then 2%nat else if x =? 26 then 4%nat else if x =? 27 then 8%nat else 0%nat.

(** how a text ends, read as one head after another *)
Inductive text_end : Type :=
| Whole                            (* with a complete head, or it is empty *)
| Cut (b : N) (args : list N)      (* within a head *)
| Wide.                            (* a 64-bit head, with at least one more byte, was met *)

(** the heads of a text, as initial byte and argument bytes, and its end *)
Inductive heads : list N -> list (N * list N) -> text_end -> Prop :=
| heads_nil : heads [] [] Whole
| heads_cons : forall b args rest hs t, arg_len b <> 8%nat -> length args = arg_len b -> heads rest hs t ->
    heads (b :: args ++ rest) ((b, args) :: hs) t
| heads_cut : forall b args, arg_len b <> 8%nat -> (length args < arg_len b)%nat -> heads (b :: args) [] (Cut b args)
| heads_cut_wide : forall b, arg_len b = 8%nat -> heads [b] [] (Cut b [])
| heads_wide : forall b x rest, arg_len b = 8%nat -> heads (b :: x :: rest) [] Wide.

(** section 2.3: false, true and null *)
Definition is_bool_item (m v : N) (b : bool) : Prop := m = 7 /\ v = if b then 21 else 20.
Definition is_null_item (m v : N) : Prop := m = 7 /\ v = 22.

(** the older decoder at the end of a text: on its last head, in the one that is cut off,
    or as it was *)
Definition at_end (d : odec) (hs : list (N * list N)) (t : text_end) : odec :=
  match t with
  | Cut b args => ODec b args OAdditionalInteger
  | _ => match List.rev hs with [] => d | (b, args) :: _ => ODec b args ODone end
  end.
