(** What the token of a context without copy reads as (C94). *)
From Verif Require Import Base HeaderModel DecoderModel RefCtxModel.
Local Open Scope N_scope.

(** the event an observer was called for, and the header and token it finds in the context *)
Definition event_of (s : sight) : event := fst (fst s).
Definition finds (s : sight) (h : hdr) (t : list N) : Prop :=
  r_hdr (snd (fst s)) = h /\ rctx_token (snd s) (snd (fst s)) = Ok t.

(** as many bytes as the token has, the first three of them (or as many as there are) zero *)
Definition wiped (tok t : list N) : Prop :=
  length t = length tok /\ forall i, (i < 3)%nat -> (i < length tok)%nat -> nth_error t i = Some 0.

(** a token that a wiped one cannot be *)
Definition telling (tok : list N) : Prop := exists i x, (i < 3)%nat /\ nth_error tok i = Some x /\ x <> 0.
