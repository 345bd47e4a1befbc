(** An observer at the other end of a network that loses, doubles and reorders, as RFC 7641 wants it.
    Nothing of this is in /repo but the decoder and the integer reader it uses. *)
From Verif Require Import Base UIntModel HeaderModel OptSpec OptDecModel DecoderModel DecoderSpec.
Local Open Scope N_scope.

(** RFC 7641, 3.4: the notification with number [v2] is newer than the one with [v1]; everything
    happens within 128 seconds, so the clause with the times does not count *)
Definition fresher (v1 v2 : N) : bool :=
  ((v1 <? v2) && (v2 - v1 <? 2 ^ 23)) || ((v2 <? v1) && (2 ^ 23 <? v1 - v2)).

(** what the decoder told: the token, and the first Observe option as a number *)
Fixpoint token_of (evs : list event) : option (list N) :=
  match evs with
  | [] => None
  | EToken t :: _ => Some t
  | _ :: r => token_of r
  end.
Fixpoint observe_of (evs : list event) : option N :=
  match evs with
  | [] => None
  | EOption n v c :: r => if (n =? 6) && c then Some (uint_get_t 32 v) else observe_of r
  | _ :: r => observe_of r
  end.

(** the notification the client holds: its number and what was told of it *)
Definition view : Type := option (N * list event).

Definition take (tok : list N) (cur : view) (evs : list event) : view :=
  match token_of evs, observe_of evs with
  | Some t, Some n =>
      if list_eq_dec N.eq_dec t tok then
        match cur with
        | None => Some (n, evs)
        | Some (m, _) => if fresher m n then Some (n, evs) else cur
        end
      else cur
  | _, _ => cur
  end.

(** datagrams in the order they arrive, one decoder for all *)
Fixpoint client_run (tok : list N) (ds : list (list N)) (d : dec) (cur : view) : res (view * dec) :=
  match ds with
  | [] => Ok (cur, d)
  | b :: r => bind (dec_run (dec_fuel b) b d 0) (fun x => let '(evs, d1, _) := x in client_run tok r d1 (take tok cur evs))
  end.
