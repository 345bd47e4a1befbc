(** What RFC 7252 section 4.2 asks of retransmission, on histories. *)
From Verif Require Import Base HeaderModel RetryModel.
Local Open Scope N_scope.

(** the times at which the message first sent by operation [id] was handed out *)
Definition handed (id : nat) (e : rop * outs) : list N :=
  match fst e with
  | RService now _ => if existsb (fun o => Nat.eqb (fst (fst o)) id) (snd e) then [now] else []
  | _ => []
  end.
Definition handouts (id : nat) (h : list (rop * outs)) : list N := flat_map (handed id) h.

(** exponential back-off: [t] is followed by the times [ts], the first at least
    [wait] later and every wait twice the one before *)
Fixpoint backoff (wait t : N) (ts : list N) : Prop :=
  match ts with
  | [] => True
  | u :: r => t + wait <= u /\ backoff (2 * wait) u r
  end.

(** confirmable: the two type bits (RFC 7252 section 3) are 00 *)
Definition confirmable (m : netmsg) : Prop := h0 (n_hdr m) / 16 mod 4 = 0.
Definition acknowledgement (m : netmsg) : Prop := h0 (n_hdr m) / 16 mod 4 = 2.

(** every clock reading stays away from the wraparound *)
Definition op_time (o : rop) : N :=
  match o with RSent _ _ now _ => now | RService now _ => now | RReceived _ _ _ => 0 end.
Definition times_ok (w : N) (h : list (rop * outs)) : Prop := Forall (fun e => op_time (fst e) + 12000 < 2 ^ w) h.

(** message id: the last two header bytes, most significant first *)
Definition mid_of (m : netmsg) : N := h2 (n_hdr m) * 256 + h3 (n_hdr m).

(** [m], received from [a], answers the message [om] sent to [oa] *)
Definition answers (same : N -> N -> bool) (m : netmsg) (a : N) (om : netmsg) (oa : N) : Prop :=
  same a oa = true /\ n_tok om = n_tok m /\ mid_of om = mid_of m.

(** only service calls, the first at [t] or later, each at least 12 s after the
    one before (the longest wait is 4 * 2999 ms) *)
Fixpoint spaced (t : N) (h : list (rop * outs)) : Prop :=
  match h with
  | [] => True
  | (RService now _, _) :: r => t <= now /\ spaced (now + 12000) r
  | _ :: _ => False
  end.
