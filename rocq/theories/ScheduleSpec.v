(** What a service call hands out, told from the history alone (C93). *)
From Verif Require Import Base HeaderModel RetryModel RetrySpec.
Local Open Scope N_scope.

(** after operation [id] sent a message, an acknowledgement of it came *)
Definition acked (same : N -> N -> bool) (h : list (rop * outs)) (id : nat) : Prop :=
  exists j m a k os om oa now r os', (id < j)%nat /\ nth_error h j = Some (RReceived m a k, os) /\ acknowledgement m /\
    nth_error h id = Some (RSent om oa now r, os') /\ answers same m a om oa.

(** the message [m] sent to [a] at [t] by operation [id] still waits for its acknowledgement: it is
    confirmable, was handed out less than three times and was not acknowledged *)
Definition waiting (same : N -> N -> bool) (h : list (rop * outs)) (id : nat) (m : netmsg) (a t r : N) : Prop :=
  (exists os, nth_error h id = Some (RSent m a t r, os)) /\ confirmable m /\ (length (handouts id h) < 3)%nat /\ ~ acked same h id.

(** when its next retransmission is due: a wait of two to three seconds, doubled each time, after
    the last *)
Definition due_at (h : list (rop * outs)) (id : nat) (t r : N) : N :=
  last (handouts id h) t + (2000 + r mod 1000) * 2 ^ N.of_nat (length (handouts id h)).

(** no acknowledgement can be meant for two of the confirmable messages *)
Definition apart (same : N -> N -> bool) (h : list (rop * outs)) : Prop :=
  forall i1 i2 m1 a1 t1 r1 os1 m2 a2 t2 r2 os2 m a, nth_error h i1 = Some (RSent m1 a1 t1 r1, os1) -> nth_error h i2 = Some (RSent m2 a2 t2 r2, os2) ->
    confirmable m1 -> confirmable m2 -> answers same m a m1 a1 -> answers same m a m2 a2 -> i1 = i2.

(** the headers hold bytes *)
Definition bytes_in (h : list (rop * outs)) : Prop :=
  Forall (fun e => match fst e with RSent m _ _ _ => hdr_ok (n_hdr m) | RReceived m _ _ => hdr_ok (n_hdr m) | RService _ _ => True end) h.
