(** What the client of an exchange transmits again, told from what was sent and what was read
    (C95). *)
From Verif Require Import Base HeaderModel RetryModel RetrySpec RetryMemModel ExchangeModel ExchangeSpec ScheduleSpec.
Local Open Scope N_scope.

(** the client read a reply to [m] that came from [a] *)
Definition replied (same : N -> N -> bool) (h : list (xop * list xev)) (m : netmsg) (a : N) : Prop :=
  exists a' b, In (a', b) (heard h) /\ same a' a = true /\ reply_to m b.

(** how often and when the message of operation [id] was transmitted again *)
Definition again (h : list (xop * list xev)) (id : nat) : list N := handouts id (history h).

(** the message [m], sent to [a] at [t] by the client's operation [id], is confirmable, was
    transmitted again less than three times, and no reply to it was read *)
Definition unanswered (same : N -> N -> bool) (h : list (xop * list xev)) (id : nat) (m : netmsg) (a t r : N) : Prop :=
  nth_error (history h) id = Some (RSent m a t r, []) /\ confirmable m /\ (length (again h id) < 3)%nat /\ ~ replied same h m a.

(** when it is to be transmitted next: two to three seconds after the last time, doubled each
    time *)
Definition next_at (h : list (xop * list xev)) (id : nat) (t r : N) : N :=
  last (again h id) t + (2000 + r mod 1000) * 2 ^ N.of_nat (length (again h id)).

(** comparing addresses is an equivalence *)
Definition equality (same : N -> N -> bool) : Prop :=
  (forall a, same a a = true) /\ (forall a b, same a b = true -> same b a = true) /\ (forall a b c, same a b = true -> same b c = true -> same a c = true).
