(** Time and arrivals, for the FreeRTOS observable server. *)
From Verif Require Import Base PumpModel.
Local Open Scope N_scope.

(** the counter [t] ticks after the start of the system *)
Definition counter (t : N) : N := t mod 2 ^ 32.
(** milliseconds of [t] ticks *)
Definition millis (period t : N) : N := t * period.
(** the datagrams that arrive *)
Definition arrived {A} (e : event A) : list (A * list N) := match v_poll e with PData a b => [(a, b)] | _ => [] end.

(** [ts]: for each turn the times (in ticks since the start of the system) of the two readings.
    A round in every turn that finds 1001 times [period] ticks gone since the last: how many,
    and the time of the last. *)
Fixpoint rounds (period last : N) (ts : list (N * N)) : nat * N :=
  match ts with
  | [] => (O, last)
  | (now, check) :: r =>
      if 1001 * period <=? check - last then let '(n, l) := rounds period now r in (S n, l) else rounds period last r
  end.
(** the readings are in order, and less than 2^32 ticks after the last round *)
Fixpoint timely (period last : N) (ts : list (N * N)) : Prop :=
  match ts with
  | [] => True
  | (now, check) :: r =>
      last <= now <= check /\ check - last < 2 ^ 32 /\ timely period (if 1001 * period <=? check - last then now else last) r
  end.
