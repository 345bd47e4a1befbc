(** What the daemons on lwIP make of any traffic (C90). *)
From Verif Require Import Base HeaderModel OptSpec RespSpec PumpModel PumpAnySpec.
Local Open Scope N_scope.

(** A daemon that replies as [rep] says, with at most one reply waiting: it never exits.  What cannot be
    sent is lost, errors are passed over. *)
Inductive daemon {A W} (rep : W -> list N -> list N -> Prop) : option (A * list N) -> list (event A * W) -> outcome A -> Prop :=
| d_end : forall x, daemon rep x [] (Running [] x)
| d_quiet : forall x e m r o, v_poll e = PNone \/ v_poll e = PError -> daemon rep None r o ->
    daemon rep x ((e, m) :: r) (after (if v_sent e then x else None) o)
| d_reply : forall x e m r o a dg b, v_poll e = PData a dg -> rep m dg b -> daemon rep (Some (a, b)) r o ->
    daemon rep x ((e, m) :: r) (after (if v_sent e then x else None) o)
| d_crash : forall x e m r a dg, v_poll e = PData a dg -> (forall b, ~ rep m dg b) -> daemon rep x ((e, m) :: r) Crashed.

(** no datagram is longer than UDP allows *)
Definition udp_ok {A} (e : event A * world) : Prop :=
  open_ok e /\ match v_poll (fst e) with PData _ dg => N.of_nat (length dg) <= 65535 | _ => True end.
