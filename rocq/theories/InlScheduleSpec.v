(** What service_retry of the queue with inline netbufs puts into the pump, told from what
    happened before (C96). *)
From Verif Require Import Base HeaderModel RetryModel RetrySpec RetryMemModel RetryInlModel RetryInlSpec.
Local Open Scope N_scope.

(** What happens to the retry queue, seen from outside. *)
Inductive iev : Type :=
| VSent (c : nat) (m : netmsg) (a now r : N)   (* chunk [c] is transmitted to [a], and the observer told *)
| VService (now : N) (out : list (nat * N))    (* service_retry; chunks and addresses put into the pump *)
| VAck (m : netmsg) (a : N).                   (* service_ack of a message received *)

Definition event_of (o : iop) (s s1 : ist) (l : list (nat * N * netmsg)) : list iev :=
  match o, l with
  | IWire (TObserver now r), (c, a, m) :: _ => [VSent c m a now r]
  | IService now _, _ => [VService now (map (fun e => (b_chunk (fst e), snd e)) (skipn (length (g_pump s)) (g_pump s1)))]
  | IAck m a _, _ => [VAck m a]
  | _, _ => []
  end.

(** front() of the priority queue (external) is an item due no later than the others *)
Definition in_front (o : iop) (s : ist) : Prop :=
  match o with
  | IService _ k => g_retry s = [] \/ exists f, nth_error (g_retry s) k = Some f /\ forall g, In g (g_retry s) -> j_due f <= j_due g
  | _ => True
  end.

(** The states reached in the way that works (see RetryInlSpec.careful), what was transmitted and
    what happened to the queue. *)
Inductive followed (w : N) (size : nat) (same : N -> N -> bool) (ack : bool) : ist -> list (nat * N * netmsg) -> list iev -> Prop :=
| fo_none : followed w size same ack ist0 [] []
| fo_more : forall s ws es o s1 l, followed w size same ack s ws es -> careful ack s ws o -> in_front o s -> i_step w size same o s = Ok (s1, l) ->
    followed w size same ack s1 (ws ++ l) (es ++ event_of o s s1 l).

(** when chunk [c] was put into the pump again *)
Definition out_times (c : nat) (es : list iev) : list N :=
  flat_map (fun e => match e with VService now out => if existsb (fun x => Nat.eqb (fst x) c) out then [now] else [] | _ => [] end) es.

(** the message [m] of chunk [c], transmitted first to [a] at [t], still waits: it is confirmable,
    was put into the pump again less than three times, and was not acknowledged since *)
Definition i_waits (same : N -> N -> bool) (es : list iev) (c : nat) (m : netmsg) (a t r : N) : Prop :=
  exists e1 e2, es = e1 ++ VSent c m a t r :: e2 /\ confirmable m /\ (length (out_times c es) < 3)%nat /\
    forall p b, In (VAck p b) e2 -> acknowledgement p -> ~ answers same p b m a.

(** when it is due: a wait of two to three seconds, doubled each time, after the last *)
Definition i_next (es : list iev) (c : nat) (t r : N) : N :=
  last (out_times c es) t + (2000 + r mod 1000) * 2 ^ N.of_nat (length (out_times c es)).

(** clocks away from the wraparound, headers of bytes *)
Definition ev_ok (w : N) (e : iev) : Prop :=
  match e with
  | VSent _ m _ now _ => now + 12000 < 2 ^ w /\ hdr_ok (n_hdr m)
  | VService now _ => now + 12000 < 2 ^ w
  | VAck m _ => hdr_ok (n_hdr m)
  end.

(** an event as an operation of C25-C30, where [num c] is the number of the operation that sent
    chunk [c], and [msg c] the message in it *)
Definition same_op (num : nat -> nat) (msg : nat -> netmsg) (e : iev) (x : rop * outs) : Prop :=
  match e with
  | VSent c m a now r => x = (RSent m a now r, [])
  | VService now out => exists k, x = (RService now k, map (fun y => (num (fst y), msg (fst y), snd y)) out)
  | VAck m a => exists k, x = (RReceived m a k, [])
  end.
