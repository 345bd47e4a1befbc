(** Model of src/exp/retry.h. *)
From Verif Require Import Base HeaderModel.
Local Open Scope N_scope.

(** src/coap.h 35-39: COAP_ACK_TIMEOUT 2, COAP_ACK_RANDOM_FACTOR 1.5, COAP_MAX_RETRANSMIT 4 *)
Definition RAND_LOW : N := 2000.    (* 1000 * COAP_ACK_TIMEOUT *)
Definition RAND_HIGH : N := 3000.   (* 1000 * COAP_ACK_RANDOM_FACTOR * COAP_ACK_TIMEOUT *)
Definition MAX_RETRANSMIT : N := 4.

(** A message in a netbuf, as far as header() (128-134) and token() (249-259) look
    at it: header, token bytes, and the rest.  Simplification: the netbuf is not
    changed while it is tracked, and decoding its header and token is what C14
    establishes for the decoder. *)
Record netmsg : Type := NetMsg { n_hdr : hdr; n_tok : list N; n_rest : list N }.

(** src/exp/retry.h 160-192 and 202-294: Metadata and Item.  [i_id] is not in the
    code: it tells the items of a history apart and is never looked at. *)
Record item : Type := Item {
  i_id : nat;
  i_count : N;       (* retransmission_counter, 3 bits *)
  i_init : N;        (* initial_timeout_ms, 12 bits *)
  i_addr : N;
  i_msg : netmsg;
  i_due : N
}.

(** src/exp/retry.h 49-64, RandomPolicy::rand; [r] is what std::rand() returned.
    Simplification: both bounds are taken as int (one of them is a double
    expression). *)
Definition policy_rand (r lower upper : N) : N := r mod (upper - lower) + lower.

(** src/exp/retry.h 185-191, Metadata::delta *)
Definition meta_delta (count init : N) : N :=
  let multiplier := (N.shiftl 1 count) mod 2 ^ 16 in
  (init * multiplier) mod 2 ^ 32.

(** time_t addition, for a clock of [w] bits *)
Definition time_add (w t d : N) : N := (t + d) mod 2 ^ w.

(** src/exp/retry.h 264-284, Item::Item, and 347-359, enqueue up to the push *)
Definition new_item (w : N) (id : nat) (m : netmsg) (a now r : N) : item :=
  let init := policy_rand r RAND_LOW RAND_HIGH mod 2 ^ 12 in
  Item id 0 init a m (time_add w now (meta_delta 0 init)).

(** src/exp/retry.h 304-305: a priority queue over a vector of capacity 10.  The
    queue is modelled as the list of its items; the heap order is left open: which
    of several items with the smallest due time is at the top, and which of several
    matching items is found first, is a choice given to the operations.
    Assumption: pushing into a full vector is a fault. *)
Definition queue : Type := list item.
(** src/exp/retry.h 304-305 *)
Definition QUEUE_MAX : nat := 10.
(** push() into the queue of src/exp/retry.h 304-305; used by 347-362 and 547-615. *)
Definition push (it : item) (q : queue) : res queue :=
  if (length q <? QUEUE_MAX)%nat then Ok (q ++ [it]) else Fault.

(** pop() / erase(): remove position [k] *)
Definition remove_at (k : nat) (q : queue) : queue := firstn k q ++ skipn (S k) q.

(** top(): position [k] holds an item with the smallest due time (Item::operator>,
    src/exp/retry.h 290-293) *)
Definition is_top (k : nat) (q : queue) : bool :=
  match nth_error q k with
  | None => false
  | Some it => forallb (fun x => i_due it <=? i_due x) q
  end.

(** src/exp/retry.h 333-336 *)
Definition is_con (m : netmsg) : bool := hdr_type (n_hdr m) =? CON.

(** src/exp/retry.h 408-410; [same] is address_traits::equals_fromto (external) *)
Fixpoint tok_eqb (a b : list N) : bool :=
  match a, b with
  | [], [] => true
  | x :: a, y :: b => (x =? y) && tok_eqb a b
  | _, _ => false
  end.
(** src/exp/retry.h 387-423, the condition of match. *)
Definition matches (same : N -> N -> bool) (from mid : N) (tok : list N) (it : item) : bool :=
  same from (i_addr it) && tok_eqb (n_tok (i_msg it)) tok && (hdr_mid (n_hdr (i_msg it)) =? mid).

(** what a handled operation hands to datapump.enqueue_out *)
Definition outs : Type := list (nat * netmsg * N).

(** src/exp/retry.h 547-615, service_retry, with [k] the position of front(). *)
Definition service_retry (w now : N) (k : nat) (q : queue) : res (queue * outs) :=
  match nth_error q k with
  | None => Ok (q, [])                                                   (* empty() *)
  | Some f =>
      if i_due f <=? now then
        if i_count f <? MAX_RETRANSMIT - 2 then
          let c := (i_count f + 1) mod 8 in
          let f' := Item (i_id f) c (i_init f) (i_addr f) (i_msg f) (time_add w now (meta_delta c (i_init f))) in
          bind (push f' (remove_at k q)) (fun q' => Ok (q', [(i_id f, i_msg f, i_addr f)]))
        else if i_count f =? MAX_RETRANSMIT - 2 then
          Ok (remove_at k q, [(i_id f, i_msg f, i_addr f)])
        else Ok (remove_at k q, [])
      else Ok (q, [])
  end.

(** src/exp/retry.h 472-485, ack_received, with [k] the position of the match, if any *)
Definition ack_received (k : option nat) (q : queue) : queue * bool :=
  match k with
  | Some k => (remove_at k q, true)
  | None => (q, false)
  end.

(** [k] is a possible result of match (387-423) *)
Definition is_match (same : N -> N -> bool) (from mid : N) (tok : list N) (q : queue) (k : option nat) : bool :=
  match k with
  | Some k => match nth_error q k with Some it => matches same from mid tok it | None => false end
  | None => forallb (fun it => negb (matches same from mid tok it)) q
  end.

(** src/exp/retry.h 498-515, service_ack *)
Definition service_ack (m : netmsg) (k : option nat) (q : queue) : queue * bool :=
  if hdr_type (n_hdr m) =? ACK then ack_received k q else (q, false).

(** src/exp/retry.h 646-657, RetryObserver::on_notify, with enqueue (347-362) *)
Definition on_sent (w : N) (id : nat) (m : netmsg) (a now r : N) (q : queue) : res queue :=
  if is_con m then push (new_item w id m a now r) q else Ok q.

(** one operation of a history *)
Inductive rop : Type :=
| RSent (m : netmsg) (a now r : N)              (* transport_sent event *)
| RReceived (m : netmsg) (a : N) (k : option nat)   (* service_ack *)
| RService (now : N) (k : nat).                 (* service_retry *)

(** the choices in the operation are possible ones *)
Definition rop_legal (same : N -> N -> bool) (o : rop) (q : queue) : bool :=
  match o with
  | RSent _ _ _ _ => true
  | RReceived m a k => if hdr_type (n_hdr m) =? ACK then is_match same a (hdr_mid (n_hdr m)) (n_tok m) q k else true
  | RService _ k => match q with [] => true | _ => is_top k q end
  end.

(** the [id]-th operation *)
Definition rop_step (w : N) (id : nat) (o : rop) (q : queue) : res (queue * outs) :=
  match o with
  | RSent m a now r => bind (on_sent w id m a now r q) (fun q' => Ok (q', []))
  | RReceived m a k => Ok (fst (service_ack m k q), [])
  | RService now k => service_retry w now k q
  end.

(** A history: operations with what each handed out.  [rhist w same n q h q']:
    operations number [n], [n+1], ... lead from queue [q] to [q']. *)
Inductive rhist (w : N) (same : N -> N -> bool) : nat -> queue -> list (rop * outs) -> queue -> Prop :=
| rh_nil : forall n q, rhist w same n q [] q
| rh_cons : forall n q o os q1 h q2, rop_legal same o q = true -> rop_step w n o q = Ok (q1, os) ->
    rhist w same (S n) q1 h q2 -> rhist w same n q ((o, os) :: h) q2.
