(** What an exchange over an unreliable network should be. *)
From Verif Require Import Base UIntSpec HeaderModel HeaderSpec OptSpec OptDecModel DecoderModel DecoderSpec RetryModel RetrySpec PumpModel PumpSpec RetryMemModel ExchangeModel.
Local Open Scope N_scope.

(** a request as it may be sent: bytes, a token as long as the header says, and confirmable or
    non-confirmable by its type bits *)
Definition request (m : netmsg) : Prop :=
  hdr_ok (n_hdr m) /\ bytes_ok (n_tok m) /\ h0 (n_hdr m) mod 16 = len (n_tok m) /\ (length (n_tok m) <= 8)%nat /\
  h0 (n_hdr m) / 16 mod 4 < 2.

(** what may happen: requests are sent, memory is as it may be *)
Definition may (o : xop) : Prop :=
  match o with
  | XSend m _ _ _ => request m
  | XServe _ w => world_ok w
  | XReceive _ d _ => idle d
  | _ => True
  end.

(** all that was done, and the client's part of it *)
Definition done_in (h : list (xop * list xev)) : list xev := flat_map snd h.
Definition history (h : list (xop * list xev)) : list (rop * outs) := client_ops (done_in h).

(** operation [id] of the client was the sending of [m] to [a] *)
Definition sent_as (h : list (xop * list xev)) (id : nat) (m : netmsg) (a : N) : Prop :=
  exists now r, nth_error (history h) id = Some (RSent m a now r, []).

(** [b] is a reply to [m]: 2.05, with its token and message id and nothing else; an
    acknowledgement if [m] is confirmable, otherwise non-confirmable *)
Definition reply_to (m : netmsg) (b : list N) : Prop :=
  exists p, b = netmsg_bytes p /\ hdr_ok (n_hdr p) /\ n_tok p = n_tok m /\ n_rest p = [] /\ mid_of p = mid_of m /\
    h0 (n_hdr p) mod 16 = len (n_tok m) /\ h1 (n_hdr p) = 69 /\
    (confirmable m -> acknowledgement p) /\ (~ confirmable m -> h0 (n_hdr p) / 16 mod 4 = 1).

(** no two messages sent can be taken for one another *)
Definition told_apart (same : N -> N -> bool) (h : list (xop * list xev)) : Prop :=
  forall i j m1 m2 a1 a2, sent_as h i m1 a1 -> sent_as h j m2 a2 ->
    same a1 a2 = true -> n_tok m1 = n_tok m2 -> mid_of m1 = mid_of m2 -> i = j.

(** how many messages were sent by the application, how many datagrams the network doubled,
    how many the servers handled *)
Definition count_ops (f : xop -> bool) (h : list (xop * list xev)) : nat := length (filter (fun e => f (fst e)) h).
Definition is_send (o : xop) : bool := match o with XSend _ _ _ _ => true | _ => false end.
Definition is_twice (o : xop) : bool := match o with XTwice _ _ => true | _ => false end.
Definition served (h : list (xop * list xev)) : nat :=
  length (filter (fun e => match e with EServed _ _ => true | _ => false end) (done_in h)).

(** only deliveries, none of them of nothing *)
Fixpoint delivers (h : list (xop * list xev)) : Prop :=
  match h with
  | [] => True
  | (XServe _ _, ev) :: r => ev <> [] /\ delivers r
  | (XReceive _ _ _, ev) :: r => ev <> [] /\ delivers r
  | _ :: _ => False
  end.

(** What the client put on the network, what the servers handled, and the headers and tokens the
    client read, each with its address. *)
Definition put (h : list (xop * list xev)) : list (N * list N) :=
  flat_map (fun e => match fst e with
    | RSent m a _ _ => [(a, netmsg_bytes m)]
    | RService _ _ => map (fun x => match x with (_, m, a) => (a, netmsg_bytes m) end) (snd e)
    | RReceived _ _ _ => []
    end) (history h).
Definition handled (h : list (xop * list xev)) : list (N * list N) :=
  flat_map (fun e => match e with EServed a b => [(a, b)] | EClient _ _ => [] end) (done_in h).
Definition heard (h : list (xop * list xev)) : list (N * list N) :=
  flat_map (fun e => match fst e with RReceived m a _ => [(a, hdr_bytes (n_hdr m) ++ n_tok m)] | _ => [] end) (history h).

(** how often the network lost or doubled something on the way to the servers, or from them *)
Definition loses (up : bool) (o : xop) : bool := match o with XLose u _ => Bool.eqb u up | _ => false end.
Definition doubles (up : bool) (o : xop) : bool := match o with XTwice u _ => Bool.eqb u up | _ => false end.
