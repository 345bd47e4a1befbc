(** Model of an exchange: a client that sends with src/exp/retry.h (RetryModel), ping servers
    (test/template/simple-ping-responder.hpp, PumpModel.ping_app) one at each address, and a
    network between them.  The network is not in /repo: it is taken to hold any number of
    datagrams, to deliver them in any order, to lose them and to double them, and not to change
    their bytes or addresses. *)
From Verif Require Import Base HeaderModel OptDecModel DecoderModel NetDecModel RespModel RetryModel PumpModel RetryMemModel.
Local Open Scope N_scope.

(** The client's queue (src/exp/retry.h 304-305), the number of operations on it so far, and the
    datagrams on their way: to a server at an address, from a server at an address. *)
Record xst : Type := Xst { x_n : nat; x_queue : queue; x_up : list (N * list N); x_down : list (N * list N) }.

(** no code: before anything is sent *)
Definition x_start : xst := Xst 0 [] [] [].

(** What happens.  [w], [d]: what fresh memory holds (see PumpModel, RetryMemModel). *)
Inductive xop : Type :=
| XSend (m : netmsg) (a now r : N)                (* the client sends, and the observer is told *)
| XService (now : N) (k : nat)                    (* the client calls service_retry *)
| XServe (i : nat) (w : world)                    (* datagram [i] reaches its server, which answers *)
| XReceive (i : nat) (d : dec) (k : option nat)   (* datagram [i] reaches the client: service_ack *)
| XLose (up : bool) (i : nat)                     (* the network loses one *)
| XTwice (up : bool) (i : nat).                   (* the network doubles one *)

(** What was done: an operation of the client with what it handed out, or a datagram handled by
    the server at an address. *)
Inductive xev : Type :=
| EClient (o : rop) (os : outs)
| EServed (a : N) (b : list N).

(** no code: a list without its element [i] *)
Definition take_out {X} (i : nat) (l : list X) : list X := firstn i l ++ skipn (S i) l.

(** src/exp/retry.h 521-537, service_ack: header and token of the netbuf *)
Definition x_read (d : dec) (b : list N) : res netmsg :=
  bind (nd_header b true (ND d 0)) (fun x =>
    bind (nd_token b true (snd x)) (fun y => Ok (NetMsg (fst x) (fst y) (skipn (n_pos (snd y)) b)))).

(** No code: one thing happens.  The client's part is src/exp/retry.h 646-657 (XSend), 547-615
    (XService) and 498-537 (XReceive), by RetryModel.rop_step; the server's part (XServe) is
    test/posix/datapump/main.cpp 16-32 with the first 4096 bytes of the datagram
    (src/platform/posix/sockets-datapump.cpp 138-189).  Retransmissions are not reported to the
    observer, see C28_observed_resend_refuted for the other case.  [wd]: width of the clock. *)
Definition x_step (wd : N) (debug : bool) (o : xop) (s : xst) : res (xst * list xev) :=
  let client o :=
    bind (rop_step wd (x_n s) o (x_queue s)) (fun y =>
      Ok (S (x_n s), fst y, map (fun e => (snd e, netmsg_bytes (snd (fst e)))) (snd y), [EClient o (snd y)])) in
  match o with
  | XSend m a now r =>
      bind (client (RSent m a now r)) (fun y =>
        let '(n, q, _, ev) := y in Ok (Xst n q (x_up s ++ [(a, netmsg_bytes m)]) (x_down s), ev))
  | XService now k =>
      bind (client (RService now k)) (fun y =>
        let '(n, q, bs, ev) := y in Ok (Xst n q (x_up s ++ bs) (x_down s), ev))
  | XServe i w =>
      match nth_error (x_up s) i with
      | None => Ok (s, [])
      | Some (a, b) =>
          bind (on_request (ping_app false debug 0) w a (firstn nb_size b) tt) (fun r =>
            Ok (Xst (x_n s) (x_queue s) (take_out i (x_up s)) (x_down s ++ [(a, fst r)]), [EServed a b]))
      end
  | XReceive i d k =>
      match nth_error (x_down s) i with
      | None => Ok (s, [])
      | Some (a, b) =>
          bind (x_read d b) (fun m =>
            bind (client (RReceived m a k)) (fun y =>
              let '(n, q, _, ev) := y in Ok (Xst n q (x_up s) (take_out i (x_down s)), ev)))
      end
  | XLose true i => Ok (Xst (x_n s) (x_queue s) (take_out i (x_up s)) (x_down s), [])
  | XLose false i => Ok (Xst (x_n s) (x_queue s) (x_up s) (take_out i (x_down s)), [])
  | XTwice true i => Ok (Xst (x_n s) (x_queue s) (x_up s ++ firstn 1 (skipn i (x_up s))) (x_down s), [])
  | XTwice false i => Ok (Xst (x_n s) (x_queue s) (x_up s) (x_down s ++ firstn 1 (skipn i (x_down s))), [])
  end.

(** no code: the client's operations among what was done *)
Definition client_ops (evs : list xev) : list (rop * outs) :=
  flat_map (fun e => match e with EClient o os => [(o, os)] | EServed _ _ => [] end) evs.

(** A run: what happened, and what was done each time; the positions the client finds are
    possible ones (RetryModel.rop_legal). *)
Inductive xrun (wd : N) (same : N -> N -> bool) (debug : bool) : xst -> list (xop * list xev) -> xst -> Prop :=
| xr_nil : forall s, xrun wd same debug s [] s
| xr_cons : forall s o evs s1 h s2,
    x_step wd debug o s = Ok (s1, evs) -> Forall (fun e => rop_legal same (fst e) (x_queue s) = true) (client_ops evs) ->
    xrun wd same debug s1 h s2 -> xrun wd same debug s ((o, evs) :: h) s2.
