(** Model of the loops that connect the example servers with the network:
    src/platform/posix/sockets-datapump.cpp, src/platform/lwip/lwip-datapump.cpp and the
    main functions of test/posix.  embr::DataPump is not in /repo: it is taken as two
    first-in-first-out queues of [size] places each.  [A] is the address type. *)
From Coq Require Import String ZArith.
From Verif Require Import Base HeaderModel OptDecModel DecoderModel ContextModel NetbufModel ObserveModel RespModel DiagModel.
Local Open Scope N_scope.

(** embr::DataPump (external): received and not yet looked at, and waiting to be sent *)
Record pump (A : Type) : Type := Pump { p_in : list (A * list N); p_out : list (A * list N) }.
Arguments Pump {A}.
Arguments p_in {A}.
Arguments p_out {A}.

(** embr::DataPump (external): transport_in and enqueue_out *)
Definition enqueue {X} (size : nat) (x : X) (q : list X) : res (list X) :=
  if (List.length q <? size)%nat then Ok (q ++ [x]) else Fault.

(** No code: what the network does in one turn.  [v_sent]: sendto or sendTo succeeds;
    [v_poll]: nothing comes in time, a datagram, or an error of poll, recvfrom or recv. *)
Inductive poll (A : Type) : Type := PNone | PData (a : A) (dg : list N) | PError.
Arguments PNone {A}.
Arguments PData {A}.
Arguments PError {A}.
Record event (A : Type) : Type := Event { v_sent : bool; v_poll : poll A }.
Arguments Event {A}.
Arguments v_sent {A}.
Arguments v_poll {A}.

(** src/platform/generic/malloc_netbuf.h 126-127: the one chunk of a netbuf *)
Definition nb_size : nat := 4096.

(** src/platform/posix/sockets-datapump.cpp 138-189; None: error(), which calls exit
    (32-36).  recvfrom (165) keeps what fits the netbuf; for an empty datagram it
    returns 0. *)
Definition posix_recv {A} (size : nat) (v : poll A) (p : pump A) : res (option (pump A)) :=
  match v with
  | PNone => Ok (Some p)
  | PError => Ok None
  | PData a dg =>
      match firstn nb_size dg with
      | [] => Ok None
      | b => bind (enqueue size (a, b) (p_in p)) (fun q => Ok (Some (Pump q (p_out p))))
      end
  end.

(** sockets-datapump.cpp 79-189, nonblocking_datapump_loop, without FEATURE_MCCOAP_RELIABLE:
    what is sent, and the pump; the printing is left out *)
Definition posix_loop {A} (size : nat) (e : event A) (p : pump A) : res (option (A * list N) * option (pump A)) :=
  match p_out p with
  | [] => bind (posix_recv size (v_poll e) p) (fun r => Ok (None, r))
  | x :: q =>
      if v_sent e then bind (posix_recv size (v_poll e) (Pump (p_in p) q)) (fun r => Ok (Some x, r))
      else Ok (None, None)
  end.

(** src/platform/lwip/lwip-datapump.cpp 46-114: errors are printed and passed over, and the
    datagram that could not be sent is dropped (77); a received netbuf is taken as it is.
    The result always is a pump, the option is there for the main loop. *)
Definition lwip_loop {A} (size : nat) (e : event A) (p : pump A) : res (option (A * list N) * option (pump A)) :=
  let s := match p_out p with [] => None | x :: _ => if v_sent e then Some x else None end in
  let p1 := Pump (p_in p) (tl (p_out p)) in
  match v_poll e with
  | PData a dg => bind (enqueue size (a, dg) (p_in p1)) (fun q => Ok (s, Some (Pump q (p_out p1))))
  | PNone | PError => Ok (s, Some p1)
  end.

(** A server: what it does with a datagram, and what it does at the end of each turn.  [W]
    stands for whatever else it finds in that turn: clock, contents of fresh memory. *)
Record server (A W T : Type) : Type := Server {
  on_request : W -> A -> list N -> T -> res (list N * T);
  on_turn : W -> T -> res (list (A * list N) * T)
}.
Arguments Server {A W T}.
Arguments on_request {A W T}.
Arguments on_turn {A W T}.

(** test/template/simple-ping-responder.hpp 23-95; for the other servers embr's
    DataPump::service (external), taken to do the same *)
Definition service {A W T} (ap : server A W T) (size : nat) (w : W) (p : pump A) (s : T) : res (pump A * T) :=
  match p_in p with
  | [] => Ok (p, s)
  | (a, b) :: r =>
      bind (on_request ap w a b s) (fun y =>
        bind (enqueue size (a, fst y) (p_out p)) (fun q => Ok (Pump r q, snd y)))
  end.

(** No code: enqueue_out for each of a list *)
Fixpoint enqueue_all {X} (size : nat) (xs q : list X) : res (list X) :=
  match xs with
  | [] => Ok q
  | x :: r => bind (enqueue size x q) (enqueue_all size r)
  end.

(** test/posix/observable-raw/main.cpp 26-37 and, with nothing done at the end of a turn,
    test/posix/datapump/main.cpp 24-29 and test/posix/datapump-raw-uri/main.cpp 24-29,
    as many turns as [es] has *)
Fixpoint main_loop {A W T} (loop : nat -> event A -> pump A -> res (option (A * list N) * option (pump A))) (ap : server A W T) (size : nat)
  (es : list (event A * W)) (p : pump A) (s : T) : res (list (option (A * list N)) * option (pump A * T)) :=
  match es with
  | [] => Ok ([], Some (p, s))
  | (e, w) :: r =>
      bind (loop size e p) (fun x =>
        match snd x with
        | None => Ok ([fst x], None)
        | Some p1 =>
            bind (service ap size w p1 s) (fun y =>
              bind (on_turn ap w (snd y)) (fun z =>
                bind (enqueue_all size (fst z) (p_out (fst y))) (fun q =>
                  bind (main_loop loop ap size r (Pump (p_in (fst y)) q) (snd z)) (fun u => Ok (fst x :: fst u, snd u)))))
        end)
  end.

(** No code: what fresh memory holds in a turn (see RespModel), and the time in
    milliseconds since the start *)
Record world : Type := World { w_hdr : hdr; w_tok : list N; w_dec : dec; w_now : N }.

(** test/posix/datapump/main.cpp 16-32 *)
Definition ping_app {A} (skip debug : bool) (fuel : nat) : server A world unit :=
  Server (fun w _ b _ => bind (ping skip debug nb_size fuel (w_hdr w) (w_tok w) b (w_dec w)) (fun r => Ok (r, tt))) (fun _ _ => Ok ([], tt)).

(** test/posix/datapump-raw-uri/main.cpp 11-32 *)
Definition uri_app {A} (debug : bool) (fuel : nat) : server A world unit :=
  Server (fun w _ b _ => bind (uri_server debug nb_size fuel (w_hdr w) (w_tok w) b (w_dec w)) (fun r => Ok (r, tt))) (fun _ _ => Ok ([], tt)).

(** test/posix/observable-raw/main.cpp 14: the registrations; src/coap/observable.hpp 45:
    the counter; test/template/observable-raw-responder.hpp 55: the time of the last round *)
Record obs_state (A : Type) : Type := ObsState { o_regs : list (session A); o_mid : N; o_last : N }.
Arguments ObsState {A}.
Arguments o_regs {A}.
Arguments o_mid {A}.
Arguments o_last {A}.

(** test/template/observable-raw-responder.hpp 19-43, emit_observe: the text printed into the
    netbuf behind a payload marker.  The encoder has no payload() without arguments any
    more; it is read as the marker, so that together they are a payload. *)
Definition emit_observed {A} (s : session A) : list nbcall := [NPayload (str "Observed: " ++ digits false 10 (os_seq s))].

(** observable-raw-responder.hpp 50-67, evaluate_emit_observe, and observable-raw/main.cpp
    14-37; the clock does not run backwards *)
Definition obs_app {A} (debug : bool) (fuel : nat) : server A world (obs_state A) :=
  Server (fun w a b s =>
         bind (obs_server debug nb_size fuel 10 (w_hdr w) (w_tok w) b (w_dec w) a (o_regs s)) (fun r =>
           Ok (fst r, ObsState (snd r) (o_mid s) (o_last s))))
      (fun w s =>
         if 1000 <? w_now w - o_last s then
           bind (for_each debug nb_size emit_observed (o_mid s) (o_regs s)) (fun x =>
             let '(mid, regs, outs) := x in Ok (outs, ObsState regs mid (w_now w)))
         else Ok ([], s)).
