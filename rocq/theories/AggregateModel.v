(** Model of src/exp/message-observer.h (AggregateMessageObserver), src/exp/factory.h
    (FactoryAggregator) and src/platform/generic/datapump-messageobserver.hpp. *)
From Verif Require Import Base HeaderModel DecoderModel DispatchModel SubjectModel.
Local Open Scope N_scope.

(** src/exp/message-observer.h 34-66 and 84-124: one observer of the pack is made
    (new (context) is src/coap-dispatcher.h 354-357: objstack.alloc), gets the call and
    is destroyed.  [sz] is its size, [p] the memory left in the object stack.  The
    destructor gives nothing back.  ObjStack is external: a request is assumed to take
    exactly its size and, if there is less, the object is constructed outside the
    memory. *)
Definition agg_one {S W} (sz : N) (h : handler S W) (c : call) (p : N) (w : W) : res (N * W) :=
  if sz <=? p then
    let '(s0, w0) := h_new h w in
    let '(_, w1) := h_call h c s0 w0 in
    Ok (p - sz, w1)
  else Fault.

(** src/exp/message-observer.h 126-155: the first of the pack, then the others.  [i]
    numbers the observers. *)
Fixpoint agg_invoke {S W} (i : nat) (os : list (N * handler S W)) (c : call) (p : N) (w : W) : res (list (nat * call) * N * W) :=
  match os with
  | [] => Ok ([], p, w)
  | (sz, h) :: r =>
      bind (agg_one sz h c p w) (fun x =>
        let '(p1, w1) := x in
        bind (agg_invoke (Datatypes.S i) r c p1 w1) (fun y =>
          let '(l, p2, w2) := y in Ok ((i, c) :: l, p2, w2)))
  end.

(** src/exp/message-observer.h 160-178: header, token and both forms of option are
    passed on.  Payload and completion are those of the base class
    (src/coap/experimental-observer.h 43-44), which do nothing. *)
Definition agg_call {S W} (os : list (N * handler S W)) (c : call) (p : N) (w : W) : res (list (nat * call) * N * W) :=
  match c with
  | OnHeader _ | OnToken _ _ | OnOption _ _ | OnValue _ _ _ => agg_invoke 0 os c p w
  | OnPayload _ _ | OnComplete => Ok ([], p, w)
  end.

(** Calls in a row (no code of its own). *)
Fixpoint agg_run {S W} (os : list (N * handler S W)) (cs : list call) (p : N) (w : W) : res (list (nat * call) * N * W) :=
  match cs with
  | [] => Ok ([], p, w)
  | c :: r =>
      bind (agg_call os c p w) (fun x =>
        let '(l, p1, w1) := x in
        bind (agg_run os r p1 w1) (fun y => let '(m, p2, w2) := y in Ok (l ++ m, p2, w2)))
  end.

(** What the factories of FactoryAggregator have to offer (src/exp/factory.h 40-44).
    Both methods may change the factory. *)
Record maker (K S : Type) : Type := Maker {
  f_can : K -> S -> bool * S;
  f_create : K -> S -> S }.
Arguments Maker {K S}. Arguments f_can {K S}. Arguments f_create {K S}.

(** estd::get<i>(factories) = f (the tuple, external) *)
Fixpoint put {X} (i : nat) (x : X) (l : list X) : list X :=
  match i, l with
  | _, [] => []
  | O, _ :: r => x :: r
  | Datatypes.S j, y :: r => y :: put j x r
  end.

(** src/exp/factory.h 27-47, create_helper<n - 1>: which factories created, in order,
    and the factories afterwards *)
Fixpoint fa_helper {K S} (n : nat) (key : K) (fs : list (maker K S * S)) : list nat * list (maker K S * S) :=
  match n with
  | O => ([], fs)                                                            (* 27-28 *)
  | Datatypes.S i =>
      match nth_error fs i with
      | None => ([], fs)                       (* does not compile: no such element *)
      | Some (f, s) =>
          let '(b, s1) := f_can f key s in
          let s2 := if b then f_create f key s1 else s1 in
          let '(l, fs1) := fa_helper i key (put i (f, s2) fs) in
          ((if b then [i] else []) ++ l, fs1)
      end
  end.

(** src/exp/factory.h 51-56 *)
Definition fa_create {K S} (key : K) (fs : list (maker K S * S)) : list nat * list (maker K S * S) :=
  fa_helper (length fs) key fs.

(** src/platform/generic/datapump-messageobserver.hpp 10-43: a netbuf is a list of
    chunks; after first() the first one is the current one.  next() moves on, the
    netbuf is not looked at again.  [ctx], the address of the request context, is not
    used (27 is a comment). *)
Definition pm_helper {A} (netbuf : list (list N)) (ctx : A) (d : dec) : res (list call * dec) :=
  bind (sub_dispatch (hd [] netbuf) true d) (fun x => let '(cs, d1, _) := x in Ok (cs, d1)).

(** src/platform/generic/datapump-messageobserver.hpp 58-90 with 45-56: dequeue_in
    gives the front of the queue (DataPump is external) *)
Definition pm_process {A} (q : list (A * list (list N))) (d : dec) : res (list call * list (A * list (list N)) * dec) :=
  match q with
  | [] => Ok ([], [], d)
  | (a, nb) :: r => bind (pm_helper nb a d) (fun x => let '(cs, d1) := x in Ok (cs, r, d1))
  end.

(** process_messageobserver called [n] times: the calls made each time. *)
Fixpoint pm_times {A} (n : nat) (q : list (A * list (list N))) (d : dec) : res (list (list call) * list (A * list (list N)) * dec) :=
  match n with
  | O => Ok ([], q, d)
  | Datatypes.S k =>
      bind (pm_process q d) (fun x =>
        let '(cs, q1, d1) := x in
        bind (pm_times k q1 d1) (fun y => let '(l, q2, d2) := y in Ok (cs :: l, q2, d2)))
  end.

(** src/platform/generic/datapump-messageobserver.hpp 97-121: the notifications *)
Inductive pm_event (X : Type) : Type := Dequeuing (x : X) | Dequeued (x : X).
Arguments Dequeuing {X}. Arguments Dequeued {X}.

(** src/platform/generic/datapump-messageobserver.hpp 97-121, process_messageobserver2 *)
Definition pm_process2 {X} (q : list X) : list (pm_event X) * list X :=
  match q with
  | [] => ([], [])
  | x :: r => ([Dequeuing x; Dequeued x], r)
  end.
