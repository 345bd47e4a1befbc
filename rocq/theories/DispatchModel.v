(** Model of src/coap-dispatcher.h/.hpp (FactoryDispatcherHandler and
    ContextDispatcherHandler) and src/coap-uripath-dispatcher.h/.hpp. *)
From Verif Require Import Base HeaderModel UriModel.
Local Open Scope N_scope.

(** src/coap/decoder/observer.h 62-77, IMessageObserver: the calls an observer gets *)
Inductive call : Type :=
| OnHeader (h : hdr)
| OnToken (part : list N) (last : bool)
| OnOption (number length : N)
| OnValue (number : N) (part : list N) (last : bool)
| OnPayload (part : list N) (last : bool)
| OnComplete.

(** src/coap/decoder/observer.h 85-98, InterestedEnum *)
Inductive interested : Type := Always | Currently | NotRightNow | Never.
(** src/coap/decoder/observer.h 85-98: comparison with Always. *)
Definition is_always (v : interested) : bool := match v with Always => true | _ => false end.
(** src/coap/decoder/observer.h 85-98: comparison with Never. *)
Definition is_never (v : interested) : bool := match v with Never => true | _ => false end.

(** An observer class together with its factory function: how one is made, how it
    reacts to a call and its interested().  [S] is the object's state, [W] whatever
    outlives it (static observers, the application); both are arbitrary. *)
Record handler (S W : Type) : Type := Handler {
  h_new : W -> S * W;
  h_call : call -> S -> W -> S * W;
  h_interested : S -> W -> interested }.
Arguments Handler {S W}. Arguments h_new {S W}. Arguments h_call {S W}. Arguments h_interested {S W}.

(** calls in a row on one object *)
Fixpoint calls {S W} (h : handler S W) (cs : list call) (s : S) (w : W) : S * W :=
  match cs with
  | [] => (s, w)
  | c :: r => let '(s1, w1) := h_call h c s w in calls h r s1 w1
  end.

(** What is observed of a dispatcher: factory [i]'s object got a call ([kept]: it is
    the chosen one, not one made for this call), the answer of interested() of a new
    object of factory [i], the call of an object that does not exist any more. *)
Inductive note : Type :=
| Got (i : nat) (kept : bool) (c : call)
| Said (i : nat) (v : interested)
| Bad.

(** src/coap-dispatcher.h 167, [chosen]: none, the object of factory [i], or the
    address of an object whose memory has been used for another one since *)
Inductive slot (S W : Type) : Type := Empty | Kept (i : nat) (h : handler S W) (s : S) | Lost.
Arguments Empty {S W}. Arguments Kept {S W}. Arguments Lost {S W}.

(** src/coap-dispatcher.h 75-167: the handler states ([None]: not initialized) and
    [chosen].  The contexts handed to the factories are copies (hpp 99, 135, ...)
    of one context and so are the allocators (ObjStack, external) in them: two
    objects made one after the other are at the same address.  [separate] says
    whether their memory is distinct nevertheless. *)
Record disp (S W : Type) : Type := Disp { d_states : list (option interested); d_chosen : slot S W }.
Arguments Disp {S W}. Arguments d_states {S W}. Arguments d_chosen {S W}.

(** src/coap-dispatcher.h 183-211: constructor; the states are an array of 10 (155) *)
Definition d_init {S W} (fs : list (handler S W)) : res (disp S W) :=
  if (length fs <=? 10)%nat then Ok (Disp (map (fun _ => None) fs) Empty) else Fault.

(** src/coap-dispatcher.hpp 7-23: is a handler made for this state? *)
Definition tried (st : option interested) : bool :=
  match st with Some v => negb (is_never v) | None => true end.

(** src/coap-dispatcher.hpp 7-83, 94-109 and the same loop in 130-145, 170-187,
    212-227, 238-253: every factory from number [i] on *)
Fixpoint offer {S W} (separate : bool) (cs : list call) (i : nat) (fs : list (handler S W)) (sts : list (option interested))
  (ch : slot S W) (w : W) : list note * list (option interested) * slot S W * W :=
  match fs, sts with
  | f :: fs', st :: sts' =>
      if tried st then
        let '(s0, w0) := h_new f w in
        let '(s1, w1) := calls f cs s0 w0 in
        let v := h_interested f s1 w1 in
        let ch0 := match ch with Kept _ _ _ => if separate then ch else Lost | _ => ch end in
        let ch1 := if is_always v then Kept i f s1 else ch0 in
        let '(ns, sts2, ch2, w2) := offer separate cs (Datatypes.S i) fs' sts' ch1 w1 in
        (map (Got i false) cs ++ Said i v :: ns, Some v :: sts2, ch2, w2)
      else
        let '(ns, sts2, ch2, w2) := offer separate cs (Datatypes.S i) fs' sts' ch w in
        (ns, st :: sts2, ch2, w2)
  | _, _ => ([], sts, ch, w)
  end.

(** src/coap-dispatcher.hpp 94-109 and the like: the loop over all factories. *)
Definition d_offer {S W} (separate : bool) (fs : list (handler S W)) (cs : list call) (d : disp S W) (w : W) : list note * disp S W * W :=
  let '(ns, sts, ch, w1) := offer separate cs 0 fs (d_states d) (d_chosen d) w in (ns, Disp sts ch, w1).

(** a call while there is a chosen handler *)
Definition d_forward {S W} (d : disp S W) (i : nat) (h : handler S W) (s : S) (c : call) (w : W) : list note * disp S W * W :=
  let '(s1, w1) := h_call h c s w in ([Got i true c], Disp (d_states d) (Kept i h s1), w1).

(** src/coap-dispatcher.hpp 86-254 *)
Definition d_call {S W} (separate : bool) (fs : list (handler S W)) (c : call) (d : disp S W) (w : W) : list note * disp S W * W :=
  match c with
  | OnHeader _ | OnComplete => d_offer separate fs [c] d w                  (* 86-110, 231-254 *)
  | _ =>
      match d_chosen d with
      | Kept i h s => d_forward d i h s c w
      | Lost => ([Bad], d, w)
      | Empty =>
          match c with
          | OnOption _ _ => ([], d, w)                                       (* 149-157 *)
          | OnValue n v _ =>                                                 (* 159-188 *)
              d_offer separate fs [OnOption n (N.of_nat (length v) mod 65536); OnValue n v true] d w
          | _ => d_offer separate fs [c] d w                                 (* 113-146, 191-228 *)
          end
      end
  end.

(** Calls in a row (no code of its own). *)
Fixpoint d_run {S W} (separate : bool) (fs : list (handler S W)) (cs : list call) (d : disp S W) (w : W) : list note * disp S W * W :=
  match cs with
  | [] => ([], d, w)
  | c :: r =>
      let '(ns, d1, w1) := d_call separate fs c d w in
      let '(ms, d2, w2) := d_run separate fs r d1 w1 in
      (ns ++ ms, d2, w2)
  end.

(** A dispatcher is itself an observer; interested() is src/coap-dispatcher.h 242-246. *)
Definition d_interested {S W} (d : disp S W) : interested :=
  match d_chosen d with Empty => Currently | _ => Always end.
(** src/coap-dispatcher.h 52-247: FactoryDispatcherHandler as an observer of its own. *)
Definition disp_handler {S W} (separate : bool) (fs : list (handler S W)) : handler (disp S W) W :=
  Handler (fun w => (Disp (map (fun _ => None) fs) Empty, w))
          (fun c d w => let '(_, d1, w1) := d_call separate fs c d w in (d1, w1))
          (fun d _ => d_interested d).

(** src/coap/option.h, Option::UriPath *)
Definition URI_PATH : N := 11.

(** src/coap-uripath-dispatcher.h 34-130, UriPathDispatcherHandlerBase (and
    SingleUriPathObserver, 135-146), made together with its inner observer as in
    uri_plus_factory_dispatcher (149-163) and uri_plus_observer_dispatcher (167-178).
    Responses are not allowed (34).  The ASSERT_WARN (119) does nothing. *)
Definition uri_handler {S W} (prefix : list N) (inner : handler S W) : handler (interested * S) W :=
  Handler
    (fun w => let '(s, w1) := h_new inner w in ((Currently, s), w1))
    (fun c x w =>
       let '(v, s) := x in
       let pass := let '(s1, w1) := h_call inner c s w in ((v, s1), w1) in
       match c with
       | OnHeader h => ((if hdr_is_request h then v else Never, s), w)           (* 44-48 *)
       | OnOption _ _ => if is_always v then pass else (x, w)                (* 69-76 *)
       | OnValue n b _ =>                                                    (* 78-111 *)
           if is_always v then pass
           else if n =? URI_PATH then ((if dispatcher_starts_with b prefix then Always else Never, s), w)
           else (x, w)
       | OnPayload _ _ => match v with Currently => (x, w) | _ => pass end   (* 113-122 *)
       | OnToken _ _ | OnComplete => (x, w)                                  (* observer.h 242-268 *)
       end)
    (fun x _ => fst x).

(** src/coap-uripath-dispatcher.h 190-270 and .hpp 11-81, AggregateUriPathObserver:
    the chosen inner observer and the interest.  The inner observer is destroyed by
    on_complete (hpp 78) but stays in [handler]; calls after on_complete are not
    modelled. *)
Definition agg_handler {S W} (items : list (list N * handler S W)) : handler (interested * option (handler S W * S)) W :=
  Handler
    (fun w => ((Currently, None), w))
    (fun c x w =>
       let pass y w0 :=
         match snd y with
         | Some (h, s) => let '(s1, w1) := h_call h c s w0 in ((fst y, Some (h, s1)), w1)
         | None => (y, w0)
         end in
       match c with
       | OnValue n b _ =>                                                    (* hpp 11-46 *)
           if n =? URI_PATH then
             match snd x with
             | Some _ => pass x w
             | None =>
                 match factory_find items b with
                 | Some h => let '(s, w1) := h_new h w in pass (Always, Some (h, s)) w1
                 | None => ((Never, None), w)
                 end
             end
           else pass x w
       | OnPayload _ _ | OnComplete => pass x w                              (* hpp 49-80 *)
       | OnHeader _ | OnToken _ _ | OnOption _ _ => (x, w)                   (* observer.h 239-251 *)
       end)
    (fun x _ => fst x).
