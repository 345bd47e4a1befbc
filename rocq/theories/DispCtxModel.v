(** Model of the request contexts that src/coap-dispatcher.h/.hpp and
    src/coap-uripath-dispatcher.h hand to the observers they make (with
    FEATURE_MCCOAP_INLINE_TOKEN and without FEATURE_MCCOAP_LEGACY_PREOBJSTACK, as in
    src/mc/opts-internal.h 36).  The allocator inside a context is DispatchModel's
    [separate]; here a context is header and token. *)
From Verif Require Import Base HeaderModel UriModel DispatchModel ContextModel CtxSubModel.
Local Open Scope N_scope.

(** Contexts by address ([None]: the object is destroyed), the context pointer of each
    static observer (src/coap/context.h 336, ContextContainer::m_context) and what the
    static observers are told, with what their pointer leads to at that time ([None]:
    nothing, it dangles). *)
Record world : Type := World { w_ctx : list (option ctx); w_ptr : nat -> option nat; w_log : list (nat * call * option ctx) }.

(** the context at an address *)
Definition ctx_at (a : nat) (w : world) : option ctx := nth a (w_ctx w) None.

(** copy constructor of the context (src/coap/context.h): the new object is at the
    first address not used before *)
Definition ctx_copy (from : nat) (w : world) : world := World (w_ctx w ++ [ctx_at from w]) (w_ptr w) (w_log w).

(** an object at an address overwritten, or destroyed *)
Definition ctx_put (a : nat) (c : option ctx) (w : world) : world :=
  World (firstn a (w_ctx w) ++ c :: skipn (Datatypes.S a) (w_ctx w)) (w_ptr w) (w_log w).

(** src/coap-dispatcher.h 24, dispatcher_handler_factory_fn: gets a context and makes
    an observer *)
Definition factory (S : Type) : Type := nat -> handler S world.

(** src/coap-dispatcher.hpp 94-109 and the same loop in 130-145, 170-187, 212-227 and
    238-253: [context_t ctx(m_context)] is a variable of the loop body, copied from the
    dispatcher's own context at [me] and destroyed at the end of the body, whether or not
    an observer was made (observer_helper_begin, 7-23) *)
Fixpoint c_offer {S} (separate : bool) (me : nat) (cs : list call) (i : nat) (fs : list (factory S)) (sts : list (option interested))
  (ch : slot S world) (w : world) : list note * list (option interested) * slot S world * world :=
  match fs, sts with
  | f :: fs', st :: sts' =>
      let a := length (w_ctx w) in
      let w' := ctx_copy me w in
      if tried st then
        let '(s0, w0) := h_new (f a) w' in
        let '(s1, w1) := calls (f a) cs s0 w0 in
        let v := h_interested (f a) s1 w1 in
        let ch0 := match ch with Kept _ _ _ => if separate then ch else Lost | _ => ch end in
        let ch1 := if is_always v then Kept i (f a) s1 else ch0 in
        let '(ns, sts2, ch2, w2) := c_offer separate me cs (Datatypes.S i) fs' sts' ch1 (ctx_put a None w1) in
        (map (Got i false) cs ++ Said i v :: ns, Some v :: sts2, ch2, w2)
      else
        let '(ns, sts2, ch2, w2) := c_offer separate me cs (Datatypes.S i) fs' sts' ch (ctx_put a None w') in
        (ns, st :: sts2, ch2, w2)
  | _, _ => ([], sts, ch, w)
  end.

(** src/coap-dispatcher.hpp 94-109 and the like: the loop over all factories *)
Definition c_round {S} (separate : bool) (me : nat) (fs : list (factory S)) (cs : list call) (d : disp S world) (w : world)
  : list note * disp S world * world :=
  let '(ns, sts, ch, w1) := c_offer separate me cs 0 fs (d_states d) (d_chosen d) w in (ns, Disp sts ch, w1).

(** src/coap-dispatcher.hpp 86-254; a forwarded call (d_forward) involves no context *)
Definition c_call {S} (separate : bool) (me : nat) (fs : list (factory S)) (c : call) (d : disp S world) (w : world)
  : list note * disp S world * world :=
  match c with
  | OnHeader _ | OnComplete => c_round separate me fs [c] d w
  | _ =>
      match d_chosen d with
      | Kept i h s => d_forward d i h s c w
      | Lost => ([Bad], d, w)
      | Empty =>
          match c with
          | OnOption _ _ => ([], d, w)
          | OnValue n v _ => c_round separate me fs [OnOption n (N.of_nat (length v) mod 65536); OnValue n v true] d w
          | _ => c_round separate me fs [c] d w
          end
      end
  end.

(** Calls in a row (no code of its own). *)
Fixpoint c_run {S} (separate : bool) (me : nat) (fs : list (factory S)) (cs : list call) (d : disp S world) (w : world)
  : list note * disp S world * world :=
  match cs with
  | [] => ([], d, w)
  | c :: r =>
      let '(ns, d1, w1) := c_call separate me fs c d w in
      let '(ms, d2, w2) := c_run separate me fs r d1 w1 in
      (ns ++ ms, d2, w2)
  end.

(** src/coap-dispatcher.h 52-247: FactoryDispatcherHandler; the constructor (183-211)
    copies the context it is given into the member m_context, here at address [fst] *)
Definition fdh_factory {S} (separate : bool) (fs : list (factory S)) : factory (nat * disp S world) := fun a =>
  Handler (fun w => ((length (w_ctx w), Disp (map (fun _ => None) fs) Empty), ctx_copy a w))
          (fun c x w => let '(_, d1, w1) := c_call separate (fst x) fs c (snd x) w in ((fst x, d1), w1))
          (fun x _ => d_interested (snd x)).

(** src/coap-dispatcher.h 253-325 and .hpp 276-306: ContextDispatcherHandler, whose base
    keeps a pointer to the context given (src/coap/context.h 333-353).  A token part of
    more than eight bytes (never sent by a decoder) is dropped here. *)
Definition ctx_factory : factory unit := fun a =>
  Handler (fun w => (tt, w))
          (fun c _ w => (tt, match ctx_at a w with
             | Some x => match cdh_call c x with Ok y => ctx_put a (Some y) w | _ => w end
             | None => w end))
          (fun _ w => match ctx_at a w with Some x => cdh_interested x | None => Currently end).

(** src/coap-uripath-dispatcher.h 170-175: a static observer, number [k], is given the
    context; afterwards it can follow that pointer in whatever it is told *)
Definition static_factory (k : nat) : factory unit := fun a =>
  Handler (fun w => (tt, World (w_ctx w) (fun j => if Nat.eqb j k then Some a else w_ptr w j) (w_log w)))
          (fun c _ w => (tt, World (w_ctx w) (w_ptr w)
             (w_log w ++ [(k, c, match w_ptr w k with Some b => ctx_at b w | None => None end)])))
          (fun _ _ => Currently).

(** src/coap-uripath-dispatcher.h 149-178: an observer behind a path prefix;
    uri_plus_observer_dispatcher with [static_factory], uri_plus_factory_dispatcher with
    [fdh_factory] *)
Definition uri_factory {S} (prefix : list N) (f : factory S) : factory (interested * S) := fun a => uri_handler prefix (f a).

(** Two kinds of observers in one table (no code of its own: in C++ they have a common base). *)
Definition left_handler {S T W} (h : handler S W) : handler (S + T) W :=
  Handler (fun w => let '(s, w1) := h_new h w in (inl s, w1))
          (fun c x w => match x with inl s => let '(s1, w1) := h_call h c s w in (inl s1, w1) | inr _ => (x, w) end)
          (fun x w => match x with inl s => h_interested h s w | inr _ => Never end).
(** the same for the other kind *)
Definition right_handler {S T W} (h : handler T W) : handler (S + T) W :=
  Handler (fun w => let '(s, w1) := h_new h w in (inr s, w1))
          (fun c x w => match x with inr s => let '(s1, w1) := h_call h c s w in (inr s1, w1) | inl _ => (x, w) end)
          (fun x w => match x with inr s => h_interested h s w | inl _ => Never end).

(** test/unit-tests/coap-dispatcher-test.cpp 137-140: an application's context at address 0,
    a dispatcher made with it and told of a message *)
Definition app_world (c : ctx) : world := World [Some c] (fun _ => None) [].
(** the dispatcher's own context is then at address 1 *)
Definition app_run {S} (separate : bool) (fs : list (factory S)) (cs : list call) (c : ctx) : list note * disp S world * world :=
  let '((me, d), w) := h_new (fdh_factory separate fs 0%nat) (app_world c) in c_run separate me fs cs d w.
