(** Which observers a table can be made of, and what should be found of contexts. *)
From Verif Require Import Base HeaderModel UriModel UriSpec DispatchModel DispatchSpec ContextModel CtxSubModel DispCtxModel.
Local Open Scope N_scope.

(** the observers of the library: the one that fills in the context, observers behind a
    path, dispatchers behind a path *)
Inductive offered : forall S, factory S -> Prop :=
| OfContext : offered unit ctx_factory
| OfObserver : forall p k, offered (interested * unit) (uri_factory p (static_factory k))
| OfNest : forall S sep p (fs : list (factory S)), (forall f, In f fs -> offered S f) ->
    offered (interested * (nat * disp S world)) (uri_factory p (fdh_factory sep fs))
| OfLeft : forall S T f, offered S f -> offered (S + T) (fun a => left_handler (f a))
| OfRight : forall S T f, offered T f -> offered (S + T) (fun a => right_handler (f a)).

(** the call was made with nothing behind the context pointer *)
Definition dangling (e : nat * call * option ctx) : Prop := snd e = None.

(** a flat table: context handlers and observers behind paths *)
Inductive kind : Type := KContext | KObserver (prefix : list N) (k : nat).
Definition kind_factory (x : kind) : factory (unit + (interested * unit)) := fun a =>
  match x with
  | KContext => left_handler (ctx_factory a)
  | KObserver p k => right_handler (uri_factory p (static_factory k) a)
  end.

(** the last observer whose path agrees *)
Definition chooses (ks : list kind) (seg : list N) (k : nat) : Prop :=
  exists a p b, ks = a ++ KObserver p k :: b /\ agrees seg p /\ forall q j, In (KObserver q j) b -> ~ agrees seg q.
Definition chooses_none (ks : list kind) (seg : list N) : Prop := forall q j, In (KObserver q j) ks -> ~ agrees seg q.

(** what is to be said by an observer that fills an unfilled context, by the call alone *)
Definition answer (c : call) : interested :=
  match c with
  | OnHeader h => if (0 <? hdr_version h) && (hdr_tkl h =? 0) then Never else Currently
  | _ => Currently
  end.
