(** Model of ObservableMetaSession, src/coap/observable.h 46-129: one notification passed on from
    observer to observer, with the header and token rewritten.  As written the class cannot be
    instantiated (it.end() for it_end, it.token and it.addr for those of *it, a pointer stored as a
    netbuf, and a result type that is not the one of src/exp/datapump-observer.h 22), and nothing in
    /repo instantiates it; it is modelled with these read as meant. *)
From Verif Require Import Base UIntModel HeaderModel OptEncModel StreambufModel NetbufModel OptDecModel DecoderModel NetDecModel CopyModel ObserveModel.
Local Open Scope N_scope.

(** src/coap/observable.h 76-114: [c] is the netbuf just transmitted (one chunk), [d] what the
    memory of the new decoder holds, [room] the size of a new netbuf, [inl]
    FEATURE_EMBR_DATAPUMP_INLINE.  The results of header and token (94-95) are ignored.  The number
    of bytes to skip (103) is taken from the header after its token length has been set (92).
    Without [inl] the netbuf enqueued (110) is the old one. *)
Definition meta_step {A} (fuel : nat) (inl debug : bool) (room : nat) (c : list N) (d : dec) (s : session A) : res (A * list N) :=
  bind (nd_header c true (ND d 0)) (fun x =>
  bind (hdr_set_tkl (N.of_nat (length (os_tok s))) (fst x)) (fun h =>
  bind (nbe_header h (nbe_init debug room)) (fun r1 =>
  bind (nbe_token (os_tok s) (snd r1)) (fun r2 =>
  let k := n_sink (snd r2) in
  bind (netbuf_copy fuel c [] (4 + N.to_nat (hdr_tkl h)) (Dest [] (s_out k) (s_room k) [])) (fun t =>
  Ok (os_addr s, if inl then concat (t_done t) ++ t_cur t else c)))))).

(** src/coap/observable.h 66-118, called when each netbuf enqueued by it has been transmitted in its
    turn: what is enqueued for the sessions from [it] to it_end *)
Fixpoint meta_run {A} (fuel : nat) (inl debug : bool) (room : nat) (c : list N) (it : list (dec * session A)) : res (list (A * list N)) :=
  match it with
  | [] => Ok []
  | (d, s) :: r =>
      bind (meta_step fuel inl debug room c d s) (fun x =>
      bind (meta_run fuel inl debug room (snd x) r) (fun y => Ok (x :: y)))
  end.
