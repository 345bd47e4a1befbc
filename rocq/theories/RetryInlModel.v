(** Model of src/exp/retry.h built with FEATURE_MCCOAP_RETRY_INLINE and
    FEATURE_EMBR_DATAPUMP_INLINE: the netbuf to be retransmitted is kept in the item itself and
    moved between the retry queue and the pump.  Memory is that of
    src/platform/generic/malloc_netbuf.h, one chunk per netbuf. *)
From Verif Require Import Base HeaderModel DecoderModel RetryModel RetryMemModel.
Local Open Scope N_scope.

(** malloc_netbuf.h 28-33, 110-117: a netbuf object: the chunk its current pointer leads to, and
    whether its list of chunks holds that chunk *)
Record nb : Type := Nb { b_chunk : nat; b_own : bool }.

(** malloc_netbuf.h 110-117, what a move leaves behind: the list is empty, the pointer stays *)
Definition nb_gone (b : nb) : nb := Nb (b_chunk b) false.

(** retry.h 202-294, Item with m_raw_netbuf.  estd's raw_instance_provider (external) is taken for
    what its use says it is: bytes, copied with the item and not destroyed with it. *)
Record iitem : Type := IItem { j_nb : nb; j_count : N; j_init : N; j_addr : N; j_due : N }.

(** What there is in memory.  Chunks are numbered in the order of their making.  [g_msg]: the
    message written into the chunk; [g_live]: it has not been freed; [g_app c]: the netbuf the
    application made chunk [c] with: None if destroyed, otherwise whether it still holds the
    chunk; [g_pump]: embr::DataPump's queue of what is to be sent, netbuf and address. *)
Record ist : Type := Ist {
  g_next : nat; g_msg : nat -> netmsg; g_live : nat -> bool; g_app : nat -> option bool;
  g_pump : list (nb * N); g_retry : list iitem }.

(** No code: nothing sent yet *)
Definition ist0 : ist := Ist 0 (fun _ => NetMsg (Hdr 0 0 0 0) [] []) (fun _ => false) (fun _ => None) [] [].

(** malloc_netbuf.h 123-129 and the encoder: a netbuf with a message in it *)
Definition i_new (m : netmsg) (s : ist) : ist :=
  Ist (S (g_next s)) (upd (g_msg s) (g_next s) m) (upd (g_live s) (g_next s) true) (upd (g_app s) (g_next s) (Some true)) (g_pump s) (g_retry s).

(** malloc_netbuf.h 131-140, the destructor: frees the chunks in its list; freeing a chunk twice
    is a fault *)
Definition nb_free (b : nb) (s : ist) : res ist :=
  if b_own b then
    if g_live s (b_chunk b) then Ok (Ist (g_next s) (g_msg s) (upd (g_live s) (b_chunk b) false) (g_app s) (g_pump s) (g_retry s)) else Fault
  else Ok s.

(** No code: the netbufs of the application changed *)
Definition i_app (o : nat) (x : option bool) (s : ist) : ist := Ist (g_next s) (g_msg s) (g_live s) (upd (g_app s) o x) (g_pump s) (g_retry s).
(** No code: the queue of the pump changed *)
Definition i_out (q : list (nb * N)) (s : ist) : ist := Ist (g_next s) (g_msg s) (g_live s) (g_app s) q (g_retry s).
(** No code: the retry queue changed *)
Definition i_queue (q : list iitem) (s : ist) : ist := Ist (g_next s) (g_msg s) (g_live s) (g_app s) (g_pump s) q.

(** malloc_netbuf.h 131-140: the application destroys its netbuf *)
Definition i_drop (o : nat) (s : ist) : res ist :=
  match g_app s o with
  | None => Fault
  | Some own => bind (nb_free (Nb o own) s) (fun s1 => Ok (i_app o None s1))
  end.

(** retry.h 245-262 through malloc_netbuf.h 39-45: a netbuf is read through its pointer to the
    current chunk *)
Definition nb_read (s : ist) (b : nb) : res netmsg := if g_live s (b_chunk b) then Ok (g_msg s (b_chunk b)) else Fault.

(** embr::DataPump::enqueue_out (external): the netbuf [b] is moved into the queue *)
Definition i_enqueue_out (size : nat) (b : nb) (a : N) (s : ist) : res ist :=
  if (length (g_pump s) <? size)%nat then Ok (i_out (g_pump s ++ [(b, a)]) s) else Fault.

(** ... from the application *)
Definition i_send (size : nat) (o : nat) (a : N) (s : ist) : res ist :=
  match g_app s o with
  | None => Fault
  | Some own => bind (i_enqueue_out size (Nb o own) a s) (fun s1 => Ok (i_app o (Some false) s1))
  end.

(** retry.h 340-362 with 264-284, enqueue: the netbuf is moved into a new item, which is copied
    into the queue *)
Definition i_enqueue (w : N) (b : nb) (a now r : N) (s : ist) : res ist :=
  if (length (g_retry s) <? QUEUE_MAX)%nat then
    let init := policy_rand r RAND_LOW RAND_HIGH mod 2 ^ 12 in
    Ok (i_queue (g_retry s ++ [IItem b 0 init a (time_add w now (meta_delta 0 init))]) s)
  else Fault.

(** ... from the application, as in test/unit-tests/retry-test.cpp *)
Definition i_track (w : N) (o : nat) (a now r : N) (s : ist) : res ist :=
  match g_app s o with
  | None => Fault
  | Some own => bind (i_enqueue w (Nb o own) a now r s) (fun s1 => Ok (i_app o (Some false) s1))
  end.

(** retry.h 547-615, service_retry, with [k] the position of front().  The copy [f] is what is
    moved from and what is pushed again; what pop takes out is bytes. *)
Definition i_service (w : N) (size : nat) (now : N) (k : nat) (s : ist) : res ist :=
  match nth_error (g_retry s) k with
  | None => Ok s
  | Some f =>
      if j_due f <=? now then
        if j_count f <? MAX_RETRANSMIT - 2 then
          bind (i_enqueue_out size (j_nb f) (j_addr f) s) (fun s1 =>
            let c := (j_count f + 1) mod 8 in
            Ok (i_queue (drop_at k (g_retry s1) ++ [IItem (nb_gone (j_nb f)) c (j_init f) (j_addr f) (time_add w now (meta_delta c (j_init f)))]) s1))
        else if j_count f =? MAX_RETRANSMIT - 2 then
          bind (i_enqueue_out size (j_nb f) (j_addr f) s) (fun s1 => Ok (i_queue (drop_at k (g_retry s1)) s1))
        else Ok (i_queue (drop_at k (g_retry s)) s)
      else Ok s
  end.

(** retry.h 387-423, match; [vs]: the positions in the order of the vector *)
Fixpoint i_match (same : N -> N -> bool) (s : ist) (m : netmsg) (a : N) (vs : list nat) : res (option nat) :=
  match vs with
  | [] => Ok None
  | k :: r =>
      match nth_error (g_retry s) k with
      | None => Fault
      | Some it =>
          bind (nb_read s (j_nb it)) (fun om =>
            if matches same a (hdr_mid (n_hdr m)) (n_tok m) (Item 0 0 0 (j_addr it) om 0) then Ok (Some k) else i_match same s m a r)
      end
  end.

(** retry.h 498-515, service_ack, for a message [m] from [a], with 472-485: the item erased is
    bytes, its netbuf is not destroyed *)
Definition i_ack (same : N -> N -> bool) (m : netmsg) (a : N) (vs : list nat) (s : ist) : res ist :=
  if hdr_type (n_hdr m) =? ACK then
    bind (i_match same s m a vs) (fun r => Ok (match r with Some k => i_queue (drop_at k (g_retry s)) s | None => s end))
  else Ok s.

(** No code: an item with another netbuf in its slot *)
Definition put_nb (b : nb) (it : iitem) : iitem := IItem b (j_count it) (j_init it) (j_addr it) (j_due it).
(** No code: the element at a position changed *)
Definition change_at {X} (k : nat) (f : X -> X) (q : list X) : list X :=
  match nth_error q k with Some x => firstn k q ++ f x :: skipn (S k) q | None => q end.

(** retry.h 436-459, con_sent_experimental: the netbuf is moved into the slot of the item
    matched, over what was there.  What it returns, what is left of [b], and memory. *)
Definition i_con_sent (same : N -> N -> bool) (b : nb) (a : N) (vs : list nat) (s : ist) : res (bool * nb * ist) :=
  bind (nb_read s b) (fun m =>
    bind (i_match same s m a vs) (fun r =>
      Ok (match r with
          | Some k => (true, nb_gone b, i_queue (change_at k (put_nb b) (g_retry s)) s)
          | None => (false, b, s)
          end))).

(** retry.h 644-657, RetryObserver::on_notify with 333-336, is_con *)
Definition i_notify (w : N) (b : nb) (a now r : N) (s : ist) : res (nb * ist) :=
  bind (nb_read s b) (fun m =>
    if hdr_type (n_hdr m) =? CON then bind (i_enqueue w b a now r s) (fun s1 => Ok (nb_gone b, s1)) else Ok (b, s)).

(** ... from the application, as in test/unit-tests/retry-test.cpp 262-275 *)
Definition i_back (same : N -> N -> bool) (o : nat) (a : N) (vs : list nat) (s : ist) : res ist :=
  match g_app s o with
  | None => Fault
  | Some own => bind (i_con_sent same (Nb o own) a vs s) (fun x => Ok (i_app o (Some (b_own (snd (fst x)))) (snd x)))
  end.

(** who is told of a netbuf sent before it is taken out of the pump: nobody, RetryObserver
    (the notification comes from embr's dataport, external), or con_sent_experimental *)
Inductive told : Type := TNone | TObserver (now r : N) | TConSent (vs : list nat).
(** src/platform/posix/sockets-datapump.cpp 86-136: the first of the queue is sent, [t] is told,
    and what is left in the queue is destroyed (transport_pop, 136) *)
Definition i_wire (w : N) (same : N -> N -> bool) (t : told) (s : ist) : res (ist * list (nat * N * netmsg)) :=
  match g_pump s with
  | [] => Ok (s, [])
  | (b, a) :: q =>
      bind (nb_read s b) (fun m =>
        bind (match t with
              | TNone => Ok (b, s)
              | TObserver now r => i_notify w b a now r s
              | TConSent vs => bind (i_con_sent same b a vs s) (fun x => Ok (snd (fst x), snd x))
              end) (fun y =>
          bind (nb_free (fst y) (i_out q (snd y))) (fun s1 => Ok (s1, [(b_chunk b, a, m)]))))
  end.

(** what an application and the loop do, in any order *)
Inductive iop : Type :=
| INew (m : netmsg)
| IDrop (o : nat)
| ISend (o : nat) (a : N)
| ITrack (o : nat) (a now r : N)
| IBack (o : nat) (a : N) (vs : list nat)
| IWire (t : told)
| IService (now : N) (k : nat)
| IAck (m : netmsg) (a : N) (vs : list nat).
Definition i_step (w : N) (size : nat) (same : N -> N -> bool) (o : iop) (s : ist) : res (ist * list (nat * N * netmsg)) :=
  match o with
  | INew m => Ok (i_new m s, [])
  | IDrop i => bind (i_drop i s) (fun s1 => Ok (s1, []))
  | ISend i a => bind (i_send size i a s) (fun s1 => Ok (s1, []))
  | ITrack i a now r => bind (i_track w i a now r s) (fun s1 => Ok (s1, []))
  | IBack i a vs => bind (i_back same i a vs s) (fun s1 => Ok (s1, []))
  | IWire t => i_wire w same t s
  | IService now k => bind (i_service w size now k s) (fun s1 => Ok (s1, []))
  | IAck m a vs => bind (i_ack same m a vs s) (fun s1 => Ok (s1, []))
  end.
Fixpoint i_run (w : N) (size : nat) (same : N -> N -> bool) (os : list iop) (s : ist) : res (ist * list (nat * N * netmsg)) :=
  match os with
  | [] => Ok (s, [])
  | o :: r =>
      bind (i_step w size same o s) (fun x =>
        bind (i_run w size same r (fst x)) (fun y => Ok (fst y, snd x ++ snd y)))
  end.
