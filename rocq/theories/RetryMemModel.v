(** Model of who owns the netbufs that src/exp/retry.h keeps for retransmission:
    src/platform/generic/malloc_netbuf.h, src/exp/retry.h without FEATURE_MCCOAP_RETRY_INLINE and
    the sending half of src/platform/posix/sockets-datapump.cpp; and of SocketsDatapumpHelper
    (src/platform/posix/sockets-datapump.h) with FEATURE_MCCOAP_RELIABLE. *)
From Coq Require Import String.
From Verif Require Import Base HeaderModel OptDecModel DecoderModel NetDecModel NetbufModel DiagModel RespModel RetryModel PumpModel.
Local Open Scope N_scope.

(** * Netbufs and their memory *)

(** src/exp/retry.h 202-294, Item: m_netbuf points to netbuf number [x_obj] *)
Record mitem : Type := MItem { x_obj : nat; x_count : N; x_init : N; x_addr : N; x_due : N }.

(** What there is in memory.  Netbufs are numbered in the order of their making; netbuf [o] was
    made with one chunk (malloc_netbuf.h 123-129), written with the message [m_msg o].
    [m_live o]: the chunk has not been freed.  [m_obj o]: None if the netbuf object was
    destroyed, otherwise whether its list of chunks still holds the chunk.
    [m_pump]: embr::DataPump's queue of what is to be sent (external): with
    FEATURE_EMBR_DATAPUMP_INLINE netbufs moved from netbuf [o], each with the chunk in its list
    or not; otherwise pointers to netbuf [o]. *)
Record mem : Type := Mem {
  m_next : nat; m_msg : nat -> netmsg; m_live : nat -> bool; m_obj : nat -> option bool;
  m_pump : list (nat * bool * N); m_retry : list mitem }.

(** No code: a map changed in one place *)
Definition upd {X} (f : nat -> X) (o : nat) (x : X) : nat -> X := fun i => if Nat.eqb i o then x else f i.

(** No code: nothing sent yet *)
Definition mem0 : mem := Mem 0 (fun _ => NetMsg (Hdr 0 0 0 0) [] []) (fun _ => false) (fun _ => None) [] [].

(** malloc_netbuf.h 123-129 and the encoder: a netbuf with a message in it *)
Definition m_new (m : netmsg) (s : mem) : mem :=
  Mem (S (m_next s)) (upd (m_msg s) (m_next s) m) (upd (m_live s) (m_next s) true) (upd (m_obj s) (m_next s) (Some true)) (m_pump s) (m_retry s).

(** malloc_netbuf.h 131-140, the destructor: frees the chunks in its list *)
Definition m_drop (o : nat) (s : mem) : res mem :=
  match m_obj s o with
  | None => Fault
  | Some own => Ok (Mem (m_next s) (m_msg s) (if own then upd (m_live s) o false else m_live s) (upd (m_obj s) o None) (m_pump s) (m_retry s))
  end.

(** retry.h 245-259 through malloc_netbuf.h 39-45: the netbuf is read through its pointer to the
    current chunk, which a move leaves in place (28-33, 109-114) *)
Definition m_read (s : mem) (o : nat) : res netmsg :=
  match m_obj s o with
  | None => Fault
  | Some _ => if m_live s o then Ok (m_msg s o) else Fault
  end.

(** embr::DataPump::enqueue_out (external).  [inl] is FEATURE_EMBR_DATAPUMP_INLINE: the netbuf is
    moved into the queue (malloc_netbuf.h 110-117: the list of chunks goes with it). *)
Definition m_give (inl : bool) (size : nat) (o : nat) (a : N) (s : mem) : res mem :=
  match m_obj s o with
  | None => Fault
  | Some own =>
      if (List.length (m_pump s) <? size)%nat then
        Ok (Mem (m_next s) (m_msg s) (m_live s) (if inl then upd (m_obj s) o (Some false) else m_obj s) (m_pump s ++ [(o, own, a)]) (m_retry s))
      else Fault
  end.

(** sockets-datapump.cpp 86-136: the first of the queue is sent, and destroyed: by
    transport_pop (136) if it is in the queue, otherwise by delete (132-133; with
    FEATURE_MCCOAP_RELIABLE unless an observer of embr's asks otherwise, 124, which is left
    out) *)
Definition m_wire (inl : bool) (s : mem) : res (mem * list (nat * N * netmsg)) :=
  match m_pump s with
  | [] => Ok (s, [])
  | (o, own, a) :: r =>
      if inl then
        if m_live s o then
          Ok (Mem (m_next s) (m_msg s) (if own then upd (m_live s) o false else m_live s) (m_obj s) r (m_retry s), [(o, a, m_msg s o)])
        else Fault
      else
        bind (m_read s o) (fun m =>
          bind (m_drop o s) (fun s1 => Ok (Mem (m_next s1) (m_msg s1) (m_live s1) (m_obj s1) r (m_retry s1), [(o, a, m)])))
  end.

(** retry.h 347-362, enqueue: keeps a pointer to the netbuf *)
Definition m_track (w : N) (o : nat) (a now r : N) (s : mem) : res mem :=
  match m_obj s o with
  | None => Fault
  | Some _ =>
      if (List.length (m_retry s) <? QUEUE_MAX)%nat then
        let init := policy_rand r RAND_LOW RAND_HIGH mod 2 ^ 12 in
        Ok (Mem (m_next s) (m_msg s) (m_live s) (m_obj s) (m_pump s) (m_retry s ++ [MItem o 0 init a (time_add w now (meta_delta 0 init))]))
      else Fault
  end.

(** No code: the retry queue changed *)
Definition m_requeue (q : list mitem) (s : mem) : mem := Mem (m_next s) (m_msg s) (m_live s) (m_obj s) (m_pump s) q.

(** No code: a list without position [k] *)
Definition drop_at {X} (k : nat) (q : list X) : list X := firstn k q ++ skipn (S k) q.

(** retry.h 547-615, service_retry, with [k] the position of front() *)
Definition m_service (inl : bool) (w : N) (size : nat) (now : N) (k : nat) (s : mem) : res mem :=
  match nth_error (m_retry s) k with
  | None => Ok s
  | Some f =>
      if x_due f <=? now then
        if x_count f <? MAX_RETRANSMIT - 2 then
          bind (m_give inl size (x_obj f) (x_addr f) s) (fun s1 =>
            let c := (x_count f + 1) mod 8 in
            Ok (m_requeue (drop_at k (m_retry s1) ++ [MItem (x_obj f) c (x_init f) (x_addr f) (time_add w now (meta_delta c (x_init f)))]) s1))
        else if x_count f =? MAX_RETRANSMIT - 2 then
          bind (m_give inl size (x_obj f) (x_addr f) s) (fun s1 => Ok (m_requeue (drop_at k (m_retry s1)) s1))
        else Ok (m_requeue (drop_at k (m_retry s)) s)
      else Ok s
  end.

(** retry.h 387-423, match; [vs]: the positions in the order of the vector *)
Fixpoint m_match (same : N -> N -> bool) (s : mem) (m : netmsg) (a : N) (vs : list nat) : res (option nat) :=
  match vs with
  | [] => Ok None
  | k :: r =>
      match nth_error (m_retry s) k with
      | None => Fault
      | Some it =>
          bind (m_read s (x_obj it)) (fun om =>
            if matches same a (hdr_mid (n_hdr m)) (n_tok m) (Item 0 0 0 (x_addr it) om 0) then Ok (Some k) else m_match same s m a r)
      end
  end.

(** retry.h 498-515, service_ack, for a message [m] from [a], with 472-485 *)
Definition m_ack (same : N -> N -> bool) (m : netmsg) (a : N) (vs : list nat) (s : mem) : res mem :=
  if hdr_type (n_hdr m) =? ACK then
    bind (m_match same s m a vs) (fun r => Ok (match r with Some k => m_requeue (drop_at k (m_retry s)) s | None => s end))
  else Ok s.

(** what an application and the loop do, in any order *)
Inductive mop : Type :=
| ONew (m : netmsg)                      (* makes a netbuf *)
| ODrop (o : nat)                        (* destroys it *)
| OSend (o : nat) (a : N)                (* enqueue_out *)
| OTrack (o : nat) (a now r : N)         (* Retry::enqueue *)
| OWire                                  (* the loop sends *)
| OService (now : N) (k : nat)           (* service_retry *)
| OAck (m : netmsg) (a : N) (vs : list nat). (* service_ack *)
Definition m_step (inl : bool) (w : N) (size : nat) (same : N -> N -> bool) (o : mop) (s : mem) : res (mem * list (nat * N * netmsg)) :=
  match o with
  | ONew m => Ok (m_new m s, [])
  | ODrop i => bind (m_drop i s) (fun s1 => Ok (s1, []))
  | OSend i a => bind (m_give inl size i a s) (fun s1 => Ok (s1, []))
  | OTrack i a now r => bind (m_track w i a now r s) (fun s1 => Ok (s1, []))
  | OWire => m_wire inl s
  | OService now k => bind (m_service inl w size now k s) (fun s1 => Ok (s1, []))
  | OAck m a vs => bind (m_ack same m a vs s) (fun s1 => Ok (s1, []))
  end.
Fixpoint m_run (inl : bool) (w : N) (size : nat) (same : N -> N -> bool) (os : list mop) (s : mem) : res (mem * list (nat * N * netmsg)) :=
  match os with
  | [] => Ok (s, [])
  | o :: r =>
      bind (m_step inl w size same o s) (fun x =>
        bind (m_run inl w size same r (fst x)) (fun y => Ok (fst y, snd x ++ snd y)))
  end.

(** * The helper with FEATURE_MCCOAP_RELIABLE *)

(** an IPv4 address and a port as one number: sockaddr_in *)
Definition sockaddr (ip port : N) : N := ip * 65536 + port.
(** src/platform/posix/sockets-datapump.h 26-29: equals_fromto looks at the address only *)
Definition sock_same (a b : N) : bool := a / 65536 =? b / 65536.

(** sockets-datapump.h 44-48: the pump (passed to each call) and the retry queue *)
Record helper : Type := Helper { s_pump : pump N; s_retry : queue }.

(** the bytes of a message in a netbuf *)
Definition netmsg_bytes (m : netmsg) : list N := hdr_bytes (n_hdr m) ++ n_tok m ++ n_rest m.

(** sockets-datapump.h 101-130, enqueue: is_con (src/exp/retry.h 333-336, 128-134) decodes the
    header, and what it says is not used.  [d]: the memory the decoder is made in. *)
Definition helper_enqueue (size : nat) (d : dec) (a : N) (dg : list N) (h : helper) : res helper :=
  bind (nd_header dg true (ND d 0)) (fun _ =>
    bind (enqueue size (a, dg) (p_out (s_pump h))) (fun q => Ok (Helper (Pump (p_in (s_pump h)) q) (s_retry h)))).

(** src/exp/retry.h 521-537 and 498-515, service_ack of the first datagram received, which stays *)
Definition helper_ack (d : dec) (k : option nat) (h : helper) : res helper :=
  match p_in (s_pump h) with
  | [] => Ok h
  | (_, b) :: _ =>
      bind (nd_header b true (ND d 0)) (fun x =>
        bind (nd_token b true (snd x)) (fun y =>
          Ok (Helper (s_pump h) (fst (service_ack (NetMsg (fst x) (fst y) (skipn (n_pos (snd y)) b)) k (s_retry h))))))
  end.

(** src/exp/retry.h 547-615 with the pump *)
Definition helper_retry (w : N) (size : nat) (now : N) (k : nat) (h : helper) : res helper :=
  bind (service_retry w now k (s_retry h)) (fun x =>
    bind (enqueue_all size (map (fun o => (snd o, netmsg_bytes (snd (fst o)))) (snd x)) (p_out (s_pump h))) (fun q =>
      Ok (Helper (Pump (p_in (s_pump h)) q) (fst x)))).

(** what happens to a helper in turn: enqueue, loop (with what the network does, the time, the
    positions front() and match find), and pop (86-89) of the first datagram received *)
Inductive hop : Type :=
| HEnqueue (a : N) (dg : list N)
| HLoop (e : event N) (now : N) (ka : option nat) (kt : nat)
| HPop.
(** sockets-datapump.h 68-80, loop; None: the program has ended (see PumpModel).
    [d]: memory of the decoders *)
Definition hop_step (w : N) (size : nat) (d : dec) (o : hop) (h : helper) : res (option helper * list (N * list N)) :=
  match o with
  | HEnqueue a dg => bind (helper_enqueue size d a dg h) (fun h1 => Ok (Some h1, []))
  | HLoop e now ka kt =>
      bind (posix_loop size e (s_pump h)) (fun x =>
        match snd x with
        | None => Ok (None, match fst x with Some y => [y] | None => [] end)
        | Some p =>
            bind (helper_ack d ka (Helper p (s_retry h))) (fun h1 =>
              bind (helper_retry w size now kt h1) (fun h2 =>
                Ok (Some h2, match fst x with Some y => [y] | None => [] end)))
        end)
  | HPop => Ok (Some (Helper (Pump (tl (p_in (s_pump h))) (p_out (s_pump h))) (s_retry h)), [])
  end.
Fixpoint hop_run (w : N) (size : nat) (os : list (hop * dec)) (h : helper) : res (option helper * list (N * list N)) :=
  match os with
  | [] => Ok (Some h, [])
  | (o, d) :: r =>
      bind (hop_step w size d o h) (fun x =>
        match fst x with
        | None => Ok x
        | Some h1 => bind (hop_run w size r h1) (fun y => Ok (fst y, snd x ++ snd y))
        end)
  end.

(** test/posix/request-con/main.cpp 27-49: the calls of the encoder (complete() does nothing
    here) *)
Definition request_con (debug : bool) : res (list bool * nbenc) :=
  bind (hdr_set_tkl 3 (hdr_set_mid 291 (hdr_set_code 1 (hdr_new CON)))) (fun h =>
    nbe_run [NHeader h; NToken [1; 2; 3]; NOption 11 (str "batt-level")] (nbe_init debug nb_size)).
