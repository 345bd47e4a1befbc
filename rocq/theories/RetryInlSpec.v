(** Who holds the memory of a message, how often it is sent, and the ways of using the queue. *)
From Verif Require Import Base HeaderModel DecoderModel RetryModel RetrySpec RetryMemModel RetryInlModel.
Local Open Scope N_scope.

(** the messages made in a history, in order *)
Fixpoint i_made (os : list iop) : list netmsg :=
  match os with
  | [] => []
  | INew m :: r => m :: i_made r
  | _ :: r => i_made r
  end.

(** how many netbufs would free chunk [c] if they were destroyed: the application's, those in the
    pump and those in the retry queue *)
Definition holds_chunk (c : nat) (b : nb) : nat := if b_own b && Nat.eqb (b_chunk b) c then 1%nat else 0%nat.
Definition holders (s : ist) (c : nat) : nat :=
  ((match g_app s c with Some true => 1 | _ => 0 end)
   + list_sum (map (fun e => holds_chunk c (fst e)) (g_pump s))
   + list_sum (map (fun f => holds_chunk c (j_nb f)) (g_retry s)))%nat.

Definition con_msg (m : netmsg) : bool := hdr_type (n_hdr m) =? CON.
(** the transmissions of chunk [c] *)
Definition sent_of (c : nat) (ws : list (nat * N * netmsg)) : list (nat * N * netmsg) := filter (fun x => Nat.eqb (fst (fst x)) c) ws.

(** the order in which a vector is gone through: all positions once *)
Definition whole (s : ist) (vs : list nat) : Prop := NoDup vs /\ forall k, In k vs <-> (k < length (g_retry s))%nat.

(** ** The way of RetryObserver: it is told of everything sent, nobody else touches the queue *)
Definition observed (o : iop) : Prop :=
  match o with
  | ITrack _ _ _ _ | IBack _ _ _ | IWire TNone | IWire (TConSent _) => False
  | _ => True
  end.
Definition is_ack (o : iop) : bool := match o with IAck _ _ _ => true | _ => false end.
(** how many confirmable messages the application sent, were transmitted, are in the pump;
    [msg] gives the message of a chunk *)
Definition con_sends (msg : nat -> netmsg) (os : list iop) : nat :=
  length (filter (fun o => match o with ISend i _ => con_msg (msg i) | _ => false end) os).
Definition con_wires (ws : list (nat * N * netmsg)) : nat := length (filter (fun x => con_msg (snd x)) ws).
Definition con_pump (msg : nat -> netmsg) (q : list (nb * N)) : nat := length (filter (fun e => con_msg (msg (b_chunk (fst e)))) q).

(** ** The way that works: the observer is told of the first transmission of a message,
    con_sent_experimental of the others; the application sends each netbuf once; no item is
    serviced while its message is still in the pump; and no two confirmable messages have message
    id and token in common *)
Definition alike (m m' : netmsg) : Prop := hdr_mid (n_hdr m) = hdr_mid (n_hdr m') /\ n_tok m = n_tok m'.
Definition careful (ack : bool) (s : ist) (ws : list (nat * N * netmsg)) (o : iop) : Prop :=
  match o with
  | INew m => forall c, (c < g_next s)%nat -> con_msg (g_msg s c) = true -> con_msg m = true -> ~ alike (g_msg s c) m
  | IDrop _ => True
  | IService now k => forall f, nth_error (g_retry s) k = Some f -> j_due f <= now -> forall e, In e (g_pump s) -> b_chunk (fst e) <> b_chunk (j_nb f)
  | ISend o _ => g_app s o = Some true
  | ITrack _ _ _ _ | IBack _ _ _ => False
  | IWire t =>
      forall b a q, g_pump s = (b, a) :: q ->
        match t with
        | TNone => False
        | TObserver _ _ => sent_of (b_chunk b) ws = []
        | TConSent vs => sent_of (b_chunk b) ws <> [] /\ whole s vs
        end
  | IAck _ _ vs => ack = true /\ whole s vs
  end.
(** the states so reached, with what was transmitted; [ack]: acknowledgements may arrive *)
Inductive kept (w : N) (size : nat) (same : N -> N -> bool) (ack : bool) : ist -> list (nat * N * netmsg) -> Prop :=
| kept_none : kept w size same ack ist0 []
| kept_more : forall s ws o s1 l, kept w size same ack s ws -> careful ack s ws o -> i_step w size same o s = Ok (s1, l) -> kept w size same ack s1 (ws ++ l).

(** there is something to destroy, and room for what an operation adds *)
Definition room (size : nat) (s : ist) (o : iop) : Prop :=
  match o with
  | IDrop o => g_app s o <> None
  | ISend _ _ | IService _ _ => (length (g_pump s) < size)%nat
  | IWire (TObserver _ _) => (length (g_retry s) < 10)%nat
  | _ => True
  end.

(** the retry queue as C25-C30 see it *)
Definition i_view (s : ist) : queue :=
  map (fun f => Item (b_chunk (j_nb f)) (j_count f) (j_init f) (j_addr f) (g_msg s (b_chunk (j_nb f))) (j_due f)) (g_retry s).
