(** What goes over the wire, counted by message, and what was asked for. *)
From Verif Require Import Base UIntModel HeaderModel OptEncModel OptSpec DecoderModel RetryModel RetrySpec RetryMemModel.
Local Open Scope N_scope.

(** the netbufs made in a history, in order *)
Fixpoint made (os : list mop) : list netmsg :=
  match os with
  | [] => []
  | ONew m :: r => m :: made r
  | _ :: r => made r
  end.
(** the addresses an application names for a netbuf *)
Definition named (o : nat) (op : mop) : list N :=
  match op with
  | OSend i a | OTrack i a _ _ => if Nat.eqb i o then [a] else []
  | _ => []
  end.
Definition destinations (o : nat) (os : list mop) : list N := flat_map (named o) os.

(** the order in which a vector is gone through: all positions once *)
Definition whole_vector (s : mem) (vs : list nat) : Prop := NoDup vs /\ forall k, In k vs <-> (k < length (m_retry s))%nat.
(** nothing is sent or destroyed *)
Definition quiet (op : mop) : Prop := match op with OWire | ODrop _ => False | _ => True end.

(** the datagrams given to the helper *)
Fixpoint asked (os : list (hop * dec)) : list (N * list N) :=
  match os with
  | [] => []
  | (HEnqueue a dg, _) :: r => (a, dg) :: asked r
  | _ :: r => asked r
  end.

(** the netbufs sent, in order *)
Definition wired (ws : list (nat * N * netmsg)) : list nat := map (fun x => fst (fst x)) ws.

(** a datagram from which a header and a token can be taken *)
Definition readable (b : list N) : Prop :=
  exists h tok rest, b = hdr_bytes h ++ tok ++ rest /\ bytes_ok tok /\ h0 h mod 16 = len tok /\ (length tok <= 8)%nat.
(** ... and from which not *)
Definition unreadable (b : list N) : Prop :=
  (length b < 4)%nat \/ exists h rest, b = hdr_bytes h ++ rest /\ (8 < h0 h mod 16 \/ len rest < h0 h mod 16).

(** the retry queue as C25-C30 see it: each item with the message its netbuf was made with *)
Definition view (s : mem) : queue := map (fun it => Item (x_obj it) (x_count it) (x_init it) (x_addr it) (m_msg s (x_obj it)) (x_due it)) (m_retry s).
(** what is to be sent, and where to *)
Definition queued (s : mem) : list (nat * N) := map (fun e => (fst (fst e), snd e)) (m_pump s).
