(** What one decoder object lets its callers see, and of what it may depend (C79). *)
From Verif Require Import Base HeaderModel OptEncModel OptDecModel DecoderModel SbDecModel.
Local Open Scope N_scope.

(** everything the callers of decode_and_notify can see: for each call the events, the cursor
    and the returned flag, up to the first fault; the calls go on over any number of messages *)
Fixpoint seen (calls : list (list N * bool * nat)) (d : dec) : list (res (list event * nat * bool)) :=
  match calls with
  | [] => []
  | (chunk, last, pos) :: r =>
      match dec_notify chunk last d pos with
      | Ok (es, d1, p, fin) => Ok (es, p, fin) :: seen r d1
      | Fault => [Fault]
      | NoFuel => [NoFuel]
      end
  end.

(** the same for the decoder of a stream: every call gets some stream (normally the one the call before
    left) and leaves one *)
Fixpoint stream_seen (sg neg eat : bool) (calls : list (sbuf -> sbuf)) (d : dec) (s : sbuf) : list (res (list event * sbuf * bool)) :=
  match calls with
  | [] => []
  | f :: r =>
      match sbd_notify sg neg eat d (f s) with
      | Ok (es, d1, s1, fin) => Ok (es, s1, fin) :: stream_seen sg neg eat r d1 s1
      | Fault => [Fault]
      | NoFuel => [NoFuel]
      end
  end.
Definition stream_outcome (r : res (list event * dec * sbuf)) : res (list event * sbuf) :=
  match r with Ok (es, _, s) => Ok (es, s) | Fault => Fault | NoFuel => NoFuel end.

(** the one thing of the past that shows: whether the storage of the option decoder
    still says that a payload marker was read *)
Definition payload_left (d : dec) : bool := ostate_eqb (d_st (k_od d)) OPayload.

(** what the caller's loop over one datagram gives, without the decoder object *)
Definition outcome (r : res (list event * dec * nat)) : res (list event * nat) :=
  match r with Ok (es, _, p) => Ok (es, p) | Fault => Fault | NoFuel => NoFuel end.

(** the extra turn of the loop for an object that has completed a message *)
Definition extra (d : dec) : nat := if rstate_eqb (k_st d) RDone then 1%nat else 0%nat.

(** a datagram that has its header and its token, and not just a header *)
Definition whole (m : list N) : Prop :=
  let tkl := nth 0 m 0 mod 16 in
  bytes_ok m /\ tkl <= 8 /\ (4 + N.to_nat tkl <= length m)%nat /\ length m <> 4%nat.
