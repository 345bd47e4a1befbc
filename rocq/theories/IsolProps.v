(** C79: what a receiver is told of a datagram does not depend on what the decoder object held before. *)
From Verif Require Import Base HeaderModel OptEncModel OptDecModel DecoderModel SbDecModel OptSpec OptDecSpec DecoderSpec DecoderProofs DecoderProps IsolSpec IsolProofs.
Local Open Scope N_scope.

(** C79: whatever two decoder objects hold between messages (other header bytes, other token bytes, other
    half-read options, other option numbers), any sequence of decode_and_notify calls shows the same events,
    cursors and flags, and faults at the same call, as long as the one left-over fact agrees. *)
Theorem C79_calls : forall calls d e, idle d -> idle e -> k_st d = k_st e -> payload_left d = payload_left e ->
  seen calls d = seen calls e.
Proof.
  intros calls d e (Sd & Md) (Se & Me) E P. apply seen_same. unfold dec_same, dec_live, pay_same.
  repeat split; auto; try apply Md; try apply Me. destruct Sd as [-> | ->]; exact P.
Qed.
Print Assumptions C79_calls.

(** C79: the loop over one datagram of any bytes: unless the datagram has exactly four bytes, even that
    fact is of no consequence. *)
Theorem C79_datagram : forall fuel m d e, idle d -> idle e -> length m <> 4%nat \/ payload_left d = payload_left e ->
  outcome (dec_run (extra d + fuel) m d 0) = outcome (dec_run (extra e + fuel) m e 0).
Proof. exact datagram_same. Qed.
Print Assumptions C79_datagram.

(** the result of a whole datagram, with the fuel of [dec_session] *)
Lemma whole_run : forall m d e, whole m -> idle d -> idle e ->
  (dec_run (dec_fuel m) m d 0 = Fault /\ dec_run (dec_fuel m) m e 0 = Fault) \/
  exists es d1 e1, dec_run (dec_fuel m) m d 0 = Ok (es, d1, length m) /\ idle d1 /\
                   dec_run (dec_fuel m) m e 0 = Ok (es, e1, length m).
Proof.
  intros m d e (B & T & L & N4) Hd He. destruct m as [|b0 bs]; [cbn in L; lia|]. cbn [nth length] in *.
  assert (L' : (3 + N.to_nat (b0 mod 16) <= length bs)%nat) by (clear - L; lia).
  assert (Td := C16_total_bytes d b0 bs (dec_fuel (b0 :: bs)) Hd B T L' (le_n _)).
  assert (Te := C16_total_bytes e b0 bs (dec_fuel (b0 :: bs)) He B T L' (le_n _)).
  assert (K := datagram_same (dec_fuel (b0 :: bs)) (b0 :: bs) d e Hd He (or_introl N4)).
  assert (X : forall x, idle x -> (dec_run (dec_fuel (b0 :: bs)) (b0 :: bs) x 0 = Fault \/
      exists es d1, dec_run (dec_fuel (b0 :: bs)) (b0 :: bs) x 0 = Ok (es, d1, S (length bs)) /\ idle d1) ->
    dec_run (extra x + dec_fuel (b0 :: bs)) (b0 :: bs) x 0 = dec_run (dec_fuel (b0 :: bs)) (b0 :: bs) x 0).
  { intros x _ H. unfold extra. destruct (rstate_eqb (k_st x) RDone); [|reflexivity]. apply run_more.
    destruct H as [-> | (es & d1 & -> & _)]; discriminate. }
  rewrite (X d Hd Td), (X e He Te) in K.
  destruct Td as [Ed | (es & d1 & Ed & I1)], Te as [Ee | (fs & e1 & Ee & I2)]; rewrite Ed, Ee in K |- *; cbn in K; try discriminate; [left; auto|].
  right. injection K as ->. exists fs, d1, e1. auto.
Qed.

(** C79: one object for any number of datagrams, well formed or not: what is told of each is what any other
    idle object, a new one for instance, tells of that datagram alone; the session ends early exactly at a
    datagram that by itself makes the decoder fault. *)
Theorem C79_session : forall ms d e, Forall whole ms -> idle d -> idle e ->
  match dec_session ms d with
  | Ok (ess, _) => Forall2 (fun m es => exists e1, dec_run (dec_fuel m) m e 0 = Ok (es, e1, length m)) ms ess
  | Fault => Exists (fun m => dec_run (dec_fuel m) m e 0 = Fault) ms
  | NoFuel => False
  end.
Proof.
  induction ms as [|m ms IH]; intros d e H Hd He; [constructor|]. inversion H as [|? ? W Ws]; subst. cbn [dec_session].
  destruct (whole_run m d e W Hd He) as [(-> & F)|(es & d1 & e1 & -> & I1 & O)]; cbn [bind]; [left; exact F|].
  specialize (IH d1 e Ws I1 He). destruct (dec_session ms d1) as [[ess d2]| |]; cbn [bind fst snd]; auto.
  constructor; [exists e1; exact O|exact IH].
Qed.
Print Assumptions C79_session.

(** C79: the same for the decoder of a stream, for any calls (each may change the stream in any way before
    it) and for the loop over one datagram. *)
Theorem C79_stream_calls : forall sg neg eat calls d e s, idle d -> idle e -> k_st d = k_st e -> payload_left d = payload_left e ->
  stream_seen sg neg eat calls d s = stream_seen sg neg eat calls e s.
Proof.
  intros sg neg eat calls d e s (Sd & Md) (Se & Me) E P. apply stream_seen_same. unfold dec_same, dec_live, pay_same.
  repeat split; auto; try apply Md; try apply Me. destruct Sd as [-> | ->]; exact P.
Qed.
Print Assumptions C79_stream_calls.

Theorem C79_stream : forall fuel sg neg eat d e s, idle d -> idle e -> k_st d = k_st e -> payload_left d = payload_left e ->
  stream_outcome (sbd_run fuel sg neg eat d s) = stream_outcome (sbd_run fuel sg neg eat e s).
Proof.
  intros fuel sg neg eat d e s (Sd & Md) (Se & Me) E P. apply stream_run_same. unfold dec_same, dec_live, pay_same.
  repeat split; auto; try apply Md; try apply Me. destruct Sd as [-> | ->]; exact P.
Qed.
Print Assumptions C79_stream.

(** C79, the part that is false: for a datagram of four bytes and no token the left-over fact always shows. *)
Theorem C79_header_refuted : forall h d e fuel, hdr_ok h -> h0 h mod 16 = 0 -> idle d -> idle e -> (20 <= fuel)%nat ->
  payload_left d <> payload_left e -> outcome (dec_run fuel (hdr_bytes h) d 0) <> outcome (dec_run fuel (hdr_bytes h) e 0).
Proof.
  intros h d e fuel Hh Ht Hd He Hf N.
  destruct (C15_header_only d h fuel Hd Hh Ht Hf) as (d1 & -> & _). destruct (C15_header_only e h fuel He Hh Ht Hf) as (e1 & -> & _).
  unfold payload_left in N. destruct (ostate_eqb (d_st (k_od d)) OPayload), (ostate_eqb (d_st (k_od e)) OPayload);
    cbn; congruence.
Qed.
Print Assumptions C79_header_refuted.

(** two objects with nothing in common, and datagrams that end in the middle of an option, hold a reserved
    nibble, and are well formed; and a session of three *)
Definition isol_a : dec := Dec RDone (Hdr 68 69 1 2) 4 [1; 2; 3; 4; 5; 6; 7; 8] 4 (ODec OptionDone 222 9 200 7 3) (Holder 6000 300).
Definition isol_b : dec := Dec RDone (Hdr 255 255 255 255) 200 [255; 255; 255; 255; 255; 255; 255; 255] 99 (ODec OptionLength 238 255 255 255 77) (Holder 1 2).
Example C79_case :
  idle isol_a /\ idle isol_b /\ payload_left isol_a = payload_left isol_b /\
  Forall whole [[66; 1; 0; 7; 9; 9; 177; 97; 255; 5]; [64; 1; 0; 8; 222; 1]; [65; 1; 0; 1; 7]] /\
  (exists es d1, dec_session [[66; 1; 0; 7; 9; 9; 177; 97; 255; 5]; [64; 1; 0; 8; 222; 1]; [65; 1; 0; 1; 7]] isol_a = Ok (es, d1) /\
                 map (@length event) es = [7; 6; 5]%nat) /\
  dec_session [[66; 1; 0; 7; 9; 9; 177; 97; 255; 5]; [64; 1; 0; 8; 240; 1]] isol_b = Fault.
Proof.
  split; [|split; [|split; [reflexivity|split; [|split]]]].
  - split; [right; reflexivity|]. unfold dec_mem, od_bytes, bytes_ok, byte_ok. cbn. repeat split; repeat (apply Forall_cons || apply Forall_nil); lia.
  - split; [right; reflexivity|]. unfold dec_mem, od_bytes, bytes_ok, byte_ok. cbn. repeat split; repeat (apply Forall_cons || apply Forall_nil); lia.
  - assert (W : forall m, forallb (fun b => b <? 256) m = true -> nth 0 m 0 mod 16 <=? 8 = true ->
      (4 + N.to_nat (nth 0 m 0 mod 16)%N <=? length m)%nat = true -> length m <> 4%nat -> whole m).
    { intros m A B C D. split; [|split; [apply N.leb_le; exact B|split; [apply Nat.leb_le; exact C|exact D]]].
      unfold bytes_ok. apply Forall_forall. intros x X. apply N.ltb_lt. exact (proj1 (forallb_forall _ _) A x X). }
    repeat (apply Forall_cons || apply Forall_nil); apply W; try reflexivity; discriminate.
  - do 2 eexists. split; [vm_compute; reflexivity|reflexivity].
  - vm_compute. reflexivity.
Qed.

(** a datagram in three segments, a byte 0xFF in the token, the last option cut *)
Example C79_stream_case :
  k_st isol_a = k_st isol_b /\
  (exists es s, stream_outcome (sbd_run 100 true false true isol_a (SBuf [66; 1; 0] [[7; 9; 255]; [8; 178; 97]])) = Ok (es, s) /\ length es = 6%nat) /\
  stream_outcome (sbd_run 100 true false true isol_b (SBuf [66; 1; 0] [[7; 9; 255]; [8; 178; 97]])) =
  stream_outcome (sbd_run 100 true false true isol_a (SBuf [66; 1; 0] [[7; 9; 255]; [8; 178; 97]])).
Proof. split; [reflexivity|]. split; [do 2 eexists; split; [vm_compute; reflexivity|reflexivity]|vm_compute; reflexivity]. Qed.
