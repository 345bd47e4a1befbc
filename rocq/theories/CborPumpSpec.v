(** Which datagrams the CBOR server replies to (C87). *)
From Verif Require Import Base HeaderModel HeaderSpec OptSpec OptDecSpec RespSpec DecoderSpec NetAnySpec PumpModel PumpAnySpec CborRespModel CborAnySpec CborPumpModel.
Local Open Scope N_scope.

(** [r] is the reply to the datagram [c], if it is in the first bytes of the memory [chunk]: its
    options can be read and its payload, if there is one, can be printed *)
Definition told (chunk c r : list N) : Prop :=
  exists h tok rest, parts c h tok rest /\ answerable h /\ ~ unreadable (4 + length tok) rest /\
    (forall at_, snd (parse 0 (4 + length tok) rest) = EndMarker at_ ->
       exists out, printed false (length (skipn at_ c)) (skipn at_ c ++ skipn (length c) chunk) (Ok out)) /\
    r = answer_head 67 h tok.

(** anything may arrive, and fresh memory may hold anything *)
Definition cbor_open {A} (e : event A * cworld) : Prop :=
  hdr_ok (w_hdr (q_world (snd e))) /\ idle (w_dec (q_world (snd e))) /\ bytes_ok (q_chunk (snd e)) /\ length (q_chunk (snd e)) = 4096%nat /\ length (q_buf (snd e)) = 4%nat /\
  match v_poll (fst e) with PData _ dg => bytes_ok dg | _ => True end.
