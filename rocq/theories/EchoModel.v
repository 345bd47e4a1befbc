(** Model of test/rtos/esp32/echo/main/udp-coap.cpp: a server that drives
    StreambufDecoder by hand and acknowledges every datagram. *)
From Verif Require Import Base HeaderModel StreambufModel OptDecModel DecoderModel SbDecModel AppModel.
Local Open Scope N_scope.

(** [n] calls of process_iterate_streambuf (src/coap/decoder/streambuf.hpp 8-213), the
    result not looked at: udp-coap.cpp 49-51, 60-64, 70 *)
Fixpoint sbd_steps (n : nat) (sg neg : bool) (d : dec) (s : sbuf) : res (dec * sbuf) :=
  match n with
  | O => Ok (d, s)
  | S k => bind (sbd_step sg neg d s) (fun x => sbd_steps k sg neg (fst (fst x)) (snd (fst x)))
  end.

(** udp-coap.cpp 24-90.  The header is copied after the second call (53), the token is read in
    place (67, 81); a token length above 8 reads past the token buffer.  The
    output starts with a pbuf of 32 bytes, more than is ever written.  Logging is left
    out, [d] is the memory of the new decoder. *)
Definition echo (sg neg : bool) (d : dec) (L : list (list N)) : res (list N) :=
  bind (sbd_steps 2 sg neg d (SBuf [] L)) (fun x =>
    let h := k_h (fst x) in
    bind (sbd_steps 4 sg neg (fst x) (snd x)) (fun y =>
      if 8 <? hdr_tkl h then Fault
      else
        let r := hdr_set_code code_valid (hdr_set_type ACK h) in
        Ok (s_out (sb_sink (sb_token (firstn (N.to_nat (hdr_tkl r)) (k_tok (fst y))) (sb_header r (sb_init 32))))))).
