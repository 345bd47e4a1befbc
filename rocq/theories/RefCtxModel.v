(** Model of the context that keeps a pointer to the token instead of a copy
    (src/coap/context.h, TokenContext<false>), filled by the observers of
    src/coap/decoder/observer/util.h while decode_and_notify goes through a datagram. *)
From Verif Require Import Base HeaderModel OptEncModel StreambufModel OptDecModel DecoderModel.
Local Open Scope N_scope.

(** src/coap/context.h 75-104, 108-126, 235-249: TokenAndHeaderContext<false, false>.
    [r_set]: _token is not NULL; it then is token_decoder().data(), the only pointer it
    is ever given (src/coap/decoder/subject.hpp 43-52). *)
Record rctx : Type := RCtx { r_hdr : hdr; r_set : bool }.
(** src/coap/context.h 82-84, 113-118: the constructors *)
Definition rctx_new : rctx := RCtx (Hdr 0 0 0 0) false.

(** src/coap/decoder/observer/util.h 55-71 with src/coap/context.h 88-99 (without
    FEATURE_MCCOAP_IOSTREAM_NATIVE) and 123 *)
Definition rctx_notify (e : event) (c : rctx) : rctx :=
  match e with
  | EHeader h => RCtx h (r_set c)
  | EToken _ => RCtx (r_hdr c) true
  | _ => c
  end.

(** src/coap/decoder.h 132-136, the union seen from the other side than in
    DecoderModel.tok_alias: what the eight bytes of the token decoder's buffer read as
    after the option decoder {state (4 bytes), buffer[4], pos} was written.  No state has
    a number above 255 (src/coap/option.h), so the upper bytes of the state are zero.
    Simplification: the layout of tok_alias (little endian, no padding). *)
Definition od_over (o : odec) : list N := [0; 0; 0; d_b0 o; d_b1 o; d_b2 o; d_b3 o; d_pos o].

(** What the buffer reads as after one call of process_iterate (src/coap/decoder.cpp 38-209)
    that took the decoder from [d] at [pos] to [d1]: the token decoder has written its bytes
    (83-90), or the option decoder was made and run (98-125) or run (127-148). *)
Definition mem_after (chunk : list N) (last : bool) (d : dec) (pos : nat) (d1 : dec) (mem : list N) : list N :=
  match k_st d with
  | RToken => firstn (N.to_nat (k_tpos d1)) (k_tok d1) ++ skipn (N.to_nat (k_tpos d1)) mem
  | OptionsStart => if Nat.eqb (length (remainder chunk pos)) 0 && last then mem else od_over (k_od d1)
  | ROptions => od_over (k_od d1)
  | _ => mem
  end.

(** src/coap/context.h 240-243: a view of token_length() bytes from the pointer; reading
    through NULL or beyond the eight bytes is a fault *)
Definition rctx_token (mem : list N) (c : rctx) : res (list N) :=
  let n := hdr_tkl (r_hdr c) in
  if n =? 0 then Ok [] else if r_set c && (n <=? 8) then Ok (firstn (N.to_nat n) mem) else Fault.

(** src/coap/encoder/factory.h 21-34 with this context *)
Definition ref_build_reply (mem : list N) (c : rctx) (code : N) (b : sbenc) : res sbenc :=
  let header := r_hdr c in
  bind (rctx_token mem c) (fun token =>
    let header := hdr_set_type ACK (hdr_set_code code header) in
    Ok (sb_token token (sb_header header b))).

(** what an observer that comes after the two finds: the event, the context and the memory
    the token is read from *)
Definition sight : Type := event * rctx * list N.
(** the events of one call, one after the other (src/coap/decoder/subject.hpp 37-99) *)
Fixpoint sights (mem : list N) (es : list event) (c : rctx) : list sight * rctx :=
  match es with
  | [] => ([], c)
  | e :: r => let c1 := rctx_notify e c in let '(l, c2) := sights mem r c1 in ((e, c1, mem) :: l, c2)
  end.

(** The caller's loop (src/coap/platform/lwip/context.h 66-72), as DecoderModel.dec_run. *)
Fixpoint ref_run (fuel : nat) (chunk : list N) (d : dec) (pos : nat) (mem : list N) (c : rctx)
  : res (list sight * dec * nat) :=
  match fuel with
  | O => NoFuel
  | S k =>
      bind (dec_notify chunk true d pos) (fun x =>
        let '(es, d1, pos1, _) := x in
        let mem1 := mem_after chunk true d pos d1 mem in
        let '(l, c1) := sights mem1 es c in
        if rstate_eqb (k_st d1) RDone then Ok (l, d1, pos1)
        else bind (ref_run k chunk d1 pos1 mem1 c1) (fun y =>
               let '(l2, d2, pos2) := y in Ok (l ++ l2, d2, pos2)))
  end.
