(** Model of src/coap/context.h (header and token context), of the observers that
    fill it (src/coap/decoder/observer/util.h) and of build_reply
    (src/coap/encoder/factory.h). *)
From Verif Require Import Base HeaderModel OptEncModel StreambufModel OptDecModel DecoderModel.
Local Open Scope N_scope.

(** src/coap/context.h 44-71, 108-126, 218-232: TokenAndHeaderContext<true, false>;
    the token is an 8 byte array (src/coap/token.h, layer1::Token). *)
Record ctx : Type := Ctx { c_hdr : hdr; c_buf : list N; c_present : bool }.

(** src/coap/context.h 56-58, 113-118: the constructors; [junk] is what the token
    array happens to hold. *)
Definition ctx_new (junk : list N) : ctx := Ctx (Hdr 0 0 0 0) junk false.

(** src/coap/context.h 123 *)
Definition ctx_set_header (h : hdr) (c : ctx) : ctx := Ctx h (c_buf c) (c_present c).

(** src/coap/context.h 61-66 and 228-231: std::copy without a check, so more than
    eight bytes go outside the array. *)
Definition ctx_set_token (t : list N) (c : ctx) : res ctx :=
  if (length t <=? 8)%nat then Ok (Ctx (c_hdr c) (t ++ skipn (length t) (c_buf c)) true) else Fault.

(** src/coap/context.h 125 *)
Definition ctx_have_header (c : ctx) : bool := 0 <? hdr_version (c_hdr c).

(** src/coap/context.h 222-226: a view of token_length() bytes of the array; more
    than eight lie outside. *)
Definition ctx_token (c : ctx) : res (list N) :=
  let n := hdr_tkl (c_hdr c) in
  if n <=? 8 then Ok (firstn (N.to_nat n) (c_buf c)) else Fault.

(** src/coap/decoder/observer/util.h 55-71: TokenContextObserver and
    HeaderContextObserver; other events are not observed. *)
Definition ctx_notify (e : event) (c : ctx) : res ctx :=
  match e with
  | EHeader h => Ok (ctx_set_header h c)
  | EToken t => ctx_set_token t c
  | _ => Ok c
  end.

(** The observers get the events one after the other (src/coap/decoder/observer/util.h 55-71). *)
Fixpoint ctx_observe (es : list event) (c : ctx) : res ctx :=
  match es with
  | [] => Ok c
  | e :: r => bind (ctx_notify e c) (ctx_observe r)
  end.

(** src/coap/encoder/factory.h 21-34 *)
Definition build_reply (c : ctx) (code : N) (b : sbenc) : res sbenc :=
  let header := c_hdr c in
  bind (ctx_token c) (fun token =>
    let header := hdr_set_type ACK (hdr_set_code code header) in
    Ok (sb_token token (sb_header header b))).
