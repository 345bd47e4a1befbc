(** Model of src/coap/header.h. *)
From Verif Require Import Base.
Local Open Scope N_scope.

(** src/coap/header.h 142-147: the four bytes of the union. *)
Record hdr : Type := Hdr { h0 : N; h1 : N; h2 : N; h3 : N }.

(** src/coap/header.h 142-147: [bytes], the header as it is sent. *)
Definition hdr_bytes (h : hdr) : list N := [h0 h; h1 h; h2 h; h3 h].
(** No code: each of the four is a uint8_t (src/coap/header.h 142-147). *)
Definition hdr_ok (h : hdr) : Prop := bytes_ok (hdr_bytes h).

(** src/coap/header.h 10-15: COAP_HEADER_FIXED_* masks. *)
Definition TYPE_MASK : N := 48.
(** src/coap/header.h 10-15: COAP_HEADER_FIXED_TKL_MASK. *)
Definition TKL_MASK : N := 15.

(** src/coap/header.h 177-183: TypeEnum. *)
Definition CON : N := 0.
(** src/coap/header.h 177-183: NonConfirmable. *)
Definition NON : N := 1.
(** src/coap/header.h 177-183: Acknowledgement. *)
Definition ACK : N := 2.
(** src/coap/header.h 177-183: Reset. *)
Definition RST : N := 3.

(** src/coap/header.h 170-173 *)
Definition hdr_code (h : hdr) : N := h1 h.

(** src/coap/header.h 185-196 *)
Definition hdr_type (h : hdr) : N := N.shiftr (N.land (h0 h) TYPE_MASK) 4.

(** src/coap/header.h 207-214; [~mask] on a byte is [255 - mask]. *)
Definition hdr_set_type (t : N) (h : hdr) : hdr :=
  Hdr (N.lor (N.land (h0 h) (255 - TYPE_MASK)) ((N.shiftl t 4) mod 256)) (h1 h) (h2 h) (h3 h).

(** src/coap/header.h 223-228 *)
Definition hdr_is_request (h : hdr) : bool := N.shiftr (hdr_code h) 5 =? 0.
(** src/coap/header.h 228 *)
Definition hdr_is_response (h : hdr) : bool := negb (hdr_is_request h).

(** src/coap/header.h 29 and 122-125: COAP_RESPONSE_CODE, Code::get_class, Code::detail. *)
Definition response_code_of (cls detail : N) : N := N.lor (N.shiftl cls 5) detail.
(** src/coap/header.h 123 *)
Definition code_class (c : N) : N := N.shiftr c 5.
(** src/coap/header.h 125 *)
Definition code_detail (c : N) : N := N.land c 31.

(** src/coap/header.h 248-251 *)
Definition hdr_set_code (c : N) (h : hdr) : hdr := Hdr (h0 h) c (h2 h) (h3 h).

(** src/coap/header.h 256-260 *)
Definition hdr_copy_message_id (from h : hdr) : hdr := Hdr (h0 h) (h1 h) (h2 from) (h3 from).

(** src/coap/header.h 39-43, [hton]: output[0] = input >> 8 is truncated to a byte. *)
Definition hton (v : N) : N * N := ((N.shiftr v 8) mod 256, N.land v 255).

(** src/coap/header.h 46-52, [nto_uint16]. *)
Definition nto_uint16 (a b : N) : N := N.lor ((N.shiftl a 8) mod 65536) b.

(** src/coap/header.h 271-278 *)
Definition hdr_set_mid (m : N) (h : hdr) : hdr :=
  Hdr (h0 h) (h1 h) (fst (hton m)) (snd (hton m)).

(** src/coap/header.h 280-288 *)
Definition hdr_mid (h : hdr) : N := nto_uint16 (h2 h) (h3 h).

(** src/coap/header.h 290-296: ASSERT(true, tkl <= 8). *)
Definition hdr_set_tkl (tkl : N) (h : hdr) : res hdr :=
  if tkl <=? 8
  then Ok (Hdr (N.lor (N.land (h0 h) (255 - TKL_MASK)) tkl) (h1 h) (h2 h) (h3 h))
  else Fault.

(** src/coap/header.h 299-306 (ASSERT_WARN only). *)
Definition hdr_tkl (h : hdr) : N := N.land (h0 h) TKL_MASK.

(** src/coap/header.h 309-313 *)
Definition hdr_version (h : hdr) : N := N.shiftr (h0 h) 6.

(** src/coap/header.h 199-203 [mask_or] and 322-336: the constructors. *)
Definition hdr_new (t : N) : hdr :=
  Hdr (N.lor (N.lor 0 (N.shiftl 1 6)) ((N.shiftl t 4) mod 256)) 0 0 0.
(** src/coap/header.h 199-203, 322-336: the constructor that takes a code. *)
Definition hdr_new_code (t c : N) : hdr :=
  Hdr (N.lor (N.lor 0 (N.shiftl 1 6)) ((N.shiftl t 4) mod 256)) c 0 0.

(** src/coap/header.h 345-377.  [out] is the previous content of *output. *)
Definition process_request (input out : hdr) : res hdr :=
  let out := hdr_copy_message_id input out in
  let out := Hdr (h0 input) (h1 out) (h2 out) (h3 out) in
  if hdr_type input =? CON then Ok (hdr_set_type ACK out)
  else if hdr_type input =? NON then Ok out
  else Fault.

(** src/coap/header.h 381-390; [junk] is the uninitialised local. *)
Definition create_response (junk incoming : hdr) (code : N) : res hdr :=
  bind (process_request incoming junk) (fun o => Ok (hdr_set_code code o)).

(** src/coap/header.h 393-426; returns the flag and the final *output. *)
Definition process_response (input out : hdr) : bool * hdr :=
  if hdr_type input =? CON then
    let out := Hdr (h0 input) (h1 out) (h2 out) (h3 out) in
    let out := hdr_copy_message_id input out in
    (true, hdr_set_type ACK out)
  else (false, out).

(** src/mc/experimental.cpp 13-18; [out] is the previous content of *output. *)
Definition process_reset (input out : hdr) : hdr := hdr_set_type RST (hdr_copy_message_id input out).

(** A sequence of setter calls on one header. *)
Inductive hop : Type :=
| HType (t : N)
| HCode (c : N)
| HMid (m : N)
| HTkl (n : N).

(** One setter call: src/coap/header.h 207-214, 248-251, 271-278, 290-296. *)
Definition hop_step (o : hop) (h : hdr) : res hdr :=
  match o with
  | HType t => Ok (hdr_set_type t h)
  | HCode c => Ok (hdr_set_code c h)
  | HMid m => Ok (hdr_set_mid m h)
  | HTkl n => hdr_set_tkl n h
  end.

(** Setter calls in a row (no code of its own; stops at a failed assertion). *)
Fixpoint hop_run (ops : list hop) (h : hdr) : res hdr :=
  match ops with
  | [] => Ok h
  | o :: r => bind (hop_step o h) (hop_run r)
  end.
