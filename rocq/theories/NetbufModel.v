(** Model of NetBufEncoder: src/coap/encoder.h and src/coap/encoder.hpp. *)
From Verif Require Import Base UIntModel HeaderModel OptEncModel StreambufModel.
Local Open Scope N_scope.

(** src/coap-encoder.h 222-240: the consistency state kept in DEBUG builds, as far
    as the encoder sets or tests it (src/coap/decoder.h, internal::root_state). *)
Inductive rstate : Type := RHeader | RHeaderDone | RToken | RTokenDone | ROptions | ROptionsDone | RPayload.
(** Comparison of states (src/coap-encoder.h 231-238). *)
Definition rstate_eqb (a b : rstate) : bool :=
  match a, b with
  | RHeader, RHeader | RHeaderDone, RHeaderDone | RToken, RToken | RTokenDone, RTokenDone
  | ROptions, ROptions | ROptionsDone, ROptionsDone | RPayload, RPayload => true
  | _, _ => false
  end.

(** src/coap/encoder.h 25-33, 85, 167: the option encoder, the netbuf (external;
    the room left in its current chunk, and all the bytes written), the DEBUG
    state, whether the payload marker was written (kept separately only in non-DEBUG
    builds) and m_written ([None]: not set yet).  [n_debug] tells the build. *)
Record nbenc : Type := NBE {
  n_debug : bool;
  n_enc : oenc;
  n_sink : sink;
  n_state : rstate;
  n_marker : bool;
  n_written : option nat
}.

(** src/coap/encoder.h 171-190, the constructors; the marker flag starts false. *)
Definition nbe_init (debug : bool) (cap : nat) : nbenc := NBE debug oenc_init (Sink cap []) RHeader false None.

(** No code: assignment to option_encoder and to the netbuf (src/coap/encoder.h 25-33). *)
Definition n_set_enc (e : oenc) (s : sink) (b : nbenc) : nbenc := NBE (n_debug b) e s (n_state b) (n_marker b) (n_written b).
(** No code: the netbuf alone. *)
Definition n_set_sink (s : sink) (b : nbenc) : nbenc := n_set_enc (n_enc b) s b.
(** src/coap-encoder.h 228 / 243 *)
Definition n_set_state (st : rstate) (b : nbenc) : nbenc :=
  NBE (n_debug b) (n_enc b) (n_sink b) (if n_debug b then st else n_state b) (n_marker b) (n_written b).
(** src/coap/encoder.h 169 *)
Definition n_set_written (w : nat) (b : nbenc) : nbenc :=
  NBE (n_debug b) (n_enc b) (n_sink b) (n_state b) (n_marker b) (Some w).
(** src/coap/encoder.h 97-102 *)
Definition n_set_marker (m : bool) (b : nbenc) : nbenc :=
  NBE (n_debug b) (n_enc b) (n_sink b) (n_state b) m (n_written b).

(** src/coap-encoder.h 231-238 / 244-245 *)
Definition assert_state (st : rstate) (b : nbenc) : res unit :=
  if negb (n_debug b) || rstate_eqb (n_state b) st then Ok tt else Fault.
(** src/coap-encoder.h 231-238 / 244-245: assert_not_state. *)
Definition assert_not_state (st : rstate) (b : nbenc) : res unit :=
  if negb (n_debug b) || negb (rstate_eqb (n_state b) st) then Ok tt else Fault.

(** The caller hands the netbuf another chunk (netbuf().next(), external). *)
Definition nbe_more (cap : nat) (b : nbenc) : nbenc := n_set_sink (Sink cap (s_out (n_sink b))) b.

(** src/coap/encoder.hpp 43-52: the loop; [pos] is not kept, the sink counts. *)
Fixpoint nbe_loop (fuel : nat) (isDone : ostate) (o : obase) (e : oenc) (s : sink) : res (oenc * sink) :=
  match fuel with
  | O => NoFuel
  | S f =>
      if negb (ostate_eqb (e_st e) isDone) && negb (s_room s =? 0)%nat then
        bind (generate_iterate o e) (fun r =>
          match fst r with
          | None => nbe_loop f isDone o (snd r) s
          | Some b =>
              match sputc b s with
              | Some s1 => nbe_loop f isDone o (snd r) s1
              | None => Fault
              end
          end)
      else Ok (e, s)
  end.

(** src/coap/encoder.hpp 26 *)
Definition head_done (value_length : N) : ostate := if 0 <? value_length then OptionValue else OptionValueDone.

(** src/coap/encoder.hpp 5-67, option_header.  [fuel] bounds the loop. *)
Definition nbe_option_header_fuel (fuel : nat) (number value_length : N) (b : nbenc) : res (bool * nbenc) :=
  bind (assert_not_state RHeader b) (fun _ =>
  bind (assert_not_state RToken b) (fun _ =>
  bind (assert_not_state RPayload b) (fun _ =>
  let o := OBase (number mod 65536) (value_length mod 65536) [] in
  let isDone := head_done (value_length mod 65536) in
  let e := match e_st (n_enc b) with FirstByte | OptionDone => oenc_next (n_enc b) | _ => n_enc b end in
  bind (nbe_loop fuel isDone o e (n_sink b)) (fun r =>
  let b1 := n_set_state ROptions (n_set_enc (fst r) (snd r) b) in
  if ostate_eqb (e_st (fst r)) isDone then Ok (true, b1)
  else Ok (false, n_set_written (s_room (n_sink b) - s_room (snd r)) b1))))).

(** Not in the code: turns of the loop of option_header that suffice for every new option. *)
Definition nbe_fuel (b : nbenc) : nat := (s_room (n_sink b) + 10)%nat.
(** src/coap/encoder.hpp 5-67 *)
Definition nbe_option_header (number value_length : N) (b : nbenc) : res (bool * nbenc) :=
  nbe_option_header_fuel (nbe_fuel b) number value_length b.

(** src/coap/encoder.h 272-275 *)
Definition nbe_option_none (number : N) (b : nbenc) : res (bool * nbenc) := nbe_option_header number 0 b.

(** src/coap/encoder.h 65-80, option_value; NetBufWriter::write (external) stores
    as many bytes as fit and returns how many. *)
Definition nbe_option_value (v : list N) (last_chunk : bool) (b : nbenc) : res (bool * nbenc) :=
  let '(n, s) := sputn v (n_sink b) in
  let b1 := n_set_sink s b in
  if (n =? length v)%nat then
    if last_chunk then bind (oenc_fast_forward (n_enc b1)) (fun e => Ok (true, n_set_enc e s b1))
    else Ok (true, b1)
  else Ok (false, n_set_written n b1).

(** src/coap/encoder.hpp 70-80 and 82-94, both option overloads with a value; with
    [fuel] for the loop in option_header *)
Definition nbe_option_fuel (fuel : nat) (number : N) (v : list N) (last_chunk : bool) (b : nbenc) : res (bool * nbenc) :=
  bind (nbe_option_header_fuel fuel number (N.of_nat (length v)) b) (fun r =>
    if fst r then nbe_option_value v last_chunk (snd r) else Ok (false, snd r)).
(** src/coap/encoder.hpp 70-94 *)
Definition nbe_option (number : N) (v : list N) (last_chunk : bool) (b : nbenc) : res (bool * nbenc) :=
  nbe_option_fuel (nbe_fuel b) number v last_chunk b.

(** src/coap/encoder.h 259-266 for a non-negative value: UInt<4> *)
Definition nbe_option_int (number value : N) (b : nbenc) : res (bool * nbenc) :=
  bind (layer2_set 4 value) (fun v => nbe_option number v true b).

(** src/coap/encoder.h 193-209 *)
Definition nbe_header (h : hdr) (b : nbenc) : res (bool * nbenc) :=
  bind (assert_state RHeader b) (fun _ =>
    if (4 <=? s_room (n_sink b))%nat then
      Ok (true, n_set_state RHeaderDone (n_set_sink (snd (sputn (hdr_bytes h) (n_sink b))) b))
    else Ok (false, n_set_written 0 b)).

(** src/coap/encoder.h 211-237 *)
Definition nbe_token (t : list N) (b : nbenc) : res (bool * nbenc) :=
  bind (assert_state RHeaderDone b) (fun _ =>
    let '(n, s) := sputn t (n_sink b) in
    Ok ((n =? length t)%nat, n_set_written n (n_set_state RTokenDone (n_set_sink s b)))).

(** src/coap/encoder.h 88-102 *)
Definition nbe_marker_written (b : nbenc) : bool := if n_debug b then rstate_eqb (n_state b) RPayload else n_marker b.

(** src/coap/encoder.h 106-129 *)
Definition nbe_payload_header (b : nbenc) : res (bool * nbenc) :=
  bind (assert_not_state RHeader b) (fun _ =>
  bind (assert_not_state RToken b) (fun _ =>
  bind (assert_not_state RPayload b) (fun _ =>
  bind (assert_state ROptionsDone b) (fun _ =>
    if nbe_marker_written b then Ok (true, n_set_state RPayload b)
    else match sputc 255 (n_sink b) with
         | None => Ok (false, n_set_written 0 b)
         | Some s => Ok (true, n_set_state RPayload (n_set_marker (if n_debug b then n_marker b else true) (n_set_sink s b)))
         end)))).

(** src/coap/encoder.hpp 96-105 *)
Definition nbe_payload (p : list N) (b : nbenc) : res (bool * nbenc) :=
  bind (nbe_payload_header b) (fun r =>
    if fst r then
      let '(n, s) := sputn p (n_sink (snd r)) in Ok ((n =? length p)%nat, n_set_sink s (snd r))
    else Ok (false, snd r)).

(** src/coap/encoder.h 287-296, header_and_token: the result of header() is
    ignored; [ctx] and [tok] are what the context holds, [junk] is the
    uninitialised header in create_response. *)
Definition nbe_header_and_token (junk ctx : hdr) (tok : list N) (code : N) (b : nbenc) : res (bool * nbenc) :=
  bind (create_response junk ctx code) (fun h => bind (nbe_header h b) (fun r => nbe_token tok (snd r))).

(** The calls of a user. *)
Inductive nbcall : Type :=
| NHeader (h : hdr)
| NToken (t : list N)
| NOption (number : N) (v : list N)
| NOptionNone (number : N)
| NOptionInt (number value : N)
| NPayload (p : list N)
| NMore (cap : nat).

(** One call, by its function above. *)
Definition nbe_call (c : nbcall) (b : nbenc) : res (bool * nbenc) :=
  match c with
  | NHeader h => nbe_header h b
  | NToken t => nbe_token t b
  | NOption n v => nbe_option n v true b
  | NOptionNone n => nbe_option_none n b
  | NOptionInt n v => nbe_option_int n v b
  | NPayload p => nbe_payload p b
  | NMore c => Ok (true, nbe_more c b)
  end.

(** A sequence of calls made whatever the results are. *)
Fixpoint nbe_run (cs : list nbcall) (b : nbenc) : res (list bool * nbenc) :=
  match cs with
  | [] => Ok ([], b)
  | c :: r =>
      bind (nbe_call c b) (fun x =>
        bind (nbe_run r (snd x)) (fun y => Ok (fst x :: fst y, snd y)))
  end.
