(** Model of src/coap/decoder/netbuf.h: DecoderWithContext, NetBufDecoder and
    option_iterator, over one chunk. *)
From Verif Require Import Base UIntModel HeaderModel OptEncModel OptDecModel DecoderModel.
Local Open Scope N_scope.

(** netbuf.h 31-58 and 247-343 (their beginnings): the decoder and the position in its context.  The chunk
    and the last-chunk flag of the context are constant and passed beside it.  The code
    never moves to another chunk of the netbuf. *)
Record ndec : Type := ND { n_dec : dec; n_pos : nat }.

(** coap/decoder/simple.h 24, state() *)
Definition nd_state (x : ndec) : rstate := k_st (n_dec x).

(** netbuf.h 149-153, process_iterate() *)
Definition nd_iter (c : list N) (last : bool) (x : ndec) : res ndec :=
  bind (dec_iterate c last (n_dec x) (n_pos x)) (fun y => Ok (ND (fst (fst y)) (snd (fst y)))).

(** netbuf.h 61-79, process_iterate(assert_start_state, errmsg) *)
Definition nd_from (c : list N) (last : bool) (s : rstate) (x : ndec) : res ndec :=
  if rstate_eqb s (nd_state x) then nd_iter c last x else Fault.

(** netbuf.h 90-113, process_until_experimental: not reaching the state in time is an
    ASSERT_ERROR *)
Fixpoint nd_until (c : list N) (last : bool) (s : rstate) (attempts : nat) (x : ndec) : res ndec :=
  match attempts with
  | O => Fault
  | S k => if rstate_eqb (nd_state x) s then Ok x else bind (nd_iter c last x) (nd_until c last s k)
  end.

(** netbuf.h 157-177, header() *)
Definition nd_header (c : list N) (last : bool) (x : ndec) : res (hdr * ndec) :=
  bind (nd_until c last HeaderDone 10 x) (fun x1 =>
    bind (nd_iter c last x1) (fun x2 =>
      if rstate_eqb (nd_state x2) TokenDone
      then bind (nd_iter c last x2) (fun x3 => Ok (k_h (n_dec x1), x3))
      else Ok (k_h (n_dec x1), x2))).

(** netbuf.h 118-145, preprocess_token *)
Definition nd_tkl (c : list N) (last : bool) (x : ndec) : res (N * ndec) :=
  match nd_state x with
  | TokenDone | OptionsStart => Ok (0, x)
  | _ =>
      bind (nd_from c last TokenStart x) (fun x1 =>
        bind (nd_until c last TokenDone 10 x1) (fun x2 =>
          bind (nd_iter c last x2) (fun x3 => Ok (dec_tkl (n_dec x), x3))))
  end.

(** netbuf.h 182-196 and 207-221, token(): the first bytes of the token buffer *)
Definition nd_token (c : list N) (last : bool) (x : ndec) : res (list N * ndec) :=
  bind (nd_tkl c last x) (fun y => Ok (firstn (N.to_nat (fst y)) (k_tok (n_dec (snd y))), snd y)).

(** netbuf.h 398-415, begin_option_experimental *)
Definition nd_begin (c : list N) (last : bool) (x : ndec) : res (bool * ndec) :=
  bind (nd_from c last OptionsStart x) (fun x1 =>
    if rstate_eqb (nd_state x1) OptionsDone
    then bind (nd_iter c last x1) (fun x2 => Ok (false, x2))
    else Ok (true, x1)).

(** netbuf.h 425-442, option_next *)
Definition nd_next (c : list N) (last : bool) (x : ndec) : res (bool * ndec) :=
  bind (nd_from c last ROptions x) (fun x1 =>
    bind (nd_iter c last x1) (fun x2 =>
      bind (if rstate_eqb (nd_state x2) OptionsDone then nd_iter c last x2 else Ok x2) (fun x3 =>
        Ok (rstate_eqb (nd_state x3) ROptions, x3)))).

(** netbuf.h 382-392, payload() *)
Definition nd_payload (c : list N) (x : ndec) : list N := remainder c (n_pos x).

(** netbuf.h 480-492, the constructors of option_iterator, with 466-477 and 263-276 *)
Definition it_new (c : list N) (last : bool) (x : ndec) : res ndec :=
  bind (nd_begin c last x) (fun y => if fst y then nd_iter c last (snd y) else Ok (snd y)).

(** netbuf.h 495-498, valid *)
Definition it_valid (x : ndec) : bool := rstate_eqb (nd_state x) ROptions.

(** netbuf.h 508-526, operator++ *)
Definition it_next (c : list N) (last : bool) (x : ndec) : res ndec :=
  bind (nd_next c last x) (fun y => if fst y then nd_iter c last (snd y) else Ok (snd y)).

(** netbuf.h 460-463, number *)
Definition it_number (x : ndec) : N := hd_num (k_hold (n_dec x)).

(** netbuf.h 542-545, opaque; string (583-593) is the same bytes *)
Definition it_opaque (c : list N) (x : ndec) : res (list N * bool) := dec_option c (n_dec x) (n_pos x).

(** netbuf.h 565-578, uint8 *)
Definition it_uint8 (c : list N) (x : ndec) : res N :=
  bind (it_opaque c x) (fun y => Ok (match fst y with [] => 0 | b :: _ => b end)).

(** netbuf.h 549-563, 580-581, uint<w bits>, uint16, uint32 *)
Definition it_uint (w : N) (c : list N) (x : ndec) : res N :=
  bind (it_opaque c x) (fun y => Ok (uint_get_t w (fst y))).

(** The loop of every caller: while(it.valid()) { number, value; ++it; }.  Reading number
    and value does not change the decoder. *)
Fixpoint it_loop (fuel : nat) (c : list N) (last : bool) (x : ndec) : res (list (N * list N) * ndec) :=
  match fuel with
  | O => NoFuel
  | S k =>
      if it_valid x then
        bind (it_opaque c x) (fun v =>
          bind (it_next c last x) (fun x1 =>
            bind (it_loop k c last x1) (fun y => Ok ((it_number x, fst v) :: fst y, snd y))))
      else Ok ([], x)
  end.

(** header(), token(), then the loop: test/unit-tests/netbuf-test.cpp 34-50,
    test/template/simple-ping-responder.hpp 30-62 *)
Definition nd_read (fuel : nat) (c : list N) (last : bool) (d : dec)
  : res (hdr * list N * list (N * list N) * ndec) :=
  bind (nd_header c last (ND d 0)) (fun a =>
    bind (nd_token c last (snd a)) (fun b =>
      bind (it_new c last (snd b)) (fun x =>
        bind (it_loop fuel c last x) (fun y => Ok (fst a, fst b, fst y, snd y))))).
