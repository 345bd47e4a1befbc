(** Model of test/template/simple-cbor-responder.hpp, the server of
    test/posix/cbor/main.cpp.  [mem] is the memory from the first byte of the payload to the
    end of the buffer it is in; the payload is its first [len] bytes. *)
From Coq Require Import ZArith.
From Verif Require Import Base UIntModel HeaderModel AppModel StreambufModel NetbufModel DecoderModel ContextModel NetDecModel RespModel CborModel.
Local Open Scope N_scope.

(** simple-cbor-responder.hpp 87, 63, 68, 52, 81: what is printed *)
Inductive cout : Type := RType (t : N) | RText (s : list N) | RSkip (n : N) | RNest | RNumber (z : Z).

(** src/cbor/decoder.h 231-241: integer<uint16_t> of a byte or text string (the only use,
    simple-cbor-responder.hpp 57) *)
Definition c_uint16 (d : cdec) : res N :=
  if c_tiny d then Ok (c_raw d)
  else
    let n := N.to_nat (c_addlen d) in
    if (n <=? BUF_LEN)%nat then Ok (uint_get 16 (firstn n (c_buf d))) else Fault.

(** simple-cbor-responder.hpp 47-89, after a call of process_iterate; fast_forward() is
    src/cbor/decoder.h 245-249.  Printing a string that is not all in memory is a fault. *)
Definition cr_seen (mem : list N) (d : cdec) (pos : nat) : res (list cout * cdec * nat) :=
  match c_state d with
  | CLongStart =>
      if c_container d then Ok ([RNest], c_set d CHeaderStart, pos)
      else
        bind (c_uint16 d) (fun n =>
          bind (if c_type d =? M_STRING
                then if (pos + N.to_nat n <=? length mem)%nat then Ok [RText (firstn (N.to_nat n) (skipn pos mem))] else Fault
                else Ok []) (fun o =>
            Ok (o ++ [RSkip n], c_set d CHeaderStart, (pos + N.to_nat n)%nat)))
  | CItemDone => bind (c_integer 16 d) (fun z => Ok ([RNumber z], d, pos))
  | CHeaderDone => Ok ([RType (c_type d)], d, pos)
  | _ => Ok ([], d, pos)
  end.

(** simple-cbor-responder.hpp 39-90: the loop; len of the code is [len] - [pos].  The byte at
    data is read for every call (41), also where process_iterate does not use it. *)
Fixpoint cr_loop (fuel : nat) (mem : list N) (len : nat) (d : cdec) (pos : nat) : res (list cout) :=
  match fuel with
  | O => NoFuel
  | S f =>
      if (pos <? len)%nat || ((pos =? len)%nat && negb (is_item_done d)) then
        match nth_error mem pos with
        | None => Fault
        | Some b =>
            bind (c_iterate d b) (fun r =>
              bind (cr_seen mem (fst r) (if snd r then S pos else pos)) (fun x =>
                let '(o, d1, pos1) := x in
                bind (cr_loop f mem len d1 pos1) (fun l => Ok (o ++ l))))
        end
      else Ok []
  end.

(** Not in the code: turns that always suffice (C63_ends) *)
Definition cr_fuel (len : nat) : nat := (8 * len + 20)%nat.

(** simple-cbor-responder.hpp 33-90; the decoder object is new, its members but the state
    are what was in memory *)
Definition cr_print (mem : list N) (len : nat) (buf : list N) (hd p : N) : res (list cout) :=
  cr_loop (cr_fuel len) mem len (c_init buf hd p) 0.

(** src/coap/decoder/netbuf.h 359-377, has_payload_experimental *)
Definition nd_has_payload (c : list N) (last : bool) (x : ndec) : res (bool * ndec) :=
  bind (if rstate_eqb (nd_state x) OptionsDone then nd_iter c last x else Ok x) (fun y =>
    Ok (rstate_eqb (nd_state y) RPayload, y)).

(** simple-cbor-responder.hpp 10-104; [behind]: what follows the datagram in its buffer.
    Simplification: has_payload_experimental is compiled out (#ifdef UNUSED) and
    payload_experimental is not defined anywhere, so the file does not compile; the first is
    taken as written there and the second is taken to be payload().  Result: what is printed
    and the reply. *)
Definition cbor_server (debug : bool) (cap fuel : nat) (jh : hdr) (junk c behind : list N) (d : dec) (buf : list N) (hd p : N)
  : res (list cout * list N) :=
  bind (rs_begin junk c d) (fun a =>
    bind (it_new c true (snd a)) (fun y =>
      bind (it_skip fuel c true y) (fun x =>
        bind (nd_has_payload c true x) (fun h =>
          let pl := nd_payload c (snd h) in
          bind (if fst h then cr_print (pl ++ behind) (length pl) buf hd p else Ok []) (fun o =>
            bind (rs_head debug cap jh (fst a) code_valid) (fun b => Ok (o, s_out (n_sink b)))))))).
