(** Model of src/coap/encoder/streambuf.h (StreambufEncoder) over a network buffer: the operators
    and manipulators, finalize, and the datagram that src/coap/platform/lwip/context.h sends. *)
From Verif Require Import Base UIntModel HeaderModel OptEncModel StreambufModel.
Local Open Scope N_scope.

(** out_netbuf_streambuf (embr, external): the memory of the network buffer so far, how much of
    it has been written, and the chunks of fresh memory further expansions will add; an expansion
    fails when there are no more.  The chunks are not told apart once they are there. *)
Record nsb : Type := NSB { ns_mem : list N; ns_pos : nat; ns_new : list (list N) }.

(** sputc of out_netbuf_streambuf (external, called at src/coap/encoder/streambuf.h 106-112):
    stores at the write position, expanding when at the end *)
Fixpoint nb_put (new : list (list N)) (mem : list N) (pos : nat) (b : N) : option nsb :=
  if (pos <? length mem)%nat then Some (NSB (firstn pos mem ++ b :: skipn (S pos) mem) (S pos) new)
  else match new with
       | [] => None
       | c :: r => nb_put r (mem ++ c) pos b
       end.
(** the same, on a stream buffer *)
Definition nb_sputc (b : N) (s : nsb) : option nsb := nb_put (ns_new s) (ns_mem s) (ns_pos s) b.

(** sputn (external, called at src/coap/encoder/streambuf.h 100-103): as many bytes as go in, and
    how many *)
Fixpoint nb_sputn (bs : list N) (s : nsb) : nat * nsb :=
  match bs with
  | [] => (0%nat, s)
  | b :: r =>
      match nb_sputc b s with
      | None => (0%nat, s)
      | Some s1 => let '(n, s2) := nb_sputn r s1 in (S n, s2)
      end
  end.

(** src/coap/encoder/streambuf.h 116-117 *)
Record nbenc : Type := NE { ne_enc : oenc; ne_sb : nsb }.
(** src/coap/encoder/streambuf.h 139-149, the constructors; src/coap/platform/lwip/encoder.h 13-21
    makes it with 256 bytes, test/rtos/esp32/echo/main/udp-coap.cpp 45 with 32 *)
Definition nb_init (mem : list N) (new : list (list N)) : nbenc := NE oenc_init (NSB mem 0 new).

(** src/coap/encoder/streambuf.h 226-238, the loop of option *)
Fixpoint nb_option_loop (fuel : nat) (o : obase) (e : oenc) (s : nsb) : res (bool * nbenc) :=
  match fuel with
  | O => NoFuel
  | S f =>
      bind (generate_iterate o e) (fun r =>
        let e1 := snd r in
        let continue s1 :=
          if ostate_eqb (e_st e1) OptionLengthDone then Ok (true, NE e1 s1)
          else nb_option_loop f o e1 s1 in
        match fst r with
        | None => continue s
        | Some b => match nb_sputc b s with None => Ok (false, NE e1 s) | Some s1 => continue s1 end
        end)
  end.
(** src/coap/encoder/streambuf.h 215-241; the fuel is enough (C76_finalized) *)
Definition nb_option (number length : N) (b : nbenc) : res (bool * nbenc) :=
  let o := OBase (number mod 65536) (length mod 65536) [] in
  nb_option_loop (List.length (ns_mem (ne_sb b)) - ns_pos (ne_sb b) + List.length (concat (ns_new (ne_sb b))) + 8) o (oenc_next (ne_enc b)) (ne_sb b).
(** src/coap/encoder/streambuf.h 244-277 *)
Definition nb_option_array (number : N) (v : list N) (b : nbenc) : res (bool * nbenc) :=
  bind (nb_option number (N.of_nat (length v)) b) (fun r =>
    if fst r then Ok (true, NE (ne_enc (snd r)) (snd (nb_sputn v (ne_sb (snd r))))) else Ok (false, snd r)).
(** src/coap/encoder/streambuf.h 279-287 *)
Definition nb_option_str (number : N) (v : list N) (b : nbenc) : res (bool * nbenc) :=
  bind (nb_option number (N.of_nat (length v)) b) (fun r =>
    let '(n, s) := nb_sputn v (ne_sb (snd r)) in Ok (Nat.eqb n (length v), NE (ne_enc (snd r)) s)).
(** src/coap/encoder/streambuf.h 202-209 *)
Definition nb_option_int (number value : N) (b : nbenc) : res (bool * nbenc) :=
  bind (layer2_set 4 value) (fun v => nb_option_array number v b).
(** src/coap/encoder/streambuf.h 100-103 *)
Definition nb_write (bs : list N) (b : nbenc) : nbenc := NE (ne_enc b) (snd (nb_sputn bs (ne_sb b))).
(** src/coap/encoder/streambuf.h 292-295 *)
Definition nb_payload (b : nbenc) : bool * nbenc :=
  match nb_sputc 255 (ne_sb b) with Some s => (true, NE (ne_enc b) s) | None => (false, b) end.

(** the calls of StreambufModel.sbcall, src/coap/encoder/streambuf.h 166-295 *)
Definition nb_call (c : sbcall) (b : nbenc) : res (bool * nbenc) :=
  match c with
  | CHeader h => Ok (true, nb_write (hdr_bytes h) b)
  | CToken t => Ok (true, nb_write t b)
  | COpt n l => nb_option n l b
  | COptArray n v => nb_option_array n v b
  | COptStr n v => nb_option_str n v b
  | COptInt n v => nb_option_int n v b
  | CPayload => Ok (nb_payload b)
  | CRaw bs => Ok (true, nb_write bs b)
  end.
(** a sequence of calls with their results *)
Fixpoint nb_run (cs : list sbcall) (b : nbenc) : res (list bool * nbenc) :=
  match cs with
  | [] => Ok ([], b)
  | c :: r => bind (nb_call c b) (fun x => bind (nb_run r (snd x)) (fun y => Ok (fst x :: fst y, snd y)))
  end.

(** What stands right of an operator, src/coap/encoder/streambuf.h 315-387: a header, token(raw),
    option(number, sz), payload; put(b) goes to the stream of ostream() (165), which writes to
    the same buffer (used with them in test/unit-tests/coap-encoder-test.cpp 339-368). *)
Inductive manip : Type :=
| MHeader (h : hdr)
| MToken (t : list N)
| MOption (number : N) (sz : N)
| MPayload
| MPut (b : N).

(** src/coap/encoder/streambuf.h 307-310 (payload), 315-321 (header), 362-376 (option, token),
    379-385 (payload): the call is made, its result is dropped and the encoder returned; sz is a
    uint16_t (329) *)
Definition shift (m : manip) (b : nbenc) : res nbenc :=
  match m with
  | MHeader h => Ok (nb_write (hdr_bytes h) b)
  | MToken t => Ok (nb_write t b)
  | MOption n sz => bind (nb_option n (sz mod 65536) b) (fun r => Ok (snd r))
  | MPayload => Ok (snd (nb_payload b))
  | MPut c => Ok (nb_write [c] b)
  end.
(** a chain of operators *)
Fixpoint shifts (ms : list manip) (b : nbenc) : res nbenc :=
  match ms with
  | [] => Ok b
  | m :: r => bind (shift m b) (shifts r)
  end.

(** src/coap/encoder/streambuf.h 26-31: finalize for any other stream buffer *)
Definition sb_finalize (b : nbenc) : nbenc := b.
(** src/coap/encoder/streambuf.h 34-46 and 302-305: the network buffer is cut where writing
    stopped *)
Definition nb_finalize (b : nbenc) : nbenc :=
  NE (ne_enc b) (NSB (firstn (ns_pos (ne_sb b)) (ns_mem (ne_sb b))) (ns_pos (ne_sb b)) (ns_new (ne_sb b))).
(** udp_sendto of the network buffer (external; src/coap/platform/lwip/context.h 76-84): all of it *)
Definition nb_sendto (b : nbenc) : list N := ns_mem (ne_sb b).
(** src/coap/platform/lwip/context.h 119-130 *)
Definition nb_reply (b : nbenc) : list N := nb_sendto (nb_finalize b).
