(** Model of src/coap/encoder/streambuf.h (StreambufEncoder) on a bounded output
    streambuf. *)
From Verif Require Import Base UIntModel HeaderModel OptEncModel.
Local Open Scope N_scope.

(** The output streambuf (estd, external): [s_room] bytes left, [s_out] bytes
    written so far. *)
Record sink : Type := Sink { s_room : nat; s_out : list N }.

(** sputc: fails iff the buffer is full. *)
Definition sputc (b : N) (s : sink) : option sink :=
  match s_room s with
  | O => None
  | S r => Some (Sink r (s_out s ++ [b]))
  end.

(** sputn: writes as many bytes as fit and returns how many. *)
Definition sputn (bs : list N) (s : sink) : nat * sink :=
  let n := Nat.min (length bs) (s_room s) in
  (n, Sink (s_room s - n) (s_out s ++ firstn n bs)).

(** src/coap/encoder/streambuf.h 116-117: option encoder and streambuf. *)
Record sbenc : Type := SB { sb_enc : oenc; sb_sink : sink }.

(** src/coap/encoder/streambuf.h 116-117 and the constructor. *)
Definition sb_init (cap : nat) : sbenc := SB oenc_init (Sink cap []).

(** src/coap/encoder/streambuf.h 226-238: the do/while loop of [option]. *)
Fixpoint sb_option_loop (fuel : nat) (o : obase) (e : oenc) (s : sink) : res (bool * sbenc) :=
  match fuel with
  | O => NoFuel
  | S f =>
      bind (generate_iterate o e) (fun r =>
        let e1 := snd r in
        let continue s1 :=
          if ostate_eqb (e_st e1) OptionLengthDone then Ok (true, SB e1 s1)
          else sb_option_loop f o e1 s1 in
        match fst r with
        | None => continue s
        | Some b =>
            match sputc b s with
            | None => Ok (false, SB e1 s)
            | Some s1 => continue s1
            end
        end)
  end.

(** src/coap/encoder/streambuf.h 215-241 [option(number, length)].  The fuel is
    what the loop can need at most (proved: NoFuel does not occur). *)
Definition sb_option (number length : N) (b : sbenc) : res (bool * sbenc) :=
  let o := OBase (number mod 65536) (length mod 65536) [] in
  sb_option_loop (s_room (sb_sink b) + 8) o (oenc_next (sb_enc b)) (sb_sink b).

(** src/coap/encoder/streambuf.h 244-277: the array overload; the result of
    sputn is ignored. *)
Definition sb_option_array (number : N) (v : list N) (b : sbenc) : res (bool * sbenc) :=
  bind (sb_option number (N.of_nat (length v)) b) (fun r =>
    if fst r then Ok (true, SB (sb_enc (snd r)) (snd (sputn v (sb_sink (snd r)))))
    else Ok (false, snd r)).

(** src/coap/encoder/streambuf.h 279-287: the C string overload; the result of
    the header call is ignored. *)
Definition sb_option_str (number : N) (v : list N) (b : sbenc) : res (bool * sbenc) :=
  bind (sb_option number (N.of_nat (length v)) b) (fun r =>
    let '(n, s) := sputn v (sb_sink (snd r)) in
    Ok (Nat.eqb n (length v), SB (sb_enc (snd r)) s)).

(** src/coap/encoder/streambuf.h 202-209 for a non-negative value: UInt<4>. *)
Definition sb_option_int (number value : N) (b : sbenc) : res (bool * sbenc) :=
  bind (layer2_set 4 value) (fun v => sb_option_array number v b).

(** src/coap/encoder/streambuf.h 100-103; the result is not used by its callers *)
Definition sb_write (bs : list N) (b : sbenc) : sbenc :=
  SB (sb_enc b) (snd (sputn bs (sb_sink b))).
(** src/coap/encoder/streambuf.h 166-172; _assert and state do nothing (73-83). *)
Definition sb_header (h : hdr) (b : sbenc) : sbenc := sb_write (hdr_bytes h) b.
(** src/coap/encoder/streambuf.h 176-190 *)
Definition sb_token (t : list N) (b : sbenc) : sbenc := sb_write t b.

(** src/coap/encoder/streambuf.h 292-295 and 106-112 *)
Definition sb_payload (b : sbenc) : bool * sbenc :=
  match sputc 255 (sb_sink b) with
  | Some s => (true, SB (sb_enc b) s)
  | None => (false, b)
  end.

(** A user's call on the encoder; [CRaw] is payload written through rdbuf(). *)
Inductive sbcall : Type :=
| CHeader (h : hdr)
| CToken (t : list N)
| COpt (number length : N)
| COptArray (number : N) (v : list N)
| COptStr (number : N) (v : list N)
| COptInt (number value : N)
| CPayload
| CRaw (bs : list N).

(** One call; void calls and raw writes return [true] here. *)
Definition sb_call (c : sbcall) (b : sbenc) : res (bool * sbenc) :=
  match c with
  | CHeader h => Ok (true, sb_header h b)
  | CToken t => Ok (true, sb_token t b)
  | COpt n l => sb_option n l b
  | COptArray n v => sb_option_array n v b
  | COptStr n v => sb_option_str n v b
  | COptInt n v => sb_option_int n v b
  | CPayload => Ok (sb_payload b)
  | CRaw bs => Ok (true, sb_write bs b)
  end.

(** A sequence of calls made whatever the results are (as the examples in /repo
    do); the results are collected. *)
Fixpoint sb_run (cs : list sbcall) (b : sbenc) : res (list bool * sbenc) :=
  match cs with
  | [] => Ok ([], b)
  | c :: r =>
      bind (sb_call c b) (fun x =>
        bind (sb_run r (snd x)) (fun y => Ok (fst x :: fst y, snd y)))
  end.
