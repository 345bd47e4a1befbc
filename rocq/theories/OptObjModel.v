(** Model of OptionEncoder with the option it points to (src/coap-encoder.h 20-132) and of
    how the two message encoders set that pointer (src/coap/encoder.hpp 5-67,
    src/coap/encoder/streambuf.h 215-241). *)
From Verif Require Import Base UIntModel HeaderModel OptEncModel StreambufModel NetbufModel.
Local Open Scope N_scope.

(** The options that exist, by address.  No code: the storage of the OptionBase objects
    (src/coap_transmission.h 84-90). *)
Definition omem : Type := list (nat * obase).
(** No code: an OptionBase at [a], if there is one. *)
Fixpoint om_get (a : nat) (m : omem) : option obase :=
  match m with
  | [] => None
  | (b, o) :: r => if Nat.eqb a b then Some o else om_get a r
  end.
(** No code: its scope ends. *)
Definition om_del (a : nat) (m : omem) : omem := filter (fun x => negb (Nat.eqb a (fst x))) m.
(** No code: an OptionBase comes into being, or gets other contents. *)
Definition om_put (a : nat) (o : obase) (m : omem) : omem := (a, o) :: om_del a m.

(** src/coap-encoder.h 20-36: the state of OptEncModel and option_base.  [None] is NULL and
    also a pointer that was never set; to use either is undefined. *)
Record oobj : Type := OObj { x_enc : oenc; x_ptr : option nat }.

(** src/coap-encoder.h 41: option_base is not set *)
Definition x_init : oobj := OObj oenc_init None.
(** src/coap-encoder.h 43-47 *)
Definition x_init_with (a : nat) : oobj := OObj oenc_init (Some a).
(** src/coap-encoder.h 82-87 *)
Definition x_next0 (x : oobj) : oobj := OObj (oenc_next (x_enc x)) (x_ptr x).
(** src/coap-encoder.h 89-96 *)
Definition x_next (a : nat) (x : oobj) : oobj := OObj (x_enc (x_next0 x)) (Some a).
(** src/coap-encoder.h 101-104 *)
Definition x_resume (a : nat) (x : oobj) : oobj := OObj (x_enc x) (Some a).
(** src/coap-encoder.h 109-112 *)
Definition x_pause (x : oobj) : oobj := OObj (x_enc x) None.
(** src/coap-encoder.h 114-117; initialize() (src/coap-encoder.cpp 11-16) leaves option_base *)
Definition x_reset (x : oobj) : oobj := OObj oenc_init (x_ptr x).
(** src/coap-encoder.h 121-126 *)
Definition x_fast_forward (x : oobj) : res oobj := bind (oenc_fast_forward (x_enc x)) (fun e => Ok (OObj e (x_ptr x))).
(** src/coap-encoder.h 49-52 and src/coap-encoder.cpp 52: the option pointed to; none is a fault *)
Definition x_base (m : omem) (x : oobj) : res obase :=
  match x_ptr x with
  | Some a => match om_get a m with Some o => Ok o | None => Fault end
  | None => Fault
  end.
(** src/coap-encoder.cpp 50-170 *)
Definition x_iterate (m : omem) (x : oobj) : res (option N * oobj) :=
  bind (x_base m x) (fun o => bind (generate_iterate o (x_enc x)) (fun r => Ok (fst r, OObj (snd r) (x_ptr x)))).

(** What a user of an OptionEncoder does: its calls (src/coap-encoder.h 54-126), and
    options that come and go. *)
Inductive xcall : Type :=
| XIterate | XNext (a : nat) | XNext0 | XResume (a : nat) | XPause | XReset | XFastForward
| XHere (a : nat) (o : obase) | XGone (a : nat).
(** One of them, by its function above. *)
Definition x_step (c : xcall) (m : omem) (x : oobj) : res (option N * omem * oobj) :=
  match c with
  | XIterate => bind (x_iterate m x) (fun r => Ok (fst r, m, snd r))
  | XNext a => Ok (None, m, x_next a x)
  | XNext0 => Ok (None, m, x_next0 x)
  | XResume a => Ok (None, m, x_resume a x)
  | XPause => Ok (None, m, x_pause x)
  | XReset => Ok (None, m, x_reset x)
  | XFastForward => bind (x_fast_forward x) (fun x1 => Ok (None, m, x1))
  | XHere a o => Ok (None, om_put a o m, x)
  | XGone a => Ok (None, om_del a m, x)
  end.
(** Calls in a row (no code of its own); the bytes that came out. *)
Fixpoint x_run (cs : list xcall) (m : omem) (x : oobj) : res (list N * omem * oobj) :=
  match cs with
  | [] => Ok ([], m, x)
  | c :: r =>
      bind (x_step c m x) (fun s =>
        bind (x_run r (snd (fst s)) (snd s)) (fun t =>
          Ok ((match fst (fst s) with Some b => [b] | None => [] end) ++ fst (fst t), snd (fst t), snd t)))
  end.

(** src/coap/encoder.hpp 43-52, the loop, reading the option through the pointer *)
Fixpoint pn_loop (fuel : nat) (isDone : ostate) (m : omem) (x : oobj) (s : sink) : res (oobj * sink) :=
  match fuel with
  | O => NoFuel
  | S f =>
      if negb (ostate_eqb (e_st (x_enc x)) isDone) && negb (s_room s =? 0)%nat then
        bind (x_iterate m x) (fun r =>
          match fst r with
          | None => pn_loop f isDone m (snd r) s
          | Some b =>
              match sputc b s with
              | Some s1 => pn_loop f isDone m (snd r) s1
              | None => Fault
              end
          end)
      else Ok (x, s)
  end.

(** src/coap/encoder.hpp 5-67, option_header; [a] is where its local [ob] (15) is, [p] is
    option_base before and in the result after the call, when [ob] is gone.  The other
    members are those of NetbufModel. *)
Definition pn_option_header (fuel a : nat) (number value_length : N) (m : omem) (p : option nat) (b : nbenc) : res (bool * option nat * nbenc) :=
  bind (assert_not_state RHeader b) (fun _ =>
  bind (assert_not_state RToken b) (fun _ =>
  bind (assert_not_state RPayload b) (fun _ =>
  let m1 := om_put a (OBase (number mod 65536) (value_length mod 65536) []) m in
  let isDone := head_done (value_length mod 65536) in
  let x := match e_st (n_enc b) with
           | FirstByte | OptionDone => x_next a (OObj (n_enc b) p)
           | _ => x_resume a (OObj (n_enc b) p)
           end in
  bind (pn_loop fuel isDone m1 x (n_sink b)) (fun r =>
  let b1 := n_set_state ROptions (n_set_enc (x_enc (fst r)) (snd r) b) in
  if ostate_eqb (e_st (x_enc (fst r))) isDone then Ok (true, x_ptr (fst r), b1)
  else Ok (false, x_ptr (x_pause (fst r)), n_set_written (s_room (n_sink b) - s_room (snd r)) b1))))).

(** src/coap/encoder.hpp 70-94 with option_value, src/coap/encoder.h 65-80, whose
    fast_forward() does not look at the option *)
Definition pn_option (a : nat) (number : N) (v : list N) (m : omem) (p : option nat) (b : nbenc) : res (bool * option nat * nbenc) :=
  bind (pn_option_header (nbe_fuel b) a number (N.of_nat (length v)) m p b) (fun r =>
    if fst (fst r) then bind (nbe_option_value v true (snd r)) (fun q => Ok (fst q, snd (fst r), snd q))
    else Ok (false, snd (fst r), snd r)).

(** A call of the user (src/coap/encoder.h 193-296, src/coap/encoder.hpp): the ones that
    write an option, with the place of the local; the others do not touch the pointer. *)
Definition pn_call (a : nat) (c : nbcall) (m : omem) (p : option nat) (b : nbenc) : res (bool * option nat * nbenc) :=
  match c with
  | NOption n v => pn_option a n v m p b
  | NOptionNone n => pn_option_header (nbe_fuel b) a n 0 m p b
  | NOptionInt n v => bind (layer2_set 4 v) (fun bs => pn_option a n bs m p b)
  | _ => bind (nbe_call c b) (fun r => Ok (fst r, p, snd r))
  end.
(** Calls in a row (no code of its own), each with the place its local gets. *)
Fixpoint pn_run (cs : list (nat * nbcall)) (m : omem) (p : option nat) (b : nbenc) : res (list bool * option nat * nbenc) :=
  match cs with
  | [] => Ok ([], p, b)
  | (a, c) :: r =>
      bind (pn_call a c m p b) (fun x =>
        bind (pn_run r m (snd (fst x)) (snd x)) (fun y => Ok (fst (fst x) :: fst (fst y), snd (fst y), snd y)))
  end.

(** src/coap/encoder/streambuf.h 226-238, the loop, reading the option through the pointer *)
Fixpoint ps_loop (fuel : nat) (m : omem) (x : oobj) (s : sink) : res (bool * oobj * sink) :=
  match fuel with
  | O => NoFuel
  | S f =>
      bind (x_iterate m x) (fun r =>
        let x1 := snd r in
        let continue s1 :=
          if ostate_eqb (e_st (x_enc x1)) OptionLengthDone then Ok (true, x1, s1)
          else ps_loop f m x1 s1 in
        match fst r with
        | None => continue s
        | Some b =>
            match sputc b s with
            | None => Ok (false, x1, s)
            | Some s1 => continue s1
            end
        end)
  end.

(** src/coap/encoder/streambuf.h 215-241; [a] is where the local [option] (217) is *)
Definition ps_option (a : nat) (number length : N) (m : omem) (p : option nat) (b : sbenc) : res (bool * option nat * sbenc) :=
  let m1 := om_put a (OBase (number mod 65536) (length mod 65536) []) m in
  bind (ps_loop (s_room (sb_sink b) + 8) m1 (x_next a (OObj (sb_enc b) p)) (sb_sink b)) (fun r =>
    Ok (fst (fst r), x_ptr (snd (fst r)), SB (x_enc (snd (fst r))) (snd r))).

(** src/coap/encoder/streambuf.h 244-277 *)
Definition ps_option_array (a : nat) (number : N) (v : list N) (m : omem) (p : option nat) (b : sbenc) : res (bool * option nat * sbenc) :=
  bind (ps_option a number (N.of_nat (length v)) m p b) (fun r =>
    if fst (fst r) then Ok (true, snd (fst r), SB (sb_enc (snd r)) (snd (sputn v (sb_sink (snd r)))))
    else Ok (false, snd (fst r), snd r)).
(** src/coap/encoder/streambuf.h 279-287 *)
Definition ps_option_str (a : nat) (number : N) (v : list N) (m : omem) (p : option nat) (b : sbenc) : res (bool * option nat * sbenc) :=
  bind (ps_option a number (N.of_nat (length v)) m p b) (fun r =>
    let '(n, s) := sputn v (sb_sink (snd r)) in
    Ok (Nat.eqb n (length v), snd (fst r), SB (sb_enc (snd r)) s)).

(** A call of the user (src/coap/encoder/streambuf.h 166-295), as [pn_call] *)
Definition ps_call (a : nat) (c : sbcall) (m : omem) (p : option nat) (b : sbenc) : res (bool * option nat * sbenc) :=
  match c with
  | COpt n l => ps_option a n l m p b
  | COptArray n v => ps_option_array a n v m p b
  | COptStr n v => ps_option_str a n v m p b
  | COptInt n v => bind (layer2_set 4 v) (fun bs => ps_option_array a n bs m p b)
  | _ => bind (sb_call c b) (fun r => Ok (fst r, p, snd r))
  end.
(** Calls in a row (no code of its own). *)
Fixpoint ps_run (cs : list (nat * sbcall)) (m : omem) (p : option nat) (b : sbenc) : res (list bool * option nat * sbenc) :=
  match cs with
  | [] => Ok ([], p, b)
  | (a, c) :: r =>
      bind (ps_call a c m p b) (fun x =>
        bind (ps_run r m (snd (fst x)) (snd x)) (fun y => Ok (fst (fst x) :: fst (fst y), snd (fst y), snd y)))
  end.

(** src/coap/encoder/streambuf.h 128-137, option_generate_byte, for a class derived from the
    encoder: one turn on the option of the last call *)
Definition ps_generate_byte (m : omem) (p : option nat) (b : sbenc) : res (bool * sbenc) :=
  bind (x_iterate m (OObj (sb_enc b) p)) (fun r =>
    match fst r with
    | Some c => Ok (true, SB (x_enc (snd r)) (match sputc c (sb_sink b) with Some s => s | None => sb_sink b end))
    | None => Ok (false, SB (x_enc (snd r)) (sb_sink b))
    end).
