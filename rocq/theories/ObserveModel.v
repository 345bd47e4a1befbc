(** Model of src/coap/observable.h and observable.hpp: ObservableRegistrar. *)
From Verif Require Import Base UIntModel HeaderModel OptEncModel StreambufModel NetbufModel ContextModel.
Local Open Scope N_scope.

(** src/coap/observable.h 16-40: ObservableSession; the resource key is never
    assigned nor read and is left out.  [A] is the address type. *)
Record session (A : Type) : Type := Session { os_seq : N; os_addr : A; os_tok : list N }.
Arguments Session {A}.
Arguments os_seq {A}.
Arguments os_addr {A}.
Arguments os_tok {A}.

(** src/coap/observable.h 156-166, do_register.  [cap] is the size of the vector
    (272-279, layer1::vector<..., N>); what push_back does when it is full is not
    in /repo and is a fault here. *)
Definition do_register {A} (cap : nat) (c : ctx) (a : A) (regs : list (session A)) : res (list (session A)) :=
  bind (ctx_token c) (fun t =>
    if (length regs <? cap)%nat then Ok (regs ++ [Session 0 a t]) else Fault).

(** src/coap/observable.h 170-174, do_deregister: empty *)
Definition do_deregister {A} (c : ctx) (a : A) (regs : list (session A)) : list (session A) := regs.

(** src/coap/observable.h 187-205, evaluate_observe_option; Valid is 2.03 (67),
    BadOption 4.02 (130), src/coap/header.h. *)
Definition evaluate_observe {A} (cap : nat) (c : ctx) (a : A) (code : N) (regs : list (session A))
  : res (N * list (session A)) :=
  match code with
  | 0 => bind (do_register cap c a regs) (fun r => Ok (response_code_of 2 3, r))
  | 1 => Ok (response_code_of 2 3, do_deregister c a regs)
  | _ => Ok (response_code_of 4 2, regs)
  end.

(** src/coap/encoder.h 259-266 with an int that came from a uint32_t: from 2^31 on
    it is negative and the loop of assess_bytes_used does not end
    (C01_negative_diverges). *)
Definition nbe_option_sint (number value : N) (b : nbenc) : res (bool * nbenc) :=
  if value <? 2 ^ 31 then nbe_option_int number value b else NoFuel.

(** src/coap/observable.hpp 39-73: one turn of the loop of for_each.  [mid] is the
    static int (increment from INT_MAX is undefined: a fault); results of header,
    token and option are ignored; [emit] stands for emit_observe_fn, any list of
    encoder calls that may depend on the session; [room] is the size of a new
    netbuf.  complete() is empty (src/coap/encoder.h 304-307).  Option::Observe is 6
    (src/coap/option.h), Code::Content 2.05. *)
Definition notify_one {A} (debug : bool) (room : nat) (emit : session A -> list nbcall) (mid : N) (s : session A)
  : res (N * session A * (A * list N)) :=
  let header := hdr_new_code NON (response_code_of 2 5) in
  let s1 := Session ((os_seq s + 1) mod 2 ^ 32) (os_addr s) (os_tok s) in
  if mid <? 2 ^ 31 - 1 then
    let header := hdr_set_mid (mid mod 65536) header in
    bind (hdr_set_tkl (N.of_nat (length (os_tok s1))) header) (fun header =>
    bind (nbe_header header (nbe_init debug room)) (fun r1 =>
    bind (nbe_token (os_tok s1) (snd r1)) (fun r2 =>
    bind (nbe_option_sint 6 (os_seq s1) (snd r2)) (fun r3 =>
    bind (nbe_run (emit s1) (snd r3)) (fun r4 =>
    Ok (mid + 1, s1, (os_addr s1, s_out (n_sink (snd r4)))))))))
  else Fault.

(** src/coap/observable.hpp 12-75, for_each: what is given to enqueue_out, in order *)
Fixpoint for_each {A} (debug : bool) (room : nat) (emit : session A -> list nbcall) (mid : N) (regs : list (session A))
  : res (N * list (session A) * list (A * list N)) :=
  match regs with
  | [] => Ok (mid, [], [])
  | s :: r =>
      bind (notify_one debug room emit mid s) (fun x =>
        let '(mid1, s1, out) := x in
        bind (for_each debug room emit mid1 r) (fun y =>
          let '(mid2, r2, outs) := y in Ok (mid2, s1 :: r2, out :: outs)))
  end.

(** An application with several subjects (one registrar each); the counter [mid] is
    static in the function, so shared. *)
Record obs (A : Type) : Type := Obs { ob_mid : N; ob_regs : nat -> list (session A) }.
Arguments Obs {A}.
Arguments ob_mid {A}.
Arguments ob_regs {A}.

(** src/coap/observable.hpp 45 *)
Definition obs_init {A} : obs A := Obs 0 (fun _ => []).

(** No code: the registrar of subject [i] has changed, the others have not. *)
Definition set_regs {A} (i : nat) (r : list (session A)) (f : nat -> list (session A)) : nat -> list (session A) :=
  fun j => if Nat.eqb j i then r else f j.

(** A request with an Observe option for subject [i], or a notification round of
    subject [i] (test/template/observable-raw-responder.hpp 65, 92-95). *)
Inductive oop (A : Type) : Type :=
| OObserve (i : nat) (c : ctx) (a : A) (code : N)
| ONotify (i : nat).
Arguments OObserve {A}.
Arguments ONotify {A}.

(** What goes out: the code for the reply to a request (observable.h 187-205), and datagrams (observable.hpp 70). *)
Inductive oout (A : Type) : Type :=
| OReply (code : N)
| OSend (a : A) (bytes : list N).
Arguments OReply {A}.
Arguments OSend {A}.

(** One request or round, by evaluate_observe (observable.h 187-205) or for_each (observable.hpp 12-75). *)
Definition obs_step {A} (debug : bool) (cap room : nat) (emit : session A -> list nbcall) (o : oop A) (st : obs A)
  : res (list (oout A) * obs A) :=
  match o with
  | OObserve i c a code =>
      bind (evaluate_observe cap c a code (ob_regs st i)) (fun x =>
        Ok ([OReply (fst x)], Obs (ob_mid st) (set_regs i (snd x) (ob_regs st))))
  | ONotify i =>
      bind (for_each debug room emit (ob_mid st) (ob_regs st i)) (fun x =>
        let '(mid, regs, outs) := x in
        Ok (map (fun o => OSend (fst o) (snd o)) outs, Obs mid (set_regs i regs (ob_regs st))))
  end.

(** Requests and rounds in a row (no code of its own). *)
Fixpoint obs_run {A} (debug : bool) (cap room : nat) (emit : session A -> list nbcall) (ops : list (oop A)) (st : obs A)
  : res (list (oout A) * obs A) :=
  match ops with
  | [] => Ok ([], st)
  | o :: r =>
      bind (obs_step debug cap room emit o st) (fun x =>
        bind (obs_run debug cap room emit r (snd x)) (fun y => Ok (fst x ++ fst y, snd y)))
  end.

(** src/coap/experimental-observer.h / decoder/observer.h: InterestedEnum as far as
    this observer uses it *)
Inductive interest : Type := ICurrently | IAlways | INever.

(** src/coap/observable.hpp 78-139: ObservableOptionObserverBase::on_option;
    [code] is the code of the request header.  An assert that fires is a fault.
    on_uri_path (observable.h 245) is empty. *)
Definition oo_option (code number : N) (chunk : list N) (last_chunk : bool) (st : interest) : res interest :=
  match number with
  | 6 =>
      if (length chunk =? 1)%nat && (code =? 1) && last_chunk then
        match chunk with
        | [0] | [1] => Ok IAlways
        | _ => Ok INever
        end
      else Fault
  | 11 => match st with IAlways => Ok IAlways | _ => Ok INever end
  | _ => Ok st
  end.

(** src/coap/observable.hpp 78-139 for the options of a message, each in one piece. *)
Fixpoint oo_options (code : N) (os : list (N * list N)) (st : interest) : res interest :=
  match os with
  | [] => Ok st
  | (n, v) :: r => bind (oo_option code n v true st) (oo_options code r)
  end.

(** src/coap/observable.hpp 142-162 and observable.h 250-267: on_complete.
    [is_registering] is the member nobody assigns (observable.h 308-310); the
    address and the sequence of the new session are not assigned either ([junk]). *)
Definition oo_complete {A} (is_registering : bool) (junk : N * A) (c : ctx) (st : interest) (regs : list (session A)) : res (list (session A)) :=
  match st with
  | IAlways =>
      bind (ctx_token c) (fun t => Ok (if is_registering then Session (fst junk) (snd junk) t :: regs else regs))
  | _ => Ok regs
  end.
