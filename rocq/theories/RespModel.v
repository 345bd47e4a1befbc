(** Model of the example servers built on NetBufDecoder and NetBufEncoder:
    test/template/simple-ping-responder.hpp, simple-uri-responder.hpp,
    observable-raw-responder.hpp and test/posix/discoverable/main.cpp.  A datagram is one
    chunk [c] and the last one; [d] is the memory of the new decoder, [junk] and [jh] what
    the token array and the header in create_response happen to hold, [cap] the size of
    the new netbuf. *)
From Coq Require Import ZArith.
From Verif Require Import Base HeaderModel OptEncModel StreambufModel OptDecModel DecoderModel ContextModel UriModel AppModel NetDecModel
  NetbufModel ObserveModel.
Local Open Scope N_scope.

(** src/coap/decoder/netbuf.h 226-234, header_and_token; simple-ping-responder.hpp 44-47.
    For the two servers that are handed a context the data pump (external) has done the
    same before. *)
Definition rs_begin (junk c : list N) (d : dec) : res (ctx * ndec) :=
  bind (nd_header c true (ND d 0)) (fun a =>
    bind (nd_token c true (snd a)) (fun b =>
      bind (ctx_set_token (fst b) (ctx_set_header (fst a) (ctx_new junk))) (fun k => Ok (k, snd b)))).

(** simple-ping-responder.hpp 54: the options are skipped unread *)
Fixpoint it_skip (fuel : nat) (c : list N) (last : bool) (x : ndec) : res ndec :=
  match fuel with
  | O => NoFuel
  | S k => if it_valid x then bind (it_next c last x) (it_skip k c last) else Ok x
  end.

(** The loops of the other servers: simple-uri-responder.hpp 19-39, observable-raw-responder.hpp
    81-103, discoverable/main.cpp 82-103.  The value is read only of the options the server
    knows ([reads]); of the others nothing is kept.  What a server does with an option does not
    change the decoder, so it can be done afterwards. *)
Fixpoint rs_loop (reads : N -> bool) (fuel : nat) (c : list N) (x : ndec) : res (list (N * list N)) :=
  match fuel with
  | O => NoFuel
  | S k =>
      if it_valid x then
        bind (if reads (it_number x) then bind (it_opaque c x) (fun v => Ok (fst v)) else Ok []) (fun v =>
          bind (it_next c true x) (fun x1 =>
            bind (rs_loop reads k c x1) (fun l => Ok ((it_number x, v) :: l))))
      else Ok []
  end.
(** the same with the constructor of the iterator before *)
Definition rs_options (reads : N -> bool) (fuel : nat) (c : list N) (x : ndec) : res (list (N * list N)) :=
  bind (it_new c true x) (rs_loop reads fuel c).

(** simple-uri-responder.hpp 23-36, observable-raw-responder.hpp 81-103, discoverable/main.cpp
    89-102: the cases of the switch; Option::UriQuery is 15 *)
Definition reads_uri (n : N) : bool := n =? 11.
(** observable-raw-responder.hpp 81-103 *)
Definition reads_observe (n : N) : bool := (n =? 11) || (n =? 6).
(** discoverable/main.cpp 89-102 *)
Definition reads_core (n : N) : bool := (n =? 11) || (n =? 15).

(** src/coap/encoder.h 287-296 with context.h 222-226 *)
Definition rs_head (debug : bool) (cap : nat) (jh : hdr) (k : ctx) (code : N) : res nbenc :=
  bind (ctx_token k) (fun t =>
    bind (nbe_header_and_token jh (c_hdr k) t code (nbe_init debug cap)) (fun r => Ok (snd r))).

(** simple-ping-responder.hpp 12-96; [skip]: FEATURE_MCCOAP_IOSTREAM_NATIVE is defined.
    The printing of the payload (56-61) is left out. *)
Definition ping (skip debug : bool) (cap fuel : nat) (jh : hdr) (junk c : list N) (d : dec) : res (list N) :=
  bind (rs_begin junk c d) (fun a =>
    bind (if skip then bind (it_new c true (snd a)) (it_skip fuel c true) else Ok (snd a)) (fun _ =>
      bind (rs_head debug cap jh (fst a) code_content) (fun b => Ok (s_out (n_sink b))))).

(** simple-uri-responder.hpp 25-30: Option::UriPath is 11; the string as in AppModel *)
Fixpoint rs_uri (os : list (N * list N)) (uri : list N) : res (list N) :=
  match os with
  | [] => Ok uri
  | (n, v) :: r =>
      if n =? 11 then bind (text_add v uri) (fun u => bind (text_add [47] u) (rs_uri r)) else rs_uri r uri
  end.

(** simple-uri-responder.hpp 41: the characters of test/ *)
Definition txt_test : list N := [116; 101; 115; 116; 47].

(** simple-uri-responder.hpp 51-52, observable-raw-responder.hpp 114-115: the result of
    payload() is not used *)
Definition rs_reply (debug : bool) (cap : nat) (jh : hdr) (k : ctx) (code : N) (uri : list N) : res (list N) :=
  bind (rs_head debug cap jh k code) (fun b => bind (nbe_payload uri b) (fun r => Ok (s_out (n_sink (snd r))))).

(** simple-uri-responder.hpp 9-55 *)
Definition uri_server (debug : bool) (cap fuel : nat) (jh : hdr) (junk c : list N) (d : dec) : res (list N) :=
  bind (rs_begin junk c d) (fun a =>
    bind (rs_options reads_uri fuel c (snd a)) (fun os =>
      bind (rs_uri os []) (fun uri =>
        rs_reply debug cap jh (fst a) (if str_eqb uri txt_test then code_valid else code_not_found) uri))).

(** observable-raw-responder.hpp 83-103: the loop; Option::Observe is 6; uint8 of netbuf.h
    565-578; [size] is the capacity of the registrar and [a] the address of the peer *)
Fixpoint rs_observe {A} (size : nat) (k : ctx) (a : A) (os : list (N * list N)) (uri : list N) (code : N) (regs : list (session A))
  : res (list N * N * list (session A)) :=
  match os with
  | [] => Ok (uri, code, regs)
  | (n, v) :: r =>
      if n =? 11 then bind (text_add v uri) (fun u => bind (text_add [47] u) (fun u2 => rs_observe size k a r u2 code regs))
      else if n =? 6 then
        bind (evaluate_observe size k a (match v with [] => 0 | b :: _ => b end) regs) (fun x => rs_observe size k a r uri (fst x) (snd x))
      else rs_observe size k a r uri code regs
  end.

(** observable-raw-responder.hpp 70-118 *)
Definition obs_server {A} (debug : bool) (cap fuel size : nat) (jh : hdr) (junk c : list N) (d : dec) (a : A) (regs : list (session A))
  : res (list N * list (session A)) :=
  bind (rs_begin junk c d) (fun b =>
    bind (rs_options reads_observe fuel c (snd b)) (fun os =>
      bind (rs_observe size (fst b) a os [] code_not_found regs) (fun x =>
        let '(uri, code, regs1) := x in
        bind (rs_reply debug cap jh (fst b) code uri) (fun out => Ok (out, regs1))))).

(** discoverable/main.cpp 18-33: the tables; v1, api, test1, test2, .well-known, core *)
Definition core_rows : list row :=
  [Row [118; 49] 0 (-1); Row [97; 112; 105] 1 0; Row [116; 101; 115; 116; 49] 2 1; Row [116; 101; 115; 116; 50] 3 1;
   Row [46; 119; 101; 108; 108; 45; 107; 110; 111; 119; 110] 4 (-1); Row [99; 111; 114; 101] 5 4].
(** discoverable/main.cpp 16 *)
Definition id_core : Z := 5.

(** discoverable/main.cpp 87-103: find for every Uri-Path visited *)
Fixpoint rs_match (os : list (N * list N)) (m : m3) : m3 :=
  match os with
  | [] => m
  | (n, v) :: r => rs_match r (if n =? 11 then snd (m3_find v m) else m)
  end.

(** discoverable/main.cpp 130-161: each link with what [extra] adds (36-48) and a comma,
    cut at the end of the buffer, then one character less; advance(-1) if there was
    nothing is a fault here *)
Definition core_text (cd : list core_data) (extra : Z -> list N) (rows : list row) (room : nat) : res (list N) :=
  bind (core_walk cd rows []) (fun x =>
    let t := firstn room (concat (map (fun l => snd l ++ extra (fst l) ++ [44]) (fst x))) in
    match t with [] => Fault | _ => Ok (removelast t) end).

(** discoverable/main.cpp 64-170 for any table *)
Definition core_server (debug : bool) (cap fuel : nat) (jh : hdr) (rows : list row) (cd : list core_data) (extra : Z -> list N) (core : Z)
  (junk c : list N) (d : dec) : res (list N) :=
  bind (rs_begin junk c d) (fun a =>
    bind (rs_options reads_core fuel c (snd a)) (fun os =>
      let found := m3_found (rs_match os (m3_init rows)) in
      bind (rs_head debug cap jh (fst a) (if Z.eqb found NONE then code_not_found else code_content)) (fun b =>
        bind (nbe_payload_header b) (fun r =>
          let s := n_sink (snd r) in
          if Z.eqb found core
          then bind (core_text cd extra rows (s_room s)) (fun t => Ok (s_out s ++ t))
          else Ok (s_out s))))).
