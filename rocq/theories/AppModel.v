(** Model of the observers in src/coap/decoder/observer/util.h and
    src/coap/platform/esp-idf/observer.h, of the servers made of them
    (test/rtos/esp32/boilerplate-subject/main/app.cpp, echo-subject/main/udp-coap.cpp) and
    of the loop that feeds them (src/coap/platform/lwip/context.h). *)
From Coq Require Import ZArith.
From Verif Require Import Base UIntModel HeaderModel OptEncModel StreambufModel OptDecModel DecoderModel ContextModel UriModel SbDecModel.
Local Open Scope N_scope.

(** src/coap/platform/lwip/context.h 91-131, decoder/observer/util.h 24-50 and
    103-106: token and header context, matcher, and the static string of
    _UriBuilderObserver.  The address is not modelled: there is one peer. *)
Record appctx : Type := App { a_ctx : ctx; a_uri : m3; a_text : list N }.

(** test/rtos/esp32/boilerplate-subject/main/app.cpp 76, context.h 17-23: a context is
    made for each datagram; the static string stays. *)
Definition app_new (rows : list row) (junk text : list N) : appctx := App (ctx_new junk) (m3_init rows) text.

(** The kinds of observer; util.h 55-62, 64-71, 74-103, 105-131, 137-152,
    esp-idf/observer.h 58-77, boilerplate-subject/main/app.cpp 32-55,
    echo-subject/main/udp-coap.cpp 19-33 *)
Inductive uobs : Type :=
| OToken | OHeader | OUri | OBuild
| OAuto404
| OVersion (id : Z) (text : list N)
| OBoiler (id : Z) (text : list N)
| OEcho.

(** src/coap/header.h 100-107, COAP_RESPONSE_CODE *)
Definition code_valid : N := 67.
(** src/coap/header.h 102 *)
Definition code_content : N := 69.
(** src/coap/header.h 107 *)
Definition code_not_found : N := 132.

(** src/coap/encoder/factory.h 40-48, make_encoder_reply; make_encoder is
    [sb_init cap] (lwip/encoder.h 14-21: 256, boilerplate-subject/main/context.h
    27-32: 32, echo-subject/main/context.h 53-58: 8) *)
Definition make_encoder_reply (cap : nat) (c : ctx) (code : N) : res sbenc := build_reply c code (sb_init cap).

(** src/coap/platform/esp-idf/observer.h 27-53, build_version_response; [text] is
    what is written to the stream, the results of the calls are not used *)
Definition version_response (c : ctx) (text : list N) (b : sbenc) : res sbenc :=
  bind (build_reply c code_content b) (fun b1 =>
    bind (sb_option_int 12 0 b1) (fun x =>
      Ok (sb_write text (snd (sb_payload (snd x)))))).

(** src/coap/platform/lwip/context.h 119-130, reply: the datagram is what was written *)
Definition app_reply (b : sbenc) : list N := s_out (sb_sink b).

(** The string of util.h 108, [layer1::string<128>]: what += does beyond its capacity
    is outside /repo, a fault here. *)
Definition text_cap : nat := 127.
(** src/coap/decoder/observer/util.h 117-121 *)
Definition text_add (s t : list N) : res (list N) := if (length (t ++ s) <=? text_cap)%nat then Ok (t ++ s) else Fault.

(** on_notify of each observer: new context and the datagrams sent.  An event without
    on_notify is not observed.  Line numbers as at [uobs]. *)
Definition obs_notify (cap : nat) (o : uobs) (e : event) (a : appctx) : res (appctx * list (list N)) :=
  match o, e with
  | OHeader, EHeader _ | OToken, EToken _ =>
      bind (ctx_notify e (a_ctx a)) (fun c => Ok (App c (a_uri a) (a_text a), []))
  | OUri, EOption n v _ =>
      if n =? 11 then Ok (App (a_ctx a) (snd (m3_find v (a_uri a))) (a_text a), []) else Ok (a, [])
  | OBuild, EHeader _ => Ok (App (a_ctx a) (a_uri a) [], [])
  | OBuild, EOption n v _ =>
      if n =? 11 then
        bind (text_add v (a_text a)) (fun t => bind (text_add [47] t) (fun t2 => Ok (App (a_ctx a) (a_uri a) t2, [])))
      else Ok (a, [])
  | OAuto404, EOptDone =>
      if Z.eqb (m3_found (a_uri a)) NONE then
        bind (make_encoder_reply cap (a_ctx a) code_not_found) (fun b => Ok (a, [app_reply b]))
      else Ok (a, [])
  | OVersion id text, ECompleted =>
      if Z.eqb (m3_found (a_uri a)) id then
        bind (version_response (a_ctx a) text (sb_init cap)) (fun b => Ok (a, [app_reply b]))
      else Ok (a, [])
  | OBoiler id text, ECompleted =>
      bind (if Z.eqb (m3_found (a_uri a)) id then version_response (a_ctx a) text (sb_init cap)
            else build_reply (a_ctx a) code_not_found (sb_init cap)) (fun b => Ok (a, [app_reply b]))
  | OEcho, ECompleted =>
      bind (make_encoder_reply cap (a_ctx a) code_valid) (fun b => Ok (a, [app_reply b]))
  | _, _ => Ok (a, [])
  end.

(** notify of a subject (embr, external; used at src/coap/decoder/subject-core.hpp
    32-136): each observer in turn *)
Fixpoint subject_notify (cap : nat) (os : list uobs) (e : event) (a : appctx) : res (appctx * list (list N)) :=
  match os with
  | [] => Ok (a, [])
  | o :: r => bind (obs_notify cap o e a) (fun x =>
                bind (subject_notify cap r e (fst x)) (fun y => Ok (fst y, snd x ++ snd y)))
  end.

(** src/coap/decoder/subject-core.hpp 32-136: one event after the other *)
Fixpoint app_run (cap : nat) (os : list uobs) (es : list event) (a : appctx) : res (appctx * list (list N)) :=
  match es with
  | [] => Ok (a, [])
  | e :: r => bind (subject_notify cap os e a) (fun x =>
                bind (app_run cap os r (fst x)) (fun y => Ok (fst y, snd x ++ snd y)))
  end.

(** src/coap/platform/lwip/context.h 61-73 and boilerplate-subject/main/app.cpp 66-80:
    one datagram [L] (a chain of segments), a new context and a new decoder, whose
    memory [d] is arbitrary.  Decoding and notifying alternate in the code; no observer
    here reads from the decoder, so the events can be collected first. *)
Definition serve (fuel : nat) (sg neg eat : bool) (cap : nat) (os : list uobs) (rows : list row) (junk text : list N) (d : dec) (L : list (list N))
  : res (appctx * list (list N)) :=
  bind (sbd_run fuel sg neg eat d (SBuf [] L)) (fun x => app_run cap os (fst (fst x)) (app_new rows junk text)).

(** test/rtos/esp32/echo-subject/main/udp-coap.cpp 35-37 and 51-54: the observers of the
    echo server, the reply last; no Uri-Path observer *)
Definition echo_server : list uobs := [OHeader; OToken; OEcho].
