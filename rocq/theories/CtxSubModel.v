(** Model of ContextDispatcherHandler (src/coap-dispatcher.h 251-325, .hpp 276-306, with
    FEATURE_MCCOAP_INLINE_TOKEN) as the observer of a DecoderSubjectBase, as in
    test/unit-tests/coap-datapump-test.cpp 117-134.  Without FEATURE_MCCOAP_INLINE_TOKEN
    on_token does not fit TokenContext<false> (src/coap/context.h 87). *)
From Verif Require Import Base HeaderModel OptEncModel OptDecModel DecoderModel DispatchModel ContextModel SubjectModel.
Local Open Scope N_scope.

(** src/coap-dispatcher.hpp 276-280 and 283-306; the other calls are DecoderObserverBase's
    (src/coap/decoder/observer.h), which do nothing *)
Definition cdh_call (x : call) (c : ctx) : res ctx :=
  match x with
  | OnHeader h => Ok (ctx_set_header h c)
  | OnToken part _ => ctx_set_token part c
  | _ => Ok c
  end.
(** the calls one after the other *)
Fixpoint cdh_calls (xs : list call) (c : ctx) : res ctx :=
  match xs with
  | [] => Ok c
  | x :: r => bind (cdh_call x c) (cdh_calls r)
  end.

(** src/coap-dispatcher.h 299-324 *)
Definition cdh_interested (c : ctx) : interested :=
  if ctx_have_header c then
    if 0 <? hdr_tkl (c_hdr c) then (if c_present c then Never else Currently) else Never
  else Currently.

(** a message in pieces given to a subject with this observer: the context, the subject *)
Definition cdh_receive (cs : list (list N)) (d : dec) (c : ctx) : res (ctx * dec) :=
  bind (sub_chunks cs d) (fun x => let '(es, d1, _) := x in bind (cdh_calls es c) (fun c1 => Ok (c1, d1))).
