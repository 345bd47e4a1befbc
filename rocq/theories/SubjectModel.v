(** Model of DecoderSubjectBase: src/coap/decoder/subject.h 164-256 and
    src/coap/decoder/subject.hpp 107-218 (FEATURE_MCCOAP_LEGACY_EVENTS). *)
From Verif Require Import Base HeaderModel OptEncModel OptDecModel DecoderModel DispatchModel.
Local Open Scope N_scope.

(** src/coap/decoder/subject.hpp 164: decoder.optionHolder.length -= n *)
Definition k_set_len (l : N) (d : dec) : dec :=
  Dec (k_st d) (k_h d) (k_hpos d) (k_tok d) (k_tpos d) (k_od d) (Holder (hd_num (k_hold d)) l).

(** src/coap/decoder/subject.hpp 153-170, observer_on_option(chunk): option_length is
    a uint16_t and so is what the length is decremented to *)
Definition sub_value (rem : list N) (d : dec) : list call * dec :=
  let num := hd_num (k_hold d) in
  let l := hd_len (k_hold d) in
  if N.of_nat (length rem) <? l
  then ([OnValue num rem false], k_set_len ((l - N.of_nat (length rem)) mod 65536) d)
  else ([OnValue num (firstn (N.to_nat l) rem) true], d).

(** src/coap/decoder/subject.hpp 175-197, dispatch_option *)
Definition sub_option (rem : list N) (d : dec) : list call * dec :=
  match d_st (k_od d) with
  | ValueStart =>
      let o := OnOption (hd_num (k_hold d)) (hd_len (k_hold d)) in
      if hd_len (k_hold d) =? 0 then ([o], d)
      else let '(cs, d1) := sub_value rem d in (o :: cs, d1)
  | OptionValue => sub_value rem d
  | _ => ([], d)
  end.

(** src/coap/decoder/subject.hpp 113-147 and 201-217: the calls before the step *)
Definition sub_calls (chunk : list N) (last : bool) (d : dec) (pos : nat) : list call * dec :=
  match k_st d with
  | HeaderDone => ([OnHeader (k_h d)], d)
  | TokenDone =>
      if dec_tkl d =? 0 then ([], d) else ([OnToken (firstn (N.to_nat (dec_tkl d)) (k_tok d)) true], d)
  | ROptions => sub_option (remainder chunk pos) d
  | RPayload => (OnPayload (remainder chunk pos) last :: (if last then [OnComplete] else []), d)
  | RDone => ([OnComplete], d)
  | _ => ([], d)
  end.

(** src/coap/decoder/subject.hpp 110-150, dispatch_iterate *)
Definition sub_iterate (chunk : list N) (last : bool) (d : dec) (pos : nat) : res (list call * dec * nat * bool) :=
  let '(cs, d1) := sub_calls chunk last d pos in
  bind (dec_iterate chunk last d1 pos) (fun x => let '(d2, pos2, fin) := x in Ok (cs, d2, pos2, fin)).

(** src/coap/decoder/subject.h 244, the loop of dispatch *)
Fixpoint sub_loop (fuel : nat) (chunk : list N) (last : bool) (d : dec) (pos : nat) : res (list call * dec * nat) :=
  match fuel with
  | O => NoFuel
  | S f =>
      bind (sub_iterate chunk last d pos) (fun x =>
        let '(cs, d1, pos1, fin) := x in
        if fin || rstate_eqb (k_st d1) RDone then Ok (cs, d1, pos1)
        else bind (sub_loop f chunk last d1 pos1) (fun y =>
               let '(ds, d2, pos2) := y in Ok (cs ++ ds, d2, pos2)))
  end.

(** src/coap/decoder/subject.h 240-247, dispatch: the calls, the decoder, the bytes
    processed.  [C47_terminates] shows that the fuel suffices. *)
Definition sub_dispatch (chunk : list N) (last : bool) (d : dec) : res (list call * dec * nat) :=
  sub_loop (4 * length chunk + 12) chunk last d 0.

(** A message that arrives in several chunks: dispatch for each, with last_chunk for
    the last one; the results of dispatch are collected. *)
Fixpoint sub_chunks (cs : list (list N)) (d : dec) : res (list call * dec * list nat) :=
  match cs with
  | [] => Ok ([], d, [])
  | c :: r =>
      bind (sub_dispatch c (match r with [] => true | _ => false end) d) (fun x =>
        let '(es, d1, n) := x in
        bind (sub_chunks r d1) (fun y => let '(fs, d2, ns) := y in Ok (es ++ fs, d2, n :: ns)))
  end.
