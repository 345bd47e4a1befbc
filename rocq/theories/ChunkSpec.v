(** What a receiver is told about a message that arrives in several chunks. *)
From Verif Require Import Base HeaderModel OptSpec OptDecModel OptDecSpec DecoderModel DecoderSpec.
Local Open Scope N_scope.

(** an option whose value starts at offset [o] of the chunks [L]: only the part of
    the value inside the chunk that contains its first byte is delivered *)
Fixpoint opt_at (L : list (list N)) (num l : N) (o : nat) : event :=
  match L with
  | [] => EOption num [] (l =? 0)
  | c :: r =>
      if (o <? length c)%nat
      then EOption num (firstn (N.to_nat l) (skipn o c)) (N.to_nat l <=? length c - o)%nat
      else opt_at r num l (o - length c)
  end.

(** a payload that starts at offset [o]: the rest of the chunk that contains its
    first byte; an empty event for this chunk and each later one but the last *)
Fixpoint pay_from (L : list (list N)) (o : nat) : list event :=
  match L with
  | [] => [EPayload [] true]
  | c :: r =>
      if (o <? length c)%nat
      then match r with
           | [] => [EPayload (skipn o c) true]
           | _ => EPayload (skipn o c) false :: EPayload [] false :: map (fun _ => EPayload [] false) (removelast r)
           end
      else pay_from r (o - length c)
  end.

Definition opt_view (L : list (list N)) (q : nat) (v : pview) : event :=
  let '(num, l, o) := v in opt_at L num l (o - q).

(** what follows the options; chunk list [L] starts at stream offset [q] *)
Definition chunk_tail (L : list (list N)) (q : nat) (e : oend) : list event :=
  match e with
  | EndMarker p => EOptDone :: pay_from L (p - q)
  | EndAfterHead num l => [EOption num [] (l =? 0); EOptDone]
  | _ => [EOptDone]
  end.

(** the report with option values and payload left out *)
Definition bare_event (e : event) : list event :=
  match e with
  | EOption num _ _ => [EOption num [] true]
  | EPayload _ _ => []
  | x => [x]
  end.
Definition bare (es : list event) : list event := flat_map bare_event es.

(** the report of message [m] received as chunks [L] *)
Definition chunk_events (m : msg) (L : list (list N)) : list event :=
  [EHeader (m_hdr m); EToken (m_tok m); EOptStart] ++
  map (opt_view L 0) (views 0 (4 + length (m_tok m)) (m_opts m)) ++
  [EOptDone] ++
  match m_pay m with
  | None => []
  | Some _ => pay_from L (length (hdr_bytes (m_hdr m) ++ m_tok m ++ opts_bytes 0 (m_opts m)) + 1)
  end ++ [ECompleted].

(** no chunk boundary inside the [l] bytes from offset [o] *)
Definition uncut (L : list (list N)) (o l : nat) : Prop :=
  forall a b, L = a ++ b -> b <> [] -> ~ (o < length (concat a) < o + l)%nat.
