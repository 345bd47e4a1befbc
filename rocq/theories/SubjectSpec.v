(** What an observer should be told about a message that arrives in pieces. *)
From Verif Require Import Base HeaderModel OptSpec DecoderModel DecoderSpec DispatchModel.
Local Open Scope N_scope.

(** The calls with the way values and payloads are cut forgotten: each byte of an
    option value or of the payload by itself, and the end of it. *)
Inductive atom : Type :=
| AHeader (h : hdr)
| AToken (t : list N) (last : bool)
| AOption (number length : N)
| AByte (number : N) (b : N)
| AEnd (number : N)
| APay (b : N)
| APayEnd
| AComplete.

Definition flat1 (c : call) : list atom :=
  match c with
  | OnHeader h => [AHeader h]
  | OnToken t l => [AToken t l]
  | OnOption n l => [AOption n l]
  | OnValue n p l => map (AByte n) p ++ (if l then [AEnd n] else [])
  | OnPayload p l => map APay p ++ (if l then [APayEnd] else [])
  | OnComplete => [AComplete]
  end.
Definition flat (cs : list call) : list atom := flat_map flat1 cs.

(** the report of a message: header, token if there is one, for each option number
    and length and, if there is one, the value, payload if there is one, completion *)
Definition opt_atoms (o : opt) : list atom :=
  AOption (fst o) (len (snd o)) :: match snd o with [] => [] | v => map (AByte (fst o)) v ++ [AEnd (fst o)] end.
Definition tok_atoms (t : list N) : list atom := match t with [] => [] | _ => [AToken t true] end.
Definition pay_atoms (p : option (list N)) : list atom :=
  match p with None => [] | Some b => map APay b ++ [APayEnd] end.
Definition msg_atoms (m : msg) : list atom :=
  [AHeader (m_hdr m)] ++ tok_atoms (m_tok m) ++ flat_map opt_atoms (m_opts m) ++ pay_atoms (m_pay m) ++ [AComplete].

(** the same as calls, for a message in one piece *)
Definition opt_call (o : opt) : list call :=
  OnOption (fst o) (len (snd o)) :: match snd o with [] => [] | v => [OnValue (fst o) v true] end.
Definition msg_calls (m : msg) : list call :=
  [OnHeader (m_hdr m)] ++ (match m_tok m with [] => [] | t => [OnToken t true] end) ++ flat_map opt_call (m_opts m) ++
  (match m_pay m with None => [] | Some b => [OnPayload b true] end) ++ [OnComplete].

(** the end of the report that is left out *)
Definition lost (m : msg) : list atom :=
  match m_pay m with
  | Some (_ :: _) => []
  | Some [] => [APayEnd; AComplete]
  | None =>
      match rev (m_opts m) with
      | (n, []) :: _ => [AOption n 0; AComplete]
      | _ :: _ => [AComplete]
      | [] => match m_tok m with [] => [AHeader (m_hdr m); AComplete] | t => [AToken t true; AComplete] end
      end
  end.

(** a new subject, or one after reset(): whatever its memory held before *)
Definition fresh (d : dec) : Prop := k_st d = Uninitialized /\ dec_mem d.
