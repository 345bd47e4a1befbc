(** What the option iterator of netbuf.h shows of an option list, and what it should
    show. *)
From Verif Require Import Base OptSpec OptEncModel OptDecModel DecoderModel DecoderSpec.
Local Open Scope N_scope.

(** of every three options the first without its value, the second not at all and the
    third as it is; the last one of the message is dropped if it is a first one with a
    value and no payload follows *)
Fixpoint shown (pay : bool) (os : list opt) : list (N * list N) :=
  match os with
  | [] => []
  | [(n, v)] => if pay then [(n, [])] else match v with [] => [(n, [])] | _ => [] end
  | [(n, _); _] => [(n, [])]
  | (n, _) :: _ :: o3 :: r => (n, []) :: o3 :: shown pay r
  end.

(** the state the decoder is left in *)
Fixpoint left_in (pay : bool) (os : list opt) : rstate :=
  match os with
  | [] => if pay then RPayload else RDone
  | [(_, v)] => if pay then RPayload else match v with [] => RDone | _ => OptionsDone end
  | [_; (_, v)] => if pay then OptionsDone else match v with [] => OptionsDone | _ => RDone end
  | _ :: _ :: _ :: r => left_in pay r
  end.

Definition has (p : option (list N)) : bool := match p with None => false | Some _ => true end.

(** a decoder object whose memory does not already look like a payload marker was seen:
    only matters for a message of a bare header *)
Definition not_stale (m : msg) (d : dec) : Prop :=
  m_opts m <> [] \/ m_pay m <> None \/ m_tok m <> [] \/ d_st (k_od d) <> OPayload.
