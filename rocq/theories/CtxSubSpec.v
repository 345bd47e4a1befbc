(** What a context should hold of a message, and what of it can get there. *)
From Verif Require Import Base HeaderModel OptSpec DecoderModel DecoderSpec DispatchModel ContextModel.
Local Open Scope N_scope.

(** the context holds header and token of [m] *)
Definition holds (m : msg) (c : ctx) : Prop :=
  c_hdr c = m_hdr m /\ firstn (length (m_tok m)) (c_buf c) = m_tok m /\ (m_tok m <> [] -> c_present c = true).

(** a message that goes on behind its token *)
Definition continues (m : msg) : Prop := m_opts m <> [] \/ m_pay m <> None.

(** header and token were among the calls *)
Definition header_in (xs : list call) : Prop := exists h, In (OnHeader h) xs.
Definition token_in (xs : list call) : Prop := exists t l, In (OnToken t l) xs.
