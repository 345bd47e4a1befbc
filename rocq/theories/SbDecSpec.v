(** What the receiver of a message that lies in a chain of segments should be told. *)
From Verif Require Import Base HeaderModel OptSpec OptDecModel OptDecSpec DecoderModel DecoderSpec ChunkSpec.
Local Open Scope N_scope.

(** the segments [L] without their first [q] bytes *)
Fixpoint drop (q : nat) (L : list (list N)) : list (list N) :=
  match L with
  | [] => []
  | c :: r => if (q <? length c)%nat then skipn q c :: r else drop (q - length c) r
  end.

(** one payload event for every segment that is not empty; the flag says that
    nothing follows *)
Fixpoint seg_pays (L : list (list N)) : list event :=
  match L with
  | [] => []
  | c :: r => match c with
              | [] => seg_pays r
              | _ => EPayload c (match concat r with [] => true | _ => false end) :: seg_pays r
              end
  end.

(** The payload that starts at offset [p]: all of it if the receiver reads to the
    end of the data, otherwise piece by piece; an empty payload is one event. *)
Definition payload_report (eat : bool) (L : list (list N)) (p : nat) : list event :=
  match concat (drop p L) with
  | [] => [EPayload [] true]
  | _ => if eat then [EPayload (concat (drop p L)) true] else seg_pays (drop p L)
  end.

(** the report of message [m] that lies in the segments [L] *)
Definition seg_events (eat : bool) (m : msg) (L : list (list N)) : list event :=
  [EHeader (m_hdr m); EToken (m_tok m); EOptStart] ++
  map (opt_view L 0) (views 0 (4 + length (m_tok m)) (m_opts m)) ++
  [EOptDone] ++
  match m_pay m with
  | None => []
  | Some _ => payload_report eat L (length (hdr_bytes (m_hdr m) ++ m_tok m ++ opts_bytes 0 (m_opts m)) + 1)
  end ++ [ECompleted].

(** [raw] is [clean] with bytes 0xFF put in before some of its bytes; allowed only
    with [sg] (then [clean] itself has none) *)
Inductive skims (sg : bool) : list N -> list N -> Prop :=
| sk_nil : skims sg [] []
| sk_keep : forall b raw clean, (sg = true -> b <> 255) -> skims sg raw clean -> skims sg (b :: raw) (b :: clean)
| sk_skip : forall raw clean, sg = true -> clean <> [] -> skims sg raw clean -> skims sg (255 :: raw) clean.
