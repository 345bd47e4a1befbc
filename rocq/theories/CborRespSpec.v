(** What the CBOR server should print of a payload, and what it does print. *)
From Coq Require Import ZArith.
From Verif Require Import Base CborSpec CborRespModel.
Local Open Scope N_scope.

(** the value of the low sixteen bits, signed *)
Definition low16 (v : N) : Z := ((Z.of_N v + 32768) mod 65536 - 32768)%Z.

(** the number printed for a head of major type [m] with argument [v] *)
Definition number (m v : N) : Z :=
  if v <? 24 then Z.of_N v else if m =? 1 then (-1 - low16 v)%Z else low16 v.

(** the lines of one item: its major type, then for arrays and maps that they are
    stepped into, for strings the text if it is one and the length, for others the number *)
Definition said (i : citem) : list cout :=
  match i with
  | CI m v => [RType m; if (m =? 4) || (m =? 5) then RNest else RNumber (number m v)]
  | CS m s => [RType m] ++ (if m =? 3 then [RText s] else []) ++ [RSkip (N.of_nat (length s))]
  end.

(** the strings of the items are shorter than 65536 bytes *)
Definition short_strings (its : list citem) : Prop :=
  Forall (fun i => match i with CS _ s => N.of_nat (length s) < 65536 | _ => True end) its.

(** the last item is a number, tag, float or simple value *)
Fixpoint ends_plain (its : list citem) : bool :=
  match its with
  | [] => false
  | [CI m _] => negb ((m =? 4) || (m =? 5))
  | [CS _ _] => false
  | _ :: r => ends_plain r
  end.
