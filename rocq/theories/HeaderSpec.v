(** RFC 7252 section 3: the message header as five numbers, its four bytes,
    and what a sequence of field assignments means. *)
From Verif Require Import Base.
Local Open Scope N_scope.

Record fields : Type := Fields
  { f_ver : N; f_type : N; f_tkl : N; f_code : N; f_mid : N }.

Definition fields_ok (f : fields) : Prop :=
  f_ver f < 4 /\ f_type f < 4 /\ f_tkl f < 16 /\ f_code f < 256 /\ f_mid f < 65536.

(**  0                   1                   2                   3
     0 1 2 3 4 5 6 7 8 9 0 1 2 3 4 5 6 7 8 9 0 1 2 3 4 5 6 7 8 9 0 1
    |Ver| T |  TKL  |      Code     |          Message ID           | *)
Definition wire (f : fields) : list N :=
  [ f_ver f * 64 + f_type f * 16 + f_tkl f; f_code f; f_mid f / 256; f_mid f mod 256 ].

(** last element satisfying a partial projection *)
Fixpoint last_of {A} (p : A -> option N) (l : list A) (dflt : N) : N :=
  match l with
  | [] => dflt
  | a :: r => last_of p r (match p a with Some v => v | None => dflt end)
  end.
