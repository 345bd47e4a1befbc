(** What a lookup in a table of key/value pairs should give. *)
From Verif Require Import Base.
Local Open Scope N_scope.

(** The memory holds the string [s], ended by a zero byte. *)
Definition holds (m s : list N) : Prop := ~ In 0 s /\ exists rest, m = s ++ 0 :: rest.

(** The array of items in memory is the table [tab] of strings and values. *)
Definition table {V} (items : list (list N * V)) (tab : list (list N * V)) : Prop :=
  Forall2 (fun it e => holds (fst it) (fst e) /\ snd it = snd e) items tab.

(** [a] is the first of the list with [P]; nothing of the list has [P]. *)
Definition first_of {A} (P : A -> Prop) (l : list A) (a : A) : Prop :=
  exists pre post, l = pre ++ a :: post /\ P a /\ Forall (fun x => ~ P x) pre.
Definition none_of {A} (P : A -> Prop) (l : list A) : Prop := Forall (fun x => ~ P x) l.

(** The entry is the one for the name [s]. *)
Definition named {V} (s : list N) (e : list N * V) : Prop := fst e = s.

(** The name of the entry is of 7-bit characters and begins the bytes [s]. *)
Definition begins {V} (s : list N) (e : list N * V) : Prop :=
  Forall (fun c => c < 128) (fst e) /\ exists t, s = fst e ++ t.

(** No name begins another one. *)
Definition no_prefixes {V} (tab : list (list N * V)) : Prop :=
  forall a b, In a tab -> In b tab -> (exists t, fst b = fst a ++ t) -> fst a = fst b.
