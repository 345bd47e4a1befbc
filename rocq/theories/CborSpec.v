(** RFC 7049 section 2: data item heads, and sequences of items. *)
From Verif Require Import Base UIntSpec CborModel.
Local Open Scope N_scope.

(** the [n] bytes of [v], most significant first *)
Fixpoint be_bytes (n : nat) (v : N) : list N :=
  match n with
  | O => []
  | S k => (v / 256 ^ N.of_nat k) mod 256 :: be_bytes k v
  end.

(** shortest head of major type [m] with argument [v] *)
Definition rfc_head (m v : N) : list N :=
  if v <? 24 then [m * 32 + v]
  else if v <? 256 then (m * 32 + 24) :: be_bytes 1 v
  else if v <? 65536 then (m * 32 + 25) :: be_bytes 2 v
  else if v <? 2 ^ 32 then (m * 32 + 26) :: be_bytes 4 v
  else (m * 32 + 27) :: be_bytes 8 v.

(** the integer a head of major type 0 or 1 denotes *)
Definition rfc_int (m v : N) : Z := if m =? 1 then (-1 - Z.of_N v)%Z else Z.of_N v.

(** the head of an integer *)
Definition rfc_int_head (z : Z) : list N :=
  if (0 <=? z)%Z then rfc_head 0 (Z.to_N z) else rfc_head 1 (Z.to_N (-1 - z)).

(** a flat sequence of items: strings carry their bytes; for arrays and maps only
    the head counts, the contained items follow in the sequence *)
Inductive citem : Type :=
| CI (m v : N)              (* major types 0, 1, 4, 5, 6, 7 *)
| CS (m : N) (s : list N).  (* major types 2, 3 *)

Definition item_bytes (i : citem) : list N :=
  match i with
  | CI m v => rfc_head m v
  | CS m s => rfc_head m (N.of_nat (length s)) ++ s
  end.
Definition items_bytes (is : list citem) : list N := flat_map item_bytes is.

Definition item_ok (i : citem) : Prop :=
  match i with
  | CI m v => m < 8 /\ m <> 2 /\ m <> 3 /\ v < 2 ^ 32
  | CS m s => (m = 2 \/ m = 3) /\ N.of_nat (length s) < 2 ^ 32
  end.

(** how an item reads: major type, denoted integer, content *)
Definition item_reads (i : citem) : N * Z * list N :=
  match i with
  | CI m v => (m, rfc_int m v, [])
  | CS m s => (m, Z.of_N (N.of_nat (length s)), s)
  end.

(** the RFC encoding of what a call of the encoder is asked to emit *)
Definition op_bytes (o : nbop) : list N :=
  match o with
  | ONull => [0xF6]
  | OBool b => [if b then 0xF5 else 0xF4]
  | OString s => rfc_head 3 (N.of_nat (length s)) ++ s
  | OInt _ z => rfc_int_head z
  | OMap n => rfc_head 5 n
  | OArrayHeader n => rfc_head 2 n
  | OItemsHeader n => rfc_head 4 n
  end.

(** the argument of the head is in range and is not 24 *)
Definition op_ok (o : nbop) : Prop :=
  match o with
  | ONull | OBool _ => True
  | OString s => N.of_nat (length s) <> 24 /\ N.of_nat (length s) < 2 ^ 64
  | OInt w z => z <> 24%Z /\ z <> (-25)%Z /\ (- 2 ^ Z.of_N (w - 1) <= z < 2 ^ 64)%Z /\ (w < 32 \/ (- 2 ^ Z.of_N (w - 1) < z)%Z) /\ (-2 ^ 64 <= z)%Z
  | OMap n | OArrayHeader n | OItemsHeader n => n <> 24 /\ n < 2 ^ 64
  end.

(** the item a call stands for, and when a decoder limited to 32-bit arguments can
    read it *)
Definition op_item (o : nbop) : citem :=
  match o with
  | ONull => CI 7 22
  | OBool b => CI 7 (if b then 21 else 20)
  | OString s => CS 3 s
  | OInt _ z => if (0 <=? z)%Z then CI 0 (Z.to_N z) else CI 1 (Z.to_N (-1 - z))
  | OMap n => CI 5 n
  | OArrayHeader n => CI 2 n
  | OItemsHeader n => CI 4 n
  end.
Definition op_readable (o : nbop) : Prop :=
  match o with
  | ONull | OBool _ => True
  | OString s => N.of_nat (length s) < 2 ^ 32
  | OInt _ z => (-2 ^ 32 <= z < -24)%Z \/ (0 <= z < 2 ^ 32)%Z
  | OMap n | OItemsHeader n => n < 2 ^ 32
  | OArrayHeader _ => False
  end.
