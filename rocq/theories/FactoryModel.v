(** Model of the key/value tables and function factories of
    src/mc/experimental-factory.h: lookup by C string, by chunk of bytes and by number,
    with the memory that is read. *)
From Coq Require Import ZArith.
From Verif Require Import Base UriModel.
Local Open Scope N_scope.

(** src/mc/experimental-factory.h 152-153: strcmp(left, right) == 0.  A [const char*] is the
    memory from the pointer to the end of the object it points into; reading behind that
    is a fault. *)
Fixpoint strcmp_eq (left right : list N) {struct left} : res bool :=
  match left, right with
  | a :: left', b :: right' =>
      if a =? b then if a =? 0 then Ok true else strcmp_eq left' right' else Ok false
  | _, _ => Fault
  end.

(** src/mc/experimental-factory.h 124-139: starts_with(s, slen, prefix) over memory; the
    bytes of [s] are uint8_t, those of [prefix] are (signed) char ([char_eqb]).
    Simplification: the length is not negative as an int (below 2^31). *)
Fixpoint mem_starts_with (s : list N) (slen : nat) (prefix : list N) {struct prefix} : res bool :=
  match prefix with
  | [] => Fault
  | p :: prefix' =>
      if p =? 0 then Ok true
      else match slen with
           | O => Ok false
           | S slen' =>
               match s with
               | [] => Fault
               | c :: s' => if char_eqb p c then mem_starts_with s' slen' prefix' else Ok false
               end
           end
  end.

(** What a table keyed by [const char*] is asked with: a C string or a chunk
    (data, length). *)
Inductive fkey : Type := KStr (m : list N) | KChunk (data : list N) (len : nat).

(** src/mc/experimental-factory.h 149-161, KeyTraits<const char*>::equals, both overloads,
    and 142-145 *)
Definition str_equals (key : fkey) (item : list N) : res bool :=
  match key with
  | KStr m => strcmp_eq m item
  | KChunk data len => mem_starts_with data len item
  end.

(** src/mc/experimental-factory.h 22-26, KeyTraits<TKey>::equals for a number *)
Definition num_equals (key item : Z) : res bool := Ok (key =? item)%Z.

(** src/mc/experimental-factory.h 67-75: the loop of find with [n] rounds to go, over the
    items from the current one to the end of the array; an item behind the end is a fault *)
Fixpoint kv_loop {Q K V} (eq : Q -> K -> res bool) (nf : V) (items : list (K * V)) (n : nat) (key : Q) {struct n} : res V :=
  match n with
  | O => Ok nf
  | S n' =>
      match items with
      | [] => Fault
      | (k, v) :: r => bind (eq key k) (fun b => if b then Ok v else kv_loop eq nf r n' key)
      end
  end.

(** src/mc/experimental-factory.h 55-78 and (with the traits of the item) 81-90; [count] is an
    int, [nf] is ValueTraits::not_found_value() *)
Definition kv_find {Q K V} (eq : Q -> K -> res bool) (nf : V) (items : list (K * V)) (count : Z) (key : Q) : res V :=
  kv_loop eq nf items (Z.to_nat count) key.

(** src/mc/experimental-factory.h 92-119, Map<const char*, int, T>::find: the count is the
    size of the array, not_found_value of an int is -1 (164-168).  Only the C string
    overload is reachable, the key is of the type of the items' keys. *)
Definition map_find (items : list (list N * Z)) (m : list N) : res Z :=
  kv_find str_equals (-1)%Z items (Z.of_nat (length items)) (KStr m).

(** The same for Map<int, int, T> *)
Definition map_find_num (items : list (Z * Z)) (key : Z) : res Z :=
  kv_find num_equals (-1)%Z items (Z.of_nat (length items)) key.

(** src/mc/experimental-factory.h 261-271, FnFactory::create over items and a count (the lines
    273-283 behind the return are never run).  A function is [None] if the
    pointer is null, the not found value of a pointer (28-32). *)
Definition fn_create {Q K C V} (eq : Q -> K -> res bool) (nf : V) (items : list (K * option (C -> res V))) (count : Z) (key : Q) (ctx : C) : res V :=
  bind (kv_find eq None items count key) (fun found =>
    match found with
    | None => Ok nf
    | Some f => f ctx
    end).

(** src/mc/experimental-factory.h 251-256 and 286-290, 342-346: the factory made from an
    array, and FnFactoryHelper::create: the count is the size of the array *)
Definition fn_create_array {Q K C V} (eq : Q -> K -> res bool) (nf : V) (items : list (K * option (C -> res V))) (key : Q) (ctx : C) : res V :=
  fn_create eq nf items (Z.of_nat (length items)) key ctx.
