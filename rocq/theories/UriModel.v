(** Model of src/exp/uripathmap.h, src/exp/uripath-repeater.h (path lookup and CoRE
    links) and of the two starts_with functions and the factory lookup. *)
From Coq Require Import ZArith.
From Verif Require Import Base.
Local Open Scope Z_scope.

(** src/exp/uripathmap.h 18-28: a row of the table: segment, id, id of the parent.
    Strings are lists of characters; comparison of estd strings is external and
    taken to be equality. *)
Record row : Type := Row { r_seg : list N; r_id : Z; r_parent : Z }.

(** src/exp/uripathmap.h 15 *)
Definition NONE : Z := -1.

(** operator== of estd strings (external), used in src/exp/uripathmap.h 30-90. *)
Fixpoint str_eqb (a b : list N) : bool :=
  match a, b with
  | [], [] => true
  | x :: a, y :: b => N.eqb x y && str_eqb a b
  | _, _ => false
  end.

(** src/exp/uripathmap.h 30-43, match *)
Fixpoint match_row (items : list row) (s : list N) (parent : Z) : option row :=
  match items with
  | [] => None
  | r :: rest => if str_eqb s (r_seg r) && (r_parent r =? parent) then Some r else match_row rest s parent
  end.

(** src/exp/uripathmap.h 45-96, UriPathMatcher3: the rows from _current to _end and
    parent_id, an optional whose "no value" is -1 (estd::layer1::optional, external). *)
Record m3 : Type := M3 { m_rest : list row; m_parent : Z }.

(** src/exp/uripathmap.h 53-58 *)
Definition m3_init (paths : list row) : m3 := M3 paths NONE.

(** src/exp/uripathmap.h 61-90, find *)
Fixpoint m3_scan (rest : list row) (parent : Z) (uripath : list N) : option row * m3 :=
  match rest with
  | [] => (None, M3 [] NONE)
  | r :: rest' =>
      if r_parent r =? parent then
        if str_eqb (r_seg r) uripath then (Some r, M3 (r :: rest') (r_id r)) else m3_scan rest' parent uripath
      else m3_scan rest' parent uripath
  end.
(** src/exp/uripathmap.h 61-90 *)
Definition m3_find (uripath : list N) (m : m3) : option row * m3 := m3_scan (m_rest m) (m_parent m) uripath.

(** src/exp/uripathmap.h 92-95 and decoder/observer/util.h 41-49 (found_node) *)
Definition m3_found (m : m3) : Z := m_parent m.

(** find for each segment of a path in turn (test/posix/discoverable/main.cpp 85-104,
    decoder/observer/util.h 74-103) *)
Fixpoint m3_path (path : list (list N)) (m : m3) : list (option row) * m3 :=
  match path with
  | [] => ([], m)
  | s :: p => let '(r, m1) := m3_find s m in let '(rs, m2) := m3_path p m1 in (r :: rs, m2)
  end.

(** src/exp/uripath-repeater.h 163-189, UriPathMatcherBase::find: the result, -1 for
    none, and what is left of the range *)
Fixpoint base_find (uri_piece : list N) (within : Z) (start_from : list row) : Z * list row :=
  match start_from with
  | [] => (NONE, [])
  | r :: rest => if str_eqb uri_piece (r_seg r) && (r_parent r =? within) then (r_id r, r :: rest) else base_find uri_piece within rest
  end.

(** src/exp/uripath-repeater.h 226-290, UriPathMatcher2: the container, last_found
    and last_pos *)
Record m2 : Type := M2 { m2_rows : list row; m2_found : Z; m2_pos : list row }.
(** src/exp/uripath-repeater.h 255-260 *)
Definition m2_init (rows : list row) : m2 := M2 rows NONE rows.
(** src/exp/uripath-repeater.h 272-276 *)
Definition m2_lookup (uri_piece : list N) (within : Z) (m : m2) : Z := fst (base_find uri_piece within (m2_rows m)).
(** src/exp/uripath-repeater.h 282-290 *)
Definition m2_find (uri_piece : list N) (m : m2) : Z * m2 :=
  let '(found, pos) := base_find uri_piece (if m2_found m =? NONE then NONE else m2_found m) (m2_pos m) in
  (found, M2 (m2_rows m) found pos).

(** src/exp/uripath-repeater.h 30-43: CoREData without the members nothing reads *)
Record core_data : Type := CoreData { cd_node : Z; cd_rt : list N; cd_if : list N }.

(** the characters [;rt="] and [;if="], the double quote, [<], [>] and [/] *)
Definition txt_rt : list N := [59; 114; 116; 61; 34]%N.
(** src/exp/uripath-repeater.h 110-122: the start of the if attribute *)
Definition txt_if : list N := [59; 105; 102; 61; 34]%N.
(** src/exp/uripath-repeater.h 110-122: the double quote *)
Definition QUOTE : N := 34%N.

(** src/exp/uripath-repeater.h 110-122, operator<< for CoREData *)
Definition core_attrs (v : core_data) : list N :=
  (match cd_rt v with [] => [] | s => txt_rt ++ s ++ [QUOTE] end) ++
  (match cd_if v with [] => [] | s => txt_if ++ s ++ [QUOTE] end).

(** src/exp/uripath-repeater.h 465-466, the loop of parent_handler.  The stack is kept with its
    top first; more than 10 entries (456) do not fit: a fault. *)
Fixpoint pop_until (parent : Z) (parents : list row) : list row :=
  match parents with
  | [] => []
  | t :: r => if r_id t =? parent then t :: r else pop_until parent r
  end.
(** src/exp/uripath-repeater.h 461-471 *)
Definition parent_handler (e : row) (parents : list row) : res (list row) :=
  let p := pop_until (r_parent e) parents in
  if (length p <? 10)%nat then Ok (e :: p) else Fault.

(** src/exp/uripath-repeater.h 487-491 *)
Fixpoint core_lookup (coredata : list core_data) (node : Z) : option core_data :=
  match coredata with
  | [] => None
  | v :: r => if cd_node v =? node then Some v else core_lookup r node
  end.

(** src/exp/uripath-repeater.h 498-511, in evaluate: the text for this node, if any;
    the output stream is taken to be large enough *)
Definition link_text (parents : list row) (v : core_data) : list N :=
  [60%N] ++ concat (map (fun p => 47%N :: r_seg p) (rev parents)) ++ [62%N] ++ core_attrs v.
(** src/exp/uripath-repeater.h 478-519 *)
Definition core_evaluate (coredata : list core_data) (e : row) (parents : list row) : res (option (list N) * list row) :=
  bind (parent_handler e parents) (fun ps =>
    Ok (match core_lookup coredata (r_id e) with Some v => Some (link_text ps v) | None => None end, ps)).

(** A walk over a table (uripath-repeater.h 202-209, 300-303): for each row with
    metadata its id and its text. *)
Fixpoint core_walk (coredata : list core_data) (rows : list row) (parents : list row) : res (list (Z * list N) * list row) :=
  match rows with
  | [] => Ok ([], parents)
  | e :: r =>
      bind (core_evaluate coredata e parents) (fun x =>
        bind (core_walk coredata r (snd x)) (fun y =>
          Ok ((match fst x with Some t => [(r_id e, t)] | None => [] end) ++ fst y, snd y)))
  end.

(** src/coap-uripath-dispatcher.h 15-23: the prefix is a C string of plain (signed)
    chars, the segment unsigned bytes, so a char of 128 and above is negative after
    promotion and equals no byte. *)
Definition char_eqb (prefix_char byte : N) : bool := N.eqb prefix_char byte && N.ltb prefix_char 128.
(** src/coap-uripath-dispatcher.h 15-23 *)
Fixpoint dispatcher_starts_with (s prefix : list N) {struct prefix} : bool :=
  match prefix with
  | [] => true
  | p :: prefix' =>
      match s with
      | [] => true
      | c :: s' => if char_eqb p c then dispatcher_starts_with s' prefix' else false
      end
  end.

(** src/mc/experimental-factory.h 124-139 *)
Fixpoint factory_starts_with (s prefix : list N) {struct prefix} : bool :=
  match prefix with
  | [] => true
  | p :: prefix' =>
      match s with
      | [] => false
      | c :: s' => if char_eqb p c then factory_starts_with s' prefix' else false
      end
  end.

(** src/mc/experimental-factory.h 55-91 with KeyTraits<const char*> (149-161) and
    create (262-272): the value of the first item whose key starts the segment *)
Fixpoint factory_find {V} (items : list (list N * V)) (key : list N) : option V :=
  match items with
  | [] => None
  | (k, v) :: r => if factory_starts_with key k then Some v else factory_find r key
  end.
