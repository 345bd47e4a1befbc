(** Model of the rest of src/exp/uripath-repeater.h: the nested path tables, the
    attributes a node adds to its CoRE link and the observer that writes the listing. *)
From Coq Require Import Ascii String ZArith.
From Verif Require Import Base UriModel DiagModel.
Local Open Scope Z_scope.

(** src/exp/uripath-repeater.h 26: an entry of a nested table: segment and id *)
Record entry : Type := Entry { e_seg : list N; e_id : Z }.

(** src/exp/uripath-repeater.h 322-335, match(UriPathMap2...).  [items] is the array the
    pointer leads to and [count] the number passed with it (a negative int is not
    modelled); reading past the end of the array is a fault. *)
Fixpoint match2 (items : list entry) (count : nat) (s : list N) : res Z :=
  match count with
  | O => Ok NONE
  | S count =>
      match items with
      | [] => Fault
      | c :: items => if str_eqb s (e_seg c) then Ok (e_id c) else match2 items count s
      end
  end.

(** src/exp/uripathmap.h 18-24 as in src/exp/uripath-repeater.h 337: id of the parent, the
    array of its children and the number of them *)
Record relation : Type := Relation { l_key : Z; l_items : list entry; l_count : nat }.

(** src/exp/uripath-repeater.h 337-348, match(triad...); NULL is [None] *)
Fixpoint match_rel (items : list relation) (count : nat) (key : Z) : res (option relation) :=
  match count with
  | O => Ok None
  | S count =>
      match items with
      | [] => Fault
      | c :: items => if l_key c =? key then Ok (Some c) else match_rel items count key
      end
  end.

(** test/unit-tests/experimental2-test.cpp 238-249: the two lookups after one another,
    the relation of the parent first.  The test does the first step on map_root
    directly; no code in src/ combines them. *)
Definition match_nested (rels : list relation) (count : nat) (parent : Z) (s : list N) : res Z :=
  bind (match_rel rels count parent) (fun r =>
    match r with
    | Some r => match2 (l_items r) (l_count r) s
    | None => Ok NONE
    end).

(** src/exp/uripath-repeater.h 411-415, node_core_event::title *)
Definition attr_title (value : list N) : list N := str ";title=" ++ [QUOTE] ++ value ++ [QUOTE].
(** src/exp/uripath-repeater.h 417-420, content_type; operator<< of an unsigned is external *)
Definition attr_ct (value : N) : list N := str ";ct=" ++ digits false 10 value.
(** src/exp/uripath-repeater.h 422-425, size *)
Definition attr_sz (value : N) : list N := str ";sz=" ++ digits false 10 value.

(** src/exp/uripath-repeater.h 429-440, title_tacker::on_notify: what it writes *)
Definition title_tacker : list N := attr_title (str "test").

(** src/exp/uripath-repeater.h 522-531, core_observer: the stack of core_evaluator and the
    text in its stream *)
Record cobs : Type := CObs { o_parents : list row; o_out : list N }.

(** src/exp/uripath-repeater.h 535-549, core_observer::on_notify.  [cap] is the room of
    the stream (256 by default, 522); what the external estd stream does with text that
    does not fit is not known, here it is a fault. *)
Definition co_notify (cap : nat) (coredata : list core_data) (e : row) (o : cobs) : res cobs :=
  bind (core_evaluate coredata e (o_parents o)) (fun x =>
    match fst x with
    | None => Ok (CObs (snd x) (o_out o))
    | Some t =>
        let out := (o_out o ++ t ++ title_tacker ++ [10%N])%list in
        if (List.length out <=? cap)%nat then Ok (CObs (snd x) out) else Fault
    end).

(** src/exp/uripath-repeater.h 202-209 and 300-303, notify with this observer *)
Fixpoint co_walk (cap : nat) (coredata : list core_data) (rows : list row) (o : cobs) : res cobs :=
  match rows with
  | [] => Ok o
  | e :: r => bind (co_notify cap coredata e o) (co_walk cap coredata r)
  end.
