(** Tables as sets of rows, paths through them, and trees. *)
From Coq Require Import ZArith.
From Verif Require Import Base UriModel.
Local Open Scope Z_scope.

(** [chain rows from path id]: there are rows for the segments of [path], each a
    child of the one before, the first a child of [from], the last being [id]. *)
Inductive chain (rows : list row) : Z -> list (list N) -> Z -> Prop :=
| chain_end : forall p, chain rows p [] p
| chain_step : forall r s path id, In r rows -> r_seg r = s -> chain rows (r_id r) path id -> chain rows (r_parent r) (s :: path) id.

(** the same, the rows being picked from the table without going back *)
Inductive ordered (rows : list row) : Z -> list (list N) -> Z -> Prop :=
| ordered_end : forall p, ordered rows p [] p
| ordered_step : forall pre r post s path id, rows = pre ++ r :: post -> r_seg r = s ->
    ordered (r :: post) (r_id r) path id -> ordered rows (r_parent r) (s :: path) id.

(** no two rows have the same segment under the same parent *)
Definition unique_siblings (rows : list row) : Prop := NoDup (map (fun r => (r_seg r, r_parent r)) rows).

(** a row stands after the row of its parent *)
Definition parents_first (rows : list row) : Prop :=
  forall pre r post, rows = pre ++ r :: post -> forall c, In c pre -> r_parent c <> r_id r.

(** no row has the id -1, which means "no node" *)
Definition ids_real (rows : list row) : Prop := Forall (fun r => r_id r <> NONE) rows.

(** A tree of resources and its table in depth-first order. *)
Inductive tree : Type := Tree (seg : list N) (id : Z) (children : list tree).
Definition t_seg (t : tree) : list N := let 'Tree s _ _ := t in s.
Definition t_id (t : tree) : Z := let 'Tree _ i _ := t in i.
Definition t_children (t : tree) : list tree := let 'Tree _ _ c := t in c.

Fixpoint tree_rows (parent : Z) (t : tree) : list row :=
  match t with Tree s i cs => Row s i parent :: flat_map (tree_rows i) cs end.
Definition forest_rows (ts : list tree) : list row := flat_map (tree_rows NONE) ts.

(** every node with the segments from the root to it, in depth-first order *)
Fixpoint tree_paths (above : list (list N)) (t : tree) : list (Z * list (list N)) :=
  match t with Tree s i cs => (i, above ++ [s]) :: flat_map (tree_paths (above ++ [s])) cs end.
Definition forest_paths (ts : list tree) : list (Z * list (list N)) := flat_map (tree_paths []) ts.

Fixpoint height (t : tree) : nat :=
  match t with Tree _ _ cs => S (fold_right Nat.max 0%nat (map height cs)) end.

(** RFC 6690 text of a link: the path, then the attributes *)
Definition link (path : list (list N)) (v : core_data) : list N :=
  [60%N] ++ concat (map (fun s => 47%N :: s) path) ++ [62%N] ++ core_attrs v.
Definition first_data (coredata : list core_data) (id : Z) : option core_data := find (fun v => cd_node v =? id) coredata.
Definition links (coredata : list core_data) (paths : list (Z * list (list N))) : list (Z * list N) :=
  flat_map (fun x => match first_data coredata (fst x) with Some v => [(fst x, link (snd x) v)] | None => [] end) paths.

(** characters that a plain char holds as a non-negative number *)
Definition ascii (s : list N) : Prop := Forall (fun c => (c < 128)%N) s.
