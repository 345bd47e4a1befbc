(** Specification for the CoRE listing and the nested tables. *)
From Coq Require Import Ascii String ZArith.
From Verif Require Import Base UriModel UriSpec DiagModel UriTableModel.
Local Open Scope Z_scope.

(** one line for each link: the link, the title and the end of the line *)
Definition line (l : list N) : list N := (l ++ str ";title=" ++ [34%N] ++ str "test" ++ [34%N])%list.
Definition listing (ls : list (list N)) : list N := flat_map (fun l => line l ++ [10%N])%list ls.

(** a text cut at its line ends *)
Fixpoint cut (cur t : list N) : list (list N) :=
  match t with
  | [] => []
  | c :: t => if N.eqb c 10 then rev cur :: cut [] t else cut (c :: cur) t
  end.

(** a text up to its next double quote, and what follows *)
Fixpoint quoted (t : list N) : option (list N * list N) :=
  match t with
  | [] => None
  | c :: t => if N.eqb c 34 then Some ([], t) else match quoted t with Some (a, b) => Some (c :: a, b) | None => None end
  end.

(** a character that occurs in no metadata *)
Definition data_free (c : N) (cd : list core_data) : Prop := Forall (fun v => ~ In c (cd_rt v) /\ ~ In c (cd_if v)) cd.

(** nested tables as one flat table: the children of each relation, under its key *)
Definition flat (rels : list relation) : list row :=
  flat_map (fun r => map (fun e => Row (e_seg e) (e_id e) (l_key r)) (firstn (l_count r) (l_items r))) rels.
(** the counts are those of the arrays or less *)
Definition counted (rels : list relation) : Prop := Forall (fun r => l_count r <= List.length (l_items r))%nat rels.
