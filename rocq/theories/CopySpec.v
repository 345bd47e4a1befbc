(** What a copy is, and what a buffer with boundaries should give back. *)
From Verif Require Import Base CopyModel.
Local Open Scope N_scope.

(** all bytes in a destination, and the sizes of its chunks *)
Definition dest_bytes (d : dest) : list N := concat (t_done d) ++ t_cur d.
Definition sizes (d : dest) : list nat := map (@length N) (t_done d) ++ (length (t_cur d) + t_room d)%nat :: t_more d.
(** what still fits *)
Definition space (d : dest) : nat := (t_room d + list_sum (t_more d))%nat.

(** where a segment starts: the bytes before it *)
Definition offset (pre : list (N * list N)) : N := N.of_nat (length (concat (map snd pre))).
Definition total (segs : list (N * list N)) : nat := length (concat (map snd segs)).
(** segments a ManagedBuffer can take *)
Definition segs_ok (segs : list (N * list N)) : Prop := (total segs <= 1024)%nat /\ (length segs <= 10)%nat /\ Forall (fun s => fst s <> 0) segs.

(** sum of the end positions of the first segments: where next() takes the reader *)
Fixpoint drift (base : N) (segs : list (N * list N)) : N :=
  match segs with
  | [] => 0
  | (_, bs) :: r => let e := base + N.of_nat (length bs) in e + drift e r
  end.
