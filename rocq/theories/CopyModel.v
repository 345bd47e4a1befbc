(** Model of coap_netbuf_copy (src/exp/misc.hpp) and of ManagedBuffer
    (src/mc/experimental.cpp). *)
From Verif Require Import Base.
Local Open Scope N_scope.

(** The destination netbuf as the function uses it: [t_done] chunks left behind,
    [t_cur] what was written to the current one, [t_room] what still fits there,
    [t_more] the sizes of the chunks after it.  With one chunk this is
    NetBufDynamicExperimental, src/platform/generic/malloc_netbuf.h 16-141, where
    t_room is length_unprocessed() (45) and advance (56-60) moves it. *)
Record dest : Type := Dest { t_done : list (list N); t_cur : list N; t_room : nat; t_more : list nat }.

(** malloc_netbuf.h 83-95: next() does nothing at the end *)
Definition dest_next (d : dest) : dest :=
  match t_more d with
  | [] => d
  | r :: rs => Dest (t_done d ++ [t_cur d]) [] r rs
  end.

(** misc.hpp 32-37: the inner loop and the advance after it.  The source is [None] when
    src_len has wrapped: the first byte read is out of bounds. *)
Definition copy_some (src : option (list N)) (d : dest) : res (option (list N) * dest) :=
  match src with
  | None => match t_room d with O => Ok (None, d) | _ => Fault end
  | Some s =>
      let n := Nat.min (length s) (t_room d) in
      Ok (Some (skipn n s), Dest (t_done d) (t_cur d ++ firstn n s) (t_room d - n) (t_more d))
  end.

(** misc.hpp 30-83: the outer loop; [more] are the chunks of the source after the current
    one (source.next() and source.end() as in malloc_netbuf.h) *)
Fixpoint copy_loop (fuel : nat) (src : option (list N)) (more : list (list N)) (d : dest) : res dest :=
  match fuel with
  | O => NoFuel
  | S k =>
      bind (copy_some src d) (fun x =>
        let d1 := snd x in
        match fst x with
        | Some [] =>
            match more with
            | [] => Ok d1
            | c :: cs => copy_loop k (Some c) cs (if (t_room d1 =? 0)%nat then dest_next d1 else d1)
            end
        | s => copy_loop k s more (dest_next d1)
        end)
  end.

(** misc.hpp 8-84 with reset = false (the default, used by every caller) and skip >= 0;
    [c] is what source.processed() holds.  The check of skip (25-28) has no effect. *)
Definition netbuf_copy (fuel : nat) (c : list N) (more : list (list N)) (skip : nat) (d : dest) : res dest :=
  copy_loop fuel (if (length c <? skip)%nat then None else Some (skipn skip c)) more d.

(** src/mc/experimental.h 543-569: ManagedBuffer; [b_desc] is the array of ten, boundary code
    and position.  b_count and b_cur never pass 10 here. *)
Record mbuf : Type := MB { b_mem : list N; b_desc : list (N * N); b_count : nat; b_cur : nat; b_pos : N }.

(** experimental.cpp 108-115: [mem] and [desc] are whatever the memory holds *)
Definition mb_new (mem : list N) (desc : list (N * N)) : mbuf := MB mem desc 0 0 0.

(** experimental.h 551 *)
Definition mb_size : N := 1024.

(** size_t *)
Definition sz (n : N) : N := n mod 2 ^ 64.
(** no code: a - b in size_t, for a, b below 2^64 *)
Definition sz_sub (a b : N) : N := sz (a + 2 ^ 64 - b).

(** A user writes [bs] to the front of current() (experimental.cpp 20-25): offset b_pos. *)
Definition mb_write (bs : list N) (b : mbuf) : res mbuf :=
  if (b_pos b + N.of_nat (length bs) <=? mb_size) && (length (b_mem b) =? 1024)%nat then
    let p := N.to_nat (b_pos b) in
    Ok (MB (firstn p (b_mem b) ++ bs ++ skipn (p + length bs) (b_mem b)) (b_desc b) (b_count b) (b_cur b) (b_pos b))
  else Fault.

(** experimental.cpp 93-105 *)
Definition mb_boundary (code : N) (position : N) (b : mbuf) : res mbuf :=
  let pos := sz (b_pos b + position) in
  if code =? 0 then Ok (MB (b_mem b) (b_desc b) (b_count b) (b_cur b) pos)
  else if (b_count b <? 10)%nat then
    Ok (MB (b_mem b) (firstn (b_count b) (b_desc b) ++ [(code, pos)] ++ skipn (S (b_count b)) (b_desc b)) (S (b_count b)) (b_cur b) pos)
  else Fault.

(** experimental.cpp 37-45: the loop over what is left of the array up to boundary_count *)
Fixpoint mb_search (ds : list (N * N)) (code : N) : option N :=
  match ds with
  | [] => None
  | (c, p) :: r => if c =? code then Some p else mb_search r code
  end.

(** experimental.cpp 27-62: offset and length of the chunk returned *)
Definition mb_current_ro (code : N) (b : mbuf) : N * N :=
  if code =? 0 then (b_pos b, sz_sub mb_size (b_pos b))
  else
    let e := match mb_search (skipn (b_cur b) (firstn (b_count b) (b_desc b))) code with Some p => p | None => mb_size end in
    (b_pos b, sz_sub e (b_pos b)).

(** experimental.cpp 65-82 *)
Definition mb_next (b : mbuf) : res mbuf :=
  match nth_error (b_desc b) (b_cur b) with
  | None => Fault
  | Some (_, p) => Ok (MB (b_mem b) (b_desc b) (b_count b) (if (b_cur b <? b_count b)%nat then S (b_cur b) else b_cur b) (sz (b_pos b + p)))
  end.

(** experimental.cpp 85-90: the argument is not used *)
Definition mb_reset (reset_boundaries : bool) (b : mbuf) : mbuf := MB (b_mem b) (b_desc b) (b_count b) 0 0.

(** experimental.h 72-90 *)
Definition mb_read (code : N) (b : mbuf) : res ((N * N) * mbuf) :=
  bind (mb_next b) (fun b1 => Ok (mb_current_ro code b, b1)).

(** The bytes of a chunk, if it lies in the buffer. *)
Definition mb_bytes (b : mbuf) (c : N * N) : option (list N) :=
  if fst c + snd c <=? mb_size then Some (firstn (N.to_nat (snd c)) (skipn (N.to_nat (fst c)) (b_mem b))) else None.

(** Segments written one after the other, each behind its boundary code. *)
Fixpoint mb_fill (segs : list (N * list N)) (b : mbuf) : res mbuf :=
  match segs with
  | [] => Ok b
  | (c, bs) :: r => bind (mb_write bs b) (fun b1 => bind (mb_boundary c (N.of_nat (length bs)) b1) (mb_fill r))
  end.
