(** RFC 7252 section 3.1 read as a parser of a byte stream.  Numbers and lengths
    are kept modulo 2^16 (the decoder reports uint16_t). *)
From Verif Require Import Base OptSpec.
Local Open Scope N_scope.

(** extended part of a 4-bit field *)
Inductive extres : Type :=
| Got (v : N) (rest : list N)
| Short                       (* stream ends inside the field *)
| Reserved.                   (* nibble 15 *)

Definition take_ext (nb : N) (bs : list N) : extres :=
  if nb <? 13 then Got nb bs
  else match bs with
       | [] => Short
       | a :: r =>
           if nb =? 13 then Got (13 + a) r
           else if nb =? 14 then
             match r with [] => Short | b :: s => Got ((269 + 256 * a + b) mod 65536) s end
           else Reserved
       end.

(** how the stream ends *)
Inductive oend : Type :=
| EndClean                    (* after a complete option (or nothing) *)
| EndMarker (at_ : nat)       (* payload marker; offset of the byte after it *)
| EndReserved                 (* reserved nibble *)
| EndInHead                   (* inside an option header *)
| EndAfterHead (num l : N)    (* right after the header of option num, length l *)
| EndInValue (missing : N).   (* inside an option value *)

(** an option seen: number, length, offset of its value *)
Definition pview : Type := (N * N * nat)%type.

(** [n] bounds the number of options; [length bs] is always enough.  An option
    whose header is complete is seen if at least one byte follows it. *)
Fixpoint oparse (n : nat) (prev : N) (off : nat) (bs : list N) : list pview * oend :=
  match n, bs with
  | _, [] => ([], EndClean)
  | O, _ => ([], EndInHead)
  | S k, b :: r =>
      if b =? 255 then ([], EndMarker (off + 1))
      else match take_ext (b / 16) r with
           | Short => ([], EndInHead)
           | Reserved => ([], EndReserved)
           | Got delta r1 =>
               match take_ext (b mod 16) r1 with
               | Short => ([], EndInHead)
               | Reserved => ([], EndReserved)
               | Got l r2 =>
                   let num := (prev + delta) mod 65536 in
                   let off2 := (off + (length bs - length r2))%nat in
                   match r2 with
                   | [] => ([], EndAfterHead num l)
                   | _ :: _ =>
                       if (length r2 <? N.to_nat l)%nat then ([(num, l, off2)], EndInValue (l - N.of_nat (length r2)))
                       else
                         let '(vs, e) := oparse k num (off2 + N.to_nat l) (skipn (N.to_nat l) r2) in
                         ((num, l, off2) :: vs, e)
                   end
               end
           end
  end.

(** the same as a fact about the options encoded: where their values lie *)
Fixpoint views (prev : N) (off : nat) (os : list opt) : list pview :=
  match os with
  | [] => []
  | (num, v) :: r =>
      let o := (off + length (opt_head (num - prev) (len v)))%nat in
      (num, len v, o) :: views num (o + length v) r
  end.

(** the whole stream *)
Definition parse (prev : N) (off : nat) (bs : list N) : list pview * oend :=
  oparse (length bs) prev off bs.
