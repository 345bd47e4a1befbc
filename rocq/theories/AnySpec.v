(** What the boilerplate server reads out of any datagram at all (C83). *)
From Verif Require Import Base HeaderModel OptSpec OptDecSpec DecoderSpec SbDecSpec HeadCutSpec.
Local Open Scope N_scope.

(** the Uri-Path values among the options seen; of a value that runs over the end of a segment
    only the part inside the segment *)
Definition path_in (L : list (list N)) (vs : list pview) : list (list N) :=
  flat_map (fun v => let '(num, l, o) := v in if num =? 11 then [firstn (N.to_nat l) (hd [] (drop o L))] else []) vs.

(** the datagram as the header and token are read from it: 0xFF behind the end *)
Definition padded_with_ff (bs : list N) : list N := bs ++ repeat 255 19.
Definition read_header (bs : list N) : hdr :=
  let p := padded_with_ff bs in Hdr (nth 0 p 0) (nth 1 p 0) (nth 2 p 0) (nth 3 p 0).
Definition read_token (bs : list N) : list N := firstn (N.to_nat (h0 (read_header bs) mod 16)) (skipn 4 (padded_with_ff bs)).
(** what is left for options and payload *)
Definition read_rest (bs : list N) : list N := skipn (4 + length (read_token bs)) bs.

(** what becomes of a datagram: the receiver runs into an assertion or undefined behaviour, or it
    takes the datagram for a message with this path *)
Inductive reading := Stops | Hears (path : list (list N)).

(** [neg]: the end of the data is announced as a negative count *)
Definition reads (neg : bool) (L : list (list N)) (o : reading) : Prop :=
  let bs := concat L in
  let k := length (read_token bs) in
  if (8 <? k)%nat then o = Stops else
  let '(vs, e) := parse 0 (4 + k) (read_rest bs) in
  let empty_if n := if n =? 11 then [[]] else [] in
  match e with
  | EndClean | EndMarker _ => o = Hears (path_in L vs)
  | EndReserved => o = Stops
  | EndInValue _ => o = if neg then Stops else Hears (path_in L vs)
  | EndAfterHead num _ => o = if neg then Stops else Hears (path_in L vs ++ empty_if num)
  | EndInHead =>
      if neg then o = Stops else exists pre b r, cut_after 0 (4 + k) (read_rest bs) pre b r vs /\
        o = if (b / 16 =? 15) || (b mod 16 =? 15) then Stops else Hears (path_in L vs ++ empty_if (cut_num (last_num vs 0) b r))
  end.
