(** What the option iterator of NetBufDecoder is shown of any option bytes (C88). *)
From Coq Require Import ZArith.
From Verif Require Import Base HeaderModel OptEncModel OptSpec UriModel AppModel ObserveModel RespModel RespSpec PumpModel PumpAnySpec OptDecModel OptDecSpec DecoderModel DecoderSpec.
Local Open Scope N_scope.

(** The places the decoder passes among the options, in order: the number it has then and what
    [opaque()] gives there.  [TCrash]: an assertion trips on the way. *)
Inductive trail : Type :=
| TEnd
| TCrash
| TStop (n : N) (v : res (list N)) (t : trail).

(** The same place [k] times. *)
Fixpoint again (k : nat) (n : N) (t : trail) : trail :=
  match k with O => t | S j => TStop n (Ok []) (again j n t) end.

(** [k] bytes of a value are missing at the end of the datagram: they are counted down.  The count
    lies where the option header was, and is read as one by [opaque()]. *)
Fixpoint countdown (k : nat) (n : N) : trail :=
  match k with
  | O => TEnd
  | S j => TStop n (if Nat.eqb (k mod 16) 15 then Fault else Ok []) (countdown j n)
  end.

(** An option header, [b] and then [r], that lacks bytes at the end of the datagram: how many it
    lacks, how many places it takes, and the length it gets with zeros for the missing bytes. *)
Definition missing (b : N) (r : list N) : nat := (ext_count (b / 16) + ext_count (b mod 16) - length r)%nat.
Definition wide_last (b : N) : bool := if 13 <=? b mod 16 then b mod 16 =? 14 else b / 16 =? 14.
Definition head_stops (b : N) (r : list N) : nat :=
  (missing b r + if wide_last b && Nat.eqb (missing b r) 1 then 2 else 3)%nat.
Definition zero_len (b : N) (r : list N) : N :=
  match take_ext (b mod 16) (skipn (ext_count (b / 16)) (r ++ [0; 0; 0; 0])) with Got l _ => l | _ => 0 end.

(** The options as in RFC 7252, and where each is seen.  A complete option with something after it
    is seen twice, first with its value and then with none.  [k] bounds the number of options. *)
Fixpoint stops (k : nat) (prev : N) (bs : list N) : trail :=
  match k, bs with
  | _, [] => TEnd
  | O, _ => TEnd
  | S j, b :: r =>
      if b =? 255 then TEnd
      else
        let cut := if (b / 16 =? 15) || (b mod 16 =? 15) then TCrash
                   else again (head_stops b r) (cut_num prev b r) (countdown (N.to_nat (zero_len b r)) (cut_num prev b r)) in
        match take_ext (b / 16) r with
        | Short => cut
        | Reserved => TCrash
        | Got delta r1 =>
            match take_ext (b mod 16) r1 with
            | Short => cut
            | Reserved => TCrash
            | Got l r2 =>
                let num := (prev + delta) mod 65536 in
                let L := N.to_nat l in
                match r2 with
                | [] => again 2 num (countdown L num)
                | _ :: _ =>
                    if (length r2 <=? L)%nat then TStop num (Ok r2) (countdown (L - length r2) num)
                    else TStop num (Ok (firstn L r2)) (TStop num (Ok []) (stops j num (skipn L r2)))
                end
            end
        end
  end.

(** One place in three is looked at, the first after [k] others; only what is read can trip. *)
Fixpoint visits (reads : N -> bool) (k : nat) (t : trail) : res (list (N * list N)) :=
  match t with
  | TEnd => Ok []
  | TCrash => Fault
  | TStop n v t' =>
      match k with
      | S j => visits reads j t'
      | O => bind (if reads n then v else Ok []) (fun w => bind (visits reads 2 t') (fun l => Ok ((n, w) :: l)))
      end
  end.

(** What an example server sees of the bytes after the token. *)
Definition seen (reads : N -> bool) (rest : list N) : res (list (N * list N)) :=
  visits reads 1 (stops (length rest) 0 rest).

(** [r] is the reply of the uri server to the datagram [c], in a netbuf of [cap] bytes: the path it
    has seen, 2.03 if that is test and 4.04 if not. *)
Definition uri_told (cap : nat) (c r : list N) : Prop :=
  exists h tok rest l code, parts c h tok rest /\ answerable h /\ seen (fun n => n =? 11) rest = Ok l /\
    (length (slashed (values_of 11 l)) <= 127)%nat /\
    ((values_of 11 l = [[116; 101; 115; 116]] /\ code = 67) \/ (values_of 11 l <> [[116; 101; 115; 116]] /\ code = 132)) /\
    r = sent cap code h tok (slashed (values_of 11 l)).

(** [r] is the reply of the observe server, with room for [size] sessions, and [news] the sessions it adds *)
Definition obs_told {A} (cap size : nat) (c : list N) (a : A) (regs : list (session A)) (r : list N) (news : list (session A)) : Prop :=
  exists h tok rest l, parts c h tok rest /\ answerable h /\ seen (fun n => (n =? 11) || (n =? 6)) rest = Ok l /\
    (length (slashed (values_of 11 l)) <= 127)%nat /\
    r = sent cap (last (map observe_code (values_of 6 l)) 132) h tok (slashed (values_of 11 l)) /\
    news = repeat (Session 0 a tok) (length (filter registers (values_of 6 l))) /\ (length regs + length news <= size)%nat.

(** [r] is the reply of the discoverable server *)
Definition core_told (cap : nat) (rows : list row) (cd : list core_data) (extra : Z -> list N) (core : Z) (c r : list N) : Prop :=
  exists h tok rest l, parts c h tok rest /\ answerable h /\ seen (fun n => (n =? 11) || (n =? 15)) rest = Ok l /\
    let found := m3_found (snd (m3_path (values_of 11 l) (m3_init rows))) in
    (found = NONE /\ r = answer_head 132 h tok ++ [255]) \/
    (found <> NONE /\ found <> core /\ r = answer_head 69 h tok ++ [255]) \/
    (found = core /\ exists t, core_text cd extra rows (cap - (5 + length tok)) = Ok t /\ r = answer_head 69 h tok ++ 255 :: t).
