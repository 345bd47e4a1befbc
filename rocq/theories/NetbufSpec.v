(** What a caller of NetBufEncoder expects. *)
From Verif Require Import Base OptSpec HeaderModel OptEncModel StreambufModel NetbufModel.
Local Open Scope N_scope.

(** the options for which a value option call is right: 1 to 12 bytes, and the
    sporadic long ones *)
Definition nb_guard (d l : N) : Prop := 0 < l /\ (enc_short d l \/ enc_long d l).

(** A caller that, while option_header says false, hands over the next chunk and
    repeats the call. *)
Fixpoint header_retry (caps : list nat) (num l : N) (b : nbenc) : res (bool * nbenc) :=
  bind (nbe_option_header num l b) (fun r =>
    if fst r then Ok r
    else match caps with
         | [] => Ok r
         | c :: cs => header_retry cs num l (nbe_more c (snd r))
         end).

(** A caller of option that knows whether the header or the value was cut: in the
    first case it repeats the call, in the second it calls again with the rest of
    the value. *)
Definition value_cut (b : nbenc) : bool := ostate_eqb (e_st (n_enc b)) OptionValue.
Fixpoint option_retry (caps : list nat) (num : N) (v : list N) (b : nbenc) : res (bool * nbenc) :=
  bind (nbe_option num v true b) (fun r =>
    if fst r then Ok r
    else match caps with
         | [] => Ok r
         | c :: cs =>
             let rest := if value_cut (snd r) then skipn (match n_written (snd r) with Some n => n | None => 0 end) v else v in
             option_retry cs num rest (nbe_more c (snd r))
         end).

Definition total (caps : list nat) : nat := fold_right Nat.add 0%nat caps.
