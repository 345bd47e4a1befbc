(** What a user of an option encoder has to see to: told from what was done so far. *)
From Verif Require Import Base OptEncModel StreambufModel NetbufModel OptObjModel.

(** the option the encoder was last pointed at, [p] at first *)
Definition pointed (p : option nat) (past : list xcall) : option nat :=
  fold_left (fun q c => match c with XNext a | XResume a => Some a | XPause => None | _ => q end) past p.

(** what is at [a], [o] at first *)
Definition there (a : nat) (o : option obase) (past : list xcall) : option obase :=
  fold_left (fun q c => match c with
    | XHere b o' => if Nat.eqb a b then Some o' else q
    | XGone b => if Nat.eqb a b then None else q
    | _ => q end) past o.

(** in between, the option is only left alone, put back or moved *)
Definition between (c : xcall) : Prop :=
  match c with XIterate | XResume _ | XPause | XHere _ _ | XGone _ => True | _ => False end.

Fixpoint turns (cs : list xcall) : nat :=
  match cs with [] => O | XIterate :: r => S (turns r) | _ :: r => turns r end.

(** whenever a byte is asked for, the encoder points at an option equal to [o] *)
Definition served (o : obase) (p : option nat) (m : nat -> option obase) (cs : list xcall) : Prop :=
  forall past rest, cs = past ++ XIterate :: rest -> exists a, pointed p past = Some a /\ there a (m a) past = Some o.

(** the place of the option that was written last, [p] at first *)
Definition last_local (cs : list (nat * sbcall)) (p : option nat) : option nat :=
  fold_left (fun q x => match snd x with COpt _ _ | COptArray _ _ | COptStr _ _ | COptInt _ _ => Some (fst x) | _ => q end) cs p.

(** the calls of a NetBufEncoder that write an option *)
Definition writes_option (c : nbcall) : bool := match c with NOption _ _ | NOptionNone _ | NOptionInt _ _ => true | _ => false end.
