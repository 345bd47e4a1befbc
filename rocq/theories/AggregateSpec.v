(** What an aggregate of observers or factories and a served queue should give. *)
From Verif Require Import Base HeaderModel DecoderModel DecoderSpec DispatchModel SubjectSpec.
Local Open Scope N_scope.

(** the calls that arrive *)
Definition heard (c : call) : bool := match c with OnPayload _ _ | OnComplete => false | _ => true end.

(** everyone of [n] gets each call, call by call, in the order of the pack *)
Definition everyone (n : nat) (cs : list call) : list (nat * call) :=
  flat_map (fun c => map (fun i => (i, c)) (seq 0 n)) (filter heard cs).

(** what observer [i] is told *)
Definition told (i : nat) (l : list (nat * call)) : list call := map snd (filter (fun x => Nat.eqb (fst x) i) l).

(** the effect of one call on an object made for it *)
Definition effect {S W} (os : list (N * handler S W)) (w : W) (x : nat * call) : W :=
  match nth_error os (fst x) with
  | Some (_, h) => let '(s, w0) := h_new h w in snd (h_call h (snd x) s w0)
  | None => w
  end.

Definition sizes {S W} (os : list (N * handler S W)) : N := fold_right (fun o a => fst o + a) 0 os.

(** a queue of messages, each in one piece, from anywhere *)
Definition whole {A} (xs : list (A * msg)) : list (A * list (list N)) := map (fun x => (fst x, [msg_bytes (snd x)])) xs.

(** the calls of a message each, for every second message only *)
Fixpoint every_second (again : bool) (ms : list msg) : list (list call) :=
  match ms with
  | [] => []
  | m :: r =>
      ((if again then [OnComplete] else []) ++ msg_calls m) ::
      match r with [] => [] | _ :: r2 => [] :: every_second true r2 end
  end.
