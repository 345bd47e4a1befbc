(** Who should be told what by a dispatcher. *)
From Verif Require Import Base HeaderModel UriModel UriSpec DispatchModel.
Local Open Scope N_scope.

(** token, option and payload: what goes to the chosen handler *)
Definition middle (c : call) : Prop := match c with OnHeader _ | OnComplete => False | _ => True end.

(** the last handler that answered "always" *)
Fixpoint last_always (ns : list note) : option nat :=
  match ns with
  | [] => None
  | Said i Always :: r => match last_always r with Some j => Some j | None => Some i end
  | _ :: r => last_always r
  end.
Fixpoint first_always (ns : list note) : option nat :=
  match ns with
  | [] => None
  | Said i Always :: _ => Some i
  | _ :: r => first_always r
  end.

(** the deliveries among the notes *)
Definition is_got (n : note) : bool := match n with Got _ _ _ => true | _ => false end.

(** the calls for an option of a message received in one piece *)
Definition opt_calls (o : N * list N) : list call :=
  OnOption (fst o) (N.of_nat (length (snd o)) mod 65536) :: match snd o with [] => [] | v => [OnValue (fst o) v true] end.
Definition options_calls (os : list (N * list N)) : list call := flat_map opt_calls os.

(** a path segment that a dispatcher can see *)
Definition is_segment (o : N * list N) : Prop := fst o = URI_PATH /\ snd o <> [].

(** the two strings agree as far as both go (and are plain ASCII there) *)
Definition agrees (s prefix : list N) : Prop :=
  (ascii prefix /\ exists t, s = prefix ++ t) \/ (ascii s /\ exists t, prefix = s ++ t).

(** [i] is the last of the prefixes that agrees with [s] *)
Definition last_match (prefixes : list (list N)) (s : list N) (i : nat) : Prop :=
  (exists p, nth_error prefixes i = Some p /\ agrees s p) /\
  forall j p, (i < j)%nat -> nth_error prefixes j = Some p -> ~ agrees s p.
Definition no_match (prefixes : list (list N)) (s : list N) : Prop := forall p, In p prefixes -> ~ agrees s p.

(** an observer that writes down what it is told, under its number *)
Definition rec_handler (i : nat) : handler unit (list (nat * call)) :=
  Handler (fun w => (tt, w)) (fun c _ w => (tt, w ++ [(i, c)])) (fun _ _ => Currently).

(** making an object does not touch the rest of the world *)
Definition quiet_new {S W} (h : handler S W) (s : S) : Prop := forall w, h_new h w = (s, w).

(** all the calls but on_complete *)
Definition not_complete (c : call) : bool := match c with OnComplete => false | _ => true end.

(** what a decoder tells of one message: header, token, options, payload, end *)
Definition is_token_call (c : call) : Prop := match c with OnToken _ _ => True | _ => False end.
Definition is_payload_call (c : call) : Prop := match c with OnPayload _ _ => True | _ => False end.
Definition msg_calls (h : hdr) (toks : list call) (os : list (N * list N)) (pays : list call) : list call :=
  OnHeader h :: toks ++ options_calls os ++ pays ++ [OnComplete].

(** a request has a code of class 0 (RFC 7252 section 3) *)
Definition request_code (h : hdr) : Prop := h1 h / 32 = 0.

(** the value of the first item whose (ASCII) key the string starts with *)
Definition first_item {V} (items : list (list N * V)) (s : list N) (v : V) : Prop :=
  exists a k b, items = a ++ (k, v) :: b /\ ascii k /\ (exists t, s = k ++ t) /\
    forall k2 v2, In (k2, v2) a -> ~ (ascii k2 /\ exists t, s = k2 ++ t).
Definition no_item {V} (items : list (list N * V)) (s : list N) : Prop :=
  forall k v, In (k, v) items -> ~ (ascii k /\ exists t, s = k ++ t).

(** option values only, without the calls that announce number and length *)
Definition is_announce (c : call) : bool := match c with OnOption _ _ => true | _ => false end.
Definition values_only (cs : list call) : list call := filter (fun c => negb (is_announce c)) cs.
