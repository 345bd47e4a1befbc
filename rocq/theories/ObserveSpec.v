(** What the observers of a subject should be sent, computed from the history of
    requests and notification rounds alone. *)
From Verif Require Import Base UIntSpec HeaderModel HeaderSpec OptSpec ContextModel ObserveModel.
Local Open Scope N_scope.

(** the token of a request *)
Definition req_token (c : ctx) : list N := firstn (N.to_nat (hdr_tkl (c_hdr c))) (c_buf c).

(** how often subject [i] was notified in a history *)
Fixpoint rounds {A} (i : nat) (h : list (oop A)) : N :=
  match h with
  | [] => 0
  | ONotify j :: r => (if Nat.eqb j i then 1 else 0) + rounds i r
  | _ :: r => rounds i r
  end.

(** who registered for subject [i] (Observe = 0), with the number of rounds since *)
Fixpoint subs {A} (i : nat) (h : list (oop A)) : list (A * list N * N) :=
  match h with
  | [] => []
  | OObserve j c a code :: r => if Nat.eqb j i && (code =? 0) then (a, req_token c, rounds i r) :: subs i r else subs i r
  | ONotify _ :: r => subs i r
  end.

(** the notifications of a history that follows [pre]: at every round of a subject
    each of its subscribers, in order of registration, with the next number *)
Fixpoint sends {A} (pre h : list (oop A)) : list (A * list N * N) :=
  match h with
  | [] => []
  | o :: r =>
      match o with
      | ONotify i => map (fun x => let '(a, t, n) := x in (a, t, n + 1)) (subs i pre)
      | OObserve _ _ _ _ => []
      end ++ sends (pre ++ [o]) r
  end.

(** the answers to the requests: 2.03 or 4.02 *)
Fixpoint answers {A} (h : list (oop A)) : list N :=
  match h with
  | [] => []
  | OObserve _ _ _ code :: r => (if code <=? 1 then 67 else 130) :: answers r
  | ONotify _ :: r => answers r
  end.

(** what was sent, and what was answered *)
Fixpoint sent {A} (outs : list (oout A)) : list (A * list N) :=
  match outs with
  | [] => []
  | OSend a bs :: r => (a, bs) :: sent r
  | OReply _ :: r => sent r
  end.
Fixpoint answered {A} (outs : list (oout A)) : list N :=
  match outs with
  | [] => []
  | OReply c :: r => c :: answered r
  | OSend _ _ :: r => answered r
  end.

(** the sent datagrams against the expected ones, the [k]-th being related by [R k] *)
Fixpoint matches {A} (R : N -> list N -> N -> list N -> Prop) (k : N) (xs : list (A * list N)) (es : list (A * list N * N)) : Prop :=
  match xs, es with
  | [], [] => True
  | (a, bs) :: r, (a', tok, seq) :: r' => a = a' /\ R k tok seq bs /\ matches R (k + 1) r r'
  | _, _ => False
  end.

(** a NON 2.05 message with message id [k] mod 65536, the token, and as first option
    Observe (6) with value [seq] in the shortest form; then anything *)
Definition notification (k : N) (tok : list N) (seq : N) (bs : list N) : Prop :=
  exists v rest, be v = seq /\ minimal v /\ bytes_ok v /\
    bs = wire (Fields 1 1 (len tok) 69 (k mod 65536)) ++ tok ++ opts_bytes 0 [(6, v)] ++ rest.

(** every request carries a token of at most 8 bytes *)
Definition req_ok {A} (o : oop A) : Prop :=
  match o with
  | OObserve _ c _ _ => hdr_tkl (c_hdr c) <= 8 /\ length (c_buf c) = 8%nat
  | ONotify _ => True
  end.

(** registrations for subject [i] *)
Fixpoint registrations {A} (i : nat) (h : list (oop A)) : nat :=
  match h with
  | [] => 0%nat
  | OObserve j _ _ code :: r => Nat.add (if Nat.eqb j i && (code =? 0) then 1%nat else 0%nat) (registrations i r)
  | ONotify _ :: r => registrations i r
  end.
