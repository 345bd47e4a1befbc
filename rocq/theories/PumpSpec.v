(** What a server that is served one datagram at a time should send, and when. *)
From Coq Require Import String.
From Verif Require Import Base UIntSpec HeaderModel HeaderSpec OptSpec OptDecModel DecoderModel DecoderSpec NetDecSpec RespSpec DiagModel DiagSpec PumpModel.
Local Open Scope N_scope.

(** a waiting line: each turn the first in line leaves, then the new ones queue up *)
Fixpoint line {X} (waiting : list X) (news : list (list X)) : list (option X) * list X :=
  match news with
  | [] => ([], waiting)
  | n :: r => let u := line (tl waiting ++ n) r in (hd_error waiting :: fst u, snd u)
  end.
(** those who left, in order *)
Fixpoint gone {X} (l : list (option X)) : list X :=
  match l with
  | [] => []
  | None :: r => gone r
  | Some x :: r => x :: gone r
  end.
(** the line, [n] long now, never gets longer than [size] *)
Fixpoint fits (size n : nat) (ks : list nat) : bool :=
  match ks with
  | [] => true
  | k :: r => (Nat.pred n + k <=? size)%nat && fits size (Nat.pred n + k) r
  end.

(** what a server says to each turn, without any queues; [cut] is what of a datagram it
    gets *)
Fixpoint news_of {A W T} (cut : list N -> list N) (ap : server A W T) (es : list (event A * W)) (s : T) : res (list (list (A * list N)) * T) :=
  match es with
  | [] => Ok ([], s)
  | (e, w) :: r =>
      bind (match v_poll e with
            | PData a dg => bind (on_request ap w a (cut dg) s) (fun y => Ok ([(a, fst y)], snd y))
            | _ => Ok ([], s)
            end) (fun y =>
        bind (on_turn ap w (snd y)) (fun z =>
          bind (news_of cut ap r (snd z)) (fun u => Ok ((fst y ++ fst z) :: fst u, snd u))))
  end.

(** a turn without errors and without an empty datagram *)
Definition calm {A} (e : event A) : Prop :=
  v_sent e = true /\ match v_poll e with PNone => True | PData _ dg => dg <> [] | PError => False end.

(** a datagram with a header, its token and anything else *)
Record ask (A : Type) : Type := Ask { q_from : A; q_hdr : hdr; q_tok : list N; q_rest : list N }.
Arguments Ask {A}.
Arguments q_from {A}.
Arguments q_hdr {A}.
Arguments q_tok {A}.
Arguments q_rest {A}.
Definition ask_ok {A} (q : ask A) : Prop :=
  hdr_ok (q_hdr q) /\ bytes_ok (q_tok q) /\ h0 (q_hdr q) mod 16 = len (q_tok q) /\ (List.length (q_tok q) <= 8)%nat.
Definition ask_event {A} (q : option (ask A)) : event A :=
  Event true (match q with None => PNone | Some x => PData (q_from x) (hdr_bytes (q_hdr x) ++ q_tok x ++ q_rest x) end).
(** the reply: 2.05 with the same token and message id to the sender *)
Definition pong {A} (q : ask A) : A * list N := (q_from q, answer_head 69 (q_hdr q) (q_tok q)).

(** memory as it may be *)
Definition world_ok (w : world) : Prop := hdr_ok (w_hdr w) /\ idle (w_dec w).

(** ---- the observable server ---- *)

(** a reply, or the notification number [seq] of a client, the [k]-th of all *)
Inductive item : Type := Reply (bs : list N) | Notice (k : N) (tok : list N) (seq : N).
Definition item_ok (i : item) (bs : list N) : Prop :=
  match i with
  | Reply b => bs = b
  | Notice k tok seq => exists v t, be v = seq /\ minimal v /\ bytes_ok v /\ numeral false 10 seq t /\
      bs = wire (Fields 1 1 (len tok) 69 (k mod 65536)) ++ tok ++ opts_bytes 0 [(6, v)] ++ 255 :: str "Observed: " ++ t
  end.

(** the Observe options and the path segments of a message the server looks at (C55) *)
Definition observes (m : msg) : list (list N) := values_of 6 (shown (has (m_pay m)) (m_opts m)).
Definition path_of (m : msg) : list (list N) := values_of 11 (shown (has (m_pay m)) (m_opts m)).

(** one notification for each client, numbered on *)
Fixpoint notices {A} (k : N) (cs : list (A * list N * N)) : list (A * item) :=
  match cs with
  | [] => []
  | (a, tok, n) :: r => (a, Notice k tok (n + 1)) :: notices (k + 1) r
  end.

(** a turn with a message or none, at a time *)
Definition asked (A : Type) : Type := (option (A * msg) * world)%type.

(** what the server owes, turn by turn: a reply to each message; and if more than a
    second has passed since the last round, a notification for every client that has
    registered up to now, as often as it has *)
Fixpoint owed {A} (ts : list (asked A)) (cs : list (A * list N * N)) (k last_round : N) : list (list (A * item)) :=
  match ts with
  | [] => []
  | (q, w) :: r =>
      let cs1 := match q with None => cs | Some (a, m) => cs ++ map (fun _ => (a, m_tok m, 0)) (filter registers (observes m)) end in
      let rep := match q with
                 | None => []
                 | Some (a, m) => [(a, Reply (sent 4096 (last (map observe_code (observes m)) 132) (m_hdr m) (m_tok m) (slashed (path_of m))))]
                 end in
      if 1000 <? w_now w - last_round then
        (rep ++ notices k cs1) :: owed r (map (fun c => (fst c, snd c + 1)) cs1) (k + N.of_nat (List.length cs1)) (w_now w)
      else rep :: owed r cs1 k last_round
  end.

Definition asked_event {A} (t : asked A) : event A * world :=
  (Event true (match fst t with None => PNone | Some (a, m) => PData a (msg_bytes m) end), snd t).
Definition asked_ok {A} (fuel : nat) (t : asked A) : Prop :=
  world_ok (snd t) /\
  match fst t with
  | None => True
  | Some (_, m) => msg_ok m /\ (List.length (m_opts m) < fuel)%nat /\ (List.length (msg_bytes m) <= 4096)%nat /\
      answerable (m_hdr m) /\ (List.length (slashed (path_of m)) <= 127)%nat
  end.
(** how many registrations come in *)
Fixpoint enrolled {A} (ts : list (asked A)) : nat :=
  match ts with
  | [] => 0%nat
  | (Some (_, m), _) :: r => (List.length (filter registers (observes m)) + enrolled r)%nat
  | (None, _) :: r => enrolled r
  end.
