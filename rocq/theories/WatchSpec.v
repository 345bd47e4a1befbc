(** What the observe program makes of any traffic (C92). *)
From Verif Require Import Base HeaderModel OptSpec RespSpec ObserveModel PumpModel PumpSpec PumpAnySpec VisitSpec.
Local Open Scope N_scope.

(** How it ends: with a fault, with exit, or it still runs, with datagrams to send, its clients with
    how often each was notified, the number of the next notification and the time of the last round;
    and what it has sent, turn by turn. *)
Inductive ending (A : Type) : Type :=
| Gone
| Over (out : list (option (A * list N)))
| Going (out : list (option (A * list N))) (queue : list (A * list N)) (subs : list (session A)) (k t : N).
Arguments Gone {A}.
Arguments Over {A}.
Arguments Going {A}.
Definition later {A} (x : option (A * list N)) (o : ending A) : ending A :=
  match o with Gone => Gone | Over l => Over (x :: l) | Going l q s k t => Going (x :: l) q s k t end.

(** an error or an empty datagram *)
Definition closing {A} (v : poll A) : Prop := v = PError \/ exists a, v = PData a [].

(** what it makes of what comes in: the reply and the clients then *)
Definition takes {A} (v : poll A) (subs : list (session A)) (rep : list (A * list N)) (subs1 : list (session A)) : Prop :=
  match v with
  | PNone => rep = [] /\ subs1 = subs
  | PData a dg => exists r news, obs_told 4096 10 (firstn 4096 dg) a subs r news /\ rep = [(a, r)] /\ subs1 = subs ++ news
  | PError => False
  end.

(** at the end of a turn, if more than a second has passed since the last round, every client gets
    the next notification; there are 2^31 - 1 of them in all *)
Definition who {A} (s : session A) : A * list N * N := (os_addr s, os_tok s, os_seq s).
Definition counted {A} (s : session A) : session A := Session (os_seq s + 1) (os_addr s) (os_tok s).
Definition rounded {A} (now : N) (subs : list (session A)) (k t : N) (outs : list (A * list N)) (subs2 : list (session A)) (k2 t2 : N) : Prop :=
  (now <= t + 1000 /\ outs = [] /\ subs2 = subs /\ k2 = k /\ t2 = t) \/
  (t + 1000 < now /\ k2 = k + N.of_nat (length subs) /\ k2 <= 2147483647 /\ subs2 = map counted subs /\ t2 = now /\
   Forall2 (fun o i => fst o = fst i /\ item_ok (snd i) (snd o)) outs (notices k (map who subs))).

(** one datagram goes out each turn; at most [size] wait *)
Inductive watched {A} (size : nat) : list (A * list N) -> list (session A) -> N -> N -> list (event A * world) -> ending A -> Prop :=
| w_end : forall q subs k t, watched size q subs k t [] (Going [] q subs k t)
| w_unsent : forall x q subs k t e m r, v_sent e = false -> watched size (x :: q) subs k t ((e, m) :: r) (Over [None])
| w_exit : forall q subs k t e m r, q = [] \/ v_sent e = true -> closing (v_poll e) -> watched size q subs k t ((e, m) :: r) (Over [hd_error q])
| w_turn : forall q subs k t e m r rep subs1 outs subs2 k2 t2 o, q = [] \/ v_sent e = true -> ~ closing (v_poll e) ->
    takes (v_poll e) subs rep subs1 -> rounded (w_now m) subs1 k t outs subs2 k2 t2 -> (length (tl q ++ rep ++ outs) <= size)%nat ->
    watched size (tl q ++ rep ++ outs) subs2 k2 t2 r o -> watched size q subs k t ((e, m) :: r) (later (hd_error q) o)
| w_deaf : forall q subs k t e m r, q = [] \/ v_sent e = true -> ~ closing (v_poll e) ->
    (forall rep subs1, ~ takes (v_poll e) subs rep subs1) -> watched size q subs k t ((e, m) :: r) Gone
| w_spent : forall q subs k t e m r rep subs1, q = [] \/ v_sent e = true -> ~ closing (v_poll e) ->
    takes (v_poll e) subs rep subs1 -> (forall outs subs2 k2 t2, ~ rounded (w_now m) subs1 k t outs subs2 k2 t2) ->
    watched size q subs k t ((e, m) :: r) Gone
| w_full : forall q subs k t e m r rep subs1 outs subs2 k2 t2, q = [] \/ v_sent e = true -> ~ closing (v_poll e) ->
    takes (v_poll e) subs rep subs1 -> rounded (w_now m) subs1 k t outs subs2 k2 t2 -> (size < length (tl q ++ rep ++ outs))%nat ->
    watched size q subs k t ((e, m) :: r) Gone.
