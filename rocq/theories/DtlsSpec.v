(** What a turn of the DTLS echo server should come to, and what a delay timer promises. *)
From Coq Require Import ZArith.
From Verif Require Import Base DtlsModel.
Local Open Scope Z_scope.

(** the answer a repeated call ends with: the first that is not a request to try again;
    [n] calls were made *)
Definition settles {R} (again : R -> Prop) (rs : list R) (n : nat) (r : R) : Prop :=
  exists pre post, rs = pre ++ r :: post /\ Forall again pre /\ ~ again r /\ n = S (length pre).
(** the numbers mbedtls gives to its errors, in its own notation *)
Definition codes_ok : Prop :=
  WANT_READ = -0x6900 /\ WANT_WRITE = -0x6880 /\ SSL_TIMEOUT = -0x6800 /\ HELLO_VERIFY = -0x6A80 /\ CLOSE_NOTIFY = -0x7880.
Definition again (z : Z) : Prop := z = WANT_READ \/ z = WANT_WRITE.
Definition again_read (r : reading) : Prop := match r with RData _ => False | RErr e => again (Z.neg e) end.
Definition again_write (z : Z) : Prop := z = WANT_WRITE.

(** the ways a turn can end: *ret and the result *)
Inductive ends (t : turn) : Z -> bool -> Prop :=
| E_accept : t_accept t <> 0 -> ends t (t_accept t) false
| E_id : t_accept t = 0 -> t_id t <> 0 -> ends t (t_id t) false
| E_hello : forall n, t_accept t = 0 -> t_id t = 0 -> settles again (t_shake t) n HELLO_VERIFY -> ends t 0 true
| E_shake : forall n r, t_accept t = 0 -> t_id t = 0 -> settles again (t_shake t) n r -> r <> HELLO_VERIFY -> r <> 0 -> ends t r true
| E_nothing : forall n k, t_accept t = 0 -> t_id t = 0 -> settles again (t_shake t) n 0 -> settles again_read (t_read t) k (RData []) -> ends t 0 true
| E_error : forall n k e, t_accept t = 0 -> t_id t = 0 -> settles again (t_shake t) n 0 -> settles again_read (t_read t) k (RErr e) ->
    Z.neg e <> CLOSE_NOTIFY -> ends t (Z.neg e) true
| E_closed : forall n k e c z, t_accept t = 0 -> t_id t = 0 -> settles again (t_shake t) n 0 -> settles again_read (t_read t) k (RErr e) ->
    Z.neg e = CLOSE_NOTIFY -> settles again_write (t_close t) c z -> ends t 0 true
| E_write : forall n k x bs w r, t_accept t = 0 -> t_id t = 0 -> settles again (t_shake t) n 0 -> settles again_read (t_read t) k (RData (x :: bs)) ->
    settles again (t_write t) w r -> r < 0 -> ends t r false
| E_done : forall n k x bs w r c z, t_accept t = 0 -> t_id t = 0 -> settles again (t_shake t) n 0 -> settles again_read (t_read t) k (RData (x :: bs)) ->
    settles again (t_write t) w r -> 0 <= r -> settles again_write (t_close t) c z -> ends t 0 true.

(** the calls made, by how far the turn gets: each repeated call exactly until it settles *)
Inductive did (t : turn) : list lib -> Prop :=
| D_accept : t_accept t <> 0 -> did t [LFree; LReset; LAccept]
| D_id : t_accept t = 0 -> t_id t <> 0 -> did t [LFree; LReset; LAccept; LId (t_ip t)]
| D_shake : forall n r, t_accept t = 0 -> t_id t = 0 -> settles again (t_shake t) n r -> r <> 0 ->
    did t ([LFree; LReset; LAccept; LId (t_ip t)] ++ LBio :: repeat LShake n)
| D_read : forall n k r, t_accept t = 0 -> t_id t = 0 -> settles again (t_shake t) n 0 -> settles again_read (t_read t) k r ->
    (forall e, r = RErr e -> Z.neg e <> CLOSE_NOTIFY) /\ (forall x bs, r <> RData (x :: bs)) ->
    did t ([LFree; LReset; LAccept; LId (t_ip t)] ++ (LBio :: repeat LShake n) ++ repeat (LRead (N.to_nat 8191)) k)
| D_closed : forall n k e c z, t_accept t = 0 -> t_id t = 0 -> settles again (t_shake t) n 0 -> settles again_read (t_read t) k (RErr e) ->
    Z.neg e = CLOSE_NOTIFY -> settles again_write (t_close t) c z ->
    did t ([LFree; LReset; LAccept; LId (t_ip t)] ++ (LBio :: repeat LShake n) ++ repeat (LRead (N.to_nat 8191)) k ++ repeat LClose c)
| D_write : forall n k x bs w r, t_accept t = 0 -> t_id t = 0 -> settles again (t_shake t) n 0 -> settles again_read (t_read t) k (RData (x :: bs)) ->
    settles again (t_write t) w r -> r < 0 ->
    did t ([LFree; LReset; LAccept; LId (t_ip t)] ++ (LBio :: repeat LShake n) ++ repeat (LRead (N.to_nat 8191)) k ++
           repeat (LWrite (firstn (N.to_nat 8191) (x :: bs))) w)
| D_done : forall n k x bs w r c z, t_accept t = 0 -> t_id t = 0 -> settles again (t_shake t) n 0 -> settles again_read (t_read t) k (RData (x :: bs)) ->
    settles again (t_write t) w r -> 0 <= r -> settles again_write (t_close t) c z ->
    did t ([LFree; LReset; LAccept; LId (t_ip t)] ++ (LBio :: repeat LShake n) ++ repeat (LRead (N.to_nat 8191)) k ++
           repeat (LWrite (firstn (N.to_nat 8191) (x :: bs))) w ++ repeat LClose c).

(** what the client gets: the library took [n] bytes of the last write *)
Definition echoed (l : list lib) (n : Z) : list N :=
  match rev (flat_map (fun c => match c with LWrite b => [b] | _ => [] end) l) with
  | b :: _ => firstn (Z.to_nat n) b
  | [] => []
  end.

(** a text as printed *)
Fixpoint upto_zero (b : list N) : list N := match b with [] => [] | x :: r => if (x =? 0)%N then [] else x :: upto_zero r end.

(** the socket is opened and closed in turn, and used only while open *)
Fixpoint tidy (open : bool) (ds : list deed) : Prop :=
  match ds with
  | [] => True
  | DSetup r :: q => open = false /\ tidy true q
  | DTurn _ :: q => open = true /\ tidy open q
  | DShutdown :: q => open = true /\ tidy false q
  end.
(** turns after which all is set up again *)
Definition upset (t : turn) : Prop := exists r go, ends t r go /\ (r <> 0 \/ go = false).
Definition smooth (t : turn) : Prop := ends t 0 true.

(** the calls of a turn *)
Definition calls (t : turn) (l : list lib) (r : Z) (go : bool) : Prop := exists s, dtls_loop t = Ok (l, s, r, go).
(** while the last setup gave 0: a turn; after a bad one the socket is closed and the next
    setup is tried *)
Inductive going : Z -> list turn -> list Z -> list deed -> option Z -> Prop :=
| G_end : forall s ts ss, s <> 0 -> going s ts ss [] (Some s)
| G_still : forall ss, going 0 [] ss [] None
| G_good : forall t ts ss l ds r, calls t l 0 true -> going 0 ts ss ds r -> going 0 (t :: ts) ss (DTurn l :: ds) r
| G_bad : forall t ts ss l q go s ds r, calls t l q go -> (q <> 0 \/ go = false) -> going s ts ss ds r ->
    going 0 (t :: ts) (s :: ss) (DTurn l :: DShutdown :: DSetup s :: ds) r.
(** the daemon: set up, go on, and close the socket at the end *)
Definition runs (s : Z) (ts : list turn) (ss : list Z) (ds : list deed) (r : option Z) : Prop :=
  exists ds', going s ts ss ds' r /\ ds = DSetup s :: ds' ++ (if r then [DShutdown] else []).
(** how often the socket was closed, and the turns served *)
Definition restarts (ds : list deed) : nat := length (filter (fun d => match d with DShutdown => true | _ => false end) ds).
Definition served (ds : list deed) : list (list lib) := flat_map (fun d => match d with DTurn l => [l] | _ => [] end) ds.

(** an attempt at a handshake *)
Definition accepted (t : turn) : Prop :=
  t_accept t = 0 /\ t_id t = 0 /\ exists n r, settles again (t_shake t) n r /\ (r = 0 \/ r = HELLO_VERIFY).
Definition failed (t : turn) (z : Z) : Prop :=
  (t_accept t <> 0 /\ z = t_accept t) \/
  (t_accept t = 0 /\ t_id t <> 0 /\ z = t_id t) \/
  (t_accept t = 0 /\ t_id t = 0 /\ exists n, settles again (t_shake t) n z /\ z <> 0 /\ z <> HELLO_VERIFY).

(** an attempt: the calls made, *ret, and the result *)
Inductive attempts (t : turn) : list lib -> Z -> bool -> Prop :=
| T_accept : t_accept t <> 0 -> attempts t [LFree; LReset; LAccept] (t_accept t) false
| T_id : t_accept t = 0 -> t_id t <> 0 -> attempts t [LFree; LReset; LAccept; LId (t_ip t)] (t_id t) false
| T_shake : forall n z, t_accept t = 0 -> t_id t = 0 -> settles again (t_shake t) n z -> z <> 0 -> z <> HELLO_VERIFY ->
    attempts t ([LFree; LReset; LAccept; LId (t_ip t)] ++ LBio :: repeat LShake n) z false
| T_done : forall n z, t_accept t = 0 -> t_id t = 0 -> settles again (t_shake t) n z -> z = 0 \/ z = HELLO_VERIFY ->
    attempts t ([LFree; LReset; LAccept; LId (t_ip t)] ++ LBio :: repeat LShake n) 0 true.

(** the contract of a delay timer: -1 for no delay, else which of the two delays have
    passed after [e] milliseconds *)
Definition delay_state (passed : N -> bool) (int_ms fin_ms : N) : Z :=
  if (fin_ms =? 0)%N then -1 else if passed fin_ms then 2 else if passed int_ms then 1 else 0.
