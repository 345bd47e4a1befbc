(** The DTLS echo server, its daemon, the DTLS server class and the delay timer. *)
From Coq Require Import ZArith.
From Verif Require Import Base DtlsModel DtlsSpec DtlsProofs.
Local Open Scope Z_scope.

(** A turn returns exactly in the ways of [ends], with that *ret and that result. *)
Theorem C65_ends : forall t r go, (exists l s, dtls_loop t = Ok (l, s, r, go)) <-> ends t r go.
Proof. exact dtls_loop_ends. Qed.
Print Assumptions C65_ends.

(** It stays inside its buffer, whatever record arrives: also the text printed ends there. *)
Theorem C65_safe : forall t, dtls_loop t <> Fault.
Proof. exact dtls_loop_fault. Qed.
Print Assumptions C65_safe.

(** The calls it makes, in all cases: each phase is entered only if the one before went
    well, each call is repeated exactly until it settles, and the connection is closed iff
    the client closed it or a reply was written. *)
Theorem C65_calls : forall t l s r go, dtls_loop t = Ok (l, s, r, go) -> did t l.
Proof. exact dtls_loop_calls. Qed.
Print Assumptions C65_calls.

(** It asks to stop iff no client could be taken or the reply could not be written. *)
Theorem C65_stops : forall t l s r go, dtls_loop t = Ok (l, s, r, go) ->
  (go = false <-> t_accept t <> 0 \/ t_id t <> 0 \/
     exists n k x bs w z, settles again (t_shake t) n 0 /\ settles again_read (t_read t) k (RData (x :: bs)) /\ settles again (t_write t) w z /\ z < 0).
Proof.
  intros t l s r go E. assert (X : ends t r go) by (apply C65_ends; eauto). split.
  - intros ->. remember false as g eqn:G. destruct X; try discriminate; [auto|auto|]. right. right. exists n, k, x, bs, w, r. auto.
  - intros H. destruct (Z.eq_dec (t_accept t) 0) as [A|A]; [|exact (eq_sym (proj2 (ends_one _ _ _ _ _ (E_accept t A) X)))].
    destruct (Z.eq_dec (t_id t) 0) as [I|I]; [|exact (eq_sym (proj2 (ends_one _ _ _ _ _ (E_id t A I) X)))].
    destruct H as [H|[H|(n & k & x & bs & w & z & S & R & W & L)]]; try contradiction.
    exact (eq_sym (proj2 (ends_one _ _ _ _ _ (E_write t n k x bs w z A I S R W L) X))).
Qed.
Print Assumptions C65_stops.

(** The regular case: one client, one record, one reply, and the connection is closed; the
    cookie is bound to the address accept gave.  The reply is what was taken of at most 8191
    bytes of the record. *)
Theorem C65_echo : forall t n k x bs w r c z, t_accept t = 0 -> t_id t = 0 -> settles again (t_shake t) n 0 ->
  settles again_read (t_read t) k (RData (x :: bs)) -> settles again (t_write t) w r -> 0 <= r -> settles again_write (t_close t) c z ->
  let got := firstn (N.to_nat 8191) (x :: bs) in
  exists l s, dtls_loop t = Ok (l, s, 0, true) /\ echoed l r = firstn (Z.to_nat r) got /\
    l = [LFree; LReset; LAccept; LId (t_ip t); LBio] ++ repeat LShake n ++ repeat (LRead (N.to_nat 8191)) k ++ repeat (LWrite got) w ++ repeat LClose c /\
    s = [SRead (Z.of_nat (length got)) (upto_zero got); SWritten r (upto_zero got)].
Proof.
  intros t n k x bs w r c z A I S R W L Q got. eexists _, _. split; [exact (dtls_loop_done t n k x bs w r c z A I S R W L Q)|].
  split; [|split; reflexivity]. destruct W as (pre & post & _ & _ & _ & ->). apply echoed_last.
Qed.
Print Assumptions C65_echo.

(** A record is echoed whole iff it is shorter than the buffer and the library takes all of
    it in one write. *)
Theorem C65_whole : forall t n k x bs w r c z, t_accept t = 0 -> t_id t = 0 -> settles again (t_shake t) n 0 ->
  settles again_read (t_read t) k (RData (x :: bs)) -> settles again (t_write t) w r -> 0 <= r -> settles again_write (t_close t) c z ->
  exists l s, dtls_loop t = Ok (l, s, 0, true) /\
    (echoed l r = x :: bs <-> (N.of_nat (length (x :: bs)) < 8192)%N /\ Z.of_nat (length (x :: bs)) <= r).
Proof.
  intros t n k x bs w r c z A I S R W L Q. destruct (C65_echo t n k x bs w r c z A I S R W L Q) as (l & s & E & Ec & _). exists l, s. split; [exact E|].
  rewrite Ec, firstn_firstn. split.
  - intro H. apply (f_equal (@length N)) in H. rewrite firstn_length in H. lia.
  - intros [H1 H2]. apply firstn_all2. lia.
Qed.
Print Assumptions C65_whole.

(** The claim that every record read is echoed to the client fails: of a partial write the
    rest is never sent, yet the turn counts as good. *)
Theorem C65_echoes_refuted : ~ (forall t l s n k x bs w r, dtls_loop t = Ok (l, s, 0, true) ->
  settles again (t_shake t) n 0 -> settles again_read (t_read t) k (RData (x :: bs)) -> settles again (t_write t) w r -> echoed l r = x :: bs).
Proof.
  intro H. set (t := Turn 0 [1%N] 0 [0] [RData [7%N; 8%N]] [1] [0]).
  assert (N0 : ~ again 0) by (intros [X|X]; discriminate). assert (N1 : ~ again 1) by (intros [X|X]; discriminate).
  assert (S : settles again (t_shake t) 1 0) by (exists [], []; repeat split; auto).
  assert (R : settles again_read (t_read t) 1 (RData [7%N; 8%N])) by (exists [], []; repeat split; auto).
  assert (W : settles again (t_write t) 1 1) by (exists [], []; repeat split; auto).
  assert (Q : settles again_write (t_close t) 1 0) by (exists [], []; repeat split; auto; discriminate).
  destruct (C65_whole t 1%nat 1%nat 7%N [8%N] 1%nat 1 1%nat 0 eq_refl eq_refl S R W ltac:(lia) Q) as (l & s & E & Ew).
  specialize (H t l s 1%nat 1%nat 7%N [8%N] 1%nat 1 E S R W). apply Ew in H. cbn in H. lia.
Qed.
Print Assumptions C65_echoes_refuted.

(** A client that shakes hands and then says nothing holds the server for good: as long as
    the library only asks to try again the turn does not end (READ_TIMEOUT_MS,
    dtls-datapump.cpp 135, is not used). *)
Theorem C65_silent : forall t n, t_accept t = 0 -> t_id t = 0 -> settles again (t_shake t) n 0 ->
  Forall again_read (t_read t) -> dtls_loop t = NoFuel.
Proof.
  intros t n A I S F. destruct (dtls_loop t) as [[[[l s] r] go]| |] eqn:E; [|now apply C65_safe in E|reflexivity]. exfalso.
  assert (X : ends t r go) by (apply C65_ends; eauto).
  assert (NR : forall k y, ~ settles again_read (t_read t) k y).
  { intros k y (pre & post & E1 & _ & Ny & _). rewrite E1 in F. apply Forall_app in F. destruct F as [_ F]. inversion F; subst. contradiction. }
  inversion X; subst; try contradiction; try (eapply NR; eassumption);
    match goal with K : settles again (t_shake t) _ ?v |- _ => destruct (settles_one _ _ _ _ _ _ _ S K) as [_ Y]; try discriminate Y; subst; contradiction end.
Qed.
Print Assumptions C65_silent.

(** Setting up makes its calls in order until one fails, and returns what that one gave. *)
Theorem C65_setup : forall answer ss l z k, run_steps answer k ss = (l, z) ->
  (z = 0 /\ l = ss /\ (forall i s, nth_error ss i = Some s -> answer (k + i)%nat s = 0)) \/
  (exists pre s post, ss = pre ++ s :: post /\ l = pre ++ [s] /\ z = answer (k + length pre)%nat s /\ z <> 0 /\
     (forall i s, nth_error pre i = Some s -> answer (k + i)%nat s = 0)).
Proof.
  intros answer. induction ss as [|s ss IH]; intros l z k E; cbn [run_steps] in E.
  - injection E as <- <-. left. repeat split. intros [|i] s H; discriminate.
  - destruct (Z.eqb_spec (answer k s) 0) as [A|A].
    + destruct (run_steps answer (Datatypes.S k) ss) as [l1 z1] eqn:E1. injection E as <- <-.
      assert (Sh : forall (P : list step), (forall i s0, nth_error P i = Some s0 -> answer (Datatypes.S k + i)%nat s0 = 0) ->
                forall i s0, nth_error (s :: P) i = Some s0 -> answer (k + i)%nat s0 = 0).
      { intros P HP [|i] s0 H; cbn in H; [injection H as <-; now rewrite Nat.add_0_r|]. rewrite <- Nat.add_succ_comm. now apply HP. }
      destruct (IH _ _ _ E1) as [(-> & -> & H)|(pre & q & post & -> & -> & -> & N & H)].
      * left. repeat split. now apply Sh.
      * right. exists (s :: pre), q, post. cbn [app length]. rewrite <- Nat.add_succ_comm. repeat split; auto. now apply Sh.
    + injection E as <- <-. right. exists [], s, ss. cbn [app length]. rewrite Nat.add_0_r. repeat split; auto. intros [|i] q H; discriminate.
Qed.
Print Assumptions C65_setup.

(** The daemon opens and closes the socket in turn and serves only while it is open. *)
Theorem C65_tidy : forall s ts ss ds r, daemon s ts ss = Ok (ds, r) -> tidy false ds.
Proof.
  intros s ts ss ds r E. unfold daemon in E. destruct (daemon_loop ts ss s true) as [[d y]| |] eqn:E1; try discriminate. cbn [bind fst snd] in E. injection E as <- <-.
  apply daemon_tidy in E1. cbn [tidy]. split; [reflexivity|]. destruct y; [exact E1|]. rewrite app_nil_r. now apply tidy_app.
Qed.
Print Assumptions C65_tidy.

(** It is the fold of the turns: [runs] of the specification. *)
Theorem C65_daemon : forall s ts ss ds r, daemon s ts ss = Ok (ds, r) <-> runs s ts ss ds r.
Proof. exact daemon_runs. Qed.
Print Assumptions C65_daemon.

(** While setting up succeeds it serves every turn, and closes and opens the socket again
    exactly after those that ended with an error. *)
Theorem C65_restarts : forall ts ss ds r, daemon 0 ts ss = Ok (ds, r) -> (forall z, In z ss -> z = 0) ->
  r = None /\ length (served ds) = length ts /\
  exists ok bad, length ok = length ts /\ bad = length (filter negb ok) /\ restarts ds = bad /\
    forall i t b, nth_error ts i = Some t -> nth_error ok i = Some b -> (b = true -> smooth t) /\ (b = false -> upset t).
Proof. exact daemon_restarts. Qed.
Print Assumptions C65_restarts.

(** So a failing handshake of any client costs all of them the socket. *)
Theorem C65_handshake_refuted : ~ (forall t n z ds r, t_accept t = 0 -> t_id t = 0 -> settles again (t_shake t) n z ->
  daemon 0 [t] [0] = Ok (ds, r) -> restarts ds = 0%nat).
Proof.
  intro H. assert (S : settles again [-30592] 1 (-30592)) by (exists [], []; repeat split; auto; intros [X|X]; discriminate).
  specialize (H (Turn 0 [1%N] 0 [-30592] [] [] []) 1%nat (-30592) _ _ eq_refl eq_refl S eq_refl). discriminate.
Qed.
Print Assumptions C65_handshake_refuted.

(** An attempt of DtlsServer::handshake: which calls, which *ret and which result. *)
Theorem C65_attempt : forall t l z go, hs_once t = Ok (l, z, go) <-> attempts t l z go.
Proof. exact hs_once_iff. Qed.
Print Assumptions C65_attempt.

(** DtlsServer::handshake() returns exactly at the first attempt that failed; an attempt that
    succeeded is followed by the next. *)
Theorem C65_attempts : forall ts n z, hs_all ts = Ok (n, z) <->
  exists pre t post, ts = pre ++ t :: post /\ Forall accepted pre /\ failed t z /\ n = Datatypes.S (length pre).
Proof. exact hs_all_iff. Qed.
Print Assumptions C65_attempts.
Theorem C65_success_refuted : ~ (exists ts n z, hs_all ts = Ok (n, z) /\ z = 0).
Proof.
  intros (ts & n & z & E & ->). apply C65_attempts in E. destruct E as (pre & t & post & _ & _ & F & _).
  destruct F as [[A B]|[(A & B & C)|(A & B & k & _ & C & _)]]; congruence.
Qed.
Print Assumptions C65_success_refuted.

(** DtlsServer::read answers true for data as well as for every error but a close, and
    nothing tells them apart. *)
Theorem C65_read : forall buf rs, (forall b ok, srv_read buf rs = Ok (b, ok) <->
  exists n r, settles again_read rs n r /\ match r with
    | RData bs => b = firstn (length buf) bs ++ skipn (length bs) buf /\ ok = true
    | RErr e => b = buf /\ (ok = true <-> Z.neg e <> CLOSE_NOTIFY) end).
Proof. exact srv_read_iff. Qed.
Print Assumptions C65_read.

Example C65_codes_case : codes_ok.
Proof. repeat split; reflexivity. Qed.

(** Two turns of the daemon: one client whose record is echoed, one whose handshake fails
    (-0x7780); then a setup that fails. *)
Example C65_case :
  let t1 := Turn 0 [10%N; 0%N; 0%N; 1%N] 0 [WANT_READ; WANT_WRITE; 0] [RErr 26880; RData [104%N; 105%N]] [WANT_WRITE; 2] [0] in
  let t2 := Turn 0 [10%N; 0%N; 0%N; 2%N] 0 [-30592] [] [] [] in
  (exists l1 l2, daemon 0 [t1; t2] [-2] = Ok ([DSetup 0; DTurn l1; DTurn l2; DShutdown; DSetup (-2); DShutdown], Some (-2)) /\
     echoed l1 2 = [104%N; 105%N] /\ echoed l2 2 = [] /\ In (LId [10%N; 0%N; 0%N; 1%N]) l1 /\ length (filter (fun c => match c with LShake => true | _ => false end) l1) = 3%nat) /\
  hs_all [t1; t2; t1] = Ok (2%nat, -30592) /\
  srv_read [0%N; 0%N; 0%N] [RErr 26880; RData [104%N; 105%N]] = Ok ([104%N; 105%N; 0%N], true) /\
  srv_read [9%N] [RErr 5] = Ok ([9%N], true) /\ srv_read [9%N] [RErr 30848] = Ok ([9%N], false) /\
  dtls_loop (Turn 0 [] 0 [0] [RErr 26624] [] []) = Ok ([LFree; LReset; LAccept; LId []; LBio; LShake; LRead room], [], SSL_TIMEOUT, true) /\
  dtls_loop (Turn 0 [] 0 [0] [RErr 30848] [] [WANT_WRITE; -1]) = Ok ([LFree; LReset; LAccept; LId []; LBio; LShake; LRead room; LClose; LClose], [], 0, true) /\
  dtls_loop (Turn (-82) [] 0 [] [] [] []) = Ok ([LFree; LReset; LAccept], [], -82, false) /\
  setup_steps = cert_steps ++ server_steps /\
  run_steps (fun k _ => if Nat.eqb k 2 then -7 else 0) 0 setup_steps = ([SCrt; SCas; SCas], -7).
Proof.
  cbv zeta. split; [|repeat split; vm_compute; reflexivity].
  eexists _, _. split; [vm_compute; reflexivity|]. split; [vm_compute; reflexivity|]. split; [vm_compute; reflexivity|]. split; [cbn; tauto|vm_compute; reflexivity].
Qed.

(** * The delay timer *)

(** While less than 2^32 milliseconds have gone by since it was set, the timer says which of
    the delays are over, a delay being over when more than it has gone by; also when the
    counter itself wraps. *)
Theorem C66_delay : forall rate t0 t1 int_ms fin_ms, (t0 <= t1)%N -> ((t1 - t0) * rate < 2 ^ 32)%N ->
  tm_get rate t1 (tm_set rate t0 int_ms fin_ms) = delay_state (fun ms => (ms <? (t1 - t0) * rate)%N) int_ms fin_ms.
Proof. intros rate t0 t1 i f L B. rewrite tm_get_eq by exact L. now rewrite N.mod_small by exact B. Qed.
Print Assumptions C66_delay.

(** The library asks for "passed" to be "at least": the two agree iff none of the delays is
    exactly over (or the answer does not depend on it). *)
Theorem C66_exact : forall rate t0 t1 int_ms fin_ms, (t0 <= t1)%N -> let e := ((t1 - t0) * rate)%N in (e < 2 ^ 32)%N ->
  (tm_get rate t1 (tm_set rate t0 int_ms fin_ms) = delay_state (fun ms => (ms <=? e)%N) int_ms fin_ms <->
   fin_ms = 0%N \/ (e <> fin_ms /\ (e = int_ms -> (fin_ms < e)%N))).
Proof.
  intros rate t0 t1 i f L e B. rewrite C66_delay by assumption. fold e. clearbody e. clear. unfold delay_state.
  destruct (N.eqb_spec f 0) as [->|F]; [tauto|].
  destruct (N.ltb_spec f e), (N.leb_spec f e), (N.ltb_spec i e), (N.leb_spec i e); split; intro H3; try discriminate; try reflexivity; try lia.
Qed.
Print Assumptions C66_exact.
Theorem C66_contract_refuted : ~ (forall rate t0 t1 int_ms fin_ms, (t0 <= t1)%N -> ((t1 - t0) * rate < 2 ^ 32)%N ->
  tm_get rate t1 (tm_set rate t0 int_ms fin_ms) = delay_state (fun ms => (ms <=? (t1 - t0) * rate)%N) int_ms fin_ms).
Proof. intro H. specialize (H 10 5 105 1000 2000)%N. vm_compute in H. now specialize (H ltac:(discriminate) eq_refl). Qed.
Print Assumptions C66_contract_refuted.

(** It only moves forward, from 0 over 1 to 2, within that time (for delays in order). *)
Theorem C66_forward : forall rate t0 t1 t2 int_ms fin_ms, (t0 <= t1)%N -> (t1 <= t2)%N -> ((t2 - t0) * rate < 2 ^ 32)%N ->
  tm_get rate t1 (tm_set rate t0 int_ms fin_ms) <= tm_get rate t2 (tm_set rate t0 int_ms fin_ms).
Proof.
  intros rate t0 t1 t2 i f L1 L2 B. assert (M : ((t1 - t0) * rate <= (t2 - t0) * rate)%N) by (apply N.mul_le_mono_r; lia).
  rewrite !C66_delay by lia. unfold delay_state. destruct (f =? 0)%N; [lia|].
  generalize dependent ((t1 - t0) * rate)%N. generalize dependent ((t2 - t0) * rate)%N. intros b B a M.
  destruct (N.ltb_spec f a), (N.ltb_spec f b), (N.ltb_spec i a), (N.ltb_spec i b); lia.
Qed.
Print Assumptions C66_forward.

(** After 2^32 milliseconds (49.7 days) it starts over, so that a delay that is over need not
    stay so. *)
Theorem C66_wraps : forall rate t0 t1 t2 int_ms fin_ms, (t0 <= t1)%N -> (t0 <= t2)%N ->
  (((t1 - t0) * rate) mod 2 ^ 32 = ((t2 - t0) * rate) mod 2 ^ 32)%N ->
  tm_get rate t1 (tm_set rate t0 int_ms fin_ms) = tm_get rate t2 (tm_set rate t0 int_ms fin_ms).
Proof. intros rate t0 t1 t2 i f L1 L2 E. rewrite !tm_get_eq by assumption. now rewrite E. Qed.
Print Assumptions C66_wraps.
Theorem C66_forward_refuted : ~ (forall rate t0 t1 t2 int_ms fin_ms, (t0 <= t1)%N -> (t1 <= t2)%N ->
  tm_get rate t1 (tm_set rate t0 int_ms fin_ms) <= tm_get rate t2 (tm_set rate t0 int_ms fin_ms)).
Proof. intro H. specialize (H 1 0 2001 4294967296 1000 2000)%N. vm_compute in H. now apply H. Qed.
Print Assumptions C66_forward_refuted.

(** A cancelled timer (fin_ms = 0) says so at any time. *)
Theorem C66_cancelled : forall rate t0 t1 int_ms fin_ms,
  tm_get rate t1 (tm_set rate t0 int_ms fin_ms) = -1 <-> fin_ms = 0%N.
Proof.
  intros rate t0 t1 i f. unfold tm_get, tm_set. cbn [dl_fin dl_timer dl_int]. destruct (N.eqb_spec f 0); [tauto|]. split; [|contradiction].
  destruct (_ <? _)%N; [discriminate|]. destruct (_ <? _)%N; discriminate.
Qed.
Print Assumptions C66_cancelled.

(** 10 ms a tick, delays of 1 and 4 seconds, set shortly before the counter wraps. *)
Example C66_case :
  let c := tm_set 10 429496700 1000 4000 in
  map (fun dt => tm_get 10 (429496700 + dt) c) [0; 100; 101; 400; 401; 429496729]%N = [0; 0; 1; 1; 2; 2] /\
  dl_timer c = 4294967000%N /\ tm_now 10 (429496700 + 101) = 714%N /\ tm_get 10 7 (tm_set 10 5 3 0) = -1.
Proof. vm_compute. auto. Qed.
