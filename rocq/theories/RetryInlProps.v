(** C74: the retry queue that keeps the netbufs in its items. *)
From Verif Require Import Base HeaderModel DecoderModel RetryModel RetrySpec RetryProofs RetryMemModel RetryInlModel RetryInlSpec RetryInlProofs RetryInlKeptProofs.
Local Open Scope N_scope.

(** ** Any history *)

(** No chunk has two netbufs that would free it, and a chunk that has one is not freed. *)
Theorem C74_one_owner : forall w size same os s ws c, i_run w size same os ist0 = Ok (s, ws) ->
  (holders s c <= 1)%nat /\ (holders s c = 1%nat -> g_live s c = true).
Proof.
  intros w size same os s ws c E. pose proof (sound_run _ _ _ _ _ _ _ sound0 E) as S0. split; [apply (s_one _ S0)|]. intro H. apply (s_live _ S0). lia.
Qed.
Print Assumptions C74_one_owner.

(** So nothing is freed twice: any netbuf there is can be destroyed. *)
Theorem C74_destroy : forall w size same os s ws, i_run w size same os ist0 = Ok (s, ws) ->
  (forall o, g_app s o <> None -> exists s1, i_drop o s = Ok s1) /\
  (forall e, In e (g_pump s) -> exists s1, nb_free (fst e) s = Ok s1) /\
  (forall f, In f (g_retry s) -> exists s1, nb_free (j_nb f) s = Ok s1).
Proof.
  intros w size same os s ws E. pose proof (sound_run _ _ _ _ _ _ _ sound0 E) as S0.
  assert (A : forall b, (holds_chunk (b_chunk b) b <= holders s (b_chunk b))%nat -> exists s1, nb_free b s = Ok s1).
  { intros b H. unfold nb_free, holds_chunk in *. destruct (b_own b); [|eauto]. rewrite Nat.eqb_refl in H. cbn [andb] in H. rewrite (s_live _ S0) by lia. eauto. }
  split; [|split].
  - intros o O. unfold i_drop. destruct (g_app s o) as [own|] eqn:Eo; [|congruence]. destruct (A (Nb o own)) as [s1 H]; [|rewrite H; cbn; eauto].
    unfold holds_chunk, holders. cbn [b_own b_chunk]. rewrite Eo, Nat.eqb_refl. destruct own; cbn [andb]; lia.
  - intros e I. apply A. unfold holders. pose proof (sum_some _ (fun e' => holds_chunk (b_chunk (fst e)) (fst e')) _ _ I) as H. cbn beta in H. lia.
  - intros f I. apply A. unfold holders. pose proof (sum_some _ (fun f' => holds_chunk (b_chunk (j_nb f)) (j_nb f')) _ _ I) as H. cbn beta in H. lia.
Qed.
Print Assumptions C74_destroy.

(** What is sent is the message its netbuf was made with. *)
Theorem C74_contents : forall w size same os s ws c a m, i_run w size same os ist0 = Ok (s, ws) -> In (c, a, m) ws -> nth_error (i_made os) c = Some m.
Proof. intros w size same os s ws c a m E I. exact (proj2 (proj2 (i_contents _ _ _ _ _ _ E)) c a m I). Qed.
Print Assumptions C74_contents.

(** A chunk that nobody holds is never freed. *)
Theorem C74_lost : forall w size same os s ws os' s' ws' c, i_run w size same os ist0 = Ok (s, ws) -> g_live s c = true -> holders s c = 0%nat ->
  i_run w size same os' s = Ok (s', ws') -> g_live s' c = true /\ holders s' c = 0%nat.
Proof.
  intros w size same os s ws os' s' ws' c E L H E'. pose proof (sound_run _ _ _ _ _ _ _ sound0 E) as S0.
  assert (Lc : (c < g_next s)%nat) by (destruct (Nat.lt_ge_cases c (g_next s)) as [X|X]; [exact X|]; apply (s_fresh _ S0) in X; destruct X; congruence).
  destruct (leak_run _ _ _ _ _ _ _ _ S0 Lc H E') as (A & B & _). rewrite A. auto.
Qed.
Print Assumptions C74_lost.

(** Full claim (false): a message that was acknowledged is given back.  The item erased holds the
    only netbuf with the memory, and it is not destroyed: the memory is lost. *)
Theorem C74_acknowledged_refuted : forall w size same os s ws m a vs k f os' s1 s' ws', i_run w size same os ist0 = Ok (s, ws) ->
  hdr_type (n_hdr m) = ACK -> i_match same s m a vs = Ok (Some k) -> nth_error (g_retry s) k = Some f -> b_own (j_nb f) = true ->
  i_ack same m a vs s = Ok s1 -> i_run w size same os' s1 = Ok (s', ws') -> g_live s' (b_chunk (j_nb f)) = true /\ holders s' (b_chunk (j_nb f)) = 0%nat.
Proof.
  intros w size same os s ws m a vs k f os' s1 s' ws' E T M K O A E'. pose proof (sound_run _ _ _ _ _ _ _ sound0 E) as S0.
  unfold i_ack in A. rewrite T, N.eqb_refl, M in A. cbn [bind] in A. injection A as <-. set (c := b_chunk (j_nb f)).
  pose proof (sum_drop iitem (fun f => holds_chunk c (j_nb f)) _ _ _ K) as SD. cbn beta in SD.
  assert (H1 : holds_chunk c (j_nb f) = 1%nat) by (unfold holds_chunk, c; rewrite O, Nat.eqb_refl; reflexivity).
  assert (Hc : holders (i_queue (drop_at k (g_retry s)) s) c = 0%nat /\ (0 < holders s c)%nat).
  { pose proof (s_one _ S0 c) as X. unfold holders in *. cbn [i_queue g_app g_pump g_retry]. lia. }
  destruct Hc as [H0 Hs]. pose proof (s_retry _ S0 f (nth_error_In _ _ K)) as Lc. fold c in Lc.
  assert (S2 : sound (i_queue (drop_at k (g_retry s)) s)) by (eapply sound_flow; [exact S0|eapply (flow_ack same m a vs); unfold i_ack; rewrite T, N.eqb_refl, M; reflexivity]).
  destruct (leak_run _ _ _ _ _ _ _ c S2 Lc H0 E') as (A & B & _). rewrite A. split; [cbn; apply (s_live _ S0); exact Hs|exact B].
Qed.
Print Assumptions C74_acknowledged_refuted.

(** Full claim (false): it does not matter who is told of a transmission.  If a netbuf that holds
    its memory is sent and nobody is told, a tracked copy of it is read after it was freed:
    by the next acknowledgement that looks at it and by its retransmission. *)
Theorem C74_untold_refuted : forall w size same os s ws b a q s1 l f k, i_run w size same os ist0 = Ok (s, ws) ->
  g_pump s = (b, a) :: q -> b_own b = true -> i_wire w same TNone s = Ok (s1, l) -> nth_error (g_retry s1) k = Some f -> b_chunk (j_nb f) = b_chunk b ->
  (forall m a' r, hdr_type (n_hdr m) = ACK -> i_ack same m a' (k :: r) s1 = Fault) /\
  (forall t s2 q', g_live s2 = g_live s1 -> g_pump s2 = (j_nb f, j_addr f) :: q' -> i_wire w same t s2 = Fault).
Proof.
  intros w size same os s ws b a q s1 l f k E P O W K C. unfold i_wire in W. rewrite P in W. unfold nb_read in W. destruct (g_live s (b_chunk b)) eqn:L; [|discriminate]. cbn [bind fst snd] in W.
  unfold nb_free in W. rewrite O in W. cbn [i_out g_live] in W. rewrite L in W. cbn [bind] in W. injection W as <- <-.
  assert (D : upd (g_live s) (b_chunk b) false (b_chunk (j_nb f)) = false) by (rewrite C; unfold upd; now rewrite Nat.eqb_refl). split.
  - intros m a' r T. unfold i_ack. rewrite T, N.eqb_refl. cbn [i_match]. rewrite K. unfold nb_read. cbn [g_live]. rewrite D. reflexivity.
  - intros t s2 q' G Pq. unfold i_wire. rewrite Pq. unfold nb_read. rewrite G. cbn [g_live]. rewrite D. reflexivity.
Qed.
Print Assumptions C74_untold_refuted.

(** ** RetryObserver is told of everything sent *)

(** What is tracked can be read: acknowledgements are handled, retransmissions sent, as far as
    there is room. *)
Theorem C74_observed : forall w size same os s ws, i_run w size same os ist0 = Ok (s, ws) -> Forall observed os ->
  (forall m a vs, whole s vs -> exists s1, i_ack same m a vs s = Ok s1) /\
  (forall now k, (length (g_pump s) < size)%nat -> exists s1, i_service w size now k s = Ok s1) /\
  (forall b a q now r, g_pump s = (b, a) :: q -> con_msg (g_msg s (b_chunk b)) = true ->
     if (length (g_retry s) <? 10)%nat then exists s1 l, i_wire w same (TObserver now r) s = Ok (s1, l) else i_wire w same (TObserver now r) s = Fault).
Proof.
  intros w size same os s ws E Ob. destruct (obs_run _ _ _ _ _ _ E Ob) as [S0 [R P W L Mv]]. split; [|split].
  - intros m a vs [_ Wv]. unfold i_ack. destruct (_ =? _); [|eauto]. destruct (match_ok same s m a vs) as [r ->]; [|cbn; eauto].
    intros k I. apply Wv in I. destruct (nth_error (g_retry s) k) as [f|] eqn:K; [|apply nth_error_None in K; lia]. exists f. split; [reflexivity|]. apply (R f (nth_error_In _ _ K)).
  - intros now k Lt. unfold i_service, i_enqueue_out. rewrite (proj2 (Nat.ltb_lt _ _) Lt). destruct (nth_error _ _); [|eauto]. destruct (_ <=? _); [|eauto]. destruct (_ <? _); [cbn; eauto|]. destruct (_ =? _); cbn; eauto.
  - intros b a q now r Pq Cn. unfold i_wire. rewrite Pq. rewrite Pq in P. destruct (P (b, a) (or_introl eq_refl)) as [_ Lv]. specialize (Lv Cn). cbn [fst] in Lv.
    unfold i_notify, nb_read. rewrite Lv. cbn [bind]. unfold con_msg in Cn. rewrite Cn. unfold i_enqueue. change QUEUE_MAX with 10%nat. destruct (_ <? 10)%nat; [|reflexivity]. cbn [bind fst snd]. unfold nb_free. cbn [nb_gone b_own]. cbn [bind]. eauto.
Qed.
Print Assumptions C74_observed.

(** Full claim (false): the memory of a message is given back when it is done with.  No
    confirmable message that was ever sent is. *)
Theorem C74_observed_freed_refuted : forall w size same os s ws c a m, i_run w size same os ist0 = Ok (s, ws) -> Forall observed os ->
  In (c, a, m) ws -> con_msg m = true -> g_live s c = true.
Proof. intros w size same os s ws c a m E Ob I Cn. destruct (obs_run _ _ _ _ _ _ E Ob) as [_ [_ _ W _ _]]. exact (proj1 (proj2 (proj2 (W _ I)) Cn)). Qed.
Print Assumptions C74_observed_freed_refuted.

(** Without acknowledgements the queue only fills up: every transmission, the last one of an item
    too, makes a new item.  For [S] messages sent, [W] transmissions and [P] still in the pump,
    2 W + S <= 30 + P; more does not fit into the queue of ten. *)
Theorem C74_observed_count : forall w size same os s ws, i_run w size same os ist0 = Ok (s, ws) -> Forall observed os -> forallb (fun o => negb (is_ack o)) os = true ->
  (2 * con_wires ws + con_sends (g_msg s) os <= 3 * length (g_retry s) + con_pump (g_msg s) (g_pump s))%nat /\
  (2 * con_wires ws + con_sends (g_msg s) os <= 30 + con_pump (g_msg s) (g_pump s))%nat.
Proof.
  intros w size same os s ws E Ob Na. destruct (obs_count _ _ _ _ _ _ E Ob Na) as [_ H]. destruct (obs_run _ _ _ _ _ _ E Ob) as [_ [_ _ _ L _]]. unfold QUEUE_MAX in L. split; lia.
Qed.
Print Assumptions C74_observed_count.

(** So the queue is never empty again: full claim (false): an unanswered message is given up. *)
Theorem C74_observed_given_up_refuted : forall w size same os s ws, i_run w size same os ist0 = Ok (s, ws) -> Forall observed os -> forallb (fun o => negb (is_ack o)) os = true ->
  (0 < con_wires ws)%nat -> g_pump s = [] -> g_retry s <> [].
Proof.
  intros w size same os s ws E Ob Na W P R. destruct (C74_observed_count _ _ _ _ _ _ E Ob Na) as [H _]. rewrite P, R in H. unfold con_pump in H. cbn [filter length] in H. lia.
Qed.
Print Assumptions C74_observed_given_up_refuted.

(** ** The observer first, con_sent_experimental afterwards *)

(** Every message is sent at most four times, always the same to the same address. *)
Theorem C74_kept_times : forall w size same ack s ws c, (forall a, same a a = true) -> kept w size same ack s ws -> (c < g_next s)%nat ->
  exists a n, (n <= if con_msg (g_msg s c) then 4 else 1)%nat /\ sent_of c ws = repeat (c, a, g_msg s c) n.
Proof.
  intros w size same ack s ws c Refl K Lc. pose proof (kept_inv _ _ _ _ _ _ Refl K) as I.
  destruct (k_ph _ _ _ I c Lc) as [A1 A2 A3 A4 A5|a A1 A2 A3 A4 A5|f A1 A2 A3 A4 A5 A6 A7 A8|f A1 A2 A3 A4 A5 A6 A7 A8|a n A1 A2 A3 A4 A5 A6 A7 A8|a n A1 A2 A3 A4 A5 A6 A7|a n A1 A2 A3 A4 A5 A6 A7 A8].
  - exists 0, 0%nat. split; [destruct (con_msg _); lia|exact A5].
  - exists 0, 0%nat. split; [destruct (con_msg _); lia|exact A5].
  - exists (j_addr f), (S (N.to_nat (j_count f))). rewrite A5. split; [lia|exact A8].
  - exists (j_addr f), (N.to_nat (j_count f)). rewrite A5. split; [lia|exact A8].
  - exists a, n. rewrite A4. split; [lia|exact A6].
  - exists a, n. split; [exact A6|exact A5].
  - exists a, n. rewrite A5. split; [lia|exact A6].
Qed.
Print Assumptions C74_kept_times.

(** No freed memory is touched: what is done this way goes through if there is room. *)
Theorem C74_kept_safe : forall w size same ack s ws o, (forall a, same a a = true) -> kept w size same ack s ws -> careful ack s ws o -> room size s o ->
  exists s1 l, i_step w size same o s = Ok (s1, l).
Proof.
  intros w size same ack s ws o Refl K Cf Rm. pose proof (kept_inv _ _ _ _ _ _ Refl K) as I. pose proof (k_sound _ _ _ I) as S0. pose proof (k_item _ _ _ I) as KI.
  assert (MO : forall m a vs, whole s vs -> exists r, i_match same s m a vs = Ok r).
  { intros m a vs [_ Wv]. apply match_ok. intros k Ik. apply Wv in Ik. destruct (nth_error (g_retry s) k) as [f|] eqn:Kf; [|apply nth_error_None in Kf; lia]. exists f. split; [reflexivity|]. apply (KI f (nth_error_In _ _ Kf)). }
  destruct o as [m|i|i a|i a now r|i a vs|t|now k|m a vs]; cbn [i_step careful room] in *; try contradiction.
  - eauto.
  - unfold i_drop. destruct (g_app s i) as [own|] eqn:O; [|congruence]. unfold nb_free. cbn [b_own b_chunk]. destruct own; [|cbn; eauto].
    rewrite (s_live _ S0) by (unfold holders; rewrite O; lia). cbn. eauto.
  - unfold i_send. rewrite Cf. unfold i_enqueue_out. rewrite (proj2 (Nat.ltb_lt _ _) Rm). cbn. eauto.
  - unfold i_wire. destruct (g_pump s) as [|[b a] q] eqn:Pq; [eauto|]. specialize (Cf b a q eq_refl).
    assert (Lb : (b_chunk b < g_next s)%nat) by (apply (s_pump _ S0 (b, a)); rewrite Pq; now left).
    assert (Lv : g_live s (b_chunk b) = true).
    { pose proof (k_ph _ _ _ I _ Lb) as Pb. unfold ph in Pb. rewrite Pq in Pb. unfold pof in Pb. cbn [filter fst] in Pb. rewrite Nat.eqb_refl in Pb. destruct Pb; try discriminate; assumption. }
    unfold i_notify, i_con_sent, nb_read. rewrite Lv. cbn [bind].
    assert (Fr : forall b1 s2, b_chunk b1 = b_chunk b -> g_live s2 = g_live s -> exists s1 l, bind (nb_free (fst (b1, s2)) (i_out q (snd (b1, s2)))) (fun s1 => Ok (s1, [(b_chunk b, a, g_msg s (b_chunk b))])) = Ok (s1, l)).
    { intros b1 s2 E1 E2. unfold nb_free. cbn [fst snd]. destruct (b_own b1); [|cbn; eauto]. cbn [i_out g_live]. rewrite E1, E2, Lv. cbn. eauto. }
    destruct t as [|now r|vs]; [contradiction| |].
    + destruct (_ =? CON); [|apply (Fr b s); reflexivity]. unfold i_enqueue. change QUEUE_MAX with 10%nat. rewrite (proj2 (Nat.ltb_lt _ _) Rm). cbn [bind]. apply Fr; reflexivity.
    + destruct Cf as [_ Wv]. destruct (MO (g_msg s (b_chunk b)) a vs Wv) as [[k|] ->]; cbn [bind fst snd]; apply Fr; reflexivity.
  - assert (X : exists s1, i_service w size now k s = Ok s1); [|destruct X as [s1 ->]; cbn; eauto]. unfold i_service, i_enqueue_out. rewrite (proj2 (Nat.ltb_lt _ _) Rm). destruct (nth_error _ _); [|eauto]. destruct (_ <=? _); [|eauto]. destruct (_ <? _); [cbn; eauto|]. destruct (_ =? _); cbn; eauto.
  - destruct Cf as [_ Wv]. unfold i_ack. destruct (_ =? _); [|cbn; eauto]. destruct (MO m a vs Wv) as [r ->]. cbn. eauto.
Qed.
Print Assumptions C74_kept_safe.

(** Without acknowledgements all memory is given back: when the queues are empty, every message
    that the application does not hold any more is freed, and was sent four times (once if not
    confirmable) or not at all. *)
Theorem C74_kept_freed : forall w size same s ws c, (forall a, same a a = true) -> kept w size same false s ws -> (c < g_next s)%nat -> g_app s c <> Some true ->
  g_pump s = [] -> g_retry s = [] -> g_live s c = false /\ (sent_of c ws = [] \/ length (sent_of c ws) = if con_msg (g_msg s c) then 4%nat else 1%nat).
Proof.
  intros w size same s ws c Refl K Lc A P R. pose proof (kept_inv _ _ _ _ _ _ Refl K) as I. pose proof (k_ph _ _ _ I c Lc) as H. unfold ph in H. rewrite P, R in H.
  destruct H as [A1 A2 A3 A4 A5|a A1 A2 A3 A4 A5|f A1 A2 A3 A4 A5 A6 A7 A8|f A1 A2 A3 A4 A5 A6 A7 A8|a n A1 A2 A3 A4 A5 A6 A7 A8|a n A1 A2 A3 A4 A5 A6 A7|a n A1 A2 A3 A4 A5 A6 A7 A8]; try discriminate; [congruence|].
  split; [exact A4|]. rewrite A5. destruct (A7 eq_refl) as [-> | ->]; [left; reflexivity|right; apply repeat_length].
Qed.
Print Assumptions C74_kept_freed.

(** Seen from outside, the queue is the one of C25-C30: the observer enqueues, service_retry hands
    out what it hands out there, acknowledgements remove what they remove there, and
    con_sent_experimental changes nothing. *)
Theorem C74_queue : forall w size same ack s ws o s1 l, (forall a, same a a = true) -> kept w size same ack s ws -> careful ack s ws o -> i_step w size same o s = Ok (s1, l) ->
  match o with
  | IService now k => exists q, service_retry w now k (i_view s) = Ok (i_view s1, map (fun e => (b_chunk (fst e), g_msg s (b_chunk (fst e)), snd e)) q) /\ g_pump s1 = g_pump s ++ q
  | IAck m a vs => exists k, i_view s1 = fst (service_ack m k (i_view s)) /\ g_pump s1 = g_pump s /\
      (hdr_type (n_hdr m) = ACK -> is_match same a (hdr_mid (n_hdr m)) (n_tok m) (i_view s) k = true)
  | IWire t => g_pump s1 = tl (g_pump s) /\ l = firstn 1 (map (fun e => (b_chunk (fst e), snd e, g_msg s (b_chunk (fst e)))) (g_pump s)) /\
      match t, l with
      | TObserver now r, (c, a, m) :: _ => on_sent w c m a now r (i_view s) = Ok (i_view s1)
      | _, _ => i_view s1 = i_view s
      end
  | ISend o a => i_view s1 = i_view s /\ g_pump s1 = g_pump s ++ [(Nb o true, a)]
  | _ => i_view s1 = i_view s /\ g_pump s1 = g_pump s
  end.
Proof.
  intros w size same ack s ws o s1 l Refl K Cf E. pose proof (kept_inv _ _ _ _ _ _ Refl K) as I. pose proof (k_sound _ _ _ I) as S0.
  assert (G : forall r, bind r (fun s1 => Ok (s1, [])) = Ok (s1, l) -> r = Ok s1) by (intros r H; destruct r; try discriminate; now injection H as <- _).
  destruct o as [m|i|i a|i a now r|i a vs|t|now k|m a vs]; cbn [i_step] in E; try (cbn [careful] in Cf; contradiction); try apply G in E.
  - injection E as <- <-. split; [|reflexivity]. unfold i_view. cbn [i_new g_retry g_msg]. apply map_ext_in. intros f If. apply (s_retry _ S0) in If. rewrite RetryMemProofs.upd_other by lia. reflexivity.
  - unfold i_drop in E. destruct (g_app s i) as [own|]; [|discriminate]. unfold nb_free in E. cbn [b_own b_chunk] in E. destruct own; [destruct (g_live s i); [|discriminate]|]; cbn [bind] in E; injection E as <-; split; reflexivity.
  - cbn [careful] in Cf. unfold i_send in E. rewrite Cf in E. unfold i_enqueue_out in E. destruct (_ <? _)%nat; [|discriminate]. cbn [bind] in E. injection E as <-. split; reflexivity.
  - exact (wire_view _ _ _ _ _ _ _ _ I Cf E).
  - exact (service_view _ _ _ _ _ _ (kept_len _ _ _ _ _ _ K) E).
  - destruct Cf as [_ Wv]. exact (ack_view _ _ _ _ _ _ Wv E).
Qed.
Print Assumptions C74_queue.

(** ** Cases *)
Definition inl_get : netmsg := NetMsg (Hdr 0x41 1 0x12 0x34) [7] [0xB1; 0x61].
Definition inl_ack : netmsg := NetMsg (Hdr 0x61 0x45 0x12 0x34) [7] [].
Definition inl_non : netmsg := NetMsg (Hdr 0x51 1 0x12 0x35) [7] [].

(** Two messages made, one sent and tracked: one owner each, all three netbufs destroyed without
    a fault, and what was sent is what was made. *)
Definition inl_two : list iop := [INew inl_get; INew inl_non; ISend 1 6; ISend 0 5; IWire (TObserver 0 0); IWire (TObserver 0 0); IService 5000 0].
Example C74_one_owner_case : exists s ws, i_run 32 4 N.eqb inl_two ist0 = Ok (s, ws) /\ holders s 0 = 1%nat /\ holders s 1 = 0%nat /\ g_live s 1 = false /\
  ws = [(1%nat, 6, inl_non); (0%nat, 5, inl_get)] /\ i_made inl_two = [inl_get; inl_non] /\ length (g_pump s) = 1%nat /\ length (g_retry s) = 1%nat /\ g_app s 0 = Some false.
Proof. eexists. eexists. split; [vm_compute; reflexivity|]. repeat split. Qed.

(** A message tracked and acknowledged: its memory is lost (C74_acknowledged_refuted, C74_lost). *)
Example C74_acknowledged_case : exists s ws s1 f, i_run 32 4 N.eqb [INew inl_get; ISend 0 5; IDrop 0; IWire (TObserver 0 0)] ist0 = Ok (s, ws) /\
  hdr_type (n_hdr inl_ack) = ACK /\ i_match N.eqb s inl_ack 5 [0%nat] = Ok (Some 0%nat) /\ nth_error (g_retry s) 0 = Some f /\ b_own (j_nb f) = true /\
  i_ack N.eqb inl_ack 5 [0%nat] s = Ok s1 /\ g_retry s1 = [] /\ g_pump s1 = [] /\ g_app s1 0 = None /\ g_live s1 0 = true /\ holders s1 0 = 0%nat.
Proof. eexists. eexists. eexists. eexists. split; [vm_compute; reflexivity|]. split; [reflexivity|]. split; [vm_compute; reflexivity|]. split; [reflexivity|]. split; [reflexivity|]. split; [vm_compute; reflexivity|]. repeat split. Qed.

(** test/unit-tests/retry-test.cpp 118-169 as it stands with the two features switched on: the
    netbuf is moved into the pump and then, moved from, into the retry queue; the first
    retransmission reads freed memory.  Likewise 205-258: service_ack does. *)
Example C74_untold_case : exists s1 l f, i_run 32 4 N.eqb [INew inl_get; ISend 0 5; ITrack 0 5 2000 500; IWire TNone] ist0 = Ok (s1, l) /\ nth_error (g_retry s1) 0 = Some f /\ b_chunk (j_nb f) = 0%nat /\
  i_run 32 4 N.eqb [INew inl_get; ISend 0 5; ITrack 0 5 2000 500; IWire TNone; IService 4600 0] ist0 <> Fault /\
  i_run 32 4 N.eqb [INew inl_get; ISend 0 5; ITrack 0 5 2000 500; IWire TNone; IService 4600 0; IWire TNone] ist0 = Fault /\
  i_run 32 4 N.eqb [INew inl_get; ISend 0 5; ITrack 0 5 2000 500; IWire TNone; IAck inl_ack 5 [0%nat]] ist0 = Fault.
Proof. eexists. eexists. eexists. split; [vm_compute; reflexivity|]. split; [reflexivity|]. split; [reflexivity|]. split; [vm_compute; discriminate|]. split; vm_compute; reflexivity. Qed.

(** 259-275: the moved-from netbuf written over the slot of the item that had the memory: lost. *)
Example C74_con_sent_test_case : exists s ws, i_run 32 4 N.eqb [INew inl_get; ITrack 0 5 2000 500; ISend 0 5; IBack 0 5 [0%nat]; IWire TNone; IDrop 0] ist0 = Ok (s, ws) /\
  g_live s 0 = true /\ holders s 0 = 0%nat /\ length (g_retry s) = 1%nat.
Proof. eexists. eexists. split; [vm_compute; reflexivity|]. repeat split. Qed.

(** The observer told of everything, with a message nobody answers, the item due first serviced:
    twelve transmissions, ten items; the thirteenth does not fit. *)
Definition inl_round (now : N) (k : nat) : list iop := [IService now k; IWire (TObserver now 0)].
Definition inl_observed : list iop := [INew inl_get; ISend 0 5; IDrop 0; IWire (TObserver 0 0)] ++
  flat_map (fun n => inl_round (100000 * N.of_nat n) (Nat.modulo (S n) 2)) (seq 1 11).
Example C74_observed_case : Forall observed (inl_observed ++ inl_round 1200000 1) /\ forallb (fun o => negb (is_ack o)) inl_observed = true /\
  (exists s ws, i_run 32 4 N.eqb inl_observed ist0 = Ok (s, ws) /\ length ws = 12%nat /\ con_wires ws = 12%nat /\ length (g_retry s) = 10%nat /\ g_pump s = [] /\ g_live s 0 = true) /\
  i_run 32 4 N.eqb (inl_observed ++ inl_round 1200000 1) ist0 = Fault.
Proof.
  split; [repeat constructor|]. split; [reflexivity|]. split; [|vm_compute; reflexivity]. eexists. eexists. split; [vm_compute; reflexivity|]. repeat split.
Qed.

(** The way that works: four transmissions of the same, one of the other, the memory given back. *)
Definition inl_kept : list iop := [INew inl_get; ISend 0 5; IDrop 0; INew inl_non; ISend 1 6; IWire (TObserver 0 0); IDrop 1; IWire (TObserver 0 0);
  IService 5000 0; IWire (TConSent [0%nat]); IService 15000 0; IWire (TConSent [0%nat]); IService 35000 0; IWire (TConSent [])].
Inductive careful_run (w : N) (size : nat) (same : N -> N -> bool) (ack : bool) : ist -> list (nat * N * netmsg) -> list iop -> ist -> list (nat * N * netmsg) -> Prop :=
| car_none : forall s ws, careful_run w size same ack s ws [] s ws
| car_more : forall s ws o s1 l os s2 ws2, careful ack s ws o -> i_step w size same o s = Ok (s1, l) -> careful_run w size same ack s1 (ws ++ l) os s2 ws2 -> careful_run w size same ack s ws (o :: os) s2 ws2.
Lemma careful_kept : forall w size same ack s ws os s2 ws2, careful_run w size same ack s ws os s2 ws2 -> kept w size same ack s ws -> kept w size same ack s2 ws2.
Proof. intros w size same ack s ws os s2 ws2 H. induction H as [s ws|s ws o s1 l os s2 ws2 C E H IH]; intro K; [exact K|]. apply IH. eapply kept_more; eassumption. Qed.
Ltac by_care := repeat (eapply car_more; [|vm_compute; reflexivity|]; cbn [app]); try apply car_none.
Lemma whole_none : forall s, g_retry s = [] -> whole s [].
Proof. intros s E. split; [constructor|]. intro k. rewrite E. cbn. split; [intros []|lia]. Qed.
Lemma whole_one : forall s f, g_retry s = [f] -> whole s [0%nat].
Proof. intros s f E. split; [constructor; [intros []|constructor]|]. intro k. rewrite E. cbn. split; [intros [<-|[]]; lia|intro; left; lia]. Qed.
Example C74_kept_case : exists s ws, kept 32 4 N.eqb false s ws /\ i_run 32 4 N.eqb inl_kept ist0 = Ok (s, ws) /\ g_next s = 2%nat /\ g_app s 0 = None /\ g_app s 1 = None /\ g_pump s = [] /\ g_retry s = [] /\
  sent_of 0 ws = repeat (0%nat, 5, inl_get) 4 /\ sent_of 1 ws = [(1%nat, 6, inl_non)] /\ g_live s 0 = false /\ g_live s 1 = false /\
  careful false s ws (INew (NetMsg (Hdr 0x41 1 0x12 0x36) [7] [])) /\ careful false s ws (IService 0 0) /\ room 4 s (IService 0 0).
Proof.
  assert (X : exists s ws, careful_run 32 4 N.eqb false ist0 [] inl_kept s ws /\ i_run 32 4 N.eqb inl_kept ist0 = Ok (s, ws)).
  { eexists. eexists. split; [|vm_compute; reflexivity]. unfold inl_kept. by_care; cbn [careful g_next g_pump g_retry g_app]; try exact I.
    - intros c H. inversion H.
    - reflexivity.
    - intros c H _ Cn. vm_compute in Cn. discriminate.
    - reflexivity.
    - intros b a q E. injection E as <- _ _. reflexivity.
    - intros b a q E. injection E as <- _ _. reflexivity.
    - intros f Ef D e [].
    - intros b a q E. injection E as <- _ _. split; [discriminate|]. eapply whole_one. reflexivity.
    - intros f Ef D e [].
    - intros b a q E. injection E as <- _ _. split; [discriminate|]. eapply whole_one. reflexivity.
    - intros f Ef D e [].
    - intros b a q E. injection E as <- _ _. split; [discriminate|]. apply whole_none. reflexivity. }
  destruct X as (s & ws & C & E). exists s, ws. split; [exact (careful_kept _ _ _ _ _ _ _ _ _ C (kept_none _ _ _ _))|]. split; [exact E|]. vm_compute in E. injection E as <- <-. repeat split; auto.
  - cbn [careful g_next g_msg]. intros c H Cn _ [A _]. destruct c as [|[|c]]; [vm_compute in A; discriminate|vm_compute in Cn; discriminate|lia].
  - cbn [careful g_retry]. intros f Ef. discriminate.
  - cbn. lia.
Qed.
