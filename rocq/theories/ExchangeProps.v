(** C75: requests sent with retransmission to ping servers over a network that loses, doubles
    and reorders. *)
From Coq Require Import Permutation.
From Verif Require Import Base UIntSpec HeaderModel HeaderSpec HeaderProofs OptSpec OptDecModel DecoderModel DecoderSpec RespModel RespSpec RetryModel RetrySpec RetryProofs
  PumpModel PumpSpec RetryMemModel ExchangeModel ExchangeSpec ExchangeProofs NetDecProofs RespProps RetryProps PumpProps.
Local Open Scope N_scope.

Definition fine (h : list (xop * list xev)) : Prop := Forall (fun e => may (fst e)) h.

(** Whatever the network does, the client goes through a history of C25-C30: what is proved
    there holds of it. *)
Theorem C75_client : forall wd same debug h s, xrun wd same debug x_start h s -> fine h -> rhist wd same 0 [] (history h) (x_queue s).
Proof. intros wd same debug h s R F. apply (y_hist _ _ _ _ (reached _ _ _ _ _ R F)). Qed.
Print Assumptions C75_client.

(** Only what was sent is on its way to a server, and only replies to messages sent to a server
    that it handled are on their way from it. *)
Theorem C75_network : forall wd same debug h s, xrun wd same debug x_start h s -> fine h ->
  (forall a b, In (a, b) (x_up s) -> exists id m, sent_as h id m a /\ request m /\ b = netmsg_bytes m) /\
  (forall a b, In (a, b) (x_down s) -> exists id m, sent_as h id m a /\ request m /\ reply_to m b /\ In (EServed a (netmsg_bytes m)) (done_in h)).
Proof.
  intros wd same debug h s R F. pose proof (reached _ _ _ _ _ R F) as Y. split; intros a b I.
  - destruct (y_up _ _ _ _ Y a b I) as (id & m & A & B). exists id, m. split; [exact A|]. split; [apply (y_req _ _ _ _ Y _ _ _ A)|exact B].
  - destruct (y_down _ _ _ _ Y a b I) as (id & m & A & B & C). pose proof (y_req _ _ _ _ Y _ _ _ A) as Q. exists id, m. split; [exact A|]. split; [exact Q|]. split; [|exact C].
    destruct (answer_parts m Q) as (p & E & P). exists p. split; [congruence|exact P].
Qed.
Print Assumptions C75_network.

(** Nothing faults but the sending of an eleventh confirmable message while ten wait; whatever
    is on its way can be handled, and for every delivery and every time there is a possible
    position in the queue. *)
Theorem C75_safe : forall wd same debug h s, xrun wd same debug x_start h s -> fine h ->
  (forall i w, world_ok w -> exists s1 ev, x_step wd debug (XServe i w) s = Ok (s1, ev)) /\
  (forall i d, idle d -> exists k s1 ev, xrun wd same debug s [(XReceive i d k, ev)] s1) /\
  (forall i d k, idle d -> exists s1 ev, x_step wd debug (XReceive i d k) s = Ok (s1, ev)) /\
  (forall now, exists k s1 ev, xrun wd same debug s [(XService now k, ev)] s1) /\
  (forall m a now r, request m ->
    (x_step wd debug (XSend m a now r) s = Fault <-> confirmable m /\ length (x_queue s) = 10%nat) /\ x_step wd debug (XSend m a now r) s <> NoFuel).
Proof.
  intros wd same debug h s R F. pose proof (reached _ _ _ _ _ R F) as Y. pose proof (start _ _ _ _ (y_hist _ _ _ _ Y)) as V. destruct (C28_every same (x_queue s)) as (_ & E2 & _ & E4).
  assert (RC : forall i d k, idle d -> exists s1 ev, x_step wd debug (XReceive i d k) s = Ok (s1, ev)).
  { intros i d k Hd. cbn [x_step]. destruct (nth_error (x_down s) i) as [[a b]|] eqn:Ei; [|eauto].
    destruct (down_read _ _ _ _ d a b Y Hd (nth_error_In _ _ Ei)) as (id & m & p & _ & _ & _ & _ & E & _). rewrite E. cbn [bind rop_step fst snd]. eauto. }
  split; [|split; [|split; [exact RC|split]]].
  - intros i w Hw. cbn [x_step]. destruct (nth_error (x_up s) i) as [[a b]|] eqn:Ei; [|eauto].
    destruct (y_up _ _ _ _ Y a b (nth_error_In _ _ Ei)) as (id & m & A & ->). rewrite (serve_reply debug w a m Hw (y_req _ _ _ _ Y _ _ _ A)). cbn [bind fst]. eauto.
  - intros i d Hd. destruct (nth_error (x_down s) i) as [[a b]|] eqn:Ei.
    + destruct (down_read _ _ _ _ d a b Y Hd (nth_error_In _ _ Ei)) as (id & m & p & _ & _ & _ & _ & E & _). destruct (E2 p a) as (k & Hk). exists k. do 2 eexists. econstructor.
      * cbn [x_step]. rewrite Ei, E. cbn [bind rop_step fst snd]. reflexivity.
      * repeat constructor. exact Hk.
      * constructor.
    + exists None, s, []. econstructor; [cbn [x_step]; rewrite Ei; reflexivity|constructor|constructor].
  - intros now. destruct (E4 now) as (k & Hk). destruct (service_total wd now k _ (v_cap _ _ _ V)) as (q & os & E). exists k. do 2 eexists. econstructor.
    + cbn [x_step rop_step]. rewrite E. cbn [bind fst snd]. reflexivity.
    + repeat constructor. exact Hk.
    + constructor.
  - intros m a now r (Hh & _). pose proof (con_bits m Hh) as B. pose proof (v_cap _ _ _ V) as Hc. unfold QUEUE_MAX in Hc. cbn [x_step rop_step]. unfold on_sent, push.
    change QUEUE_MAX with 10%nat. destruct (is_con m); [|cbn [bind fst snd]; split; [split; [discriminate|intros (X & _); apply B in X; discriminate]|discriminate]].
    destruct (Nat.ltb_spec (length (x_queue s)) 10); cbn [bind fst snd]; (split; [split|discriminate]); try discriminate; try lia; intros _; split; try reflexivity; try (now apply B); lia.
Qed.
Print Assumptions C75_safe.

(** Every datagram is accounted for.  What is on its way to the servers, what they handled and
    what was lost is what the client put there (every sending and every retransmission, under
    its address) and what was doubled; what is on its way back, what the client read and what was
    lost is one reply to each datagram handled, and what was doubled. *)
Theorem C75_conserved : forall wd same debug h s, xrun wd same debug x_start h s -> fine h ->
  (exists lost more, Permutation (x_up s ++ handled h ++ lost) (put h ++ more) /\
    (length lost <= count_ops (loses true) h)%nat /\ (length more <= count_ops (doubles true) h)%nat /\ incl more (put h)) /\
  (exists replies, Forall2 (fun r q => fst r = fst q /\ exists m, request m /\ snd q = netmsg_bytes m /\ reply_to m (snd r)) replies (handled h) /\
    exists lost more, Permutation (x_down s ++ heard h ++ lost) (replies ++ more) /\
      (length lost <= count_ops (loses false) h)%nat /\ (length more <= count_ops (doubles false) h)%nat /\ incl more replies).
Proof.
  intros wd same debug h s R F.
  assert (F0 : flows [] x_start).
  { split; [exists [], []|exists []; split; [constructor|exists [], []]]; cbn; (split; [constructor|]); (split; [lia|]); (split; [lia|]); intros ? []. }
  destruct (flows_run _ _ _ _ _ _ R [] (xinv_start wd same) F F0) as (A & replies & B & C). cbn [app] in *. split; [exact A|]. exists replies. split; [|exact C].
  clear - B. induction B as [|r q rs qs (E & m & Q & Eq & Er) _ IH]; constructor; [|exact IH]. split; [exact E|]. exists m. split; [exact Q|]. split; [exact Eq|].
  destruct (answer_parts m Q) as (p & EA & P). exists p. split; [congruence|exact P].
Qed.
Print Assumptions C75_conserved.

(** So without losses and doublings, once nothing is on its way, every message and every
    retransmission of it was handled once and answered once, and each reply was read. *)
Theorem C75_quiet : forall wd same debug h s, xrun wd same debug x_start h s -> fine h ->
  (forall o, In o (map fst h) -> loses true o = false /\ loses false o = false /\ doubles true o = false /\ doubles false o = false) ->
  x_up s = [] -> x_down s = [] ->
  Permutation (handled h) (put h) /\
  exists replies, Permutation (heard h) replies /\ Forall2 (fun r q => fst r = fst q /\ exists m, request m /\ snd q = netmsg_bytes m /\ reply_to m (snd r)) replies (handled h).
Proof.
  intros wd same debug h s R F N U D. destruct (C75_conserved _ _ _ _ _ R F) as ((l1 & m1 & P1 & L1 & M1 & _) & replies & B & l2 & m2 & P2 & L2 & M2 & _).
  assert (Z : forall f, (forall o, In o (map fst h) -> f o = false) -> count_ops f h = 0%nat).
  { intros f Hf. unfold count_ops. clear - Hf. induction h as [|[o e] h IH]; [reflexivity|]. cbn [filter fst]. rewrite Hf by now left. apply IH. intros. apply Hf. now right. }
  rewrite Z in L1, L2, M1, M2 by (intros o Ho; apply N, Ho). rewrite U in P1. rewrite D in P2.
  assert (l1 = [] /\ m1 = [] /\ l2 = [] /\ m2 = []) as (-> & -> & -> & ->) by (destruct l1, l2, m1, m2; cbn [length] in *; repeat split; try reflexivity; lia).
  rewrite !app_nil_r in P1, P2. cbn [app] in P1, P2. split; [exact P1|]. exists replies. auto.
Qed.
Print Assumptions C75_quiet.

(** The servers handle at most four datagrams for each message sent, and one more for each the
    network doubled. *)
Theorem C75_handled : forall wd same debug h s, xrun wd same debug x_start h s -> fine h -> (served h <= 4 * count_ops is_send h + count_ops is_twice h)%nat.
Proof.
  intros wd same debug h s R F. assert (B0 : budget [] x_start) by (unfold budget; cbn; lia).
  pose proof (budget_run _ _ _ _ _ _ R [] (xinv_start wd same) B0 F) as B. unfold budget in B. cbn [app] in B. lia.
Qed.
Print Assumptions C75_handled.

(** A reply that arrives either answers nothing that waits, and then the queue stays as it is,
    or takes one message from it that is not transmitted again: one with its token and message
    id, sent to where it comes from. *)
Theorem C75_received : forall wd same debug h1 s1 i d k ev h2 s2 a b,
  xrun wd same debug x_start h1 s1 -> xrun wd same debug s1 ((XReceive i d k, ev) :: h2) s2 -> fine (h1 ++ (XReceive i d k, ev) :: h2) ->
  nth_error (x_down s1) i = Some (a, b) ->
  exists id m s', sent_as h1 id m a /\ reply_to m b /\ In (EServed a (netmsg_bytes m)) (done_in h1) /\ xrun wd same debug s' h2 s2 /\ x_down s' = take_out i (x_down s1) /\ x_up s' = x_up s1 /\
  ((x_queue s' = x_queue s1 /\ (confirmable m -> forall f, In f (x_queue s1) -> ~ answers same m a (i_msg f) (i_addr f))) \/
   (exists f, confirmable m /\ Permutation (x_queue s1) (f :: x_queue s') /\ answers same m a (i_msg f) (i_addr f) /\ handouts (i_id f) (history h2) = [])).
Proof.
  intros wd same debug h1 s1 i d k ev h2 s2 a b R1 R2 F Ei. apply Forall_app in F. destruct F as (F1 & F2). inversion F2 as [|? ? Md F3]; subst. cbn [fst may] in Md.
  pose proof (reached _ _ _ _ _ R1 F1) as Y. pose proof (start _ _ _ _ (y_hist _ _ _ _ Y)) as V.
  assert (I := nth_error_In _ _ Ei). destruct (down_read _ _ _ _ d a b Y Md I) as (id & m & p & A & Q & Sv & Eb & Er & P1 & P2 & P3 & P4 & P5).
  inversion R2 as [|? ? ? sx ? ? St L R3]; subst. cbn [x_step] in St. rewrite Ei in St. rewrite Er in St. cbn [bind rop_step fst snd] in St. injection St as <- <-.
  cbn [client_ops flat_map app] in L. inversion L as [|? ? L1 _]; subst. cbn [fst rop_legal] in L1.
  exists id, m. eexists. split; [exact A|]. split; [destruct (answer_parts m Q) as (p0 & E0 & P0); exists p0; split; [exact E0|exact P0]|]. split; [exact Sv|].
  split; [exact R3|]. split; [reflexivity|]. split; [reflexivity|]. cbn [x_queue].
  pose proof (queue_hdrs _ _ _ _ Y) as QH. rewrite Forall_forall in QH.
  assert (AM : forall f, In f (x_queue s1) -> (matches same a (hdr_mid (n_hdr p)) (n_tok p) f = true <-> answers same m a (i_msg f) (i_addr f))).
  { intros f Hf. destruct (QH f Hf) as (_ & _ & G3). rewrite (matches_answers same p a f P1 G3). unfold answers. now rewrite P2, P3. }
  unfold service_ack, ack_received. destruct (hdr_type (n_hdr p) =? ACK) eqn:EA.
  2:{ left. split; [reflexivity|]. intros C. exfalso. apply P4 in C. apply (ack_bits p P1) in C. congruence. }
  assert (Cm : confirmable m).
  { destruct (N.eq_dec (h0 (n_hdr m) / 16 mod 4) 0) as [C|C]; [exact C|exfalso]. apply (P5 C). now apply ack_bits. }
  destruct k as [k|]; cbn [is_match fst] in *.
  - destruct (nth_error (x_queue s1) k) as [f|] eqn:Ek; [|discriminate]. right. exists f. split; [exact Cm|]. pose proof (nth_error_In _ _ Ek) as Hf. split; [now apply remove_at_perm|]. split; [now apply AM|].
    assert (F4 : fine ([(XReceive i d (Some k), [EClient (RReceived p a (Some k)) []])] ++ h2)) by (constructor; [exact Md|exact F3]).
    pose proof (reached _ _ _ _ _ (xrun_app _ _ _ _ _ _ R1 _ _ R2) (proj2 (Forall_app _ _ _) (conj F1 F4))) as Y2. cbn [app] in Y2.
    pose proof (y_hist _ _ _ _ Y2) as H2. change ((XReceive i d (Some k), [EClient (RReceived p a (Some k)) []]) :: h2) with ([(XReceive i d (Some k), [EClient (RReceived p a (Some k)) []])] ++ h2) in H2.
    rewrite !history_app, history_one in H2. cbn [client_ops flat_map app] in H2.
    (* split the client's history *)
    assert (SP : forall g n q q2 l, rhist wd same n q (g ++ l) q2 -> exists q1, rhist wd same n q g q1 /\ rhist wd same (n + length g) q1 l q2).
    { clear. induction g as [|[o os] g IH]; intros n q q2 l R; cbn [app length] in *; [exists q; rewrite Nat.add_0_r; split; [constructor|exact R]|].
      inversion R as [|? ? ? ? qx ? ? L1 S1 R1]; subst. destruct (IH _ _ _ _ R1) as (q1 & A & B). exists q1. split; [econstructor; eauto|]. replace (n + S (length g))%nat with (S n + length g)%nat by lia. exact B. }
    destruct (SP _ _ _ _ _ H2) as (qm & HA & HB). cbn [Nat.add] in HB.
    assert (DET : forall g n q qa qb, rhist wd same n q g qa -> rhist wd same n q g qb -> qa = qb).
    { clear. induction g as [|[o os] g IH]; intros n q qa qb A B; inversion A; inversion B; subst; [reflexivity|]. eapply IH; [eassumption|]. congruence. }
    pose proof (DET _ _ _ _ _ HA (y_hist _ _ _ _ Y)) as ->. destruct (QH f Hf) as (_ & _ & G3).
    destruct (C28_acknowledged wd same (history h1) (x_queue s1) p a k [] (history h2) (x_queue s2) f HA HB Ek (proj1 (ack_bits p P1) EA) P1 G3) as (_ & _ & X & _). exact X.
  - left. split; [reflexivity|]. intros _ f Hf X. apply AM in X; [|exact Hf]. rewrite forallb_forall in L1. specialize (L1 f Hf). rewrite X in L1. discriminate.
Qed.
Print Assumptions C75_received.

(** If no two messages sent can be taken for one another, then what a reply takes from the
    queue is the message that was handled by the server it was sent to. *)
Theorem C75_processed : forall wd same debug h1 s1 i d k ev s2 f,
  xrun wd same debug x_start h1 s1 -> xrun wd same debug s1 [(XReceive i d k, ev)] s2 -> fine h1 -> idle d -> told_apart same h1 ->
  In f (x_queue s1) -> ~ In f (x_queue s2) -> In (EServed (i_addr f) (netmsg_bytes (i_msg f))) (done_in h1).
Proof.
  intros wd same debug h1 s1 i d k ev s2 f R1 R2 F Hd T H1 H2. pose proof (reached _ _ _ _ _ R1 F) as Y. destruct (nth_error (x_down s1) i) as [[a b]|] eqn:Ei.
  2:{ exfalso. inversion R2 as [|? ? ? sx ? ? St L R3]; subst. cbn [x_step] in St. rewrite Ei in St. injection St as <- <-. inversion R3; subst. exact (H2 H1). }
  destruct (C75_received wd same debug h1 s1 i d k ev [] s2 a b R1 R2) as (id & m & s' & A & _ & Sv & Rx & _ & _ & [(E & _)|(g & C & P & An & _)]); [|exact Ei| |].
  - apply Forall_app. split; [exact F|]. constructor; [exact Hd|constructor].
  - exfalso. inversion Rx; subst. apply H2. now rewrite E.
  - inversion Rx; subst. assert (g = f). { assert (X : In f (g :: x_queue s2)) by (eapply Permutation_in; eassumption). destruct X as [X|X]; [exact X|now elim H2]. } subst g.
    pose proof (queue_hdrs _ _ _ _ Y) as QH. rewrite Forall_forall in QH. destruct (QH f H1) as (G1 & _ & _). destruct An as (N1 & N2 & N3).
    assert (id = i_id f) by (apply (T id (i_id f) m (i_msg f) a (i_addr f)); auto). subst id. destruct A as (n1 & r1 & A). destruct G1 as (n2 & r2 & G1). rewrite G1 in A. injection A as -> -> _ _. exact Sv.
Qed.
Print Assumptions C75_processed.

(** Once everything on its way has been delivered, nothing waits for a reply any more of which a
    copy, or a reply to it, was on its way ... *)
Theorem C75_delivered : forall wd same debug h s g s1, xrun wd same debug x_start h s -> xrun wd same debug s g s1 -> fine (h ++ g) -> told_apart same (h ++ g) -> (forall a, same a a = true) ->
  delivers g -> x_up s1 = [] -> x_down s1 = [] ->
  forall f, In f (x_queue s1) -> ~ In (i_addr f, netmsg_bytes (i_msg f)) (x_up s) /\ (forall b, In (i_addr f, b) (x_down s) -> ~ reply_to (i_msg f) b).
Proof.
  intros wd same debug h s g s1 R G F T Sa D U N f Hf. pose proof F as F0. apply Forall_app in F0. destruct F0 as (F1 & F2). pose proof (reached _ _ _ _ _ R F1) as Y.
  pose proof (reached _ _ _ _ _ (xrun_app _ _ _ _ _ _ R _ _ G) F) as Y1. pose proof (queue_hdrs _ _ _ _ Y1) as QH. rewrite Forall_forall in QH. destruct (QH f Hf) as (G1 & G2 & G3).
  assert (Hid : In (i_id f) (map i_id (x_queue s1))) by (now apply in_map).
  assert (S0 : sent_as h (i_id f) (i_msg f) (i_addr f)).
  { destruct G1 as (n1 & r1 & G1). exists n1, r1. rewrite history_app in G1. destruct (Nat.lt_ge_cases (i_id f) (length (history h))) as [L|L]; [now rewrite nth_error_app1 in G1|exfalso].
    rewrite nth_error_app2 in G1 by exact L. apply nth_error_In in G1. clear - G D G1. revert G1. induction G as [s|s o evs sa g sb St L R IH]; intros X; [destruct X|]. apply delivers_cons in D. destruct D as (D1 & D2).
    change ((o, evs) :: g) with ([(o, evs)] ++ g) in X. rewrite history_app, history_one in X. apply in_app_iff in X. destruct X as [X|X]; [|now apply IH].
    eapply (proj2 (delivers_keeps _ _ _ _ _ _ St D1)). exact X. }
  assert (NP : ~ pending s (i_msg f) (i_addr f)).
  { intros P. destruct (deliver_run _ _ _ _ _ _ G h (i_id f) (i_msg f) (i_addr f) Y F2 D T (Sa _) S0 G2 P) as [[X|X]|X]; [rewrite U in X; destruct X|rewrite N in X; destruct X|exact (X Hid)]. }
  split; [intros X; apply NP; now left|]. intros b X RB. apply NP. right. destruct (y_down _ _ _ _ Y _ _ X) as (id & m & A & Eb & _). pose proof (y_req _ _ _ _ Y _ _ _ A) as Q.
  destruct RB as (p & Ep & P1 & P2 & P3 & P4 & P5 & _). destruct (answer_parts m Q) as (p0 & E0 & R1 & R2 & R3 & R4 & R5 & _).
  assert (Eq : netmsg_bytes p = netmsg_bytes p0) by congruence.
  assert (Tk : n_tok (i_msg f) = n_tok m /\ mid_of (i_msg f) = mid_of m).
  { unfold netmsg_bytes in Eq. rewrite P2, P3, R2, R3, !app_nil_r in Eq. rewrite <- P4, <- R4. destruct (n_hdr p) as [x0 x1 x2 x3] eqn:X0. destruct (n_hdr p0) as [z0 z1 z2 z3] eqn:X1. unfold hdr_bytes in Eq.
    cbn [h0 h1 h2 h3 app] in Eq. injection Eq as -> -> -> -> Et. split; [exact Et|]. unfold mid_of. now rewrite X0, X1. }
  destruct Tk as (T1 & T2). assert (Ei : id = i_id f) by (apply (T id (i_id f) m (i_msg f) (i_addr f) (i_addr f)); [now apply sent_keep|exact G1|apply Sa|now rewrite T1|now rewrite T2]).
  subst id. destruct A as (n1 & r1 & A). destruct S0 as (n2 & r2 & S0). rewrite S0 in A. injection A as <- _ _. rewrite <- Eb. exact X.
Qed.
Print Assumptions C75_delivered.

(** ... and that takes at most two deliveries for each message on its way to a server and one for
    each reply, and can be done from wherever the exchange stands. *)
Theorem C75_deliverable : forall wd same debug h s, xrun wd same debug x_start h s -> fine h ->
  (forall g s1, xrun wd same debug s g s1 -> delivers g -> (length g <= 2 * length (x_up s) + length (x_down s))%nat) /\
  (forall w d, world_ok w -> idle d -> exists g s1, xrun wd same debug s g s1 /\ fine g /\ delivers g /\ x_up s1 = [] /\ x_down s1 = []).
Proof.
  intros wd same debug h s R F. split.
  - intros g s1 G. clear R F h. induction G as [s|s o evs sa g sb St L G IH]; intros D; [cbn [length]; lia|]. apply delivers_cons in D. destruct D as (D1 & D2).
    pose proof (proj1 (delivers_keeps _ _ _ _ _ _ St D1)) as K. specialize (IH D2). cbn [length]. lia.
  - intros w d Hw Hd. remember (2 * length (x_up s) + length (x_down s))%nat as n eqn:En. revert h s R F En. induction n as [n IH] using lt_wf_ind. intros h s R F En.
    destruct (C75_safe _ _ _ _ _ R F) as (S1 & S2 & _). destruct (x_up s) as [|[a b] up] eqn:Eu.
    + destruct (x_down s) as [|[a b] down] eqn:Ed; [exists [], s; split; [constructor|repeat split; auto; constructor]|].
      destruct (S2 0%nat d Hd) as (k & s1 & ev & X). inversion X as [|? ? ? sx ? ? St L X2]; subst. inversion X2; subst.
      assert (Dv : delivers [(XReceive 0 d k, ev)]).
      { cbn. split; [|exact I]. intros ->. cbn [x_step] in St. rewrite Ed in St. cbn [nth_error] in St. destruct (x_read d b); cbn [bind rop_step fst snd] in St; discriminate. }
      pose proof (proj1 (delivers_keeps _ _ _ _ _ _ St Dv)) as K. assert (F1 : fine (h ++ [(XReceive 0 d k, ev)])) by (apply Forall_app; split; [exact F|]; constructor; [exact Hd|constructor]).
      destruct (IH (2 * length (x_up s1) + length (x_down s1))%nat) with (h := h ++ [(XReceive 0 d k, ev)]) (s := s1) as (g & s2 & G1 & G2 & G3 & G4); auto; [rewrite Eu, Ed in K; exact K|eapply xrun_app; eassumption|].
      exists ((XReceive 0 d k, ev) :: g), s2. split; [econstructor; eassumption|]. split; [constructor; [exact Hd|exact G2]|]. split; [cbn [delivers] in *; tauto|exact G4].
    + destruct (S1 0%nat w Hw) as (s1 & ev & St).
      assert (Dv : delivers [(XServe 0 w, ev)]).
      { cbn. split; [|exact I]. intros ->. cbn [x_step] in St. rewrite Eu in St. cbn [nth_error] in St. destruct (on_request _ _ _ _ _); cbn [bind] in St; discriminate. }
      assert (L : Forall (fun e => rop_legal same (fst e) (x_queue s) = true) (client_ops ev)).
      { cbn [x_step] in St. rewrite Eu in St. cbn [nth_error] in St. destruct (on_request _ _ _ _ _); cbn [bind] in St; try discriminate. injection St as <- <-. constructor. }
      pose proof (proj1 (delivers_keeps _ _ _ _ _ _ St Dv)) as K. assert (F1 : fine (h ++ [(XServe 0 w, ev)])) by (apply Forall_app; split; [exact F|]; constructor; [exact Hw|constructor]).
      assert (X : xrun wd same debug s [(XServe 0 w, ev)] s1) by (econstructor; [exact St|exact L|constructor]).
      destruct (IH (2 * length (x_up s1) + length (x_down s1))%nat) with (h := h ++ [(XServe 0 w, ev)]) (s := s1) as (g & s2 & G1 & G2 & G3 & G4); auto; [rewrite Eu in K; lia|eapply xrun_app; eassumption|].
      exists ((XServe 0 w, ev) :: g), s2. split; [econstructor; eassumption|]. split; [constructor; [exact Hw|exact G2]|]. split; [cbn [delivers] in *; tauto|exact G4].
Qed.
Print Assumptions C75_deliverable.

(** Once a message has been transmitted the fourth and last time it no longer waits: no reply to
    that transmission can be taken for it. *)
Theorem C75_last_transmission : forall wd same debug h s id, xrun wd same debug x_start h s -> fine h ->
  length (handouts id (history h)) = 3%nat -> ~ In id (map i_id (x_queue s)).
Proof.
  intros wd same debug h s id R F H I. pose proof (start _ _ _ _ (C75_client _ _ _ _ _ R F)) as V. apply in_map_iff in I. destruct I as (f & <- & Hf).
  pose proof (v_born _ _ _ V) as B. rewrite Forall_forall in B. destruct (B f Hf) as (m & a & now & r & os & _ & _ & _ & _ & _ & C & L). rewrite H in C. rewrite C in L. cbn in L. lia.
Qed.
Print Assumptions C75_last_transmission.

(** ** Concrete runs *)

Fixpoint x_go (wd : N) (same : N -> N -> bool) (debug : bool) (os : list xop) (s : xst) : option (list (xop * list xev) * xst) :=
  match os with
  | [] => Some ([], s)
  | o :: r =>
      match x_step wd debug o s with
      | Ok (s1, evs) =>
          if forallb (fun e => rop_legal same (fst e) (x_queue s)) (client_ops evs)
          then option_map (fun y => ((o, evs) :: fst y, snd y)) (x_go wd same debug r s1) else None
      | _ => None
      end
  end.
Lemma x_go_run : forall wd same debug os s h s1, x_go wd same debug os s = Some (h, s1) -> xrun wd same debug s h s1 /\ map fst h = os.
Proof.
  induction os as [|o os IH]; intros s h s1 E; cbn [x_go] in E; [injection E as <- <-; split; [constructor|reflexivity]|].
  destruct (x_step wd debug o s) as [[sa evs]| |] eqn:St; try discriminate. destruct (forallb _ _) eqn:L; [|discriminate].
  destruct (x_go wd same debug os sa) as [[g sb]|] eqn:G; [|discriminate]. cbn [option_map fst snd] in E. injection E as <- <-.
  destruct (IH _ _ _ G) as (R & M). split; [|cbn [map fst]; now rewrite M]. econstructor; [exact St| |exact R]. apply Forall_forall. apply forallb_forall. exact L.
Qed.
Lemma x_go_fine : forall os h, map fst h = os -> Forall may os -> fine h.
Proof. intros os h <- F. unfold fine. rewrite Forall_map in F. exact F. Qed.

Definition wld : world := at_time 0.
Lemma wld_ok : world_ok wld /\ idle old_mem.
Proof. destruct C56_memory as (M1 & M2 & _). split; [split; [exact M2|exact M1]|exact M1]. Qed.
Lemma con1_request : request con1.
Proof. unfold request. split; [apply hdr_ok_iff; repeat split; vm_compute; reflexivity|]. split; [repeat constructor|]. split; [reflexivity|]. split; [cbn; lia|reflexivity]. Qed.
(** the same message id and token, another path *)
Definition con2 : netmsg := NetMsg (Hdr 0x41 1 0x12 0x34) [7] [0xB1; 0x62].
Lemma con2_request : request con2.
Proof. unfold request. split; [apply hdr_ok_iff; repeat split; vm_compute; reflexivity|]. split; [repeat constructor|]. split; [reflexivity|]. split; [cbn; lia|reflexivity]. Qed.
Ltac went os := let y := eval vm_compute in (x_go 32 N.eqb true os x_start) in
  match y with Some (?h, ?s) =>
    let E := fresh "E" in assert (E : x_go 32 N.eqb true os x_start = Some (h, s)) by (vm_compute; reflexivity);
    apply x_go_run in E; destruct E as (?R & ?M); exists h, s; split; [assumption|] end.
Ltac mays := eapply x_go_fine; [reflexivity|]; destruct wld_ok as (?W & ?D); repeat (apply Forall_cons || apply Forall_nil); cbn [may];
  first [exact con1_request|exact con2_request|assumption|exact I].

(** The server does not know messages it has handled (RFC 7252 section 4.5): one message sent
    once by the application, over a network that doubles nothing, is handled four times, and
    answered four times. *)
Definition four_times : list xop :=
  [XSend con1 9 0 0; XServe 0 wld; XService 2000 0; XServe 0 wld; XService 6000 0; XServe 0 wld; XService 14000 0; XServe 0 wld].
Theorem C75_once_refuted : exists h s, xrun 32 N.eqb true x_start h s /\ fine h /\ count_ops is_send h = 1%nat /\ count_ops is_twice h = 0%nat /\
  filter (fun e => match e with EServed _ _ => true | _ => false end) (done_in h) = repeat (EServed 9 (netmsg_bytes con1)) 4 /\
  x_down s = repeat (9, [0x61; 0x45; 0x12; 0x34; 7]) 4.
Proof. went four_times. split; [unfold four_times in *; mays|]. repeat split. Qed.
Print Assumptions C75_once_refuted.

(** A reply to the last transmission arrives, at once, and is not taken: the message had been
    dropped with that transmission (RFC 7252 section 4.2 waits once more).  The client never
    learns that it was answered. *)
Definition last_answered : list xop :=
  [XSend con1 9 0 0; XLose true 0; XService 2000 0; XLose true 0; XService 6000 0; XLose true 0; XService 14000 0; XServe 0 wld; XReceive 0 old_mem None].
Theorem C75_last_reply_refuted : exists h s, xrun 32 N.eqb true x_start h s /\ fine h /\ told_apart N.eqb h /\ sent_as h 0 con1 9 /\ confirmable con1 /\
  In (EServed 9 (netmsg_bytes con1)) (done_in h) /\
  (exists p os, In (RReceived p 9 None, os) (history h) /\ acknowledgement p /\ answers N.eqb p 9 con1 9) /\
  (forall p a k os, ~ In (RReceived p a (Some k), os) (history h)).
Proof.
  went last_answered. split; [unfold last_answered in *; mays|]. split; [|split; [|split; [reflexivity|split; [|split]]]].
  - intros i j m1 m2 a1 a2 (n1 & r1 & A) (n2 & r2 & B) _ _ _. cbn in A, B.
    destruct i as [|[|[|[|[|i]]]]], j as [|[|[|[|[|j]]]]]; try reflexivity; try discriminate; try (cbn in A; destruct i; discriminate); cbn in B; destruct j; discriminate.
  - exists 0, 0. reflexivity.
  - vm_compute. tauto.
  - do 2 eexists. split; [right; right; right; right; left; reflexivity|]. repeat split.
  - intros p a k os X. cbn in X. intuition discriminate.
Qed.
Print Assumptions C75_last_reply_refuted.

(** With message ids and tokens used again the network's copy of an old reply is taken for a
    reply to a message that no server has seen. *)
Definition stale : list xop :=
  [XSend con1 9 0 0; XServe 0 wld; XTwice false 0; XReceive 0 old_mem (Some 0%nat); XSend con2 9 100 0; XLose true 0].
Theorem C75_stale_refuted : exists h s, xrun 32 N.eqb true x_start h s /\ fine h /\
  exists s1 ev f, xrun 32 N.eqb true s [(XReceive 0 old_mem (Some 0%nat), ev)] s1 /\ In f (x_queue s) /\ i_msg f = con2 /\ x_queue s1 = [] /\
    forall a, ~ In (EServed a (netmsg_bytes con2)) (done_in h).
Proof.
  went stale. split; [unfold stale in *; mays|]. do 3 eexists. split; [econstructor; [vm_compute; reflexivity| |constructor]|].
  - repeat constructor.
  - split; [left; reflexivity|]. split; [reflexivity|]. split; [reflexivity|]. intros a X. cbn in X. intuition discriminate.
Qed.
Print Assumptions C75_stale_refuted.

(** Sent, doubled by the network, retransmitted; three copies handled, the first reply taken, the
    others not. *)
Definition doubled : list xop :=
  [XSend con1 9 0 0; XTwice true 0; XServe 1 wld; XService 2000 0; XReceive 0 old_mem (Some 0%nat); XServe 0 wld; XServe 0 wld; XReceive 1 old_mem None; XReceive 0 old_mem None].
Example C75_case : exists h s, xrun 32 N.eqb true x_start h s /\ fine h /\ s = Xst 5 [] [] [] /\ served h = 3%nat /\ handouts 0 (history h) = [2000] /\ told_apart N.eqb h /\ sent_as h 0 con1 9.
Proof.
  went doubled. split; [unfold doubled in *; mays|]. split; [reflexivity|]. split; [reflexivity|]. split; [reflexivity|]. split; [|exists 0, 0; reflexivity].
  intros i j m1 m2 a1 a2 (n1 & r1 & A) (n2 & r2 & B) _ _ _. cbn in A, B.
  destruct i as [|[|[|[|[|i]]]]], j as [|[|[|[|[|j]]]]]; try reflexivity; try discriminate; try (cbn in A; destruct i; discriminate); cbn in B; destruct j; discriminate.
Qed.

(** A message and a reply on their way, both waiting; then both delivered. *)
Definition con3 : netmsg := NetMsg (Hdr 0x40 1 0x12 0x35) [] [].
Lemma con3_request : request con3.
Proof. unfold request. split; [apply hdr_ok_iff; repeat split; vm_compute; reflexivity|]. split; [constructor|]. split; [reflexivity|]. split; [cbn; lia|reflexivity]. Qed.
Example C75_delivered_case : exists h s, xrun 32 N.eqb true x_start h s /\ fine h /\ length (x_queue s) = 2%nat /\ length (x_up s) = 1%nat /\ length (x_down s) = 1%nat /\ told_apart N.eqb h /\
  exists g s1, xrun 32 N.eqb true s g s1 /\ fine g /\ delivers g /\ s1 = Xst 4 [] [] [].
Proof.
  went [XSend con1 9 0 0; XSend con3 9 5 77; XServe 0 wld]. split; [eapply x_go_fine; [reflexivity|]; destruct wld_ok as (W & D); repeat (apply Forall_cons || apply Forall_nil); cbn [may]; first [exact con1_request|exact con3_request|assumption]|].
  split; [reflexivity|]. split; [reflexivity|]. split; [reflexivity|]. split.
  - intros i j m1 m2 a1 a2 (n1 & r1 & A) (n2 & r2 & B) _ T _. cbn in A, B.
    destruct i as [|[|i]], j as [|[|j]]; try reflexivity; try discriminate; try (cbn in A; destruct i; discriminate); try (cbn in B; destruct j; discriminate); cbn in A, B; injection A as <- _ _ _; injection B as <- _ _ _; discriminate T.
  - do 2 eexists. split; [|split; [|split]].
    + apply xr_cons with (o := XServe 0 wld) (evs := [EServed 9 (netmsg_bytes con3)]) (s1 := Xst 2 [Item 0 0 2000 9 con1 2000; Item 1 0 2077 9 con3 2082] [] [(9, [97; 69; 18; 52; 7]); (9, [96; 69; 18; 53])]); [vm_compute; reflexivity|constructor|].
      econstructor; [instantiate (3 := XReceive 1 old_mem (Some 1%nat)); vm_compute; reflexivity|repeat constructor|].
      econstructor; [instantiate (3 := XReceive 0 old_mem (Some 0%nat)); vm_compute; reflexivity|repeat constructor|]. constructor.
    + destruct wld_ok as (W & D). repeat (apply Forall_cons || apply Forall_nil); cbn [may fst]; assumption.
    + cbn. repeat split; discriminate.
    + reflexivity.
Qed.

(** Two messages sent, one retransmitted, the three copies handled and answered, the replies read. *)
Definition quiet : list xop :=
  [XSend con1 9 0 0; XSend con3 8 5 77; XService 2000 0; XServe 1 wld; XServe 0 wld; XServe 0 wld; XReceive 1 old_mem (Some 1%nat); XReceive 0 old_mem (Some 0%nat); XReceive 0 old_mem None].
Example C75_quiet_case : exists h s, xrun 32 N.eqb true x_start h s /\ fine h /\ s = Xst 6 [] [] [] /\
  (forall o, In o (map fst h) -> loses true o = false /\ loses false o = false /\ doubles true o = false /\ doubles false o = false) /\
  put h = [(9, netmsg_bytes con1); (8, netmsg_bytes con3); (9, netmsg_bytes con1)].
Proof.
  went quiet. split; [eapply x_go_fine; [reflexivity|]; destruct wld_ok as (W & D); repeat (apply Forall_cons || apply Forall_nil); cbn [may]; first [exact con1_request|exact con3_request|assumption|exact I]|].
  split; [reflexivity|]. split; [|reflexivity]. intros o H. cbn in H. repeat destruct H as [<-|H]; try (now cbn).
Qed.
