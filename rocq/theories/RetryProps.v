(** C25-C30: retransmission. *)
From Coq Require Import Permutation.
From Verif Require Import Base HeaderModel HeaderProofs RetryModel RetrySpec RetryProofs.
Local Open Scope N_scope.

Lemma start : forall w same h q, rhist w same 0 [] h q -> inv (length h) q h.
Proof. intros w same h q H. exact (inv_hist w same 0 [] h q H [] inv_nil). Qed.

Lemma start_time : forall w same h q, rhist w same 0 [] h q -> times_ok w h -> Forall (on_time h) q /\ paced h.
Proof.
  intros w same h q H T. apply (time_hist w same 0 [] h q H T [] inv_nil); [constructor|]. intros id X. now elim X.
Qed.

(** * C25 *)

(** Whatever is handed out in any history is a confirmable message that an earlier
    operation of the history reported as sent, to the same address. *)
Theorem C25_only_confirmable : forall w same h q, rhist w same 0 [] h q ->
  forall h1 o os h2 id m a, h = h1 ++ (o, os) :: h2 -> In (id, m, a) os -> hdr_ok (n_hdr m) ->
  confirmable m /\ exists now r, nth_error h1 id = Some (RSent m a now r, []).
Proof.
  intros w same h q HR h1 o os h2 id m a Eh Hin Hok.
  assert (X : exists qa qb, rhist w same 0 [] h1 qa /\ rop_step w (length h1) o qa = Ok (qb, os) /\ rop_legal same o qa = true).
  { clear Hin. subst h. change (length h1) with (0 + length h1)%nat. revert HR. generalize 0%nat. generalize (@nil item). clear.
    induction h1 as [|[o1 os1] h1 IH]; intros q0 n HR; inversion HR as [|? ? ? ? qx ? ? L1 S1 R1]; subst.
    - exists q0, qx. cbn [length]. rewrite Nat.add_0_r. repeat split; auto. constructor.
    - destruct (IH qx (S n)) as (qa & qb & A & B & C); [assumption|]. exists qa, qb. split; [econstructor; eassumption|].
      cbn [length]. rewrite Nat.add_succ_r. auto. }
  destruct X as (qa & qb & HA & HS & HL). pose proof (start _ _ _ _ HA) as V.
  assert (Hit : exists it, In it qa /\ i_id it = id /\ i_msg it = m /\ i_addr it = a).
  { destruct o as [m' a' now r|m' a' k|now k]; cbn [rop_step] in HS.
    - exfalso. unfold on_sent in HS. destruct (is_con m'); [unfold push in HS; destruct (_ <? _)%nat|]; cbn [bind] in HS; try discriminate; injection HS as _ <-; destruct Hin.
    - exfalso. injection HS as _ <-. destruct Hin.
    - destruct (service_cases w now k qa qb os (v_cap _ _ _ V) HS) as [(_ & -> & _)|(f & E & _ & HC)]; [destruct Hin|].
      exists f. split; [eapply nth_error_In; exact E|].
      destruct HC as [(_ & -> & _)|[(_ & -> & _)|(_ & -> & _)]]; [destruct Hin as [Hin|[]]; injection Hin; auto|destruct Hin as [Hin|[]]; injection Hin; auto|destruct Hin]. }
  destruct Hit as (it & Hi & <- & <- & <-). pose proof (v_born _ _ _ V) as B. rewrite Forall_forall in B.
  destruct (B it Hi) as (m & a & now & r & os' & F1 & F2 & F3 & F4 & _).
  split; [apply con_bits; [exact Hok|rewrite F3; exact F2]|]. exists now, r. rewrite F1, F3, F4. do 2 f_equal.
  (* a send hands nothing out *)
  clear - F1 HA. revert F1. generalize (i_id it). intros i F1.
  assert (Y : forall n q0 h q', rhist w same n q0 h q' -> forall i m a now r os, nth_error h i = Some (RSent m a now r, os) -> os = []).
  { clear. induction 1 as [|n q o os q1 h q2 HL HS HR IH]; intros i m a now r os' E; [destruct i; discriminate|].
    destruct i as [|i]; [|eapply IH; exact E]. cbn in E. injection E as -> ->. cbn [rop_step] in HS.
    destruct (on_sent _ _ _ _ _ _ _); cbn [bind] in HS; try discriminate. injection HS as _ <-. reflexivity. }
  eapply Y; eassumption.
Qed.
Print Assumptions C25_only_confirmable.

(** A sent message is tracked exactly when it is confirmable: its own copy is added
    at the end, everything else stays; no other message changes the queue.  The
    queue holds ten messages; an eleventh is a fault. *)
Theorem C25_tracked_iff : forall w id m a now r q, hdr_ok (n_hdr m) ->
  (confirmable m -> (length q < 10)%nat -> exists it, on_sent w id m a now r q = Ok (q ++ [it]) /\ i_msg it = m /\ i_addr it = a /\ i_id it = id) /\
  (confirmable m -> (10 <= length q)%nat -> on_sent w id m a now r q = Fault) /\
  (~ confirmable m -> on_sent w id m a now r q = Ok q).
Proof.
  intros w id m a now r q Hok. pose proof (con_bits m Hok) as B. unfold on_sent, push.
  split; [|split]; intros HC.
  - intros Hl. apply B in HC. rewrite HC. apply Nat.ltb_lt in Hl. change QUEUE_MAX with 10%nat. rewrite Hl. eexists. repeat split; reflexivity.
  - intros Hl. apply B in HC. rewrite HC. apply Nat.ltb_ge in Hl. change QUEUE_MAX with 10%nat. rewrite Hl. reflexivity.
  - destruct (is_con m); [exfalso; apply HC, B; reflexivity|reflexivity].
Qed.
Print Assumptions C25_tracked_iff.

(** * C26 *)

(** The handouts of the message sent by operation [id] at [t0] wait at least I,
    2I, 4I for one I in 2000..2999, and there are at most three.  The clock is
    assumed not to wrap. *)
Theorem C26_backoff : forall w same h q, rhist w same 0 [] h q -> times_ok w h ->
  forall id m a t0 r os, nth_error h id = Some (RSent m a t0 r, os) ->
  exists I, 2000 <= I <= 2999 /\ backoff I t0 (handouts id h) /\ (length (handouts id h) <= 3)%nat.
Proof.
  intros w same h q HR HT id m a t0 r os E. destruct (start_time w same h q HR HT) as (_ & P).
  exists (2000 + r mod 1000). split; [lia|]. split; [|apply (v_lim _ _ _ (start _ _ _ _ HR))].
  destruct (handouts id h) eqn:Eh; [exact I|]. rewrite <- Eh. destruct (P id) as (m' & a' & now' & r' & os' & F1 & F2); [congruence|].
  rewrite E in F1. injection F1 as <- <- <- <- <-. exact F2.
Qed.
Print Assumptions C26_backoff.

(** Operations that are not sends are never handed out. *)
Theorem C26_no_others : forall w same h q, rhist w same 0 [] h q ->
  forall id, (forall m a t0 r os, nth_error h id <> Some (RSent m a t0 r, os)) -> handouts id h = [].
Proof.
  intros w same h q HR id HN. destruct (handouts id h) as [|t ts] eqn:E; [reflexivity|exfalso].
  assert (Hin : In t (handouts id h)) by (rewrite E; now left). unfold handouts in Hin. apply in_flat_map in Hin.
  destruct Hin as (e & He & Ht). unfold handed in Ht. destruct (fst e); try destruct Ht.
  destruct (existsb _ (snd e)) eqn:Ex; [|destruct Ht]. apply existsb_exists in Ex. destruct Ex as ([[i mm] aa] & Hi & Hn).
  cbn in Hn. apply Nat.eqb_eq in Hn. subst i. destruct (v_src _ _ _ (start _ _ _ _ HR) e id mm aa He Hi) as (_ & x & y & z & X).
  exact (HN _ _ _ _ _ X).
Qed.
Print Assumptions C26_no_others.

(** Every value of the two bit fields, not only those a history reaches: the wait
    is the first one doubled once per retransmission, without wrapping. *)
Theorem C26_delta : forall c i, c < 2 ^ 3 -> i < 2 ^ 12 -> meta_delta c i = Nat.iter (N.to_nat c) (fun d => d + d) i.
Proof.
  intros c i Hc Hi. change (2 ^ 3) with 8 in Hc. change (2 ^ 12) with 4096 in Hi.
  assert (D : c = 0 \/ c = 1 \/ c = 2 \/ c = 3 \/ c = 4 \/ c = 5 \/ c = 6 \/ c = 7) by lia.
  unfold meta_delta. change (2 ^ 32) with 4294967296.
  destruct D as [->|[->|[->|[->|[->|[->|[->| ->]]]]]]];
    match goal with |- context [N.shiftl 1 ?k mod 2 ^ 16] => let v := eval vm_compute in (N.shiftl 1 k mod 2 ^ 16) in change (N.shiftl 1 k mod 2 ^ 16) with v end;
    match goal with |- context [N.to_nat ?k] => let v := eval vm_compute in (N.to_nat k) in change (N.to_nat k) with v end;
    cbn [Nat.iter nat_rect]; rewrite N.mod_small by lia; lia.
Qed.
Print Assumptions C26_delta.

Example C26_delta_case : meta_delta 7 4095 = 524160 /\ 7 < 2 ^ 3 /\ 4095 < 2 ^ 12.
Proof. repeat split. Qed.

Definition con1 : netmsg := NetMsg (Hdr 0x41 1 0x12 0x34) [7] [0xB1; 0x61].
Definition con2 : netmsg := NetMsg (Hdr 0x40 2 0x12 0x35) [] [].
Definition non1 : netmsg := NetMsg (Hdr 0x50 1 0x12 0x36) [] [].
Definition ack1 : netmsg := NetMsg (Hdr 0x61 0x45 0x12 0x34) [7] [].

(** Without the assumption on the clock the claim is false: with the 16-bit clock
    of the unit test's policy a message sent at 65000 is due at 1464 and is handed
    out at once. *)
Theorem C26_clock_wrap_refuted : exists h q, rhist 16 N.eqb 0 [] h q /\ nth_error h 0 = Some (RSent con1 1 65000 0, []) /\
  ~ (exists I, 2000 <= I /\ backoff I 65000 (handouts 0 h)).
Proof.
  exists [(RSent con1 1 65000 0, []); (RService 65001 0, [(0%nat, con1, 1)])]. eexists. split; [|split; [reflexivity|]].
  - econstructor; [reflexivity|vm_compute; reflexivity|]. econstructor; [reflexivity|vm_compute; reflexivity|]. constructor.
  - intros (I & H1 & H2). change (65000 + I <= 65001 /\ True) in H2. destruct H2 as (H2 & _). lia.
Qed.
Print Assumptions C26_clock_wrap_refuted.

(** * C28 *)

(** An accepted ACK answers the message it removes; that message is never handed
    out again, and the queue goes on with exactly the others. *)
Theorem C28_acknowledged : forall w same h1 q1 m a k os h2 q2 f,
  rhist w same 0 [] h1 q1 -> rhist w same (length h1) q1 ((RReceived m a (Some k), os) :: h2) q2 ->
  nth_error q1 k = Some f -> acknowledgement m -> hdr_ok (n_hdr m) -> hdr_ok (n_hdr (i_msg f)) ->
  answers same m a (i_msg f) (i_addr f) /\ os = [] /\ handouts (i_id f) h2 = [] /\
  exists q', Permutation q1 (f :: q') /\ rhist w same (S (length h1)) q' h2 q2.
Proof.
  intros w same h1 q1 m a k os h2 q2 f HA HB E HM O1 O2. inversion HB as [|? ? ? ? qa ? ? HL HS HR]; subst.
  pose proof (start _ _ _ _ HA) as V. pose proof (proj2 (ack_bits m O1) HM) as HAck.
  cbn [rop_legal] in HL. rewrite HAck in HL. cbn [is_match] in HL. rewrite E in HL.
  cbn [rop_step] in HS. unfold service_ack in HS. rewrite HAck in HS. cbn [ack_received fst] in HS. injection HS as <- <-.
  split; [now apply matches_answers|]. split; [reflexivity|].
  destruct (remove_at_nodup k q1 f E (v_ids _ _ _ V)) as (_ & NI).
  assert (V1 : inv (S (length h1)) (remove_at k q1) (h1 ++ [(RReceived m a (Some k), [])])).
  { apply (inv_step w same _ q1 h1 (RReceived m a (Some k))); [assumption| |].
    - cbn [rop_legal]. rewrite HAck. cbn [is_match]. rewrite E. exact HL.
    - cbn [rop_step]. unfold service_ack. rewrite HAck. reflexivity. }
  split.
  - apply (gone w same _ _ _ _ HR _ (i_id f) V1); [|assumption].
    pose proof (v_born _ _ _ V) as B. rewrite Forall_forall in B. apply nth_error_In in E. pose proof (born_lt _ _ (B f E)). lia.
  - exists (remove_at k q1). split; [now apply remove_at_perm|exact HR].
Qed.
Print Assumptions C28_acknowledged.

(** A message that is no ACK changes nothing; an ACK changes nothing exactly when
    it answers no tracked message. *)
Theorem C28_ignored : forall w same n q m a k, hdr_ok (n_hdr m) -> rop_legal same (RReceived m a k) q = true ->
  Forall (fun it => hdr_ok (n_hdr (i_msg it))) q ->
  (~ acknowledgement m -> rop_step w n (RReceived m a k) q = Ok (q, [])) /\
  (acknowledgement m -> (rop_step w n (RReceived m a k) q = Ok (q, []) <-> Forall (fun it => ~ answers same m a (i_msg it) (i_addr it)) q)).
Proof.
  intros w same n q m a k HO HL HQ. pose proof (ack_bits m HO) as B. cbn [rop_step rop_legal] in *. unfold service_ack. split; intros HM.
  - destruct (hdr_type (n_hdr m) =? ACK); [exfalso; apply HM, B; reflexivity|reflexivity].
  - apply B in HM. rewrite HM in *. destruct k as [k|]; cbn [ack_received fst is_match] in *.
    + destruct (nth_error q k) as [f|] eqn:E; [|discriminate]. pose proof (nth_error_In _ _ E) as Hi. rewrite Forall_forall in HQ. split.
      * intros X. injection X as X. pose proof (remove_at_len k q f E). rewrite X in *. lia.
      * intros X. exfalso. rewrite Forall_forall in X. apply (X f Hi). apply matches_answers; auto.
    + split; [intros _|reflexivity]. rewrite forallb_forall in HL. rewrite Forall_forall in *. intros it Hi X.
      apply matches_answers in X; auto. specialize (HL it Hi). rewrite X in HL. discriminate.
Qed.
Print Assumptions C28_ignored.

(** service_ack says true exactly when the message is an ACK that answers a tracked message. *)
Theorem C28_verdict : forall same q m a k, hdr_ok (n_hdr m) -> rop_legal same (RReceived m a k) q = true ->
  Forall (fun it => hdr_ok (n_hdr (i_msg it))) q ->
  (snd (service_ack m k q) = true <-> acknowledgement m /\ Exists (fun it => answers same m a (i_msg it) (i_addr it)) q).
Proof.
  intros same q m a k HO HL HQ. pose proof (ack_bits m HO) as B. cbn [rop_legal] in HL. unfold service_ack.
  destruct (hdr_type (n_hdr m) =? ACK) eqn:E; cbn [snd]; [|split; [discriminate|intros (H & _); apply B in H; discriminate]].
  destruct k as [k|]; cbn [ack_received snd is_match] in *; (split; [intros X|]).
  - split; [now apply B|]. destruct (nth_error q k) as [f|] eqn:Ek; [|discriminate]. apply nth_error_In in Ek. apply Exists_exists. exists f.
    split; [exact Ek|]. rewrite Forall_forall in HQ. apply matches_answers; auto.
  - reflexivity.
  - discriminate.
  - intros (_ & X). apply Exists_exists in X. destruct X as (it & Hi & X). rewrite forallb_forall in HL. rewrite Forall_forall in HQ.
    apply matches_answers in X; auto. specialize (HL it Hi). rewrite X in HL. discriminate.
Qed.
Print Assumptions C28_verdict.

Example C28_verdict_case : snd (service_ack ack1 (Some 0%nat) [Item 0 0 2000 1 con1 2000]) = true /\
  snd (service_ack con1 (Some 0%nat) [Item 0 0 2000 1 con1 2000]) = false /\ snd (service_ack ack1 None [Item 0 0 2000 2 con1 2000]) = false.
Proof. repeat split. Qed.

(** The histories leave nothing out: with any queue any message may be reported as sent, any
    message may be received - a non-ACK with whatever choice - and the service may be called. *)
Theorem C28_every : forall same q, (forall m a now r, rop_legal same (RSent m a now r) q = true) /\
  (forall m a, exists k, rop_legal same (RReceived m a k) q = true) /\
  (forall m a k, hdr_ok (n_hdr m) -> ~ acknowledgement m -> rop_legal same (RReceived m a k) q = true) /\
  (forall now, exists k, rop_legal same (RService now k) q = true).
Proof.
  intros same q. split; [reflexivity|]. split; [|split].
  - intros m a. cbn [rop_legal]. destruct (hdr_type (n_hdr m) =? ACK); [|exists None; reflexivity].
    destruct (forallb (fun it => negb (matches same a (hdr_mid (n_hdr m)) (n_tok m) it)) q) eqn:E; [exists None; exact E|].
    assert (X : exists it, In it q /\ matches same a (hdr_mid (n_hdr m)) (n_tok m) it = true).
    { clear - E. induction q as [|it q IH]; cbn [forallb] in E; [discriminate|]. destruct (matches same a (hdr_mid (n_hdr m)) (n_tok m) it) eqn:M; [exists it; cbn; auto|].
      destruct (IH E) as (x & I & Mx). exists x. cbn. auto. }
    destruct X as (it & I & M). apply In_nth_error in I. destruct I as (k & I). exists (Some k). cbn [is_match]. now rewrite I.
  - intros m a k HO HM. cbn [rop_legal]. pose proof (ack_bits m HO) as B. destruct (hdr_type (n_hdr m) =? ACK); [exfalso; apply HM, B; reflexivity|reflexivity].
  - intros now. cbn [rop_legal]. destruct q as [|x q]; [exists 0%nat; reflexivity|].
    assert (X : exists k f, nth_error (x :: q) k = Some f /\ forall it, In it (x :: q) -> i_due f <= i_due it).
    { clear. revert x. induction q as [|y q IH]; intro x; [exists 0%nat, x; split; [reflexivity|intros it [<-|[]]; lia]|].
      destruct (IH y) as (k & f & F & L). destruct (N.le_gt_cases (i_due x) (i_due f)) as [C|C].
      - exists 0%nat, x. split; [reflexivity|]. intros it [<-|I]; [lia|]. specialize (L it I). lia.
      - exists (S k), f. split; [exact F|]. intros it [<-|I]; [lia|auto]. }
    destruct X as (k & f & F & L). exists k. unfold is_top. rewrite F. apply forallb_forall. intros it I. apply N.leb_le. auto.
Qed.
Print Assumptions C28_every.

(** What the claim does not give: the observer also tracks the retransmissions it
    sees going out, so a message that was retransmitted once and then acknowledged
    is still retransmitted. *)
Theorem C28_observed_resend_refuted : exists h1 h2 q, rhist 32 N.eqb 0 [] (h1 ++ (RReceived ack1 1 (Some 0%nat), []) :: h2) q /\
  acknowledgement ack1 /\ answers N.eqb ack1 1 con1 1 /\
  h1 = [(RSent con1 1 0 0, []); (RService 2000 0, [(0%nat, con1, 1)]); (RSent con1 1 2001 0, [])] /\
  exists e id, In e h2 /\ In (id, con1, 1) (snd e).
Proof.
  eexists. exists [(RService 9000 0, [(2%nat, con1, 1)])]. eexists. split; [|split; [reflexivity|split; [repeat split; reflexivity|split; [reflexivity|]]]].
  - cbn [app]. repeat (econstructor; [reflexivity|vm_compute; reflexivity|]). constructor.
  - eexists. exists 2%nat. split; [left; reflexivity|]. left. reflexivity.
Qed.
Print Assumptions C28_observed_resend_refuted.

(** * C29 *)

(** If nothing more is sent or acknowledged and the service is called at late
    enough times, three calls per tracked message empty the queue, and every
    message then tracked has been handed out exactly three times in all. *)
Theorem C29_drains : forall w same h1 q1 h2 q2 t,
  rhist w same 0 [] h1 q1 -> rhist w same (length h1) q1 h2 q2 -> times_ok w (h1 ++ h2) ->
  (forall e, In e h1 -> op_time (fst e) + 12000 <= t) -> spaced t h2 -> (3 * length q1 <= length h2)%nat ->
  q2 = [] /\ forall it, In it q1 -> length (handouts (i_id it) (h1 ++ h2)) = 3%nat.
Proof.
  intros w same h1 q1 h2 q2 t HA HB HT HL SP Hn. apply Forall_app in HT. destruct HT as (T1 & T2).
  pose proof (start _ _ _ _ HA) as V. destruct (start_time w same h1 q1 HA T1) as (OT & _).
  pose proof (inv_hist w same _ _ _ _ HB h1 V) as V2.
  assert (E2 : q2 = []).
  { eapply remaining_0; [apply (v_born _ _ _ V2)|]. rewrite (spaced_remaining w same _ _ _ _ HB t h1 T2 SP V).
    - pose proof (remaining_le q1). lia.
    - intros it Hi. apply (due_bound h1 (length h1) q1 it t V Hi); [rewrite Forall_forall in OT; auto|exact HL]. }
  split; [exact E2|]. intros it Hi.
  destruct (spaced_fate w same _ _ _ _ HB t h1 (i_id it) SP V (in_map _ _ _ Hi)) as [X|X]; [|exact X].
  rewrite E2 in X. destruct X.
Qed.
Print Assumptions C29_drains.

(** Such schedules exist: from every reachable queue, the service can be called at
    any times whatever, without a fault. *)
Theorem C29_service_possible : forall w same h1 q1 ts, rhist w same 0 [] h1 q1 ->
  exists h2 q2, rhist w same (length h1) q1 h2 q2 /\ map (fun e => op_time (fst e)) h2 = ts /\
    Forall (fun e => exists now k, fst e = RService now k) h2.
Proof.
  intros w same h1 q1 ts HA. pose proof (start _ _ _ _ HA) as V. clear HA. revert V. generalize (length h1). revert h1 q1.
  induction ts as [|t ts IH]; intros H q n V.
  - exists [], q. split; [constructor|]. split; [reflexivity|constructor].
  - assert (HK : exists k, rop_legal same (RService t k) q = true).
    { destruct q as [|x q]; [exists 0%nat; reflexivity|]. destruct (top_exists (x :: q)) as (k & Hk); [discriminate|]. exists k. exact Hk. }
    destruct HK as (k & Hk). destruct (service_total w t k q (v_cap _ _ _ V)) as (q1 & os & HS).
    destruct (IH (H ++ [(RService t k, os)]) q1 (S n)) as (h2 & q2 & A & B & C).
    { apply (inv_step w same n q H (RService t k)); auto. }
    exists ((RService t k, os) :: h2), q2. split; [econstructor; eauto|]. split; [cbn; now rewrite B|]. constructor; [|assumption]. cbn. eauto.
Qed.
Print Assumptions C29_service_possible.

(** * C27 *)

(** RFC 7252 section 4.8: MAX_RETRANSMIT is 4.  No message of any history is ever
    handed out more than three times; in particular the full claim fails for the
    history below, in which the service drains the queue. *)
Theorem C27_three_at_most : forall w same h q, rhist w same 0 [] h q -> forall id, (length (handouts id h) <= 3)%nat.
Proof. intros w same h q HR id. apply (v_lim _ _ _ (start _ _ _ _ HR)). Qed.
Print Assumptions C27_three_at_most.

Definition drained : list (rop * outs) :=
  [(RSent con1 1 0 0, []); (RService 12000 0, [(0%nat, con1, 1)]); (RService 24000 0, [(0%nat, con1, 1)]);
   (RService 36000 0, [(0%nat, con1, 1)]); (RService 48000 0, [])].

Theorem C27_four_refuted : rhist 32 N.eqb 0 [] drained [] /\ confirmable con1 /\ handouts 0 drained = [12000; 24000; 36000].
Proof.
  split; [|split; reflexivity]. unfold drained. repeat (econstructor; [reflexivity|vm_compute; reflexivity|]). constructor.
Qed.
Print Assumptions C27_four_refuted.

(** * C30 *)

(** One service call on any queue within its capacity: with nothing due it changes
    nothing.  Otherwise some item [f] with the smallest due time leaves its place;
    nothing but [f] is handed out; the other items are untouched; [f] itself comes
    back, if at all, as the same message to the same address. *)
Theorem C30_earliest_first : forall w same n now k q, (length q <= 10)%nat -> rop_legal same (RService now k) q = true ->
  exists q' os, rop_step w n (RService now k) q = Ok (q', os) /\
  ((forall it, In it q -> now < i_due it) -> q' = q /\ os = []) /\
  (forall it, In it q -> i_due it <= now ->
     exists f rest, Permutation q (f :: rest) /\ i_due f <= now /\ (forall x, In x q -> i_due f <= i_due x) /\
       (os = [] \/ os = [(i_id f, i_msg f, i_addr f)]) /\ (i_count f <= 2 -> os <> []) /\
       (q' = rest \/ exists f', q' = rest ++ [f'] /\ i_id f' = i_id f /\ i_msg f' = i_msg f /\ i_addr f' = i_addr f /\ i_init f' = i_init f)).
Proof.
  intros w same n now k q Hc HL. destruct (service_total w now k q Hc) as (q' & os & HS). exists q', os. split; [exact HS|].
  cbn [rop_legal] in HL. destruct q as [|x q0].
  { destruct k; cbn in HS; injection HS as <- <-; split; [auto|intros ? []|auto|intros ? []]. }
  destruct (is_top_min k _ HL) as (f & E & Hm). remember (x :: q0) as q eqn:Eq. clear Eq.
  destruct (service_cases w now k q q' os Hc HS) as [(-> & -> & C)|(f' & E' & Hd & HC)].
  - split; [auto|]. intros it Hi Hd. exfalso. destruct C as [C|(f' & E' & C)]; [congruence|]. rewrite E in E'. injection E' as <-.
    specialize (Hm it Hi). lia.
  - rewrite E in E'. injection E' as <-. split.
    + intros X. specialize (X f (nth_error_In _ _ E)). lia.
    + intros it Hi Hdi. exists f, (remove_at k q). split; [now apply remove_at_perm|]. split; [assumption|]. split; [assumption|].
      destruct HC as [(H2 & -> & ->)|[(H2 & -> & ->)|(H2 & -> & ->)]].
      * split; [now right|]. split; [discriminate|]. right. eexists. repeat split; reflexivity.
      * split; [now right|]. split; [discriminate|]. now left.
      * split; [now left|]. split; [lia|]. now left.
Qed.
Print Assumptions C30_earliest_first.

(** * Cases: the hypotheses of the theorems above are met *)

Definition busy : list (rop * outs) :=
  [(RSent con1 1 100 500, []); (RSent non1 2 150 3, []); (RSent con2 2 200 17, []);
   (RService 1000 1, []);
   (RService 2700 1, [(2%nat, con2, 2)]);
   (RService 2800 0, [(0%nat, con1, 1)]);
   (RReceived ack1 1 (Some 1%nat), []);
   (RService 20000 0, [(2%nat, con2, 2)])].

Example C25_case : exists q, rhist 32 N.eqb 0 [] busy q /\ times_ok 32 busy /\ length q = 1%nat /\
  handouts 0 busy = [2800] /\ handouts 1 busy = [] /\ handouts 2 busy = [2700; 20000].
Proof.
  eexists. split; [|split; [|split; [|repeat split; reflexivity]]].
  - unfold busy. repeat (econstructor; [reflexivity|vm_compute; reflexivity|]). constructor.
  - unfold times_ok, busy. repeat constructor.
  - reflexivity.
Qed.

Example C29_case : exists q, rhist 32 N.eqb 0 [] [(RSent con1 1 100 500, []); (RSent con2 2 200 17, [])] q /\ length q = 2%nat /\
  exists h2, spaced 12200 h2 /\ length h2 = 6%nat /\ rhist 32 N.eqb 2 q h2 [].
Proof.
  eexists. split; [|split; [|]].
  - repeat (econstructor; [reflexivity|vm_compute; reflexivity|]). constructor.
  - reflexivity.
  - exists [(RService 12200 1, [(1%nat, con2, 2)]); (RService 24200 0, [(0%nat, con1, 1)]); (RService 36200 0, [(1%nat, con2, 2)]);
            (RService 48200 0, [(0%nat, con1, 1)]); (RService 60200 0, [(1%nat, con2, 2)]); (RService 72200 0, [(0%nat, con1, 1)])].
    split; [cbn [spaced]; lia|]. split; [reflexivity|].
    repeat (econstructor; [reflexivity|vm_compute; reflexivity|]). constructor.
Qed.

Example C26_case : exists q, rhist 32 N.eqb 0 [] busy q /\ times_ok 32 busy /\ nth_error busy 2 = Some (RSent con2 2 200 17, []) /\
  backoff 2017 200 (handouts 2 busy) /\ ~ backoff 2501 200 (handouts 2 busy) /\ nth_error busy 1 = Some (RSent non1 2 150 3, []).
Proof.
  destruct C25_case as (q & A & B & _ & _ & _ & E). exists q. split; [exact A|]. split; [exact B|]. split; [reflexivity|]. rewrite E.
  cbn [backoff]. repeat split; lia.
Qed.

Example C27_case : rhist 32 N.eqb 0 [] drained [] /\ length (handouts 0 drained) = 3%nat.
Proof. split; [apply C27_four_refuted|reflexivity]. Qed.

(** the second of two is due first and is handed out first; its next date is behind the other's *)
Example C30_case : let q := [Item 0 0 2500 1 con1 5000; Item 1 1 2017 2 con2 4234] in
  (length q <= 10)%nat /\ rop_legal N.eqb (RService 4500 1) q = true /\
  rop_step 32 7 (RService 4500 1) q = Ok ([Item 0 0 2500 1 con1 5000; Item 1 2 2017 2 con2 12568], [(1%nat, con2, 2)]) /\
  rop_step 32 7 (RService 4233 1) q = Ok (q, []).
Proof. cbn zeta. split; [cbn; lia|]. split; [reflexivity|]. split; vm_compute; reflexivity. Qed.
