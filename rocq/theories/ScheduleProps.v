(** C93: what each service call hands out follows from the history alone. *)
From Coq Require Import Permutation.
From Verif Require Import Base HeaderModel HeaderProofs RetryModel RetrySpec RetryProofs RetryProps ScheduleSpec ScheduleProofs.
Local Open Scope N_scope.

Lemma hist_split : forall w same h1 h2 n q q2, rhist w same n q (h1 ++ h2) q2 -> exists q1, rhist w same n q h1 q1 /\ rhist w same (n + length h1) q1 h2 q2.
Proof.
  induction h1 as [|[o os] h1 IH]; intros h2 n q q2 H; cbn [app] in H.
  - exists q. split; [constructor|]. cbn. now rewrite Nat.add_0_r.
  - inversion H as [|? ? ? ? qa ? ? HL HS HR]; subst. destruct (IH _ _ _ _ HR) as (q1 & A & B). exists q1. split; [econstructor; eassumption|]. cbn [length]. now rewrite Nat.add_succ_r.
Qed.

Lemma apart_prefix : forall same h1 h2, apart same (h1 ++ h2) -> apart same h1.
Proof.
  intros same h1 h2 A i1 i2 m1 a1 t1 r1 os1 m2 a2 t2 r2 os2 m a E1 E2. apply (A i1 i2 m1 a1 t1 r1 os1 m2 a2 t2 r2 os2 m a); (rewrite nth_error_app1; [assumption|apply nth_error_Some; congruence]).
Qed.

(** the items of the queue are the waiting messages *)
Lemma queue_waits : forall w same h q, rhist w same 0 [] h q -> bytes_in h -> apart same h ->
  NoDup (map i_id q) /\ (length q <= 10)%nat /\ (forall id, In id (map i_id q) <-> exists m a t r, waiting same h id m a t r) /\
  (forall it, In it q -> exists t r, waiting same h (i_id it) (i_msg it) (i_addr it) t r /\ (times_ok w h -> i_due it = due_at h (i_id it) t r)).
Proof.
  intros w same h q HR B A. pose proof (start _ _ _ _ HR) as V. destruct V as [VL VI VC VB VS VM].
  assert (Y : tally same h q).
  { apply (tally_hist w same 0 [] h q HR []); [apply inv_nil| |exact B|exact A]. split; [|intros it []]. intros id m a t r ((os & E) & _). destruct id; discriminate E. }
  destruct Y as [YI YN].
  assert (X : forall it, In it q -> exists t r, waiting same h (i_id it) (i_msg it) (i_addr it) t r /\ (times_ok w h -> i_due it = due_at h (i_id it) t r)).
  { intros it Hi. rewrite Forall_forall in VB. destruct (VB it Hi) as (m & a & now & r & os & E & C & E1 & E2 & E3 & E4 & E5). exists now, r. subst m a. split.
    - split; [exists os; exact E|]. split; [apply con_bits; [|exact C]; unfold bytes_in in B; rewrite Forall_forall in B; apply (B _ (nth_error_In _ _ E))|].
      split; [lia|exact (YN it Hi)].
    - intros T. destruct (start_time w same h q HR T) as (OT & _). rewrite Forall_forall in OT. destruct (OT it Hi) as (m' & a' & now' & r' & os' & F & _ & F2).
      rewrite E in F. injection F as <- <- <- <- <-. unfold due_at. rewrite F2, E3, E4. reflexivity. }
  split; [exact VI|]. split; [exact VC|]. split; [|exact X]. intros id. split.
  - intros I. apply in_map_iff in I. destruct I as (it & <- & Hi). destruct (X it Hi) as (t & r & W & _). eauto.
  - intros (m & a & t & r & W). exact (YI _ _ _ _ _ W).
Qed.

(** C93: a service call hands out nothing if no waiting message is due; else it hands out one
    message, one that waits and is due and none of the waiting is due earlier. *)
Theorem C93_handed_out : forall w same h q, rhist w same 0 [] h q -> times_ok w h -> bytes_in h -> apart same h ->
  forall h1 now k os h2, h = h1 ++ (RService now k, os) :: h2 ->
  (os = [] /\ forall id m a t r, waiting same h1 id m a t r -> now < due_at h1 id t r) \/
  (exists id m a t r, os = [(id, m, a)] /\ waiting same h1 id m a t r /\ due_at h1 id t r <= now /\
    forall id' m' a' t' r', waiting same h1 id' m' a' t' r' -> due_at h1 id t r <= due_at h1 id' t' r').
Proof.
  intros w same h q HR T B A h1 now k os h2 ->. destruct (hist_split _ _ _ _ _ _ _ HR) as (q1 & R1 & R2). cbn [Nat.add] in R2.
  apply Forall_app in T. destruct T as (T & _). apply Forall_app in B. destruct B as (B & _). apply apart_prefix in A.
  destruct (queue_waits w same h1 q1 R1 B A) as (_ & Cq & W & D). inversion R2 as [|? ? ? ? qb ? ? HL HS HR2]; subst. cbn [rop_step rop_legal] in *.
  assert (U : forall id m a t r, waiting same h1 id m a t r -> exists it, In it q1 /\ i_id it = id /\ i_due it = due_at h1 id t r).
  { intros id m a t r X. assert (I : In id (map i_id q1)) by (apply W; eauto). apply in_map_iff in I. destruct I as (it & <- & Hi). exists it. split; [exact Hi|]. split; [reflexivity|].
    destruct (D it Hi) as (t' & r' & ((os' & E) & _) & Y). destruct X as ((os2 & X) & _). rewrite E in X. injection X as _ _ <- <- _. exact (Y T). }
  destruct (service_cases w now k q1 qb os Cq HS) as [(-> & -> & C)|(f & E & Hd & HC)].
  - left. split; [reflexivity|]. intros id m a t r X. destruct (U _ _ _ _ _ X) as (it & Hi & _ & <-). destruct q1 as [|x q1]; [destruct Hi|].
    destruct (is_top_min k _ HL) as (f & E & Hm). destruct C as [C|(f' & E' & C)]; [congruence|]. rewrite E in E'. injection E' as <-. specialize (Hm it Hi). lia.
  - pose proof (nth_error_In _ _ E) as Hf. destruct (D f Hf) as (t & r & Wf & Df). specialize (Df T).
    right. exists (i_id f), (i_msg f), (i_addr f), t, r. assert (O : os = [(i_id f, i_msg f, i_addr f)]).
    { destruct HC as [(_ & -> & _)|[(_ & -> & _)|(H2 & _)]]; try reflexivity. exfalso. pose proof (start _ _ _ _ R1) as V. destruct V as [_ _ _ VB _ _]. rewrite Forall_forall in VB.
      destruct (VB f Hf) as (? & ? & ? & ? & ? & ? & ? & ? & ? & ? & ? & ?). lia. }
    split; [exact O|]. split; [exact Wf|]. split; [lia|]. intros id' m' a' t' r' X. destruct (U _ _ _ _ _ X) as (it & Hi & _ & <-). rewrite <- Df.
    destruct q1 as [|x q1]; [destruct Hi|]. destruct (is_top_min k _ HL) as (f' & E' & Hm). rewrite E in E'. injection E' as <-. exact (Hm it Hi).
Qed.
Print Assumptions C93_handed_out.

(** Nothing else is ever handed out, and there is room for ten: one more confirmable message is a
    fault exactly if ten wait. *)
Theorem C93_room : forall w same h q, rhist w same 0 [] h q -> bytes_in h -> apart same h ->
  (forall h1 o os h2, h = h1 ++ (o, os) :: h2 -> os <> [] -> exists now k, o = RService now k) /\
  exists ids, NoDup ids /\ (length ids <= 10)%nat /\ (forall id, In id ids <-> exists m a t r, waiting same h id m a t r) /\
  forall m a now r, hdr_ok (n_hdr m) -> (rop_step w (length h) (RSent m a now r) q = Fault <-> confirmable m /\ length ids = 10%nat) /\ rop_step w (length h) (RSent m a now r) q <> NoFuel.
Proof.
  intros w same h q HR B A. split.
  - intros h1 o os h2 -> Ne. destruct (hist_split _ _ _ _ _ _ _ HR) as (q1 & R1 & R2). inversion R2 as [|? ? ? ? qb ? ? HL HS HR2]; subst. destruct o as [m a now r|m a k|now k]; eauto; exfalso; apply Ne; cbn [rop_step] in HS.
    + destruct (on_sent w (0 + length h1) m a now r q1) as [x| |]; cbn [bind] in HS; [|discriminate|discriminate]. now injection HS as _ <-.
    + now injection HS as _ <-.
  - destruct (queue_waits w same h q HR B A) as (N & C & W & _). exists (map i_id q). split; [exact N|]. rewrite map_length. split; [exact C|]. split; [exact W|].
    intros m a now r Hm. destruct (C25_tracked_iff w (length h) m a now r q Hm) as (Q1 & Q2 & Q3). pose proof (con_bits m Hm) as Cb. cbn [rop_step]. destruct (is_con m) eqn:E.
    + assert (Cf : confirmable m) by now apply Cb. destruct (Nat.lt_ge_cases (length q) 10) as [L|L].
      * destruct (Q1 Cf L) as (it & -> & _). cbn [bind]. split; [split; [discriminate|lia]|discriminate].
      * rewrite (Q2 Cf L). cbn [bind]. split; [split; [intros _; split; [exact Cf|lia]|reflexivity]|discriminate].
    + assert (Cf : ~ confirmable m) by (intro X; apply Cb in X; discriminate X). rewrite (Q3 Cf). cbn [bind]. split; [split; [discriminate|tauto]|discriminate].
Qed.
Print Assumptions C93_room.

(** Full claim (false): an acknowledged message is not handed out, also if it was sent twice.  One
    acknowledgement takes one of them; the other is handed out again. *)
Theorem C93_twins_refuted : exists h q, rhist 32 N.eqb 0 [] h q /\ times_ok 32 h /\ bytes_in h /\
  exists h1 now k id m a h2, h = h1 ++ (RService now k, [(id, m, a)]) :: h2 /\ acked N.eqb h1 id.
Proof.
  exists [(RSent con1 1 0 0, []); (RSent con1 1 1 0, []); (RReceived ack1 1 (Some 0%nat), []); (RService 9000 0, [(1%nat, con1, 1)])]. eexists.
  split; [repeat (econstructor; [reflexivity|vm_compute; reflexivity|]); constructor|].
  split; [unfold times_ok; repeat constructor|]. split; [unfold bytes_in, hdr_ok, bytes_ok, byte_ok; repeat constructor; cbn; lia|].
  exists [(RSent con1 1 0 0, []); (RSent con1 1 1 0, []); (RReceived ack1 1 (Some 0%nat), [])], 9000, 0%nat, 1%nat, con1, 1, []. split; [reflexivity|].
  exists 2%nat, ack1, 1, (Some 0%nat), [], con1, 1, 1, 0, []. split; [lia|]. repeat split; reflexivity.
Qed.
Print Assumptions C93_twins_refuted.

(** Cases: the history [busy] meets the hypotheses; before its last call only the third message
    waits, the first was acknowledged, the second is not confirmable. *)
Example C93_case : exists q, rhist 32 N.eqb 0 [] busy q /\ times_ok 32 busy /\ bytes_in busy /\ apart N.eqb busy /\
  waiting N.eqb (firstn 7 busy) 2 con2 2 200 17 /\ due_at (firstn 7 busy) 2 200 17 = 2700 + 2 * 2017 /\ acked N.eqb (firstn 7 busy) 0 /\
  waiting N.eqb (firstn 4 busy) 0 con1 1 100 500 /\ due_at (firstn 4 busy) 0 100 500 = 2600 /\ due_at (firstn 4 busy) 2 200 17 = 2217.
Proof.
  destruct C25_case as (q & A & B & _). exists q. split; [exact A|]. split; [exact B|].
  split; [unfold bytes_in, busy, hdr_ok, bytes_ok, byte_ok; repeat constructor; cbn; lia|]. split.
  { intros i1 i2 m1 a1 t1 r1 os1 m2 a2 t2 r2 os2 m a E1 E2 _ _ (X1 & X2 & X3) (Y1 & Y2 & Y3). apply N.eqb_eq in X1, Y1. subst a1 a2.
    assert (L1 : (i1 < 8)%nat) by (change 8%nat with (length busy); apply nth_error_Some; congruence).
    assert (L2 : (i2 < 8)%nat) by (change 8%nat with (length busy); apply nth_error_Some; congruence).
    destruct i1 as [|[|[|[|[|[|[|[|i1]]]]]]]]; try lia; cbn in E1; try discriminate E1; injection E1 as <- <- <- <- <-;
    destruct i2 as [|[|[|[|[|[|[|[|i2]]]]]]]]; try lia; cbn in E2; try discriminate E2; injection E2; intros; subst; try reflexivity; try congruence; exfalso; rewrite <- X3 in Y3; vm_compute in Y3; congruence. }
  assert (AC : forall n j m a k os, nth_error (firstn n busy) j = Some (RReceived m a k, os) -> j = 6%nat /\ (7 <= n)%nat /\ m = ack1 /\ a = 1).
  { intros n j m a k os E. assert (Ln : (j < n)%nat). { assert (X : (j < length (firstn n busy))%nat) by (apply nth_error_Some; congruence). rewrite firstn_length in X. lia. }
    assert (E2 : nth_error busy j = Some (RReceived m a k, os)) by (rewrite <- (firstn_skipn n busy), nth_error_app1; [exact E|apply nth_error_Some; congruence]).
    destruct j as [|[|[|[|[|[|[|[|j]]]]]]]]; cbn in E2; try discriminate E2; [injection E2 as <- <- <- <-; repeat split; try lia|destruct j; discriminate E2]. }
  split. { split; [exists []; reflexivity|]. split; [reflexivity|]. split; [vm_compute; lia|]. intros (j & m & a & k & os & om & oa & now & r & os' & _ & E & _ & S & W).
    destruct (AC 7%nat _ _ _ _ _ E) as (-> & _ & -> & ->). cbn in S. injection S as <- <- <- <- <-. destruct W as (W & _). discriminate W. }
  split; [reflexivity|]. split; [exists 6%nat, ack1, 1, (Some 1%nat), [], con1, 1, 100, 500, []; split; [lia|]; repeat split; reflexivity|].
  split; [|split; reflexivity]. split; [exists []; reflexivity|]. split; [reflexivity|]. split; [vm_compute; lia|]. intros (j & m & a & k & os & om & oa & now & r & os' & _ & E & _).
  destruct (AC 4%nat _ _ _ _ _ E) as (_ & X & _). lia.
Qed.
