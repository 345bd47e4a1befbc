(** C95: in an exchange what the client transmits again, and when, follows from what was sent and
    which replies were read. *)
From Coq Require Import Permutation.
From Verif Require Import Base UIntSpec HeaderModel HeaderSpec HeaderProofs OptSpec OptDecModel DecoderModel DecoderSpec RespModel RespSpec RetryModel RetrySpec RetryProofs
  PumpModel PumpSpec RetryMemModel ExchangeModel ExchangeSpec ExchangeProofs RespProps RetryProps PumpProps ScheduleSpec ScheduleProofs ScheduleProps ExchangeProps ExchScheduleSpec ExchScheduleProofs.
Local Open Scope N_scope.

(** A service call puts nothing on the network if no unanswered message is due; else it puts one
    there, whole and to where it was sent first: one that is due, and none is due earlier. *)
Theorem C95_retransmitted : forall wd same debug h1 now k evs h2 s, xrun wd same debug x_start (h1 ++ (XService now k, evs) :: h2) s ->
  fine (h1 ++ (XService now k, evs) :: h2) -> times_ok wd (history (h1 ++ [(XService now k, evs)])) -> told_apart same h1 -> equality same ->
  exists s1 s2, xrun wd same debug x_start h1 s1 /\ xrun wd same debug s1 [(XService now k, evs)] s2 /\ xrun wd same debug s2 h2 s /\ x_down s2 = x_down s1 /\
  ((x_up s2 = x_up s1 /\ forall id m a t r, unanswered same h1 id m a t r -> now < next_at h1 id t r) \/
   (exists id m a t r, x_up s2 = x_up s1 ++ [(a, netmsg_bytes m)] /\ unanswered same h1 id m a t r /\ next_at h1 id t r <= now /\ again (h1 ++ [(XService now k, evs)]) id = again h1 id ++ [now] /\
      forall id' m' a' t' r', unanswered same h1 id' m' a' t' r' -> next_at h1 id t r <= next_at h1 id' t' r')).
Proof.
  intros wd same debug h1 now k evs h2 s R F T A Q. destruct (xrun_split _ _ _ _ _ _ _ R) as (s1 & R1 & R2). inversion R2 as [|? ? ? s2 ? ? St L R3]; subst.
  assert (Rx : xrun wd same debug s1 [(XService now k, evs)] s2) by (econstructor; [exact St|exact L|constructor]).
  pose proof (xrun_app _ _ _ _ _ _ R1 _ _ Rx) as R4. pose proof F as F0. apply Forall_app in F0. destruct F0 as (F1 & F2). assert (F4 : fine (h1 ++ [(XService now k, evs)])) by (apply Forall_app; split; [exact F1|]; constructor; [exact I|constructor]).
  cbn [x_step] in St. destruct (rop_step wd (x_n s1) (RService now k) (x_queue s1)) as [[q os]| |] eqn:Eo; cbn [bind fst snd] in St; try discriminate. injection St as <- <-.
  set (e := (XService now k, [EClient (RService now k) os])) in *.
  exists s1. eexists. split; [exact R1|]. split; [exact Rx|]. split; [exact R3|]. split; [reflexivity|]. cbn [x_up].
  assert (E4 : history (h1 ++ [e]) = history h1 ++ [(RService now k, os)]) by (rewrite history_app; reflexivity).
  pose proof (C75_client _ _ _ _ _ R4 F4) as H4. rewrite E4 in *.
  assert (Ap : apart same (history h1)) by (eapply told_apart_apart; eassumption).
  assert (A4 : apart same (history h1 ++ [(RService now k, os)])).
  { intros i1 i2 m1 a1 t1 r1 os1 m2 a2 t2 r2 os2 m a X1 X2.
    assert (G : forall i m a t r o, nth_error (history h1 ++ [(RService now k, os)]) i = Some (RSent m a t r, o) -> nth_error (history h1) i = Some (RSent m a t r, o)).
    { clear. intros i m a t r o X. destruct (Nat.lt_ge_cases i (length (history h1))) as [G|G]; [now rewrite nth_error_app1 in X|]. rewrite nth_error_app2 in X by exact G.
      destruct (i - length (history h1))%nat as [|n]; cbn in X; [discriminate|destruct n; discriminate]. }
    exact (Ap i1 i2 m1 a1 t1 r1 os1 m2 a2 t2 r2 os2 m a (G _ _ _ _ _ _ X1) (G _ _ _ _ _ _ X2)). }
  assert (B4 : bytes_in (history h1 ++ [(RService now k, os)])) by (rewrite <- E4; eapply fine_bytes; eassumption).
  assert (W : forall id m a t r, waiting same (history h1) id m a t r <-> unanswered same h1 id m a t r) by (intros; eapply waiting_unanswered; eassumption).
  destruct (C93_handed_out _ _ _ _ H4 T B4 A4 (history h1) now k os [] eq_refl) as [(-> & N)|(id & m & a & t & r & -> & X & D & M)].
  - left. split; [cbn [map]; now rewrite app_nil_r|]. intros id m a t r U. apply (N id m a t r). now apply W.
  - right. exists id, m, a, t, r. split; [reflexivity|]. split; [now apply W|]. split; [exact D|]. split.
    + unfold again. rewrite E4. unfold handouts. rewrite flat_map_app. cbn [flat_map]. rewrite app_nil_r. f_equal. unfold handed. cbn. now rewrite Nat.eqb_refl.
    + intros id' m' a' t' r' U. apply (M id' m' a' t' r'). now apply W.
Qed.
Print Assumptions C95_retransmitted.

(** Who waits is who is unanswered: one more confirmable message is a fault exactly if ten are. *)
Theorem C95_room : forall wd same debug h s, xrun wd same debug x_start h s -> fine h -> told_apart same h -> equality same ->
  exists ids, NoDup ids /\ (length ids <= 10)%nat /\ (forall id, In id ids <-> exists m a t r, unanswered same h id m a t r) /\
  forall m a now r, request m -> (x_step wd debug (XSend m a now r) s = Fault <-> confirmable m /\ length ids = 10%nat) /\ x_step wd debug (XSend m a now r) s <> NoFuel.
Proof.
  intros wd same debug h s R F T Q. pose proof (C75_client _ _ _ _ _ R F) as H.
  destruct (queue_waits wd same _ _ H (fine_bytes _ _ _ _ _ R F) (told_apart_apart _ _ _ _ _ R Q T)) as (N & C & W & _).
  exists (map i_id (x_queue s)). split; [exact N|]. rewrite map_length. split; [exact C|]. split.
  - intros id. rewrite W. split; intros (m & a & t & r & X); exists m, a, t, r; now apply (waiting_unanswered wd same debug h s).
  - destruct (C75_safe _ _ _ _ _ R F) as (_ & _ & _ & _ & X). exact X.
Qed.
Print Assumptions C95_room.

(** Unless the network loses something, once nothing is on its way a reply to every message was
    read, however late, doubled and out of order everything came; then nothing waits, and no
    service call transmits anything more. *)
Theorem C95_all_answered : forall wd same debug h s, xrun wd same debug x_start h s -> fine h -> (forall a, same a a = true) ->
  (forall o, In o (map fst h) -> loses true o = false /\ loses false o = false) -> x_up s = [] -> x_down s = [] ->
  (forall id m a, sent_as h id m a -> replied same h m a) /\
  (told_apart same h -> equality same -> x_queue s = [] /\ forall now k, rop_step wd (x_n s) (RService now k) (x_queue s) = Ok ([], [])).
Proof.
  intros wd same debug h s R F Sa N U D. destruct (C75_conserved _ _ _ _ _ R F) as ((l1 & m1 & P1 & L1 & _ & _) & replies & B & l2 & m2 & P2 & L2 & _).
  assert (Z : forall f, (forall o, In o (map fst h) -> f o = false) -> count_ops f h = 0%nat).
  { intros f Hf. unfold count_ops. clear - Hf. induction h as [|[o e] h IH]; [reflexivity|]. cbn [filter fst]. rewrite Hf by now left. apply IH. intros. apply Hf. now right. }
  rewrite Z in L1, L2 by (intros o Ho; apply N, Ho). rewrite U in P1. rewrite D in P2. cbn [app] in P1, P2.
  assert (l1 = [] /\ l2 = []) as (-> & ->) by (destruct l1, l2; cbn [length] in *; repeat split; try reflexivity; lia). rewrite app_nil_r in P1, P2.
  assert (X : forall id m a, sent_as h id m a -> replied same h m a).
  { intros id m a S1. pose proof (y_req _ _ _ _ (reached _ _ _ _ _ R F) _ _ _ S1) as Qm.
    assert (I1 : In (a, netmsg_bytes m) (put h)).
    { destruct S1 as (t & r & E). apply nth_error_In in E. unfold put. apply in_flat_map. exists (RSent m a t r, []). split; [exact E|]. cbn [fst]. now left. }
    assert (I2 : In (a, netmsg_bytes m) (handled h)) by (eapply Permutation_in; [symmetry; exact P1|]; apply in_app_iff; now left).
    assert (I3 : exists b, In (a, b) replies /\ exists m', request m' /\ netmsg_bytes m = netmsg_bytes m' /\ reply_to m' b).
    { clear - B I2. induction B as [|[a1 b1] [a2 b2] rs qs (E1 & m' & E2 & E3 & E4) _ IH]; [destruct I2|]. cbn [fst snd] in *. destruct I2 as [I2|I2].
      - injection I2 as -> ->. subst a1. exists b1. split; [now left|]. exists m'. auto.
      - destruct (IH I2) as (b & Hb & Y). exists b. split; [now right|exact Y]. }
    destruct I3 as (b & I3 & m' & Qm' & Em & Rp). exists a, b. split; [eapply Permutation_in; [symmetry; exact P2|]; apply in_app_iff; now left|]. split; [apply Sa|].
    destruct Qm as (Q1 & Q2 & Q3 & Q4 & Q5). destruct Qm' as (Y1 & Y2 & Y3 & Y4 & Y5). unfold netmsg_bytes, hdr_bytes in Em. cbn [app] in Em. injection Em as G0 G1 G2 G3 Gt.
    assert (Tk : n_tok m' = n_tok m).
    { assert (Ll : length (n_tok m) = length (n_tok m')) by (rewrite G0, Y3 in Q3; unfold len in Q3; lia).
      assert (firstn (length (n_tok m)) (n_tok m ++ n_rest m) = firstn (length (n_tok m)) (n_tok m' ++ n_rest m')) as K by now rewrite Gt.
      rewrite firstn_app, Nat.sub_diag, firstn_all, Ll, firstn_app, Nat.sub_diag, firstn_all in K. cbn [firstn] in K. rewrite !app_nil_r in K. congruence. }
    destruct Rp as (p & E0 & X1 & X2 & X3 & X4 & X5 & X6 & X7 & X8). exists p. unfold confirmable, mid_of in *. rewrite G0, G2, G3, <- Tk. do 4 (split; [assumption|]). split; [exact X4|]. auto. }
  split; [exact X|]. intros T Q. assert (Eq : x_queue s = []).
  { destruct (queue_waits wd same _ _ (C75_client _ _ _ _ _ R F) (fine_bytes _ _ _ _ _ R F) (told_apart_apart _ _ _ _ _ R Q T)) as (_ & _ & _ & W).
    destruct (x_queue s) as [|f q]; [reflexivity|exfalso]. destruct (W f (or_introl eq_refl)) as (t & r & Y & _). apply (waiting_unanswered _ _ _ _ _ _ _ _ _ _ R F T) in Y. destruct Y as (E & _ & _ & Y).
    apply Y. apply (X (i_id f)). exists t, r. exact E. }
  split; [exact Eq|]. intros now k. rewrite Eq. unfold rop_step, service_retry. destruct k; reflexivity.
Qed.
Print Assumptions C95_all_answered.

Lemma eqb_equality : equality N.eqb.
Proof. split; [apply N.eqb_refl|]. split; intros a b; rewrite ?N.eqb_eq; [congruence|]. intros c. rewrite !N.eqb_eq. congruence. Qed.

(** Full claim (false): every message sent is answered.  A network that loses it four times: it
    is forgotten, and nothing is on its way. *)
Definition lost_four : list xop :=
  [XSend con1 9 0 0; XLose true 0; XService 2000 0; XLose true 0; XService 6000 0; XLose true 0; XService 14000 0; XLose true 0].
Theorem C95_lost_refuted : exists h s, xrun 32 N.eqb true x_start h s /\ fine h /\ told_apart N.eqb h /\ sent_as h 0 con1 9 /\ confirmable con1 /\
  s = Xst 4 [] [] [] /\ ~ replied N.eqb h con1 9 /\ again h 0 = [2000; 6000; 14000].
Proof.
  went lost_four. split; [unfold lost_four in *; mays|]. split.
  { intros i j m1 m2 a1 a2 (n1 & r1 & A) (n2 & r2 & B) _ _ _. cbn in A, B.
    destruct i as [|[|[|[|i]]]], j as [|[|[|[|j]]]]; try reflexivity; try discriminate; try (cbn in A; destruct i; discriminate); cbn in B; destruct j; discriminate. }
  split; [exists 0, 0; reflexivity|]. split; [reflexivity|]. split; [reflexivity|]. split; [|reflexivity]. intros (a & b & X & _). cbn in X. exact X.
Qed.
Print Assumptions C95_lost_refuted.

(** Cases: of two messages one is answered and the other is due; it is transmitted. *)
Definition one_of_two : list xop :=
  [XSend con1 9 0 500; XSend con2 8 100 17; XServe 0 wld; XReceive 0 old_mem (Some 0%nat); XLose true 0; XService 3000 0].
Example C95_case : exists h1 evs s, xrun 32 N.eqb true x_start (h1 ++ [(XService 3000 0, evs)]) s /\ fine (h1 ++ [(XService 3000 0, evs)]) /\
  times_ok 32 (history (h1 ++ [(XService 3000 0, evs)])) /\ told_apart N.eqb h1 /\ equality N.eqb /\
  x_up s = [(8, netmsg_bytes con2)] /\ unanswered N.eqb h1 1 con2 8 100 17 /\ next_at h1 1 100 17 = 2117 /\ replied N.eqb h1 con1 9.
Proof.
  assert (X : exists h s, xrun 32 N.eqb true x_start h s /\ fine h /\ exists h1 evs, h = h1 ++ [(XService 3000 0, evs)] /\ times_ok 32 (history h) /\ told_apart N.eqb h1 /\
    x_up s = [(8, netmsg_bytes con2)] /\ unanswered N.eqb h1 1 con2 8 100 17 /\ next_at h1 1 100 17 = 2117 /\ replied N.eqb h1 con1 9).
  { went one_of_two. split; [unfold one_of_two in *; mays|]. match goal with |- exists h1 evs, ?h = _ /\ _ => exists (firstn 5 h) end. eexists. split; [reflexivity|]. split; [unfold times_ok; repeat constructor|].
    split; [|split; [reflexivity|]].
    - intros i j m1 m2 a1 a2 (n1 & r1 & A) (n2 & r2 & B) E _ _. apply N.eqb_eq in E. cbn in A, B.
      destruct i as [|[|[|i]]], j as [|[|[|j]]]; cbn in A, B; try reflexivity; try discriminate; try (destruct i; discriminate); try (destruct j; discriminate); exfalso; injection A as <- <- <- <-; injection B as <- <- <- <-; discriminate E.
    - split; [|split; [reflexivity|]].
      + split; [reflexivity|]. split; [reflexivity|]. split; [cbn; lia|]. intros (a & b & X & E & _). apply N.eqb_eq in E. cbn in X. destruct X as [X|[]]. injection X as X _. rewrite E in X. discriminate X.
      + exists 9, [0x61; 0x45; 0x12; 0x34; 7]. split; [cbn; now left|]. split; [reflexivity|]. exists (NetMsg (Hdr 0x61 0x45 0x12 0x34) [7] []). split; [reflexivity|]. split; [apply hdr_ok_iff; repeat split; vm_compute; reflexivity|].
        repeat (split; [reflexivity|]). intros C. elim C. reflexivity. }
  destruct X as (h & s & R & F & h1 & evs & -> & X1 & X2 & X3 & X4 & X5 & X6). exists h1, evs, s. split; [exact R|]. split; [exact F|]. split; [exact X1|]. split; [exact X2|]. split; [exact eqb_equality|]. auto.
Qed.

(** Everything arrives, doubled and late. *)
Example C95_answered_case : exists h s, xrun 32 N.eqb true x_start h s /\ fine h /\ (forall o, In o (map fst h) -> loses true o = false /\ loses false o = false) /\
  x_up s = [] /\ x_down s = [] /\ sent_as h 0 con1 9 /\ replied N.eqb h con1 9.
Proof.
  assert (X : exists h s, xrun 32 N.eqb true x_start h s /\ fine h /\ (forall o, In o (map fst h) -> loses true o = false /\ loses false o = false) /\ x_up s = [] /\ x_down s = [] /\ sent_as h 0 con1 9).
  { went doubled. split; [unfold doubled in *; mays|]. split; [|split; [reflexivity|split; [reflexivity|exists 0, 0; reflexivity]]].
    intros o Ho. cbn in Ho. repeat (destruct Ho as [<-|Ho]; [split; reflexivity|]). destruct Ho. }
  destruct X as (h & s & R & F & N & U & D & S0). exists h, s. do 6 (split; [assumption|]). exact (proj1 (C95_all_answered _ _ _ _ _ R F N.eqb_refl N U D) _ _ _ S0).
Qed.
