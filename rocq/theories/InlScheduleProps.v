(** C96: what service_retry of the queue with inline netbufs puts into the pump follows from what
    was transmitted and received before. *)
From Verif Require Import Base HeaderModel HeaderProofs DecoderModel RetryModel RetrySpec RetryProofs RetryMemModel RetryInlModel RetryInlSpec RetryInlProofs RetryInlKeptProofs RetryInlProps
  RetryProps ScheduleSpec ScheduleProofs ScheduleProps InlScheduleSpec InlScheduleProofs.
Local Open Scope N_scope.

(** The queue goes through a history of C25-C30, event by event; so those hold of it too. *)
Theorem C96_history : forall w size same ack s ws es, (forall a, same a a = true) -> followed w size same ack s ws es -> exists h num q,
  rhist w same 0 [] h q /\ Forall2 (same_op num (g_msg s)) es h /\ (forall i c m a t r, nth_error es i = Some (VSent c m a t r) -> num c = i /\ m = g_msg s c) /\
  map (fun it => (i_id it, i_count it, i_addr it, i_due it)) q = map (fun f => (num (b_chunk (j_nb f)), j_count f, j_addr f, j_due f)) (g_retry s).
Proof.
  intros w size same ack s ws es Refl F. destruct (followed_inv _ _ _ _ _ _ _ Refl F) as (h & num & [FH FS FN FI FO]). exists h, num, (map (ren num) (i_view s)).
  split; [exact FH|]. split; [exact FS|]. split; [intros i c m a t r E; apply FN in E; tauto|]. unfold i_view. rewrite !map_map. reflexivity.
Qed.
Print Assumptions C96_history.

(** C96: a service call puts nothing into the pump if no waiting message is due; else it puts in one
    message, one that waits and is due and none of the waiting is due earlier, for the address it
    was first sent to. *)
Theorem C96_handed_out : forall w size same ack s ws es, (forall a, same a a = true) -> followed w size same ack s ws es -> Forall (ev_ok w) es ->
  forall e1 now out e2, es = e1 ++ VService now out :: e2 ->
  (out = [] /\ forall c m a t r, i_waits same e1 c m a t r -> now < i_next e1 c t r) \/
  (exists c m a t r, out = [(c, a)] /\ i_waits same e1 c m a t r /\ i_next e1 c t r <= now /\
    forall c' m' a' t' r', i_waits same e1 c' m' a' t' r' -> i_next e1 c t r <= i_next e1 c' t' r').
Proof.
  intros w size same ack s ws es Refl F Ok e1 now out e2 Es. pose proof (kept_inv _ _ _ _ _ _ Refl (followed_kept _ _ _ _ _ _ _ F)) as KI.
  destruct (followed_inv _ _ _ _ _ _ _ Refl F) as (h & num & [FH FS FN FI FO]). pose proof (same_nth _ _ _ _ FS) as SN.
  assert (P : 12000 < 2 ^ w). { rewrite Forall_forall in Ok. assert (X : ev_ok w (VService now out)) by (apply Ok; rewrite Es; apply in_app_iff; right; now left). cbn [ev_ok] in X. clear - X. lia. }
  assert (TB : times_ok w h /\ bytes_in h).
  { clear - FS Ok P. unfold times_ok, bytes_in. induction FS as [|e x es h S1 FS IH]; [split; constructor|]. inversion Ok as [|? ? O1 O2]; subst. destruct (IH O2) as (I1 & I2).
    destruct e; cbn [same_op ev_ok] in *; [subst x; split; constructor; cbn; tauto|destruct S1 as (k & ->); split; constructor; cbn; tauto|destruct S1 as (k & ->); split; constructor; cbn; tauto]. }
  destruct TB as (T & B).
  assert (OkS : forall i c m a t r, nth_error es i = Some (VSent c m a t r) -> hdr_ok (n_hdr m)).
  { intros i c m a t r E. rewrite Forall_forall in Ok. apply nth_error_In in E. apply Ok in E. apply E. }
  assert (A : apart same h).
  { intros i1 i2 m1 a1 t1 r1 os1 m2 a2 t2 r2 os2 m a E1 E2 C1 C2 (_ & X1 & X2) (_ & Y1 & Y2). apply SN in E1, E2. destruct E1 as (_ & c1 & E1), E2 as (_ & c2 & E2). pose proof (OkS _ _ _ _ _ _ E1) as H1. pose proof (OkS _ _ _ _ _ _ E2) as H2.
    destruct (FN _ _ _ _ _ _ E1) as (<- & M1 & L1 & _). destruct (FN _ _ _ _ _ _ E2) as (<- & M2 & L2 & _). f_equal. apply (k_alike _ _ _ KI _ _ L1 L2).
    - rewrite <- M1. now apply con_bits.
    - rewrite <- M2. now apply con_bits.
    - rewrite <- M1, <- M2. split; [rewrite !mid_val by assumption; congruence|congruence]. }
  assert (INJ : forall d c, was_sent es d -> was_sent es c -> num d = num c -> d = c).
  { intros d c (m & a & t & r & I) (m' & a' & t' & r' & I') E. apply In_nth_error in I, I'. destruct I as (i & I), I' as (i' & I'). pose proof (FN _ _ _ _ _ _ I) as (J & _). pose proof (FN _ _ _ _ _ _ I') as (J' & _).
    assert (i = i') by congruence. subst i'. congruence. }
  subst es. apply Forall2_app_inv_l in FS. destruct FS as (h1 & hx & F1 & F2 & ->). inversion F2 as [|? x ? h2 S1 _]; subst. cbn [same_op] in S1. destruct S1 as (k & ->).
  assert (W1 : forall c, was_sent e1 c -> was_sent (e1 ++ VService now out :: e2) c) by (intros c W; now apply was_sent_app).
  assert (OT : forall c, was_sent e1 c -> handouts (num c) h1 = out_times c e1).
  { intros c W. apply (outs_same num (g_msg s)); [exact F1|]. intros d (n0 & o0 & a0 & I0 & J0) E. apply INJ; [|now apply W1|exact E]. apply FO. exists n0, o0, a0. split; [apply in_app_iff; now left|exact J0]. }
  pose proof (same_nth _ _ _ _ F1) as SN1.
  assert (TO : forall c m a t r, i_waits same e1 c m a t r -> waiting same h1 (num c) m a t r /\ due_at h1 (num c) t r = i_next e1 c t r).
  { intros c m a t r (p & p2 & E & Cf & Lt & Na). assert (Np : nth_error e1 (length p) = Some (VSent c m a t r)) by (rewrite E, nth_error_app2, Nat.sub_diag by lia; reflexivity).
    assert (Nc : num c = length p). { apply (FN (length p) c m a t r). rewrite nth_error_app1; [exact Np|]. apply nth_error_Some. congruence. }
    assert (Wc : was_sent e1 c) by (exists m, a, t, r; eapply nth_error_In; exact Np). split; [|unfold due_at, i_next; now rewrite OT].
    split; [exists []; apply SN1; split; [reflexivity|exists c; now rewrite Nc]|]. split; [exact Cf|]. split; [now rewrite OT|].
    intros (j & m0 & a0 & k0 & os & om & oa & n0 & r0 & os' & Lj & R & Ak & Sd & An). apply SN1 in Sd. destruct Sd as (_ & c0 & Sd). rewrite Nc, Np in Sd. injection Sd as _ <- <- _ _.
    apply (Na m0 a0); [|exact Ak|exact An]. assert (V : nth_error e1 j = Some (VAck m0 a0)) by (apply SN1; now exists k0, os). rewrite E, nth_error_app2 in V by lia.
    destruct (j - length p)%nat as [|n] eqn:Ej; [lia|]. cbn [nth_error] in V. now apply nth_error_In in V. }
  assert (FROM : forall id m a t r, waiting same h1 id m a t r -> exists c, num c = id /\ i_waits same e1 c m a t r).
  { intros id m a t r ((os & E) & Cf & Lt & Na). apply SN1 in E. destruct E as (_ & c & E). exists c. assert (Nc : num c = id). { apply (FN id c m a t r). rewrite nth_error_app1; [exact E|]. apply nth_error_Some. congruence. }
    assert (Wc : was_sent e1 c) by (exists m, a, t, r; eapply nth_error_In; exact E). split; [exact Nc|]. destruct (nth_error_split _ _ E) as (p & p2 & Ep & Lp). exists p, p2. split; [exact Ep|]. split; [exact Cf|].
    split; [rewrite <- (OT c Wc), Nc; exact Lt|]. intros p0 b I Ak An. apply Na. apply In_nth_error in I. destruct I as (n & I).
    assert (V : nth_error e1 (id + 1 + n)%nat = Some (VAck p0 b)). { rewrite Ep, nth_error_app2 by lia. replace (id + 1 + n - length p)%nat with (Datatypes.S n) by lia. exact I. }
    apply SN1 in V. destruct V as (k0 & os0 & V). exists (id + 1 + n)%nat, p0, b, k0, os0, m, a, t, r, []. split; [lia|]. split; [exact V|]. split; [exact Ak|]. split; [|exact An]. apply SN1. split; [reflexivity|now exists c]. }
  destruct (C93_handed_out _ _ _ _ FH T B A _ _ _ _ _ eq_refl) as [(O & N)|(id & m & a & t & r & O & Wt & Du & Mi)].
  - left. split; [destruct out; [reflexivity|discriminate]|]. intros c m a t r W. destruct (TO _ _ _ _ _ W) as (W' & <-). now apply N in W'.
  - right. destruct (FROM _ _ _ _ _ Wt) as (c & <- & W). exists c, m, a, t, r. destruct (TO _ _ _ _ _ W) as (_ & D). split.
    + destruct out as [|[d a'] [|? ?]]; cbn [map fst snd] in O; [discriminate| |discriminate]. injection O as O1 _ ->. f_equal. f_equal. apply INJ; [apply FO; exists now, [(d, a)], a; split; [apply in_app_iff; right; now left|now left]| |exact O1].
      apply W1. destruct W as (p & p2 & -> & _). exists m, a, t, r. apply in_app_iff. right. now left.
    + split; [exact W|]. split; [now rewrite <- D|]. intros c' m' a' t' r' W2. destruct (TO _ _ _ _ _ W2) as (W3 & <-). rewrite <- D. now apply Mi in W3.
Qed.
Print Assumptions C96_handed_out.

(** A case: two confirmable messages; the second is acknowledged after the first was retransmitted
    once.  The calls put in nothing, the first message, the first message again and nothing. *)
Definition inl_con2 : netmsg := NetMsg (Hdr 0x41 1 0x12 0x36) [8] [].
Definition inl_ack2 : netmsg := NetMsg (Hdr 0x61 0x45 0x12 0x36) [8] [].
Definition inl_follow : list iop := [INew inl_get; ISend 0 5; IDrop 0; INew inl_con2; ISend 1 6; IDrop 1; IWire (TObserver 0 0); IWire (TObserver 100 500);
  IService 1999 0; IService 2000 0; IWire (TConSent [1%nat; 0%nat]); IAck inl_ack2 6 [0%nat; 1%nat]; IService 6000 0; IWire (TConSent [0%nat]); IService 13999 0].
Definition inl_events : list iev := [VSent 0 inl_get 5 0 0; VSent 1 inl_con2 6 100 500; VService 1999 []; VService 2000 [(0%nat, 5)]; VAck inl_ack2 6; VService 6000 [(0%nat, 5)]; VService 13999 []].
Inductive follow_run (w : N) (size : nat) (same : N -> N -> bool) (ack : bool) : ist -> list (nat * N * netmsg) -> list iev -> list iop -> ist -> list (nat * N * netmsg) -> list iev -> Prop :=
| fr_none : forall s ws es, follow_run w size same ack s ws es [] s ws es
| fr_more : forall s ws es o s1 l os s2 ws2 es2, careful ack s ws o -> in_front o s -> i_step w size same o s = Ok (s1, l) ->
    follow_run w size same ack s1 (ws ++ l) (es ++ event_of o s s1 l) os s2 ws2 es2 -> follow_run w size same ack s ws es (o :: os) s2 ws2 es2.
Lemma follow_followed : forall w size same ack s ws es os s2 ws2 es2, follow_run w size same ack s ws es os s2 ws2 es2 -> followed w size same ack s ws es -> followed w size same ack s2 ws2 es2.
Proof. intros w size same ack s ws es os s2 ws2 es2 H. induction H as [s ws es|s ws es o s1 l os s2 ws2 es2 C Fr E H IH]; intro K; [exact K|]. apply IH. eapply fo_more; eassumption. Qed.
Lemma whole_two : forall s f g vs, g_retry s = [f; g] -> vs = [0%nat; 1%nat] \/ vs = [1%nat; 0%nat] -> whole s vs.
Proof. intros s f g vs E V. split; [destruct V as [-> | ->]; repeat constructor; cbn; lia|]. intro k. rewrite E. cbn [length]. destruct V as [-> | ->]; cbn [In]; lia. Qed.
Ltac by_follow := repeat (eapply fr_more; [| |vm_compute; reflexivity|]; cbn [app event_of g_pump length skipn map fst snd b_chunk]); try apply fr_none.
Example C96_case : exists s ws, followed 32 4 N.eqb true s ws inl_events /\ Forall (ev_ok 32) inl_events /\
  i_waits N.eqb (firstn 4 inl_events) 0 inl_get 5 0 0 /\ i_waits N.eqb (firstn 4 inl_events) 1 inl_con2 6 100 500 /\ i_next (firstn 4 inl_events) 0 0 0 = 6000 /\ i_next (firstn 4 inl_events) 1 100 500 = 2600 /\
  ~ i_waits N.eqb (firstn 5 inl_events) 1 inl_con2 6 100 500 /\ i_next (firstn 6 inl_events) 0 0 0 = 14000.
Proof.
  assert (X : exists s ws, follow_run 32 4 N.eqb true ist0 [] [] inl_follow s ws inl_events).
  { eexists. eexists. unfold inl_follow. by_follow; cbn [careful in_front g_next g_pump g_retry g_app]; try exact I.
    all: try solve [intros f Ef D e []].
    all: try (right; eexists; split; [reflexivity|]; intros g Hg; cbn [In] in Hg; repeat (destruct Hg as [<-|Hg]; [cbn; lia|]); destruct Hg).
    all: try reflexivity.
    - intros c H. inversion H.
    - intros c H _ _ [A _]. destruct c as [|c]; [vm_compute in A; discriminate|lia].
    - intros b a q E. injection E as <- _ _. reflexivity.
    - intros b a q E. injection E as <- _ _. split; [discriminate|]. eapply whole_two; [reflexivity|now right].
    - split; [reflexivity|]. eapply whole_two; [reflexivity|now left].
    - intros b a q E. injection E as <- _ _. split; [discriminate|]. eapply whole_one. reflexivity. }
  destruct X as (s & ws & X). exists s, ws. split; [exact (follow_followed _ _ _ _ _ _ _ _ _ _ _ X (fo_none _ _ _ _))|].
  split; [unfold inl_events, ev_ok, hdr_ok, bytes_ok, byte_ok; repeat constructor; cbn; lia|].
  split; [exists [], [VSent 1 inl_con2 6 100 500; VService 1999 []; VService 2000 [(0%nat, 5)]]; split; [reflexivity|]; split; [reflexivity|]; split; [vm_compute; lia|]; intros p b I; cbn [In] in I; intuition discriminate|].
  split; [exists [VSent 0 inl_get 5 0 0], [VService 1999 []; VService 2000 [(0%nat, 5)]]; split; [reflexivity|]; split; [reflexivity|]; split; [vm_compute; lia|]; intros p b I; cbn [In] in I; intuition discriminate|].
  split; [reflexivity|]. split; [reflexivity|]. split; [|reflexivity]. intros (e1 & e2 & E & _ & _ & N). assert (I : In (VAck inl_ack2 6) e2).
  { destruct e1 as [|x1 [|x2 e1]]; cbn in E; [discriminate|injection E as _ <-; cbn; tauto|]. injection E as _ _ E. exfalso. destruct e1 as [|x3 [|x4 [|x5 [|? ?]]]]; discriminate. }
  apply (N _ _ I); [reflexivity|]. repeat split; reflexivity.
Qed.
