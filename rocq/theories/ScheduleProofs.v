From Coq Require Import Permutation.
From Verif Require Import Base HeaderModel HeaderProofs RetryModel RetrySpec RetryProofs ScheduleSpec.
Local Open Scope N_scope.

(** exactly the waiting messages are in the queue *)
Record tally (same : N -> N -> bool) (H : list (rop * outs)) (q : queue) : Prop := Tally {
  y_in : forall id m a t r, waiting same H id m a t r -> In id (map i_id q);
  y_not : forall it, In it q -> ~ acked same H (i_id it)
}.

Lemma snoc_cases : forall (H : list (rop * outs)) e i x, nth_error (H ++ [e]) i = Some x -> (nth_error H i = Some x /\ (i < length H)%nat) \/ (i = length H /\ x = e).
Proof.
  intros H e i x E. destruct (Nat.lt_trichotomy i (length H)) as [L|[->|L]].
  - left. rewrite nth_error_app1 in E by exact L. auto.
  - right. rewrite nth_error_app2, Nat.sub_diag in E by lia. cbn in E. injection E as <-. auto.
  - exfalso. assert (X : (i < length (H ++ [e]))%nat) by (apply nth_error_Some; congruence). rewrite app_length in X. cbn in X. lia.
Qed.

Lemma acked_more : forall same H e id, acked same H id -> acked same (H ++ [e]) id.
Proof.
  intros same H e id (j & m & a & k & os & om & oa & now & r & os' & L & E & A & S & W). exists j, m, a, k, os, om, oa, now, r, os'.
  split; [exact L|]. split; [now apply nth_snoc_old|]. split; [exact A|]. split; [now apply nth_snoc_old|exact W].
Qed.

Lemma acked_snoc : forall same H e id, acked same (H ++ [e]) id ->
  acked same H id \/ (exists m a k os om oa now r os', e = (RReceived m a k, os) /\ acknowledgement m /\ nth_error H id = Some (RSent om oa now r, os') /\ answers same m a om oa).
Proof.
  intros same H e id (j & m & a & k & os & om & oa & now & r & os' & L & E & A & S & W).
  destruct (snoc_cases _ _ _ _ S) as [(S1 & _)|(-> & _)].
  2:{ assert (X : (j < length (H ++ [e]))%nat) by (apply nth_error_Some; congruence). rewrite app_length in X. cbn in X. lia. }
  destruct (snoc_cases _ _ _ _ E) as [(E1 & Lj)|(-> & <-)].
  - left. exists j, m, a, k, os, om, oa, now, r, os'. auto.
  - right. exists m, a, k, os, om, oa, now, r, os'. auto.
Qed.

Lemma acked_same : forall same H e id, (forall m a k os, e <> (RReceived m a k, os)) -> acked same (H ++ [e]) id -> acked same H id.
Proof. intros same H e id Ne X. apply acked_snoc in X. destruct X as [X|(m & a & k & os & om & oa & now & r & os' & -> & _)]; [exact X|]. now elim (Ne m a k os). Qed.

Lemma waiting_before : forall same H e id m a t r, waiting same (H ++ [e]) id m a t r -> (id < length H)%nat -> waiting same H id m a t r.
Proof.
  intros same H e id m a t r ((os & E) & C & L & A) Lt. split; [exists os; now rewrite nth_error_app1 in E by exact Lt|]. split; [exact C|].
  split; [rewrite handouts_app, app_length in L; lia|]. intro X. apply A. now apply acked_more.
Qed.

Lemma waiting_last : forall same H e id m a t r, waiting same (H ++ [e]) id m a t r -> (id < length H)%nat \/ (id = length H /\ fst e = RSent m a t r).
Proof. intros same H e id m a t r ((os & E) & _). destruct (snoc_cases _ _ _ _ E) as [(_ & L)|(-> & <-)]; auto. Qed.

Lemma in_remove : forall k q f x, nth_error q k = Some f -> In x (map i_id q) -> x <> i_id f -> In x (map i_id (remove_at k q)).
Proof.
  intros k q f x E I N. pose proof (Permutation_map i_id (remove_at_perm k q f E)) as P. apply (Permutation_in _ P) in I. cbn in I. destruct I as [I|I]; [congruence|exact I].
Qed.

Lemma tally_step : forall w same n q H o q1 os, inv n q H -> tally same H q -> bytes_in (H ++ [(o, os)]) -> apart same (H ++ [(o, os)]) ->
  rop_legal same o q = true -> rop_step w n o q = Ok (q1, os) -> tally same (H ++ [(o, os)]) q1.
Proof.
  intros w same n q H o q1 os [VL VI VC VB VS VM] [YI YN] BB AP HL HS.
  assert (HB : forall it, In it q -> born H it) by (rewrite Forall_forall in VB; exact VB).
  assert (Bo : match o with RSent m _ _ _ => hdr_ok (n_hdr m) | RReceived m _ _ => hdr_ok (n_hdr m) | RService _ _ => True end).
  { apply Forall_app in BB. destruct BB as (_ & BB). inversion BB as [|? ? X _]; subst. exact X. }
  assert (BH : forall it, In it q -> hdr_ok (n_hdr (i_msg it)) /\ confirmable (i_msg it) /\ exists t r os, nth_error H (i_id it) = Some (RSent (i_msg it) (i_addr it) t r, os)).
  { intros it Hi. destruct (HB it Hi) as (m & a & now & r & os' & E & C & -> & -> & _). apply Forall_app in BB. destruct BB as (BB & _). unfold bytes_in in BB. rewrite Forall_forall in BB.
    specialize (BB _ (nth_error_In _ _ E)). cbn in BB. split; [exact BB|]. split; [now apply con_bits|]. eauto. }
  destruct o as [m a now r|m a k|now k]; cbn [rop_step] in HS.
  - (* sent *)
    assert (NR : forall m' a' k' os', (RSent m a now r, os) <> (RReceived m' a' k', os')) by (intros; discriminate).
    unfold on_sent in HS. destruct (is_con m) eqn:EC.
    + unfold push in HS. destruct (_ <? _)%nat; cbn [bind] in HS; [|discriminate]. injection HS as <- <-. split.
      * intros id m' a' t' r' W. rewrite map_app. apply in_or_app. destruct (waiting_last _ _ _ _ _ _ _ _ W) as [L|(-> & _)].
        -- left. exact (YI _ _ _ _ _ (waiting_before _ _ _ _ _ _ _ _ W L)).
        -- right. cbn. left. now rewrite VL.
      * intros it Hi X. apply acked_same in X; [|exact NR]. apply in_app_or in Hi. destruct Hi as [Hi|[<-|[]]]; [exact (YN it Hi X)|]. cbn [new_item i_id] in X.
        destruct X as (j & ? & ? & ? & ? & ? & ? & ? & ? & ? & L & E & _). assert (j < length H)%nat by (apply nth_error_Some; congruence). lia.
    + cbn [bind] in HS. injection HS as <- <-. split.
      * intros id m' a' t' r' W. destruct (waiting_last _ _ _ _ _ _ _ _ W) as [L|(-> & E)]; [exact (YI _ _ _ _ _ (waiting_before _ _ _ _ _ _ _ _ W L))|].
        exfalso. cbn in E. injection E as <- <- <- <-. destruct W as (_ & C & _). apply con_bits in C; [congruence|exact Bo].
      * intros it Hi X. apply acked_same in X; [|exact NR]. exact (YN it Hi X).
  - (* received *)
    injection HS as <- <-. cbn [rop_legal] in HL. unfold service_ack.
    assert (WI : forall id m' a' t' r', waiting same (H ++ [(RReceived m a k, [])]) id m' a' t' r' -> In id (map i_id q)).
    { intros id m' a' t' r' W. destruct (waiting_last _ _ _ _ _ _ _ _ W) as [L|(_ & E)]; [|discriminate E]. exact (YI _ _ _ _ _ (waiting_before _ _ _ _ _ _ _ _ W L)). }
    destruct (hdr_type (n_hdr m) =? ACK) eqn:EA.
    + assert (A : acknowledgement m) by (apply ack_bits; auto). destruct k as [k|]; cbn [is_match ack_received fst] in *.
      * destruct (nth_error q k) as [f|] eqn:E; [|discriminate]. pose proof (nth_error_In _ _ E) as Hf. destruct (BH f Hf) as (F1 & F2 & tf & rf & osf & F3).
        apply matches_answers in HL; [|exact Bo|exact F1].
        assert (AF : acked same (H ++ [(RReceived m a (Some k), [])]) (i_id f)).
        { exists (length H), m, a, (Some k), [], (i_msg f), (i_addr f), tf, rf, osf. split; [apply nth_error_Some; congruence|].
          split; [rewrite nth_error_app2, Nat.sub_diag by lia; reflexivity|]. split; [exact A|]. split; [now apply nth_snoc_old|exact HL]. }
        split.
        -- intros id m' a' t' r' W. apply in_remove with f; [exact E|exact (WI _ _ _ _ _ W)|]. intros ->. destruct W as (_ & _ & _ & W). exact (W AF).
        -- intros it Hi X. pose proof (remove_at_in _ _ _ Hi) as Hq. destruct (acked_snoc _ _ _ _ X) as [X'|(m' & a' & k' & os' & om & oa & t' & r' & os2 & X1 & _ & X2 & X3)]; [exact (YN it Hq X')|].
           injection X1 as <- <- <- <-. destruct (BH it Hq) as (I1 & I2 & ti & ri & osi & I3). rewrite I3 in X2. injection X2 as <- <- <- <- <-.
           destruct (remove_at_nodup k q f E VI) as (_ & N2). apply N2.
           rewrite <- (AP (i_id it) (i_id f) _ _ _ _ _ _ _ _ _ _ m a (nth_snoc_old _ _ _ _ I3) (nth_snoc_old _ _ _ _ F3) I2 F2 X3 HL). now apply in_map.
      * split; [exact WI|]. intros it Hi X. destruct (acked_snoc _ _ _ _ X) as [X'|(m' & a' & k' & os' & om & oa & t' & r' & os2 & X1 & _ & X2 & X3)]; [exact (YN it Hi X')|].
        injection X1 as <- <- <- <-. destruct (BH it Hi) as (I1 & I2 & ti & ri & osi & I3). rewrite I3 in X2. injection X2 as <- <- <- <- <-.
        rewrite forallb_forall in HL. specialize (HL it Hi). apply (matches_answers same m a it Bo I1) in X3. rewrite X3 in HL. discriminate HL.
    + cbn [fst]. split; [exact WI|]. intros it Hi X. destruct (acked_snoc _ _ _ _ X) as [X'|(m' & a' & k' & os' & om & oa & t' & r' & os2 & X1 & X2 & _)]; [exact (YN it Hi X')|].
      injection X1 as <- <- <- <-. apply ack_bits in X2; [congruence|exact Bo].
  - (* service *)
    assert (NR : forall m' a' k' os', (RService now k, os) <> (RReceived m' a' k', os')) by (intros; discriminate).
    assert (WI : forall id m' a' t' r', waiting same (H ++ [(RService now k, os)]) id m' a' t' r' -> In id (map i_id q)).
    { intros id m' a' t' r' W. destruct (waiting_last _ _ _ _ _ _ _ _ W) as [L|(_ & E)]; [|discriminate E]. exact (YI _ _ _ _ _ (waiting_before _ _ _ _ _ _ _ _ W L)). }
    assert (NA : forall it, In it q -> ~ acked same (H ++ [(RService now k, os)]) (i_id it)) by (intros it Hi X; apply acked_same in X; [exact (YN it Hi X)|exact NR]).
    destruct (service_cases w now k q q1 os VC HS) as [(-> & -> & _)|(f & E & Hd & HC)]; [split; assumption|].
    pose proof (nth_error_In _ _ E) as Hf. destruct (HB f Hf) as (m0 & a0 & now0 & r0 & os0 & F1 & F2 & F3 & F4 & F5 & F6 & F7).
    destruct HC as [(H2 & -> & ->)|[(H2 & -> & ->)|(H2 & -> & ->)]].
    + split.
      * intros id m' a' t' r' W. rewrite map_app. apply in_or_app. destruct (Nat.eq_dec id (i_id f)) as [->|Ne]; [right; now left|left]. apply in_remove with f; eauto.
      * intros it Hi. apply in_app_or in Hi. destruct Hi as [Hi|[<-|[]]]; [apply NA, (remove_at_in _ _ _ Hi)|]. cbn [i_id]. exact (NA f Hf).
    + split; [|intros it Hi; apply NA, (remove_at_in _ _ _ Hi)].
      intros id m' a' t' r' W. apply in_remove with f; eauto. intros ->. destruct W as (_ & _ & W & _). rewrite handouts_app, handouts_one, handed_self, app_length in W. cbn in W. lia.
    + lia.
Qed.

Lemma tally_hist : forall w same n q h q', rhist w same n q h q' -> forall H, inv n q H -> tally same H q -> bytes_in (H ++ h) -> apart same (H ++ h) -> tally same (H ++ h) q'.
Proof.
  induction 1 as [n q|n q o os q1 h q2 HL HS HR IH]; intros H V Y B A.
  - rewrite app_nil_r. exact Y.
  - replace (H ++ (o, os) :: h) with ((H ++ [(o, os)]) ++ h) in * by (rewrite <- app_assoc; reflexivity).
    assert (B1 : bytes_in (H ++ [(o, os)])) by (apply Forall_app in B; tauto).
    assert (A1 : apart same (H ++ [(o, os)])).
    { intros i1 i2 m1 a1 t1 r1 os1 m2 a2 t2 r2 os2 m a E1 E2. apply (A i1 i2 m1 a1 t1 r1 os1 m2 a2 t2 r2 os2 m a); (rewrite nth_error_app1; [assumption|apply nth_error_Some; congruence]). }
    apply IH; auto; [eapply inv_step|eapply tally_step]; eassumption.
Qed.
