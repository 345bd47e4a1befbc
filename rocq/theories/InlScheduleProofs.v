(** Lemmas for C96. *)
From Verif Require Import Base HeaderModel HeaderProofs DecoderModel RetryModel RetrySpec RetryProofs RetryMemModel RetryInlModel RetryInlSpec RetryInlProofs RetryInlKeptProofs RetryInlProps
  RetryProps ScheduleSpec ScheduleProofs ScheduleProps InlScheduleSpec.
Local Open Scope N_scope.

(** ** Other names for the items *)

Definition ren (f : nat -> nat) (it : item) : item := Item (f (i_id it)) (i_count it) (i_init it) (i_addr it) (i_msg it) (i_due it).

Lemma remove_ren : forall f k q, remove_at k (map (ren f) q) = map (ren f) (remove_at k q).
Proof. intros. unfold remove_at. now rewrite map_app, firstn_map, skipn_map. Qed.

Lemma push_ren : forall f it q q1, push it q = Ok q1 -> push (ren f it) (map (ren f) q) = Ok (map (ren f) q1).
Proof. intros f it q q1 E. unfold push in *. rewrite map_length. destruct (_ <? _)%nat; [|discriminate]. injection E as <-. now rewrite map_app. Qed.

Lemma sent_ren : forall f w c m a now r q q1, on_sent w c m a now r q = Ok q1 -> on_sent w (f c) m a now r (map (ren f) q) = Ok (map (ren f) q1).
Proof. intros f w c m a now r q q1 E. unfold on_sent in *. destruct (is_con m); [|now injection E as <-]. exact (push_ren f _ _ _ E). Qed.

Lemma service_ren : forall f w now k q q1 os, service_retry w now k q = Ok (q1, os) ->
  service_retry w now k (map (ren f) q) = Ok (map (ren f) q1, map (fun o => (f (fst (fst o)), snd (fst o), snd o)) os).
Proof.
  intros f w now k q q1 os E. unfold service_retry in *. rewrite nth_error_map. destruct (nth_error q k) as [it|]; cbn [option_map]; [|injection E as <- <-; reflexivity].
  cbn [ren i_due i_count i_id i_msg i_addr i_init]. destruct (i_due it <=? now); [|injection E as <- <-; reflexivity]. destruct (i_count it <? MAX_RETRANSMIT - 2).
  - cbv zeta in *. destruct (push _ (remove_at k q)) as [q2| |] eqn:P; cbn [bind] in E; try discriminate. injection E as <- <-.
    apply (push_ren f) in P. rewrite <- remove_ren in P. unfold ren at 1 in P. cbn [i_due i_count i_id i_msg i_addr i_init] in P. rewrite P. reflexivity.
  - destruct (i_count it =? MAX_RETRANSMIT - 2); injection E as <- <-; rewrite remove_ren; reflexivity.
Qed.

Lemma ack_ren : forall f m k q, fst (service_ack m k (map (ren f) q)) = map (ren f) (fst (service_ack m k q)).
Proof. intros. unfold service_ack, ack_received. destruct (_ =? _); [|reflexivity]. destruct k; [|reflexivity]. cbn [fst]. apply remove_ren. Qed.

Lemma match_ren : forall f same a mid tok q k, is_match same a mid tok (map (ren f) q) k = is_match same a mid tok q k.
Proof.
  intros f same a mid tok q [k|]; cbn [is_match]; [rewrite nth_error_map; destruct (nth_error q k); reflexivity|].
  induction q as [|x q IH]; [reflexivity|]. cbn [map forallb]. rewrite IH. reflexivity.
Qed.

Lemma ren_ext : forall f g q, (forall it, In it q -> f (i_id it) = g (i_id it)) -> map (ren f) q = map (ren g) q.
Proof. intros f g q H. apply map_ext_in. intros it I. unfold ren. now rewrite (H it I). Qed.

Lemma rhist_snoc : forall w same h n q q1 o os q2, rhist w same n q h q1 -> rop_legal same o q1 = true -> rop_step w (n + length h) o q1 = Ok (q2, os) -> rhist w same n q (h ++ [(o, os)]) q2.
Proof.
  intros w same h n q q1 o os q2 H. induction H as [n q|n q o1 os1 qa h qb L S1 H IH]; intros HL HS; cbn [app length] in *.
  - rewrite Nat.add_0_r in HS. econstructor; [exact HL|exact HS|constructor].
  - econstructor; [exact L|exact S1|]. apply IH; [exact HL|]. now rewrite Nat.add_succ_r in HS.
Qed.

(** ** The queue goes through a history of C25-C30 *)

Definition put_again (es : list iev) (c : nat) : Prop := exists now out a, In (VService now out) es /\ In (c, a) out.
Definition was_sent (es : list iev) (c : nat) : Prop := exists m a t r, In (VSent c m a t r) es.

Record finv (w : N) (same : N -> N -> bool) (s : ist) (ws : list (nat * N * netmsg)) (es : list iev) (h : list (rop * outs)) (num : nat -> nat) : Prop := Finv {
  f_hist : rhist w same 0 [] h (map (ren num) (i_view s));
  f_same : Forall2 (same_op num (g_msg s)) es h;
  f_num : forall i c m a t r, nth_error es i = Some (VSent c m a t r) -> num c = i /\ m = g_msg s c /\ (c < g_next s)%nat /\ sent_of c ws <> [];
  f_item : forall it, In it (i_view s) -> was_sent es (i_id it);
  f_out : forall c, put_again es c -> was_sent es c }.

Lemma was_sent_app : forall es e c, was_sent es c -> was_sent (es ++ e) c.
Proof. intros es e c (m & a & t & r & I). exists m, a, t, r. apply in_app_iff. now left. Qed.

Lemma followed_kept : forall w size same ack s ws es, followed w size same ack s ws es -> kept w size same ack s ws.
Proof. intros w size same ack s ws es F. induction F as [|s ws es o s1 l F IH C Fr E]; [constructor|]. eapply kept_more; eassumption. Qed.

Lemma same_op_ext : forall num num' msg msg' e x, (forall c, put_again [e] c -> num c = num' c /\ msg c = msg' c) -> same_op num msg e x -> same_op num' msg' e x.
Proof.
  intros num num' msg msg' e x H Hs. destruct e as [c m a now r|now out|m a]; cbn [same_op] in *; [exact Hs| |exact Hs]. destruct Hs as (k & ->). exists k. f_equal. apply map_ext_in. intros [c a] I. cbn [fst snd].
  destruct (H c) as (-> & ->); [|reflexivity]. exists now, out, a. split; [now left|exact I].
Qed.

Lemma same_all_ext : forall num num' msg msg' es h, (forall c, put_again es c -> num c = num' c /\ msg c = msg' c) -> Forall2 (same_op num msg) es h -> Forall2 (same_op num' msg') es h.
Proof.
  intros num num' msg msg' es h H F. induction F as [|e x es h S1 F IH]; constructor.
  - eapply same_op_ext; [|exact S1]. intros c (now & out & a & [I|[]] & J). apply H. exists now, out, a. split; [now left|exact J].
  - apply IH. intros c (now & out & a & I & J). apply H. exists now, out, a. split; [now right|exact J].
Qed.

Lemma next_mono : forall w size same o s s1 l, i_step w size same o s = Ok (s1, l) ->
  (g_next s <= g_next s1)%nat /\ forall c, (c < g_next s)%nat -> g_msg s1 c = g_msg s c.
Proof.
  intros w size same o s s1 l E.
  assert (G : forall x, bind x (fun s1 => Ok (s1, [])) = Ok (s1, l) -> x = Ok s1) by (intros x H; destruct x; try discriminate; now injection H as <- _).
  assert (NF : forall b x y, nb_free b x = Ok y -> g_next y = g_next x /\ g_msg y = g_msg x).
  { intros b x y H. unfold nb_free in H. destruct (b_own b); [destruct (g_live x _); [|discriminate]|]; injection H as <-; split; reflexivity. }
  assert (EO : forall b a x y, i_enqueue_out size b a x = Ok y -> g_next y = g_next x /\ g_msg y = g_msg x).
  { intros b a x y H. unfold i_enqueue_out in H. destruct (_ <? _)%nat; [|discriminate]. injection H as <-. split; reflexivity. }
  assert (EQ : forall b a now r x y, i_enqueue w b a now r x = Ok y -> g_next y = g_next x /\ g_msg y = g_msg x).
  { intros b a now r x y H. unfold i_enqueue in H. destruct (_ <? _)%nat; [|discriminate]. injection H as <-. split; reflexivity. }
  assert (CS : forall b a vs x y, i_con_sent same b a vs x = Ok y -> g_next (snd y) = g_next x /\ g_msg (snd y) = g_msg x).
  { intros b a vs x y H. unfold i_con_sent in H. destruct (nb_read x b); cbn [bind] in H; try discriminate. destruct (i_match _ _ _ _ _) as [[k|]| |]; cbn [bind] in H; try discriminate; injection H as <-; split; reflexivity. }
  assert (D : (g_next s1 = g_next s /\ g_msg s1 = g_msg s) \/ exists m, s1 = i_new m s).
  { destruct o as [m|i|i a|i a now r|i a vs|t|now k|m a vs]; cbn [i_step] in E; try apply G in E.
    - injection E as <- _. right. now exists m.
    - left. unfold i_drop in E. destruct (g_app s i) as [own|]; [|discriminate]. destruct (nb_free (Nb i own) s) as [x| |] eqn:F; cbn [bind] in E; try discriminate. injection E as <-. apply NF in F. exact F.
    - left. unfold i_send in E. destruct (g_app s i) as [own|]; [|discriminate]. destruct (i_enqueue_out _ _ _ _) as [x| |] eqn:F; cbn [bind] in E; try discriminate. injection E as <-. apply EO in F. exact F.
    - left. unfold i_track in E. destruct (g_app s i) as [own|]; [|discriminate]. destruct (i_enqueue _ _ _ _ _ _) as [x| |] eqn:F; cbn [bind] in E; try discriminate. injection E as <-. apply EQ in F. exact F.
    - left. unfold i_back in E. destruct (g_app s i) as [own|]; [|discriminate]. destruct (i_con_sent _ _ _ _ _) as [x| |] eqn:F; cbn [bind] in E; try discriminate. injection E as <-. apply CS in F. exact F.
    - left. unfold i_wire in E. destruct (g_pump s) as [|[b a] q]; [injection E as <- _; split; reflexivity|]. destruct (nb_read s b); cbn [bind] in E; try discriminate.
      match type of E with bind ?x _ = _ => destruct x as [[b1 s2]| |] eqn:T end; cbn [bind fst snd] in E; try discriminate.
      destruct (nb_free b1 (i_out q s2)) as [s3| |] eqn:F; cbn [bind] in E; try discriminate. injection E as <- _. apply NF in F. destruct F as (F1 & F2). rewrite F1, F2. cbn [i_out g_next g_msg].
      destruct t as [|now r|vs].
      + injection T as _ <-. split; reflexivity.
      + unfold i_notify in T. destruct (nb_read s b); cbn [bind] in T; try discriminate. destruct (_ =? CON); [|injection T as _ <-; split; reflexivity].
        destruct (i_enqueue _ _ _ _ _ _) as [x| |] eqn:Q; cbn [bind] in T; try discriminate. injection T as _ <-. apply EQ in Q. exact Q.
      + destruct (i_con_sent _ _ _ _ _) as [x| |] eqn:Q; cbn [bind] in T; try discriminate. injection T as _ <-. apply CS in Q. exact Q.
    - left. unfold i_service in E. destruct (nth_error _ _) as [f|]; [|injection E as <-; split; reflexivity]. destruct (_ <=? _); [|injection E as <-; split; reflexivity]. destruct (_ <? _).
      + destruct (i_enqueue_out _ _ _ _) as [x| |] eqn:F; cbn [bind] in E; try discriminate. injection E as <-. apply EO in F. exact F.
      + destruct (_ =? _); [|injection E as <-; split; reflexivity]. destruct (i_enqueue_out _ _ _ _) as [x| |] eqn:F; cbn [bind] in E; try discriminate. injection E as <-. apply EO in F. exact F.
    - left. unfold i_ack in E. destruct (_ =? _); [|injection E as <-; split; reflexivity]. destruct (i_match _ _ _ _ _) as [[k|]| |]; cbn [bind] in E; try discriminate; injection E as <-; split; reflexivity. }
  destruct D as [(D1 & D2)|(m & ->)].
  - rewrite D1, D2. split; [lia|reflexivity].
  - cbn [i_new g_next g_msg]. split; [lia|]. intros c Hc. apply RetryMemProofs.upd_other. lia.
Qed.

Lemma remove_incl : forall k q it, In it (remove_at k q) -> In it q.
Proof. intros k q it I. unfold remove_at in I. apply in_app_iff in I. rewrite <- (firstn_skipn k q). apply in_app_iff. destruct I as [I|I]; [now left|right]. revert q I. induction k as [|k IH]; intros [|x q] I; cbn in *; auto. Qed.

Lemma service_ids : forall w now k q q1 os, service_retry w now k q = Ok (q1, os) ->
  (forall o, In o os -> exists it, In it q /\ i_id it = fst (fst o)) /\ (forall it, In it q1 -> exists it0, In it0 q /\ i_id it0 = i_id it).
Proof.
  intros w now k q q1 os E. unfold service_retry in E. destruct (nth_error q k) as [f|] eqn:Ef; [|injection E as <- <-; split; [intros ? []|eauto]]. pose proof (nth_error_In _ _ Ef) as If.
  destruct (i_due f <=? now); [|injection E as <- <-; split; [intros ? []|eauto]]. destruct (i_count f <? _).
  - cbv zeta in E. unfold push in E. destruct (_ <? _)%nat; [|discriminate]. cbn [bind] in E. injection E as <- <-. split.
    + intros o [<-|[]]. exists f. split; [exact If|reflexivity].
    + intros it I. apply in_app_iff in I. destruct I as [I|[<-|[]]]; [exists it; split; [now apply remove_incl in I|reflexivity]|exists f; split; [exact If|reflexivity]].
  - destruct (i_count f =? _); injection E as <- <-; (split; [|intros it I; exists it; split; [now apply remove_incl in I|reflexivity]]).
    + intros o [<-|[]]. exists f. split; [exact If|reflexivity].
    + intros ? [].
Qed.

Lemma forall2_len : forall (X Y : Type) (P : X -> Y -> Prop) a b, Forall2 P a b -> length a = length b.
Proof. intros X Y P a b F. induction F; cbn [length]; congruence. Qed.

Lemma finv0 : forall w same, finv w same ist0 [] [] [] (fun _ => 0%nat).
Proof.
  intros. constructor; [constructor|constructor| | |].
  - intros i c m a t r E. destruct i; discriminate.
  - intros it [].
  - intros c (now & out & a & [] & _).
Qed.

Lemma finv_step : forall w size same ack s ws es h num o s1 l, (forall a, same a a = true) -> kept w size same ack s ws -> finv w same s ws es h num ->
  careful ack s ws o -> in_front o s -> i_step w size same o s = Ok (s1, l) -> exists h1 num1, finv w same s1 (ws ++ l) (es ++ event_of o s s1 l) h1 num1.
Proof.
  intros w size same ack s ws es h num o s1 l Refl K [FH FS FN FI FO] Cf Fr E. pose proof (C74_queue _ _ _ _ _ _ _ _ _ Refl K Cf E) as Q. destruct (next_mono _ _ _ _ _ _ _ E) as (NM & MM).
  pose proof (kept_inv _ _ _ _ _ _ Refl K) as I. pose proof (forall2_len _ _ _ _ _ FS) as LN.
  assert (SB : forall c, was_sent es c -> (c < g_next s)%nat /\ sent_of c ws <> []).
  { intros c (m & a & t & r & J). apply In_nth_error in J. destruct J as (i & J). apply FN in J. tauto. }
  assert (FS1 : Forall2 (same_op num (g_msg s1)) es h).
  { apply (same_all_ext num num (g_msg s)); [|exact FS]. intros c P. split; [reflexivity|]. symmetry. apply MM. apply SB. now apply FO. }
  assert (FN1 : forall i c m a t r, nth_error es i = Some (VSent c m a t r) -> num c = i /\ m = g_msg s1 c /\ (c < g_next s1)%nat /\ sent_of c (ws ++ l) <> []).
  { intros i c m a t r J. apply FN in J. destruct J as (J1 & J2 & J3 & J4). split; [exact J1|]. split; [rewrite MM by exact J3; exact J2|]. split; [lia|]. rewrite sent_app. intro X. apply app_eq_nil in X. tauto. }
  assert (FN2 : forall e, (forall c m a t r, e <> VSent c m a t r) -> forall i c m a t r, nth_error (es ++ [e]) i = Some (VSent c m a t r) -> num c = i /\ m = g_msg s1 c /\ (c < g_next s1)%nat /\ sent_of c (ws ++ l) <> []).
  { intros e Ne i c m a t r J. destruct (Nat.lt_ge_cases i (length es)) as [G|G]; [rewrite nth_error_app1 in J by exact G; eauto|]. rewrite nth_error_app2 in J by exact G.
    destruct (i - length es)%nat as [|n]; cbn in J; [injection J as J; now elim (Ne c m a t r)|destruct n; discriminate]. }
  assert (KEEP : i_view s1 = i_view s -> finv w same s1 (ws ++ l) es h num).
  { intros V. constructor; [rewrite V; exact FH|exact FS1|exact FN1|rewrite V; exact FI|exact FO]. }
  destruct o as [m|i|i a|i a now r|i a vs|t|now k|m a vs]; cbn [event_of] in *; try contradiction.
  - exists h, num. rewrite app_nil_r. apply KEEP, Q.
  - exists h, num. rewrite app_nil_r. apply KEEP, Q.
  - exists h, num. rewrite app_nil_r. apply KEEP, Q.
  - destruct Q as (Q1 & Q2 & Q3). destruct t as [|now r|vs]; [exists h, num; rewrite app_nil_r; now apply KEEP| |exists h, num; rewrite app_nil_r; now apply KEEP].
    destruct (g_pump s) as [|[b a] q] eqn:Pq; [cbn in Q2; subst l; exists h, num; rewrite (app_nil_r es); now apply KEEP|]. cbn [map firstn fst snd] in Q2. subst l. cbn [careful] in Cf. specialize (Cf b a q Pq). cbn [event_of].
    set (c := b_chunk b) in *. set (m := g_msg s c) in *.
    assert (Lc : (c < g_next s)%nat) by (apply (s_pump _ (k_sound _ _ _ I) (b, a)); rewrite Pq; now left).
    assert (Ns : ~ was_sent es c) by (intro X; now apply SB in X).
    set (num1 := fun x => if Nat.eqb x c then length es else num x).
    assert (N1 : num1 c = length es) by (unfold num1; now rewrite Nat.eqb_refl). assert (N2 : forall x, was_sent es x -> num1 x = num x).
    { intros x X. unfold num1. destruct (Nat.eqb_spec x c) as [->|_]; [tauto|reflexivity]. }
    assert (RV : map (ren num) (i_view s) = map (ren num1) (i_view s)) by (apply ren_ext; intros it J; symmetry; apply N2; now apply FI).
    exists (h ++ [(RSent m a now r, [])]), num1. constructor.
    + apply rhist_snoc with (q1 := map (ren num) (i_view s)); [exact FH|reflexivity|]. cbn [rop_step Nat.add]. rewrite RV, <- LN, <- N1, (sent_ren num1 _ _ _ _ _ _ _ _ Q3). reflexivity.
    + apply Forall2_app; [|constructor; [reflexivity|constructor]]. apply (same_all_ext num num1 (g_msg s1) (g_msg s1)); [|exact FS1]. intros x X. split; [symmetry; apply N2; now apply FO|reflexivity].
    + intros i c0 m0 a0 t0 r0 J. destruct (Nat.lt_ge_cases i (length es)) as [G|G].
      * rewrite nth_error_app1 in J by exact G. assert (W0 : was_sent es c0) by (exists m0, a0, t0, r0; eapply nth_error_In; exact J). apply FN1 in J. rewrite (N2 _ W0). exact J.
      * rewrite nth_error_app2 in J by exact G. destruct (i - length es)%nat as [|n] eqn:En; cbn in J; [|destruct n; discriminate]. injection J as <- <- <- <- <-. split; [rewrite N1; lia|]. split; [symmetry; apply MM; exact Lc|]. split; [lia|].
        rewrite sent_app. unfold sent_of at 2. cbn [filter fst]. rewrite Nat.eqb_refl. intro X. apply app_eq_nil in X. destruct X as (_ & X). discriminate X.
    + intros it J. unfold on_sent in Q3. destruct (RetryModel.is_con m); [|injection Q3 as Q3; rewrite <- Q3 in J; apply was_sent_app; now apply FI].
      unfold push in Q3. destruct (_ <? _)%nat; [|discriminate]. injection Q3 as Q3. rewrite <- Q3 in J. apply in_app_iff in J. destruct J as [J|[<-|[]]]; [apply was_sent_app; now apply FI|].
      cbn [new_item i_id]. exists m, a, now, r. apply in_app_iff. right. now left.
    + intros c0 (n0 & out & a0 & J1 & J2). apply was_sent_app. apply FO. exists n0, out, a0. split; [|exact J2]. apply in_app_iff in J1. destruct J1 as [J1|[J1|[]]]; [exact J1|discriminate].
  - destruct Q as (q & Q1 & Q2). rewrite Q2, skipn_app, skipn_all, Nat.sub_diag. cbn [app skipn]. pose proof (service_ids _ _ _ _ _ _ Q1) as (SI1 & SI2).
    exists (h ++ [(RService now k, map (fun o => (num (fst (fst o)), snd (fst o), snd o)) (map (fun e => (b_chunk (fst e), g_msg s (b_chunk (fst e)), snd e)) q))]), num.
    assert (OS : forall e, In e q -> was_sent es (b_chunk (fst e))).
    { intros e J. destruct (SI1 (b_chunk (fst e), g_msg s (b_chunk (fst e)), snd e)) as (it & J1 & J2); [now apply (in_map (fun e => (b_chunk (fst e), g_msg s (b_chunk (fst e)), snd e)))|]. cbn [fst] in J2. rewrite <- J2. now apply FI. }
    constructor.
    + apply rhist_snoc with (q1 := map (ren num) (i_view s)); [exact FH| |exact (service_ren num _ _ _ _ _ _ Q1)]. cbn [rop_legal in_front] in *. unfold i_view. destruct Fr as [->|(f & F1 & F2)]; [reflexivity|].
      assert (T : is_top k (map (ren num) (map (fun f => Item (b_chunk (j_nb f)) (j_count f) (j_init f) (j_addr f) (g_msg s (b_chunk (j_nb f))) (j_due f)) (g_retry s))) = true).
      { unfold is_top. rewrite !nth_error_map, F1. cbn [option_map ren i_due]. apply forallb_forall. intros x X. apply in_map_iff in X. destruct X as (y & <- & X). apply in_map_iff in X. destruct X as (g & <- & X). cbn [ren i_due]. apply N.leb_le. now apply F2. }
      destruct (g_retry s); [reflexivity|exact T].
    + apply Forall2_app; [exact FS1|]. constructor; [|constructor]. cbn [same_op]. exists k. f_equal. rewrite !map_map. apply map_ext_in. intros e J. cbn [fst snd]. rewrite MM; [reflexivity|]. apply SB. now apply OS.
    + apply FN2. intros; discriminate.
    + intros it J. destruct (SI2 it J) as (it0 & J1 & <-). apply was_sent_app. now apply FI.
    + intros c0 (n0 & out & a0 & J1 & J2). apply was_sent_app. apply in_app_iff in J1. destruct J1 as [J1|[J1|[]]]; [apply FO; exists n0, out, a0; auto|]. injection J1 as _ <-. apply in_map_iff in J2. destruct J2 as (e & J2 & J3). injection J2 as <- _. now apply OS.
  - destruct Q as (k & Q1 & Q2 & Q3). exists (h ++ [(RReceived m a k, [])]), num. constructor.
    + apply rhist_snoc with (q1 := map (ren num) (i_view s)); [exact FH| |cbn [rop_step]; rewrite ack_ren, <- Q1; reflexivity]. cbn [rop_legal]. destruct (hdr_type (n_hdr m) =? ACK) eqn:T; [|reflexivity]. rewrite match_ren. apply Q3. now apply N.eqb_eq.
    + apply Forall2_app; [exact FS1|]. constructor; [|constructor]. cbn [same_op]. now exists k.
    + apply FN2. intros; discriminate.
    + intros it J. apply was_sent_app. apply FI. rewrite Q1 in J. unfold service_ack, ack_received in J. destruct (_ =? _); [|exact J]. destruct k; [|exact J]. cbn [fst] in J. now apply remove_incl in J.
    + intros c0 (n0 & out & a0 & J1 & J2). apply was_sent_app. apply FO. exists n0, out, a0. split; [|exact J2]. apply in_app_iff in J1. destruct J1 as [J1|[J1|[]]]; [exact J1|discriminate].
Qed.

Lemma followed_inv : forall w size same ack s ws es, (forall a, same a a = true) -> followed w size same ack s ws es -> exists h num, finv w same s ws es h num.
Proof.
  intros w size same ack s ws es Refl F. induction F as [|s ws es o s1 l F IH C Fr E]; [exists [], (fun _ => 0%nat); apply finv0|].
  destruct IH as (h & num & IH). exact (finv_step _ _ _ _ _ _ _ _ _ _ _ _ Refl (followed_kept _ _ _ _ _ _ _ F) IH C Fr E).
Qed.

(** ** The events as the operations *)

Lemma same_nth : forall num msg es h, Forall2 (same_op num msg) es h -> forall i,
  (forall m a t r os, nth_error h i = Some (RSent m a t r, os) <-> os = [] /\ exists c, nth_error es i = Some (VSent c m a t r)) /\
  (forall m a, (exists k os, nth_error h i = Some (RReceived m a k, os)) <-> nth_error es i = Some (VAck m a)).
Proof.
  intros num msg es h F. induction F as [|e x es h S1 F IH]; intros [|i]; cbn [nth_error].
  1,2: (split; [intros m a t r os; split; [discriminate|intros (_ & c & X); discriminate]|intros m a; split; [intros (k & os & X); discriminate|discriminate]]).
  - destruct e as [c m0 a0 now r0|now out|m0 a0]; cbn [same_op] in S1; [subst x|destruct S1 as (k & ->)|destruct S1 as (k & ->)].
    + split; [intros m a t r os|intros m a]; split.
      * intro X. injection X as <- <- <- <- <-. split; [reflexivity|now exists c].
      * intros (-> & c1 & X). now injection X as _ <- <- <- <-.
      * intros (k & os & X). discriminate.
      * discriminate.
    + split; [intros m a t r os|intros m a]; split; try discriminate; [intros (_ & c1 & X); discriminate|intros (k0 & os & X); discriminate].
    + split; [intros m a t r os|intros m a]; split; try discriminate.
      * intros (_ & c1 & X). discriminate.
      * intros (k0 & os & X). now injection X as <- <- _ _.
      * intro X. injection X as <- <-. now exists k, [].
  - exact (IH i).
Qed.

Lemma outs_same : forall num msg es h c, Forall2 (same_op num msg) es h -> (forall d, put_again es d -> num d = num c -> d = c) -> handouts (num c) h = out_times c es.
Proof.
  intros num msg es h c F. induction F as [|e x es h S1 F IH]; intro Hi; [reflexivity|]. unfold handouts, out_times in *. cbn [flat_map]. rewrite IH.
  2:{ intros d (now & out & a & P & Q). apply Hi. exists now, out, a. split; [now right|exact Q]. }
  f_equal. destruct e as [c0 m0 a0 now r0|now out|m0 a0]; cbn [same_op] in S1; [subst x; reflexivity| |destruct S1 as (k & ->); reflexivity]. destruct S1 as (k & ->). unfold handed. cbn [fst snd op_time].
  assert (Y : existsb (fun o => Nat.eqb (fst (fst o)) (num c)) (map (fun y => (num (fst y), msg (fst y), snd y)) out) = existsb (fun x => Nat.eqb (fst x) c) out).
  { assert (G : forall y, In y out -> num (fst y) = num c -> fst y = c). { intros [d a] I. cbn [fst]. apply Hi. exists now, out, a. split; [now left|exact I]. }
    clear - G. induction out as [|[d a] out IH]; [reflexivity|]. cbn [map existsb fst]. rewrite IH by (intros y I; apply G; now right). f_equal.
    destruct (Nat.eqb_spec d c) as [->|Ne]; [now rewrite Nat.eqb_refl|]. apply Nat.eqb_neq. intro X. apply Ne. apply (G (d, a)); [now left|exact X]. }
  try rewrite Y; try reflexivity.
Qed.
