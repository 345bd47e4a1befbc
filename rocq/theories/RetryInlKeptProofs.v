From Verif Require Import Base HeaderModel DecoderModel RetryModel RetrySpec RetryProofs RetryMemModel RetryMemProofs RetryInlModel RetryInlSpec RetryInlProofs.
Local Open Scope N_scope.

(** ** Lists *)
Lemma filter_drop_out : forall (X : Type) (P : X -> bool) q k f, nth_error q k = Some f -> P f = false -> filter P (drop_at k q) = filter P q.
Proof.
  intros X P q k f K F. pose proof (at_split _ _ _ _ K) as E. unfold drop_at. rewrite filter_app. rewrite E at 3. rewrite filter_app. cbn [filter]. now rewrite F.
Qed.
Lemma filter_drop_in : forall (X : Type) (P : X -> bool) q k f g, nth_error q k = Some f -> P f = true -> filter P q = [g] -> g = f /\ filter P (drop_at k q) = [].
Proof.
  intros X P q k f g K F E. pose proof (at_split _ _ _ _ K) as Sp. unfold drop_at. rewrite filter_app. rewrite Sp, filter_app in E. cbn [filter] in E. rewrite F in E.
  destruct (filter P (firstn k q)) as [|x l]; [cbn [app] in *; injection E as -> E2; split; [reflexivity|exact E2]|]. cbn [app] in E. injection E as _ E. destruct l; discriminate.
Qed.
Lemma filter_change : forall (X : Type) (P : X -> bool) h q k f, nth_error q k = Some f ->
  (P f = false -> P (h f) = false -> filter P (change_at k h q) = filter P q) /\
  (P f = true -> P (h f) = true -> forall g, filter P q = [g] -> g = f /\ filter P (change_at k h q) = [h f]).
Proof.
  intros X P h q k f K. pose proof (at_split _ _ _ _ K) as Sp. unfold change_at. rewrite K. split.
  - intros F F2. rewrite filter_app. rewrite Sp at 3. rewrite filter_app. cbn [filter]. now rewrite F, F2.
  - intros F F2 g E. rewrite filter_app. rewrite Sp, filter_app in E. cbn [filter] in *. rewrite F in E. rewrite F2.
    destruct (filter P (firstn k q)) as [|x l]; [cbn [app] in *; injection E as -> E2; split; [reflexivity|f_equal; exact E2]|]. cbn [app] in E. injection E as _ E. destruct l; discriminate.
Qed.
Lemma filter_snoc : forall (X : Type) (P : X -> bool) q x, filter P (q ++ [x]) = filter P q ++ (if P x then [x] else []).
Proof. intros. rewrite filter_app. cbn [filter]. now destruct (P x). Qed.
Lemma repeat_snoc : forall (X : Type) (x : X) n, repeat x n ++ [x] = repeat x (S n).
Proof. intros X x n. induction n as [|n IH]; [reflexivity|]. cbn [repeat app]. now rewrite IH. Qed.

(** ** What becomes of a message *)
Definition pof (c : nat) (q : list (nb * N)) : list (nb * N) := filter (fun e => Nat.eqb (b_chunk (fst e)) c) q.
Definition rof (c : nat) (q : list iitem) : list iitem := filter (fun f => Nat.eqb (b_chunk (j_nb f)) c) q.

Inductive phase (ack : bool) (c : nat) (app : option bool) (pf : list (nb * N)) (rf : list iitem) (live : bool) (m : netmsg) (snt : list (nat * N * netmsg)) : Prop :=
| PhApp : app = Some true -> pf = [] -> rf = [] -> live = true -> snt = [] -> phase ack c app pf rf live m snt
| PhFirst : forall a, app <> Some true -> pf = [(Nb c true, a)] -> rf = [] -> live = true -> snt = [] -> phase ack c app pf rf live m snt
| PhHeld : forall f, app <> Some true -> pf = [] -> rf = [f] -> j_nb f = Nb c true -> con_msg m = true -> j_count f <= 2 -> live = true ->
    snt = repeat (c, j_addr f, m) (S (N.to_nat (j_count f))) -> phase ack c app pf rf live m snt
| PhOut : forall f, app <> Some true -> pf = [(Nb c true, j_addr f)] -> rf = [f] -> j_nb f = Nb c false -> con_msg m = true -> 1 <= j_count f <= 2 -> live = true ->
    snt = repeat (c, j_addr f, m) (N.to_nat (j_count f)) -> phase ack c app pf rf live m snt
| PhLast : forall a n, app <> Some true -> pf = [(Nb c true, a)] -> rf = [] -> con_msg m = true -> live = true ->
    snt = repeat (c, a, m) n -> (1 <= n <= 3)%nat -> (ack = false -> n = 3%nat) -> phase ack c app pf rf live m snt
| PhDone : forall a n, app <> Some true -> pf = [] -> rf = [] -> live = false -> snt = repeat (c, a, m) n -> (n <= if con_msg m then 4 else 1)%nat ->
    (ack = false -> n = 0%nat \/ n = if con_msg m then 4%nat else 1%nat) -> phase ack c app pf rf live m snt
| PhLeak : forall a n, app <> Some true -> pf = [] -> rf = [] -> live = true -> con_msg m = true -> snt = repeat (c, a, m) n -> (1 <= n <= 3)%nat -> ack = true -> phase ack c app pf rf live m snt.

Definition ph (ack : bool) (s : ist) (ws : list (nat * N * netmsg)) (c : nat) : Prop :=
  phase ack c (g_app s c) (pof c (g_pump s)) (rof c (g_retry s)) (g_live s c) (g_msg s c) (sent_of c ws).

Record kinv (ack : bool) (s : ist) (ws : list (nat * N * netmsg)) : Prop := KInv {
  k_sound : sound s;
  k_ph : forall c, (c < g_next s)%nat -> ph ack s ws c;
  k_ws : forall x, In x ws -> (fst (fst x) < g_next s)%nat;
  k_alike : forall c d, (c < g_next s)%nat -> (d < g_next s)%nat -> con_msg (g_msg s c) = true -> con_msg (g_msg s d) = true -> alike (g_msg s c) (g_msg s d) -> c = d }.

Lemma pof_in : forall c q e, In e q -> b_chunk (fst e) = c -> In e (pof c q).
Proof. intros c q e I E. apply filter_In. split; [exact I|]. now apply Nat.eqb_eq. Qed.
Lemma rof_in : forall c q f, In f q -> b_chunk (j_nb f) = c -> In f (rof c q).
Proof. intros c q f I E. apply filter_In. split; [exact I|]. now apply Nat.eqb_eq. Qed.

(** an item in the queue: of a confirmable message, alive *)
Lemma k_item : forall ack s ws, kinv ack s ws -> forall f, In f (g_retry s) ->
  (b_chunk (j_nb f) < g_next s)%nat /\ con_msg (g_msg s (b_chunk (j_nb f))) = true /\ g_live s (b_chunk (j_nb f)) = true /\ rof (b_chunk (j_nb f)) (g_retry s) = [f].
Proof.
  intros ack s ws K f I. assert (L : (b_chunk (j_nb f) < g_next s)%nat) by (apply (s_retry _ (k_sound _ _ _ K)); exact I). split; [exact L|].
  pose proof (rof_in (b_chunk (j_nb f)) _ f I eq_refl) as J.
  destruct (k_ph _ _ _ K _ L); match goal with H : rof _ _ = _ |- _ => rewrite H in J end; (destruct J as [J|[]] || destruct J); subst; auto.
Qed.

Lemma match_hit : forall same s m a vs k, i_match same s m a vs = Ok (Some k) ->
  exists f, nth_error (g_retry s) k = Some f /\ same a (j_addr f) = true /\ alike (g_msg s (b_chunk (j_nb f))) m.
Proof.
  intros same s m a vs. induction vs as [|j vs IH]; intros k H; [discriminate|]. cbn [i_match] in H.
  destruct (nth_error (g_retry s) j) as [f|] eqn:E; [|discriminate]. unfold nb_read in H. destruct (g_live s (b_chunk (j_nb f))); [|discriminate]. cbn [bind] in H.
  destruct (matches _ _ _ _ _) eqn:M; [|auto]. injection H as <-. exists f. split; [exact E|]. unfold matches in M. cbn [i_addr i_msg] in M. apply andb_prop in M. destruct M as [M M3]. apply andb_prop in M. destruct M as [M1 M2].
  apply N.eqb_eq in M3. apply tok_eqb_eq in M2. unfold alike. auto.
Qed.
Lemma match_miss : forall same s m a vs, i_match same s m a vs = Ok None -> forall k f, In k vs -> nth_error (g_retry s) k = Some f ->
  ~ (same a (j_addr f) = true /\ alike (g_msg s (b_chunk (j_nb f))) m).
Proof.
  intros same s m a vs. induction vs as [|j vs IH]; intros H k f I E; [destruct I|]. cbn [i_match] in H.
  destruct (nth_error (g_retry s) j) as [g|] eqn:E2; [|discriminate]. unfold nb_read in H. destruct (g_live s (b_chunk (j_nb g))); [|discriminate]. cbn [bind] in H.
  destruct (matches _ _ _ _ _) eqn:M; [discriminate|]. destruct I as [->|I]; [|now apply (IH H k)]. rewrite E in E2. injection E2 as <-. intros [A [B C]].
  unfold matches in M. cbn [i_addr i_msg] in M. rewrite A in M. cbn [andb] in M. rewrite (proj2 (tok_eqb_eq _ _) C), B, N.eqb_refl in M. discriminate.
Qed.
Lemma match_ok : forall same s m a vs, (forall k, In k vs -> exists f, nth_error (g_retry s) k = Some f /\ g_live s (b_chunk (j_nb f)) = true) -> exists r, i_match same s m a vs = Ok r.
Proof.
  intros same s m a vs. induction vs as [|j vs IH]; intro H; [eexists; reflexivity|]. cbn [i_match]. destruct (H j (or_introl eq_refl)) as (f & -> & L). unfold nb_read. rewrite L. cbn [bind].
  destruct (matches _ _ _ _ _); [eexists; reflexivity|]. apply IH. intros k I. apply H. now right.
Qed.

Lemma sent_app : forall c ws l, sent_of c (ws ++ l) = sent_of c ws ++ sent_of c l.
Proof. intros. unfold sent_of. apply filter_app. Qed.

Lemma phase_app : forall ack c app app' pf rf live m snt, phase ack c app pf rf live m snt -> app <> Some true -> app' <> Some true -> phase ack c app' pf rf live m snt.
Proof.
  intros ack c app app' pf rf live m snt H N N'. destruct H; [congruence|..].
  - eapply PhFirst; eauto.
  - eapply PhHeld; eauto.
  - eapply PhOut; eauto.
  - eapply PhLast; eauto.
  - eapply PhDone; eauto.
  - eapply PhLeak; eauto.
Qed.

Lemma kinv0 : forall ack, kinv ack ist0 [].
Proof. intro ack. split; [apply sound0|cbn; lia|contradiction|cbn; lia]. Qed.

Lemma kinv_step : forall w size same ack o s s1 ws l, (forall a, same a a = true) -> kinv ack s ws -> careful ack s ws o -> i_step w size same o s = Ok (s1, l) -> kinv ack s1 (ws ++ l).
Proof.
  intros w size same ack o s s1 ws l Refl K Cf E. pose proof (sound_step _ _ _ _ _ _ _ (k_sound _ _ _ K) E) as S1. pose proof (k_item _ _ _ K) as KI. destruct K as [S0 Ph Ws Al].
  pose proof (step_nil _ _ _ _ _ _ _ E) as Nl.
  assert (G : forall r, bind r (fun s1 => Ok (s1, [])) = Ok (s1, l) -> r = Ok s1) by (intros r H; destruct r; try discriminate; now injection H as <- _).
  assert (AB : forall c, g_app s c <> None -> (c < g_next s)%nat).
  { intros c X. destruct (Nat.lt_ge_cases c (g_next s)) as [Y|Y]; [exact Y|]. apply (s_fresh _ S0) in Y. tauto. }
  destruct o as [m|i|i a|i a now r|i a vs|t|now k|m a vs]; cbn [i_step] in E; cbn [careful] in Cf; try contradiction; try (subst l; rewrite app_nil_r); try apply G in E.
  - (* INew *) injection E as <-. split; [exact S1| | |].
    + intros c Lc. cbn [i_new g_next] in Lc. unfold ph. cbn [i_new g_app g_pump g_retry g_live g_msg]. destruct (Nat.eq_dec c (g_next s)) as [->|Ne]; [|rewrite !upd_other by exact Ne; apply Ph; lia].
      rewrite !upd_same. apply PhApp; auto.
      * unfold pof. destruct (filter _ (g_pump s)) as [|e q] eqn:F; [reflexivity|]. assert (I : In e (filter (fun e => Nat.eqb (b_chunk (fst e)) (g_next s)) (g_pump s))) by (rewrite F; now left).
        apply filter_In in I. destruct I as [I J]. apply (s_pump _ S0) in I. apply Nat.eqb_eq in J. lia.
      * unfold rof. destruct (filter _ (g_retry s)) as [|e q] eqn:F; [reflexivity|]. assert (I : In e (filter (fun e => Nat.eqb (b_chunk (j_nb e)) (g_next s)) (g_retry s))) by (rewrite F; now left).
        apply filter_In in I. destruct I as [I J]. apply (s_retry _ S0) in I. apply Nat.eqb_eq in J. lia.
      * unfold sent_of. destruct (filter _ ws) as [|x q] eqn:F; [reflexivity|]. assert (I : In x (filter (fun x => Nat.eqb (fst (fst x)) (g_next s)) ws)) by (rewrite F; now left).
        apply filter_In in I. destruct I as [I J]. apply Ws in I. apply Nat.eqb_eq in J. lia.
    + intros x I. cbn. apply Ws in I. lia.
    + intros c d Lc Ld. cbn [i_new g_next g_msg] in *. destruct (Nat.eq_dec c (g_next s)) as [->|Nc]; destruct (Nat.eq_dec d (g_next s)) as [->|Nd]; auto; rewrite ?upd_same, ?(upd_other _ _ _ _ _ Nc), ?(upd_other _ _ _ _ _ Nd).
      * intros A B H. exfalso. apply (Cf d); try assumption; [lia|]. destruct H. split; auto.
      * intros A B H. exfalso. apply (Cf c); try assumption. lia.
      * apply Al; lia.
  - (* IDrop *) unfold i_drop in E. destruct (g_app s i) as [own|] eqn:O; [|discriminate]. unfold nb_free in E. cbn [b_own b_chunk] in E.
    assert (Li : (i < g_next s)%nat) by (apply AB; congruence). pose proof (Ph i Li) as Pi. unfold ph in Pi. rewrite O in Pi.
    destruct own; [destruct (g_live s i) eqn:Lv; [|discriminate]|]; cbn [bind] in E; injection E as <-; (split; [exact S1| |exact Ws|exact Al]); intros c Lc; unfold ph; cbn [i_app g_app g_pump g_retry g_live g_msg g_next] in *; (destruct (Nat.eq_dec c i) as [->|Ne]; [|rewrite ?(upd_other _ _ _ _ _ Ne); now apply Ph]); rewrite !upd_same.
    + destruct Pi as [A1 A2 A3 A4 A5|? A1|? A1|? A1|? ? A1|? ? A1|? ? A1]; try congruence. rewrite A2, A3, A5. eapply (PhDone _ _ _ _ _ _ _ _ 0 0%nat); auto; try discriminate; try (destruct (con_msg (g_msg s i)); lia).
    + eapply phase_app; [exact Pi|discriminate|discriminate].
  - (* ISend *) unfold i_send in E. rewrite Cf in E. unfold i_enqueue_out in E. destruct (_ <? _)%nat; [|discriminate]. cbn [bind] in E. injection E as <-.
    split; [exact S1| |exact Ws|exact Al]. intros c Lc. unfold ph. cbn [i_app i_out g_app g_pump g_retry g_live g_msg g_next] in *. unfold pof. rewrite filter_snoc. cbn [fst b_chunk]. pose proof (Ph c Lc) as Pc. unfold ph, pof in Pc.
    destruct (Nat.eq_dec c i) as [->|Ne].
    + rewrite upd_same, Nat.eqb_refl. rewrite Cf in Pc. destruct Pc as [A1 A2 A3 A4 A5|? A1|? A1|? A1|? ? A1|? ? A1|? ? A1]; try congruence. rewrite A2, A3, A4, A5. cbn [app]. eapply PhFirst; auto. discriminate.
    + rewrite upd_other by exact Ne. assert (X : Nat.eqb i c = false) by (apply Nat.eqb_neq; auto). rewrite X, app_nil_r. exact Pc.
  - (* IWire *) destruct (wire_cases _ _ _ _ _ _ E) as [(_ & -> & ->)|(b & a & q & b1 & s2 & Pq & Lv & -> & T & F)]; [rewrite app_nil_r; split; auto|].
    specialize (Cf b a q Pq). destruct (flow_free _ _ _ _ F) as [-> _].
    assert (Lb : (b_chunk b < g_next s)%nat) by (apply (s_pump _ S0 (b, a)); rewrite Pq; now left). pose proof (Ph _ Lb) as Pb. unfold ph in Pb.
    assert (PQ : forall c, pof c (g_pump s) = (if Nat.eqb (b_chunk b) c then [(b, a)] else []) ++ pof c q).
    { intro c. rewrite Pq. unfold pof. cbn [filter fst]. destruct (Nat.eqb (b_chunk b) c); reflexivity. }
    rewrite (PQ (b_chunk b)), Nat.eqb_refl in Pb. cbn [app] in Pb.
    assert (Sn : forall c, sent_of c (ws ++ [(b_chunk b, a, g_msg s (b_chunk b))]) = if Nat.eqb (b_chunk b) c then sent_of c ws ++ [(b_chunk b, a, g_msg s (b_chunk b))] else sent_of c ws).
    { intro c. rewrite sent_app. unfold sent_of at 2. cbn [filter fst]. destruct (Nat.eqb (b_chunk b) c); [reflexivity|now rewrite app_nil_r]. }
    assert (Wn : forall x, In x (ws ++ [(b_chunk b, a, g_msg s (b_chunk b))]) -> (fst (fst x) < g_next s)%nat).
    { intros x I. apply in_app_iff in I. destruct I as [I|[<-|[]]]; auto. }
    (* the messages that are not sent *)
    assert (Oth : forall c, (c < g_next s)%nat -> c <> b_chunk b -> forall rq lv, rof c rq = rof c (g_retry s) -> lv c = g_live s c ->
      phase ack c (g_app s c) (pof c q) (rof c rq) (lv c) (g_msg s c) (sent_of c (ws ++ [(b_chunk b, a, g_msg s (b_chunk b))]))).
    { intros c Lc Ne rq lv Rq Lq. rewrite Rq, Lq, Sn. pose proof (Ph c Lc) as Pc. unfold ph in Pc. rewrite (PQ c) in Pc. assert (X : Nat.eqb (b_chunk b) c = false) by (apply Nat.eqb_neq; auto). rewrite X in *. exact Pc. }
    destruct t as [|now r|vs]; try contradiction.
    + (* the observer: the first time *)
      rewrite Cf in Pb. assert (Pb2 : g_app s (b_chunk b) <> Some true /\ b = Nb (b_chunk b) true /\ pof (b_chunk b) q = [] /\ rof (b_chunk b) (g_retry s) = []).
      { destruct Pb as [A1 A2|a0 A1 A2 A3 A4 A5|f A1 A2|f A1 A2 A3 A4 A5 A6 A7 A8|a0 n A1 A2 A3 A4 A5 A6 A7 A8|? ? A1 A2|? ? A1 A2]; try discriminate.
        - injection A2 as -> _ ->. auto.
        - destruct (N.to_nat (j_count f)) eqn:Z; [lia|discriminate].
        - destruct n; [lia|discriminate]. }
      destruct Pb2 as (B1 & B2 & B3 & B4).
      assert (Bo : b_own b = true) by (rewrite B2; reflexivity).
      destruct (notify_cases _ _ _ _ _ _ _ _ T) as [_ [(Cn & -> & ->)|(Cn & -> & Lt & init & -> & _)]]; (split; [exact S1| |exact Wn|exact Al]); intros c Lc; unfold ph; cbn [i_queue g_app g_pump g_retry g_live g_msg g_next nb_gone b_own b_chunk] in *; (destruct (Nat.eq_dec c (b_chunk b)) as [->|Ne]).
      * rewrite Bo, upd_same, B3, B4, Sn, Nat.eqb_refl, Cf. eapply (PhDone _ _ _ _ _ _ _ _ a 1%nat); auto; rewrite Cn; auto.
      * apply Oth; auto. rewrite Bo. now apply upd_other.
      * unfold rof in *. rewrite filter_snoc. cbn [j_nb]. rewrite Nat.eqb_refl, B4, B3, Sn, Nat.eqb_refl, Cf. cbn [app]. eapply PhHeld; [exact B1|reflexivity|reflexivity|exact B2|exact Cn|cbn; lia|exact Lv|reflexivity].
      * apply Oth; auto. unfold rof. rewrite filter_snoc. cbn [j_nb]. assert (X : Nat.eqb (b_chunk b) c = false) by (apply Nat.eqb_neq; auto). rewrite X. apply app_nil_r.
    + (* con_sent_experimental: again *)
      destruct T as [x T]. destruct Cf as [Cs Wv].
      assert (Cb : con_msg (g_msg s (b_chunk b)) = true) by (destruct Pb; try congruence; try discriminate).
      destruct (con_sent_cases _ _ _ _ _ _ _ _ T) as [_ [(_ & -> & -> & Mt)|(_ & -> & k & f & K & _ & Mt & ->)]]; (split; [exact S1| |exact Wn|exact Al]); intros c Lc; unfold ph; cbn [i_queue g_app g_pump g_retry g_live g_msg g_next nb_gone b_own b_chunk] in *.
      * (* not tracked any more *)
        assert (Pb2 : exists n, g_app s (b_chunk b) <> Some true /\ b = Nb (b_chunk b) true /\ pof (b_chunk b) q = [] /\ rof (b_chunk b) (g_retry s) = [] /\ sent_of (b_chunk b) ws = repeat (b_chunk b, a, g_msg s (b_chunk b)) n /\ (n <= 3)%nat /\ (ack = false -> n = 3%nat)).
        { destruct Pb as [A1 A2|a0 A1 A2 A3 A4 A5|f A1 A2|f A1 A2 A3 A4 A5 A6 A7 A8|a0 n A1 A2 A3 A4 A5 A6 A7 A8|? ? A1 A2|? ? A1 A2]; try discriminate; [congruence| |].
          - exfalso. injection A2 as Ab Aa Aq. assert (I : In f (g_retry s)) by (assert (I : In f (rof (b_chunk b) (g_retry s))) by (rewrite A3; now left); apply filter_In in I; tauto).
            destruct (In_nth_error _ _ I) as [j J]. assert (Iv : In j vs) by (apply Wv; apply nth_error_Some; congruence). apply (match_miss _ _ _ _ _ Mt j f Iv J). rewrite A4. cbn [b_chunk]. split; [rewrite Aa; apply Refl|split; reflexivity].
          - injection A2 as Ab Aa Aq. subst a0. exists n. repeat split; auto; lia. }
        destruct Pb2 as (n & B1 & B2 & B3 & B4 & B5 & B6 & B7). assert (Bo : b_own b = true) by (rewrite B2; reflexivity). destruct (Nat.eq_dec c (b_chunk b)) as [->|Ne].
        -- rewrite Bo, upd_same, B3, B4, Sn, Nat.eqb_refl, B5, repeat_snoc. eapply (PhDone _ _ _ _ _ _ _ _ a (S n)); auto; [rewrite Cb; lia|]. intro Q. rewrite Cb, (B7 Q). auto.
        -- apply Oth; auto. rewrite Bo. now apply upd_other.
      * (* back into the slot of its item *)
        destruct (match_hit _ _ _ _ _ _ Mt) as (f' & K' & _ & Hal). rewrite K in K'. injection K' as <-.
        destruct (KI f (nth_error_In _ _ K)) as (F1 & F2 & F3 & F4). assert (Ef : b_chunk (j_nb f) = b_chunk b) by (apply Al; auto).
        destruct (Nat.eq_dec c (b_chunk b)) as [->|Ne].
        -- destruct Pb as [A1 A2|a0 A1 A2 A3 A4 A5|g A1 A2|g A1 A2 A3 A4 A5 A6 A7 A8|a0 n A1 A2 A3 A4 A5 A6 A7 A8|? ? A1 A2|? ? A1 A2]; try discriminate; [congruence| |rewrite Ef, A3 in F4; discriminate].
           injection A2 as Ab Aa Aq. rewrite <- Ef, F4 in A3. injection A3 as <-.
           destruct (filter_change _ (fun f => Nat.eqb (b_chunk (j_nb f)) (b_chunk b)) (put_nb b) _ _ _ K) as [_ FC].
           assert (E1 : Nat.eqb (b_chunk (j_nb f)) (b_chunk b) = true) by (now apply Nat.eqb_eq). rewrite Ef in F4. cbn [put_nb j_nb] in FC. destruct (FC E1 (Nat.eqb_refl _) f F4) as [_ FC2].
           unfold rof. rewrite FC2. rewrite Aq, Sn, Nat.eqb_refl, A8, Aa, repeat_snoc. eapply PhHeld; cbn [put_nb j_nb j_count j_addr]; auto; cbn [put_nb j_count]; lia.
        -- apply Oth; auto. unfold rof. apply (proj1 (filter_change _ (fun f => Nat.eqb (b_chunk (j_nb f)) c) (put_nb b) _ _ _ K)); cbn [put_nb j_nb]; apply Nat.eqb_neq; congruence.
  - (* IService *) destruct (service_cases _ _ _ _ _ _ E) as [->|(f & K & D & [(C & ->)|[(C & _ & ->)|(C & _ & ->)]])]; [split; auto|..]; specialize (Cf f K D); destruct (KI f (nth_error_In _ _ K)) as (F1 & F2 & F3 & F4); pose proof (Ph _ F1) as Pf; unfold ph in Pf; rewrite F4 in Pf;
      (assert (PE : pof (b_chunk (j_nb f)) (g_pump s) = []) by (unfold pof; destruct (filter _ (g_pump s)) as [|e q] eqn:FE; [reflexivity|]; exfalso; assert (I : In e (filter (fun e => Nat.eqb (b_chunk (fst e)) (b_chunk (j_nb f))) (g_pump s))) by (rewrite FE; now left); apply filter_In in I; destruct I as [I J]; apply Nat.eqb_eq in J; exact (Cf e I J)));
      rewrite PE in Pf;
      (assert (Pf2 : g_app s (b_chunk (j_nb f)) <> Some true /\ j_nb f = Nb (b_chunk (j_nb f)) true /\ j_count f <= 2 /\ sent_of (b_chunk (j_nb f)) ws = repeat (b_chunk (j_nb f), j_addr f, g_msg s (b_chunk (j_nb f))) (S (N.to_nat (j_count f)))) by (destruct Pf as [? ? A3|? ? ? A3|g A1 A2 A3 A4 A5 A6 A7 A8|? ? A2|? ? ? A2|? ? ? ? A3|? ? ? ? A3]; try discriminate; injection A3 as <-; auto));
      destruct Pf2 as (B1 & B2 & B3 & B4).
    + lia.
    + split; [exact S1| |exact Ws|exact Al]. intros c Lc. unfold ph. cbn [i_queue i_out g_app g_pump g_retry g_live g_msg g_next] in *. unfold pof. rewrite filter_snoc. cbn [fst]. destruct (Nat.eqb_spec (b_chunk (j_nb f)) c) as [<-|Ne].
      * unfold pof in PE. rewrite PE. cbn [app]. destruct (filter_drop_in _ (fun f' => Nat.eqb (b_chunk (j_nb f')) (b_chunk (j_nb f))) _ _ _ f K (Nat.eqb_refl _) F4) as [_ FD]. unfold rof. rewrite FD, B4, C.
        eapply (PhLast _ _ _ _ _ _ _ _ (j_addr f) 3%nat); auto; try lia; try (now rewrite <- B2).
      * rewrite app_nil_r. unfold rof. rewrite (filter_drop_out _ _ _ _ _ K) by (now apply Nat.eqb_neq). now apply Ph.
    + split; [exact S1| |exact Ws|exact Al]. intros c Lc. unfold ph. cbn [i_queue i_out g_app g_pump g_retry g_live g_msg g_next] in *. unfold pof, rof. rewrite !filter_snoc. cbn [fst j_nb nb_gone b_chunk]. destruct (Nat.eqb_spec (b_chunk (j_nb f)) c) as [<-|Ne].
      * unfold pof in PE. rewrite PE. cbn [app]. destruct (filter_drop_in _ (fun f' => Nat.eqb (b_chunk (j_nb f')) (b_chunk (j_nb f))) _ _ _ f K (Nat.eqb_refl _) F4) as [_ FD]. rewrite FD, B4. cbn [app].
        apply (PhOut _ _ _ _ _ _ _ _ (IItem (nb_gone (j_nb f)) (j_count f + 1) (j_init f) (j_addr f) (time_add w now (meta_delta (j_count f + 1) (j_init f))))); [exact B1|rewrite <- B2; reflexivity|reflexivity|reflexivity|exact F2|cbn [j_count]; lia|exact F3|]. cbn [j_addr j_count]. f_equal. lia.
      * rewrite !app_nil_r. rewrite (filter_drop_out _ _ _ _ _ K) by (now apply Nat.eqb_neq). now apply Ph.
  - (* IAck *) destruct Cf as [Ak Wv]. destruct (ack_cases _ _ _ _ _ _ E) as [[-> _]|(_ & k & f & _ & K & ->)]; [split; auto|].
    destruct (KI f (nth_error_In _ _ K)) as (F1 & F2 & F3 & F4). split; [exact S1| |exact Ws|exact Al]. intros c Lc. unfold ph. cbn [i_queue g_app g_pump g_retry g_live g_msg g_next] in *. unfold rof.
    destruct (Nat.eqb_spec (b_chunk (j_nb f)) c) as [<-|Ne].
    + destruct (filter_drop_in _ (fun f' => Nat.eqb (b_chunk (j_nb f')) (b_chunk (j_nb f))) _ _ _ f K (Nat.eqb_refl _) F4) as [_ FD]. rewrite FD.
      pose proof (Ph _ F1) as Pf. unfold ph in Pf. rewrite F4 in Pf. destruct Pf as [? ? A3|? ? ? A3|g A1 A2 A3 A4 A5 A6 A7 A8|g A1 A2 A3 A4 A5 A6 A7 A8|? ? ? ? A3|? ? ? ? A3|? ? ? ? A3]; try discriminate; injection A3 as <-.
      * eapply PhLeak; eauto. lia.
      * eapply PhLast; eauto; [lia|congruence].
    + rewrite (filter_drop_out _ _ _ _ _ K) by (now apply Nat.eqb_neq). now apply Ph.
Qed.

Lemma kept_inv : forall w size same ack s ws, (forall a, same a a = true) -> kept w size same ack s ws -> kinv ack s ws.
Proof. intros w size same ack s ws Refl K. induction K; [apply kinv0|]. eapply kinv_step; eassumption. Qed.

(** ** The queue of C25-C30 *)
Lemma change_len : forall (X : Type) h (q : list X) k, length (change_at k h q) = length q.
Proof. intros X h q k. unfold change_at. destruct (nth_error q k) as [f|] eqn:E; [|reflexivity]. rewrite (at_split _ _ _ _ E) at 3. rewrite !app_length. reflexivity. Qed.
Lemma change_map : forall (X Y : Type) (g : X -> Y) h q k f, nth_error q k = Some f -> g (h f) = g f -> map g (change_at k h q) = map g q.
Proof. intros X Y g h q k f K E. unfold change_at. rewrite K. rewrite (at_split _ _ _ _ K) at 3. rewrite !map_app. cbn [map]. now rewrite E. Qed.

Lemma len_step : forall w size same o s s1 l, (length (g_retry s) <= QUEUE_MAX)%nat -> i_step w size same o s = Ok (s1, l) -> (length (g_retry s1) <= QUEUE_MAX)%nat.
Proof.
  intros w size same o s s1 l L E.
  assert (G : forall r, bind r (fun s1 => Ok (s1, [])) = Ok (s1, l) -> r = Ok s1) by (intros r H; destruct r; try discriminate; now injection H as <- _).
  assert (CS : forall b a vs r b1 s2, i_con_sent same b a vs s = Ok (r, b1, s2) -> (length (g_retry s2) <= QUEUE_MAX)%nat).
  { intros b a vs r b1 s2 T. destruct (con_sent_cases _ _ _ _ _ _ _ _ T) as [_ [(_ & -> & -> & _)|(_ & -> & k & f & K & _ & _ & ->)]]; [exact L|]. cbn. now rewrite change_len. }
  destruct o as [m|i|i a|i a now r|i a vs|t|now k|m a vs]; cbn [i_step] in E; try apply G in E.
  - injection E as <- <-. exact L.
  - unfold i_drop in E. destruct (g_app s i) as [own|]; [|discriminate]. unfold nb_free in E. cbn [b_own b_chunk] in E. destruct own; [destruct (g_live s i); [|discriminate]|]; cbn [bind] in E; injection E as <-; exact L.
  - unfold i_send in E. destruct (g_app s i) as [own|]; [|discriminate]. unfold i_enqueue_out in E. destruct (_ <? _)%nat; [|discriminate]. cbn [bind] in E. injection E as <-. exact L.
  - unfold i_track in E. destruct (g_app s i) as [own|]; [|discriminate]. unfold i_enqueue in E. destruct (_ <? _)%nat eqn:Lt; [|discriminate]. cbn [bind] in E. injection E as <-. apply Nat.ltb_lt in Lt. cbn. rewrite app_length. cbn. lia.
  - unfold i_back in E. destruct (g_app s i) as [own|]; [|discriminate]. destruct (i_con_sent same (Nb i own) a vs s) as [[[x b1] s2]| |] eqn:M; try discriminate. cbn [bind fst snd] in E. injection E as <-. exact (CS _ _ _ _ _ _ M).
  - destruct (wire_cases _ _ _ _ _ _ E) as [(_ & -> & _)|(b & a & q & b1 & s2 & Pq & Lv & -> & T & F)]; [exact L|]. destruct (flow_free _ _ _ _ F) as [-> _]. cbn [g_retry]. destruct t as [|now r|vs].
    + destruct T as [_ ->]. exact L.
    + destruct (notify_cases _ _ _ _ _ _ _ _ T) as [_ [(_ & -> & ->)|(_ & -> & Lt & init & -> & _)]]; [exact L|]. cbn. rewrite app_length. cbn. lia.
    + destruct T as [x T]. exact (CS _ _ _ _ _ _ T).
  - destruct (service_cases _ _ _ _ _ _ E) as [->|(f & K & _ & [(C & ->)|[(C & _ & ->)|(C & _ & ->)]])]; [exact L|..]; pose proof (drop_len _ _ _ _ K) as DL; cbn; rewrite ?app_length; cbn [length]; lia.
  - destruct (ack_cases _ _ _ _ _ _ E) as [[-> _]|(_ & k & f & _ & K & ->)]; [exact L|]. pose proof (drop_len _ _ _ _ K). cbn. lia.
Qed.
Lemma kept_len : forall w size same ack s ws, kept w size same ack s ws -> (length (g_retry s) <= QUEUE_MAX)%nat.
Proof. intros w size same ack s ws K. induction K; [cbn; unfold QUEUE_MAX; lia|]. eapply len_step; eassumption. Qed.

(** what is in the pump for C25-C30 *)
Definition outs_of (msg : nat -> netmsg) (q : list (nb * N)) : outs := map (fun e => (b_chunk (fst e), msg (b_chunk (fst e)), snd e)) q.

Lemma service_view : forall w size now k s s1, (length (g_retry s) <= QUEUE_MAX)%nat -> i_service w size now k s = Ok s1 ->
  exists l, service_retry w now k (i_view s) = Ok (i_view s1, outs_of (g_msg s) l) /\ g_pump s1 = g_pump s ++ l.
Proof.
  intros w size now k s s1 L E. unfold i_service in E.
  assert (NV : nth_error (i_view s) k = option_map (fun f => Item (b_chunk (j_nb f)) (j_count f) (j_init f) (j_addr f) (g_msg s (b_chunk (j_nb f))) (j_due f)) (nth_error (g_retry s) k)) by (unfold i_view; apply nth_error_map).
  unfold service_retry. rewrite NV. destruct (nth_error (g_retry s) k) as [f|] eqn:F; cbn [option_map].
  2: { injection E as <-. exists []. now rewrite app_nil_r. }
  cbn [i_due i_count i_init i_addr i_msg i_id]. pose proof (drop_len _ _ _ _ F) as DL. unfold i_enqueue_out in E.
  assert (RV : remove_at k (i_view s) = map (fun f => Item (b_chunk (j_nb f)) (j_count f) (j_init f) (j_addr f) (g_msg s (b_chunk (j_nb f))) (j_due f)) (drop_at k (g_retry s))).
  { unfold i_view. rewrite drop_at_map. reflexivity. }
  destruct (j_due f <=? now); [|injection E as <-; exists []; now rewrite app_nil_r]. destruct (j_count f <? MAX_RETRANSMIT - 2).
  - destruct (_ <? size)%nat; [|discriminate]. cbn [bind] in E. injection E as <-. exists [(j_nb f, j_addr f)]. split; [|reflexivity]. rewrite RV. unfold push. rewrite map_length.
    assert (LT : (length (drop_at k (g_retry s)) <? QUEUE_MAX)%nat = true) by (apply Nat.ltb_lt; lia). rewrite LT. cbn [bind]. unfold i_view. cbn [i_queue i_out g_retry g_msg]. rewrite map_app. reflexivity.
  - destruct (j_count f =? MAX_RETRANSMIT - 2).
    + destruct (_ <? size)%nat; [|discriminate]. cbn [bind] in E. injection E as <-. exists [(j_nb f, j_addr f)]. split; [|reflexivity]. rewrite RV. reflexivity.
    + injection E as <-. exists []. split; [|cbn; now rewrite app_nil_r]. rewrite RV. reflexivity.
Qed.

Lemma ack_view : forall same m a vs s s1, whole s vs -> i_ack same m a vs s = Ok s1 ->
  exists k, i_view s1 = fst (service_ack m k (i_view s)) /\ g_pump s1 = g_pump s /\ (hdr_type (n_hdr m) = ACK -> is_match same a (hdr_mid (n_hdr m)) (n_tok m) (i_view s) k = true).
Proof.
  intros same m a vs s s1 [_ Wv] E. destruct (ack_cases _ _ _ _ _ _ E) as [[-> M]|(T & k & f & M & K & ->)].
  - exists None. split; [unfold service_ack; destruct (_ =? _); reflexivity|]. split; [reflexivity|]. intro T. specialize (M T). cbn [is_match]. apply forallb_forall. intros x I. unfold i_view in I. apply in_map_iff in I. destruct I as (f & <- & I).
    apply In_nth_error in I. destruct I as [j J]. assert (Ij : In j vs) by (apply Wv; apply nth_error_Some; congruence). pose proof (match_miss _ _ _ _ _ M j f Ij J) as X. apply negb_true_iff. unfold matches. cbn [i_addr i_msg].
    destruct (same a (j_addr f)) eqn:A1; [|reflexivity]. destruct (tok_eqb _ _) eqn:A2; [|reflexivity]. cbn [andb]. apply N.eqb_neq. intro A3. apply X. apply tok_eqb_eq in A2. repeat split; auto.
  - exists (Some k). split; [unfold service_ack; rewrite T; cbn [ack_received]; unfold i_view; cbn [i_queue g_retry g_msg]; rewrite drop_at_map; reflexivity|]. split; [reflexivity|]. intros _. cbn [is_match]. unfold i_view. rewrite nth_error_map, K. cbn [option_map].
    destruct (match_hit _ _ _ _ _ _ M) as (f' & K' & A1 & A2 & A3). rewrite K in K'. injection K' as <-. unfold matches. cbn [i_addr i_msg]. rewrite A1, (proj2 (tok_eqb_eq _ _) A3), A2, N.eqb_refl. reflexivity.
Qed.

Lemma wire_view : forall w same ack t s s1 ws l, kinv ack s ws -> careful ack s ws (IWire t) -> i_wire w same t s = Ok (s1, l) ->
  g_pump s1 = tl (g_pump s) /\ l = firstn 1 (map (fun e => (b_chunk (fst e), snd e, g_msg s (b_chunk (fst e)))) (g_pump s)) /\
  match t, l with
  | TObserver now r, (c, a, m) :: _ => on_sent w c m a now r (i_view s) = Ok (i_view s1)
  | _, _ => i_view s1 = i_view s
  end.
Proof.
  intros w same ack t s s1 ws l K Cf E. destruct (wire_cases _ _ _ _ _ _ E) as [(Pq & -> & ->)|(b & a & q & b1 & s2 & Pq & Lv & -> & T & F)].
  { rewrite Pq. repeat split. destruct t; reflexivity. }
  specialize (Cf b a q Pq). destruct (flow_free _ _ _ _ F) as [-> _]. rewrite Pq. split; [reflexivity|]. split; [reflexivity|]. destruct t as [|now r|vs]; [contradiction| |].
  - unfold on_sent. change (RetryModel.is_con (g_msg s (b_chunk b))) with (con_msg (g_msg s (b_chunk b))).
    destruct (notify_cases _ _ _ _ _ _ _ _ T) as [_ [(Cn & -> & ->)|(Cn & -> & Lt & init & -> & I)]]; rewrite Cn; [reflexivity|]. unfold push. unfold i_view at 1. rewrite map_length, (proj2 (Nat.ltb_lt _ _) Lt).
    unfold i_view. cbn [i_queue g_retry g_msg]. rewrite map_app. cbn [map j_nb j_count j_init j_addr j_due]. subst init. reflexivity.
  - destruct T as [x T]. destruct (con_sent_cases _ _ _ _ _ _ _ _ T) as [_ [(_ & -> & -> & _)|(_ & -> & k & f & Kf & _ & Mt & ->)]]; [reflexivity|].
    destruct (match_hit _ _ _ _ _ _ Mt) as (f' & K' & _ & Hal). rewrite Kf in K'. injection K' as <-.
    destruct (k_item _ _ _ K f (nth_error_In _ _ Kf)) as (F1 & F2 & F3 & F4). assert (Lb : (b_chunk b < g_next s)%nat) by (apply (s_pump _ (k_sound _ _ _ K) (b, a)); rewrite Pq; now left).
    assert (Cb : con_msg (g_msg s (b_chunk b)) = true).
    { destruct Cf as [Cs _]. pose proof (k_ph _ _ _ K _ Lb) as Pb. unfold ph in Pb. rewrite Pq in Pb. unfold pof in Pb. cbn [filter fst] in Pb. rewrite Nat.eqb_refl in Pb. destruct Pb; try congruence; discriminate. }
    assert (Ef : b_chunk (j_nb f) = b_chunk b) by (apply (k_alike _ _ _ K); auto).
    unfold i_view. cbn [i_queue g_retry g_msg]. apply (change_map _ _ _ _ _ _ f Kf). cbn [put_nb j_nb j_count j_init j_addr j_due]. now rewrite Ef.
Qed.
