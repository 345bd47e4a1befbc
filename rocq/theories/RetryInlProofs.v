From Verif Require Import Base HeaderModel DecoderModel RetryModel RetrySpec RetryProofs RetryMemModel RetryMemProofs RetryInlModel RetryInlSpec.
Local Open Scope N_scope.

(** ** Lists *)
#[local] Arguments list_sum : simpl never.
Lemma sum_cons : forall x q, list_sum (x :: q) = (x + list_sum q)%nat.
Proof. reflexivity. Qed.
Lemma at_split : forall (X : Type) (q : list X) k f, nth_error q k = Some f -> q = firstn k q ++ f :: skipn (S k) q.
Proof. intros X q. induction q as [|y q IH]; intros [|k] f H; try discriminate; cbn in *; [congruence|]. f_equal. now apply IH. Qed.
Lemma sum_drop : forall (X : Type) (g : X -> nat) q k f, nth_error q k = Some f -> (list_sum (map g (drop_at k q)) + g f = list_sum (map g q))%nat.
Proof.
  intros X g q k f H. unfold drop_at. pose proof (at_split _ _ _ _ H) as E.
  replace (list_sum (map g q)) with (list_sum (map g (firstn k q ++ f :: skipn (S k) q))) by (now rewrite <- E).
  rewrite !map_app, !list_sum_app. cbn [map]. rewrite !sum_cons. lia.
Qed.
Lemma sum_change : forall (X : Type) (g : X -> nat) h q k f, nth_error q k = Some f -> (list_sum (map g (change_at k h q)) + g f = list_sum (map g q) + g (h f))%nat.
Proof.
  intros X g h q k f H. unfold change_at. rewrite H. pose proof (at_split _ _ _ _ H) as E.
  replace (list_sum (map g q)) with (list_sum (map g (firstn k q ++ f :: skipn (S k) q))) by (now rewrite <- E).
  rewrite !map_app, !list_sum_app. cbn [map]. rewrite !sum_cons. lia.
Qed.
Lemma drop_in : forall (X : Type) (q : list X) k x, In x (drop_at k q) -> In x q.
Proof.
  intros X q k x H. unfold drop_at in H. apply in_app_iff in H. rewrite <- (firstn_skipn k q). apply in_app_iff. destruct H as [H|H]; [left; exact H|right].
  revert H. apply skipn_less.
Qed.
Lemma change_in : forall (X : Type) h (q : list X) k x, In x (change_at k h q) -> In x q \/ exists f, nth_error q k = Some f /\ x = h f.
Proof.
  intros X h q k x H. unfold change_at in H. destruct (nth_error q k) as [f|] eqn:E; [|left; exact H].
  apply in_app_iff in H. destruct H as [H|[H|H]].
  - left. rewrite <- (firstn_skipn k q). apply in_app_iff. left. exact H.
  - right. exists f. auto.
  - left. rewrite <- (firstn_skipn k q). apply in_app_iff. right. now apply skipn_less.
Qed.
Lemma sum_snoc : forall (X : Type) (g : X -> nat) q x, list_sum (map g (q ++ [x])) = (list_sum (map g q) + g x)%nat.
Proof. intros. rewrite map_app, list_sum_app. cbn [map]. rewrite sum_cons. unfold list_sum at 2. cbn [fold_right]. lia. Qed.

(** ** Runs *)
Lemma i_run_ind : forall w size same (P : list iop -> ist -> list (nat * N * netmsg) -> Prop),
  P [] ist0 [] ->
  (forall os s ws o s1 l, i_run w size same os ist0 = Ok (s, ws) -> P os s ws -> i_step w size same o s = Ok (s1, l) -> P (os ++ [o]) s1 (ws ++ l)) ->
  forall os s ws, i_run w size same os ist0 = Ok (s, ws) -> P os s ws.
Proof.
  intros w size same P P0 PS.
  assert (A : forall os' os s ws s1 l, i_run w size same os ist0 = Ok (s, ws) -> P os s ws -> i_run w size same os' s = Ok (s1, l) -> P (os ++ os') s1 (ws ++ l)).
  { induction os' as [|o os' IH]; intros os s ws s1 l R H E; cbn [i_run] in E.
    - injection E as <- <-. now rewrite !app_nil_r.
    - destruct (i_step w size same o s) as [[s2 l2]| |] eqn:D; try discriminate. cbn [bind fst snd] in E.
      destruct (i_run w size same os' s2) as [[s3 l3]| |] eqn:F; try discriminate. cbn [bind fst snd] in E. injection E as <- <-.
      replace (os ++ o :: os') with ((os ++ [o]) ++ os') by (now rewrite <- app_assoc). rewrite app_assoc. apply (IH _ s2); [|now apply (PS os s ws o s2 l2)|exact F].
      clear - R D. assert (G : forall os t s ws, i_run w size same os t = Ok (s, ws) -> i_step w size same o s = Ok (s2, l2) -> i_run w size same (os ++ [o]) t = Ok (s2, ws ++ l2)).
      { induction os0 as [|x os0 IH]; intros t s0 ws0 E1 E2; cbn [app i_run] in *.
        - injection E1 as <- <-. rewrite E2. cbn [bind fst snd i_run]. now rewrite app_nil_r.
        - destruct (i_step w size same x t) as [[t1 y]| |]; try discriminate. cbn [bind fst snd] in *. destruct (i_run w size same os0 t1) as [[t2 z]| |] eqn:F; try discriminate. cbn [bind fst snd] in E1. injection E1 as <- <-.
          rewrite (IH t1 t2 z F E2). cbn [bind fst snd]. now rewrite app_assoc. }
      now apply (G os ist0 s). }
  intros os s ws R. apply (A os [] ist0 [] s ws); [reflexivity|exact P0|exact R].
Qed.

(** ** One holder per chunk *)
(** what a step does: no message but that of the netbuf made changes, at most one chunk is freed,
    and whoever freed it held it; nobody gets hold of a chunk that nobody held *)
Record flow (s s1 : ist) (fr : option nat) : Prop := Flow {
  f_next : g_next s1 = g_next s;
  f_msg : g_msg s1 = g_msg s;
  f_live : forall c, g_live s1 c = match fr with Some d => if Nat.eqb c d then false else g_live s c | None => g_live s c end;
  f_freed : forall c, fr = Some c -> g_live s c = true;
  f_hold : forall c, (holders s1 c + match fr with Some d => if Nat.eqb c d then 1 else 0 | None => 0 end <= holders s c)%nat;
  f_app : forall c, g_app s c = None -> g_app s1 c = None;
  f_pump : forall e, In e (g_pump s1) -> g_app s (b_chunk (fst e)) <> None \/ (exists e', In e' (g_pump s) /\ b_chunk (fst e') = b_chunk (fst e)) \/ (exists f, In f (g_retry s) /\ b_chunk (j_nb f) = b_chunk (fst e));
  f_retry : forall f, In f (g_retry s1) -> g_app s (b_chunk (j_nb f)) <> None \/ (exists e', In e' (g_pump s) /\ b_chunk (fst e') = b_chunk (j_nb f)) \/ (exists f', In f' (g_retry s) /\ b_chunk (j_nb f') = b_chunk (j_nb f)) }.

Lemma flow_refl : forall s, flow s s None.
Proof. intro s. split; auto; try discriminate; intros; try lia; right; [left|right]; eauto. Qed.

Lemma flow_drop : forall o s s1, i_drop o s = Ok s1 -> exists fr, flow s s1 fr.
Proof.
  intros o s s1 E. unfold i_drop in E. destruct (g_app s o) as [own|] eqn:O; [|discriminate]. unfold nb_free in E. cbn [b_own b_chunk] in E.
  destruct own; [destruct (g_live s o) eqn:L; [|discriminate]|]; cbn [bind] in E; injection E as <-.
  - exists (Some o). split; cbn; auto.
    + intros c [= ->]. exact L.
    + intro c. unfold holders. cbn. unfold upd. destruct (Nat.eqb_spec c o) as [->|N]; [rewrite O|]; lia.
    + intros c H. unfold upd. destruct (Nat.eqb c o); auto.
    + intros e H. right. left. eauto.
    + intros e H. right. right. eauto.
  - exists None. split; cbn; auto; try discriminate.
    + intro c. unfold holders. cbn. unfold upd. destruct (Nat.eqb_spec c o) as [->|N]; [rewrite O|]; lia.
    + intros c H. unfold upd. destruct (Nat.eqb c o); auto.
    + intros e H. right. left. eauto.
    + intros e H. right. right. eauto.
Qed.

Lemma flow_send : forall size o a s s1, i_send size o a s = Ok s1 -> flow s s1 None.
Proof.
  intros size o a s s1 E. unfold i_send in E. destruct (g_app s o) as [own|] eqn:O; [|discriminate]. unfold i_enqueue_out in E. destruct (_ <? _)%nat; [|discriminate]. cbn [bind] in E. injection E as <-.
  split; cbn; auto; try discriminate.
  - intro c. unfold holders. cbn. rewrite sum_snoc. unfold holds_chunk at 2. cbn [fst b_own b_chunk]. unfold upd. rewrite (Nat.eqb_sym o c). destruct (Nat.eqb_spec c o) as [->|N]; [rewrite O; destruct own; cbn; lia|]. rewrite andb_false_r. lia.
  - intros c H. unfold upd. destruct (Nat.eqb_spec c o) as [->|N]; [congruence|auto].
  - intros e H. apply in_app_iff in H. destruct H as [H|[<-|[]]]; [right; left; eauto|left; cbn; congruence].
  - intros e H. right. right. eauto.
Qed.

Lemma flow_track : forall w o a now r s s1, i_track w o a now r s = Ok s1 -> flow s s1 None.
Proof.
  intros w o a now r s s1 E. unfold i_track in E. destruct (g_app s o) as [own|] eqn:O; [|discriminate]. unfold i_enqueue in E. destruct (_ <? _)%nat; [|discriminate]. cbn [bind] in E. injection E as <-.
  split; cbn; auto; try discriminate.
  - intro c. unfold holders. cbn. rewrite sum_snoc. unfold holds_chunk at 3. cbn [j_nb b_own b_chunk]. unfold upd. rewrite (Nat.eqb_sym o c). destruct (Nat.eqb_spec c o) as [->|N]; [rewrite O; destruct own; cbn; lia|]. rewrite andb_false_r. lia.
  - intros c H. unfold upd. destruct (Nat.eqb_spec c o) as [->|N]; [congruence|auto].
  - intros e H. right. left. eauto.
  - intros e H. apply in_app_iff in H. destruct H as [H|[<-|[]]]; [right; right; eauto|left; cbn; congruence].
Qed.

Lemma flow_service : forall w size now k s s1, i_service w size now k s = Ok s1 -> flow s s1 None.
Proof.
  intros w size now k s s1 E. unfold i_service in E. destruct (nth_error (g_retry s) k) as [f|] eqn:K; [|injection E as <-; apply flow_refl].
  destruct (_ <=? _); [|injection E as <-; apply flow_refl]. pose proof (nth_error_In _ _ K) as KI.
  assert (SD : forall c, (list_sum (map (fun f => holds_chunk c (j_nb f)) (drop_at k (g_retry s))) + holds_chunk c (j_nb f) = list_sum (map (fun f => holds_chunk c (j_nb f)) (g_retry s)))%nat) by (intro c; now apply (sum_drop iitem (fun f => holds_chunk c (j_nb f)))).
  unfold i_enqueue_out in E. destruct (_ <? _).
  - destruct (_ <? _)%nat; [|discriminate]. cbn [bind] in E. injection E as <-. split; cbn; auto; try discriminate.
    + intro c. unfold holders. cbn. rewrite !sum_snoc. specialize (SD c). cbn [fst j_nb]. unfold holds_chunk at 4, nb_gone. cbn [b_own andb]. lia.
    + intros e H. apply in_app_iff in H. destruct H as [H|[<-|[]]]; [right; left; eauto|right; right; exists f; auto].
    + intros e H. apply in_app_iff in H. right. right. destruct H as [H|[<-|[]]]; [exists e; split; [now apply drop_in in H|reflexivity]|exists f; auto].
  - destruct (_ =? _).
    + destruct (_ <? _)%nat; [|discriminate]. cbn [bind] in E. injection E as <-. split; cbn; auto; try discriminate.
      * intro c. unfold holders. cbn. rewrite !sum_snoc. specialize (SD c). cbn [fst]. lia.
      * intros e H. apply in_app_iff in H. destruct H as [H|[<-|[]]]; [right; left; eauto|right; right; exists f; auto].
      * intros e H. right. right. exists e. split; [now apply drop_in in H|reflexivity].
    + injection E as <-. split; cbn; auto; try discriminate.
      * intro c. unfold holders. cbn. specialize (SD c). lia.
      * intros e H. right. left. eauto.
      * intros e H. right. right. exists e. split; [now apply drop_in in H|reflexivity].
Qed.

Lemma match_at : forall same s m a vs k, i_match same s m a vs = Ok (Some k) -> exists f, nth_error (g_retry s) k = Some f /\ In k vs.
Proof.
  intros same s m a vs. induction vs as [|j vs IH]; intros k H; [discriminate|]. cbn [i_match] in H.
  destruct (nth_error (g_retry s) j) as [f|] eqn:E; [|discriminate]. destruct (nb_read s (j_nb f)); try discriminate. cbn [bind] in H.
  destruct (matches _ _ _ _ _); [injection H as <-; exists f; split; [exact E|now left]|]. destruct (IH k H) as (f' & A & B). exists f'. split; [exact A|now right].
Qed.

Lemma flow_ack : forall same m a vs s s1, i_ack same m a vs s = Ok s1 -> flow s s1 None.
Proof.
  intros same m a vs s s1 E. unfold i_ack in E. destruct (_ =? _); [|injection E as <-; apply flow_refl].
  destruct (i_match same s m a vs) as [[k|]| |] eqn:M; try discriminate; cbn [bind] in E; injection E as <-; [|apply flow_refl].
  destruct (match_at _ _ _ _ _ _ M) as (f & K & _). split; cbn; auto; try discriminate.
  - intro c. unfold holders. cbn. pose proof (sum_drop iitem (fun f => holds_chunk c (j_nb f)) _ _ _ K) as SD. cbn beta in SD. lia.
  - intros e H. right. left. eauto.
  - intros e H. right. right. exists e. split; [now apply drop_in in H|reflexivity].
Qed.

(** what con_sent_experimental does *)
Lemma con_sent_cases : forall same b a vs s r b1 s1, i_con_sent same b a vs s = Ok (r, b1, s1) -> g_live s (b_chunk b) = true /\
  ((r = false /\ b1 = b /\ s1 = s /\ i_match same s (g_msg s (b_chunk b)) a vs = Ok None) \/
   (r = true /\ b1 = nb_gone b /\ exists k f, nth_error (g_retry s) k = Some f /\ In k vs /\ i_match same s (g_msg s (b_chunk b)) a vs = Ok (Some k) /\ s1 = i_queue (change_at k (put_nb b) (g_retry s)) s)).
Proof.
  intros same b a vs s r b1 s1 E. unfold i_con_sent, nb_read in E. destruct (g_live s (b_chunk b)); [|discriminate]. cbn [bind] in E.
  destruct (i_match same s _ a vs) as [[k|]| |] eqn:M; try discriminate; cbn [bind] in E; injection E as <- <- <-; (split; [reflexivity|]); [right|left; auto].
  destruct (match_at _ _ _ _ _ _ M) as (f & K & I). repeat split; auto. exists k, f. auto.
Qed.
Lemma notify_cases : forall w b a now r s b1 s1, i_notify w b a now r s = Ok (b1, s1) -> g_live s (b_chunk b) = true /\
  ((con_msg (g_msg s (b_chunk b)) = false /\ b1 = b /\ s1 = s) \/
   (con_msg (g_msg s (b_chunk b)) = true /\ b1 = nb_gone b /\ (length (g_retry s) < QUEUE_MAX)%nat /\ exists init,
     s1 = i_queue (g_retry s ++ [IItem b 0 init a (time_add w now (meta_delta 0 init))]) s /\ init = policy_rand r RAND_LOW RAND_HIGH mod 2 ^ 12)).
Proof.
  intros w b a now r s b1 s1 E. unfold i_notify, nb_read in E. destruct (g_live s (b_chunk b)); [|discriminate]. cbn [bind] in E. split; [reflexivity|]. unfold con_msg.
  destruct (_ =? CON); [|left; injection E as <- <-; auto]. right. unfold i_enqueue in E. destruct (_ <? _)%nat eqn:L; [|discriminate]. cbn [bind] in E. injection E as <- <-. apply Nat.ltb_lt in L. repeat split; auto. eexists. split; reflexivity.
Qed.

(** what the loop does with the first in the queue *)
Lemma wire_cases : forall w same t s s1 l, i_wire w same t s = Ok (s1, l) ->
  (g_pump s = [] /\ s1 = s /\ l = []) \/
  exists b a q b1 s2, g_pump s = (b, a) :: q /\ g_live s (b_chunk b) = true /\ l = [(b_chunk b, a, g_msg s (b_chunk b))] /\
    match t with TNone => b1 = b /\ s2 = s | TObserver now r => i_notify w b a now r s = Ok (b1, s2) | TConSent vs => exists x, i_con_sent same b a vs s = Ok (x, b1, s2) end /\
    nb_free b1 (i_out q s2) = Ok s1.
Proof.
  intros w same t s s1 l E. unfold i_wire in E. destruct (g_pump s) as [|[b a] q]; [injection E as <- <-; left; auto|right].
  unfold nb_read in E. destruct (g_live s (b_chunk b)) eqn:L; [|discriminate]. cbn [bind] in E.
  assert (G : forall y, bind (nb_free (fst y) (i_out q (snd y))) (fun s1 => Ok (s1, [(b_chunk b, a, g_msg s (b_chunk b))])) = Ok (s1, l) -> l = [(b_chunk b, a, g_msg s (b_chunk b))] /\ nb_free (fst y) (i_out q (snd y)) = Ok s1).
  { intros y H. destruct (nb_free _ _); try discriminate. cbn [bind] in H. injection H as <- <-. auto. }
  destruct t as [|now r|vs].
  - apply (G (b, s)) in E. destruct E as [-> E]. exists b, a, q, b, s. auto 10.
  - destruct (i_notify w b a now r s) as [[b1 s2]| |] eqn:M; try discriminate. apply (G (b1, s2)) in E. destruct E as [-> E]. exists b, a, q, b1, s2. auto 10.
  - destruct (i_con_sent same b a vs s) as [[[x b1] s2]| |] eqn:M; try discriminate. apply (G (b1, s2)) in E. destruct E as [-> E]. exists b, a, q, b1, s2. eauto 10.
Qed.

Lemma flow_free : forall b1 q s2 s1, nb_free b1 (i_out q s2) = Ok s1 ->
  s1 = Ist (g_next s2) (g_msg s2) (if b_own b1 then upd (g_live s2) (b_chunk b1) false else g_live s2) (g_app s2) q (g_retry s2) /\ (b_own b1 = true -> g_live s2 (b_chunk b1) = true).
Proof.
  intros b1 q s2 s1 E. unfold nb_free in E. destruct (b_own b1); [|injection E as <-; split; [reflexivity|discriminate]].
  cbn [i_out g_live] in E. destruct (g_live s2 (b_chunk b1)); [|discriminate]. injection E as <-. split; [reflexivity|auto].
Qed.

Lemma flow_wire : forall w same t s s1 l, i_wire w same t s = Ok (s1, l) -> exists fr, flow s s1 fr.
Proof.
  intros w same t s s1 l E. destruct (wire_cases _ _ _ _ _ _ E) as [(_ & -> & _)|(b & a & q & b1 & s2 & P & Lv & _ & T & F)]; [exists None; apply flow_refl|].
  destruct (flow_free _ _ _ _ F) as [-> LF].
  (* the three ways: the netbuf stays, goes to a new item, goes into a slot *)
  assert (C : (b1 = b /\ s2 = s) \/ (b1 = nb_gone b /\ exists it, s2 = i_queue (g_retry s ++ [it]) s /\ j_nb it = b) \/
              (b1 = nb_gone b /\ exists k f, nth_error (g_retry s) k = Some f /\ s2 = i_queue (change_at k (put_nb b) (g_retry s)) s)).
  { destruct t as [|now r|vs].
    - left. exact T.
    - destruct (notify_cases _ _ _ _ _ _ _ _ T) as [_ [(_ & -> & ->)|(_ & -> & _ & init & -> & _)]]; [left; auto|right; left]. split; [reflexivity|]. eexists. split; [reflexivity|]. reflexivity.
    - destruct T as [x T]. destruct (con_sent_cases _ _ _ _ _ _ _ _ T) as [_ [(_ & -> & -> & _)|(_ & -> & k & f & K & _ & _ & ->)]]; [left; auto|right; right; eauto 10]. }
  destruct C as [(-> & ->)|[(-> & it & -> & J)|(-> & k & f & K & ->)]].
  - destruct (b_own b) eqn:O; [exists (Some (b_chunk b))|exists None]; split; cbn; auto; try discriminate.
    + intros c [= <-]. exact Lv.
    + intro c. unfold holders. cbn. rewrite P. cbn [map fst]. rewrite sum_cons. unfold holds_chunk at 3. rewrite O. cbn [andb]. rewrite (Nat.eqb_sym c). destruct (Nat.eqb (b_chunk b) c); lia.
    + intros e H. right. left. exists e. rewrite P. split; [now right|reflexivity].
    + intros e H. right. right. eauto.
    + intro c. unfold holders. cbn. rewrite P. cbn [map fst]. rewrite sum_cons. lia.
    + intros e H. right. left. exists e. rewrite P. split; [now right|reflexivity].
    + intros e H. right. right. eauto.
  - exists None. split; cbn; auto; try discriminate.
    + intro c. unfold holders. cbn. rewrite P, sum_snoc, J. cbn [map fst]. rewrite sum_cons. lia.
    + intros e H. right. left. exists e. rewrite P. split; [now right|reflexivity].
    + intros e H. apply in_app_iff in H. destruct H as [H|[<-|[]]]; [right; right; eauto|]. right. left. exists (b, a). rewrite P, J. split; [now left|reflexivity].
  - exists None. split; cbn; auto; try discriminate.
    + intro c. unfold holders. cbn. rewrite P. pose proof (sum_change iitem (fun f => holds_chunk c (j_nb f)) (put_nb b) _ _ _ K) as SC. cbn [put_nb j_nb] in SC. cbn [map fst]. rewrite sum_cons. lia.
    + intros e H. right. left. exists e. rewrite P. split; [now right|reflexivity].
    + intros e H. apply change_in in H. destruct H as [H|(f' & _ & ->)]; [right; right; eauto|]. right. left. exists (b, a). rewrite P. split; [now left|reflexivity].
Qed.

Lemma flow_back : forall same o a vs s s1, i_back same o a vs s = Ok s1 -> flow s s1 None.
Proof.
  intros same o a vs s s1 E. unfold i_back in E. destruct (g_app s o) as [own|] eqn:O; [|discriminate].
  destruct (i_con_sent same (Nb o own) a vs s) as [[[x b1] s2]| |] eqn:M; try discriminate. cbn [bind fst snd] in E. injection E as <-.
  destruct (con_sent_cases _ _ _ _ _ _ _ _ M) as [_ [(_ & -> & -> & _)|(_ & -> & k & f & K & _ & _ & ->)]]; split; cbn; auto; try discriminate.
  - intro c. unfold holders. cbn. unfold upd. destruct (Nat.eqb_spec c o) as [->|N]; [rewrite O|]; lia.
  - intros c H. unfold upd. destruct (Nat.eqb_spec c o) as [->|N]; [congruence|auto].
  - intros e H. right. left. eauto.
  - intros e H. right. right. eauto.
  - intro c. unfold holders. cbn. pose proof (sum_change iitem (fun f => holds_chunk c (j_nb f)) (put_nb (Nb o own)) _ _ _ K) as SC. cbn [put_nb j_nb] in SC.
    assert (HC : holds_chunk c (Nb o own) = match g_app s c with Some true => if Nat.eqb c o then 1%nat else 0%nat | _ => 0%nat end).
    { unfold holds_chunk. cbn [b_own b_chunk]. rewrite (Nat.eqb_sym o c). destruct (Nat.eqb_spec c o) as [E|N]; [subst c; rewrite O; destruct own; reflexivity|]. rewrite andb_false_r. destruct (g_app s c) as [[]|]; reflexivity. }
    unfold upd. destruct (Nat.eqb c o); destruct (g_app s c) as [[]|]; lia.
  - intros c H. unfold upd. destruct (Nat.eqb_spec c o) as [->|N]; [congruence|auto].
  - intros e H. right. left. eauto.
  - intros e H. apply change_in in H. destruct H as [H|(f' & _ & ->)]; [right; right; eauto|]. left. cbn. congruence.
Qed.

Lemma step_flow : forall w size same o s s1 l, i_step w size same o s = Ok (s1, l) -> match o with INew m => s1 = i_new m s | _ => exists fr, flow s s1 fr end.
Proof.
  intros w size same o s s1 l E.
  assert (G : forall r, bind r (fun s1 => Ok (s1, [])) = Ok (s1, l) -> r = Ok s1 /\ l = []).
  { intros r H. destruct r; try discriminate. cbn [bind] in H. injection H as <- <-. auto. }
  destruct o as [m|i|i a|i a now r|i a vs|t|now k|m a vs]; cbn [i_step] in E; try (apply G in E; destruct E as [E _]).
  - now injection E as <- <-.
  - eapply flow_drop; exact E.
  - exists None. eapply flow_send; exact E.
  - exists None. eapply flow_track; exact E.
  - exists None. eapply flow_back; exact E.
  - eapply flow_wire; exact E.
  - exists None. eapply flow_service; exact E.
  - exists None. eapply flow_ack; exact E.
Qed.

Record sound (s : ist) : Prop := Sound {
  s_fresh : forall c, (g_next s <= c)%nat -> g_app s c = None /\ g_live s c = false;
  s_pump : forall e, In e (g_pump s) -> (b_chunk (fst e) < g_next s)%nat;
  s_retry : forall f, In f (g_retry s) -> (b_chunk (j_nb f) < g_next s)%nat;
  s_one : forall c, (holders s c <= 1)%nat;
  s_live : forall c, (0 < holders s c)%nat -> g_live s c = true }.

Lemma sum_none : forall (X : Type) (g : X -> nat) q, (forall x, In x q -> g x = 0%nat) -> list_sum (map g q) = 0%nat.
Proof. intros X g q. induction q as [|x q IH]; intro H; [reflexivity|]. cbn [map]. rewrite sum_cons, IH, H; auto; [now left|intros y I; apply H; now right]. Qed.
Lemma sum_some : forall (X : Type) (g : X -> nat) q x, In x q -> (g x <= list_sum (map g q))%nat.
Proof. intros X g q. induction q as [|y q IH]; intros x []; cbn [map]; rewrite sum_cons; [subst; lia|]. apply IH in H. lia. Qed.

Lemma hold_fresh : forall s, sound s -> forall c, (g_next s <= c)%nat -> holders s c = 0%nat.
Proof.
  intros s [F P R _ _] c L. unfold holders. destruct (F c L) as [-> _].
  rewrite (sum_none _ _ (g_pump s)), (sum_none _ _ (g_retry s)); [reflexivity| |].
  - intros f I. apply R in I. unfold holds_chunk. assert (E : Nat.eqb (b_chunk (j_nb f)) c = false) by (apply Nat.eqb_neq; lia). rewrite E, andb_false_r. reflexivity.
  - intros e I. apply P in I. unfold holds_chunk. assert (E : Nat.eqb (b_chunk (fst e)) c = false) by (apply Nat.eqb_neq; lia). rewrite E, andb_false_r. reflexivity.
Qed.

Lemma sound0 : sound ist0.
Proof. assert (H : forall c, holders ist0 c = 0%nat) by reflexivity. split; [cbn; auto|cbn; contradiction|cbn; contradiction|intro c; rewrite H; lia|intro c; rewrite H; lia]. Qed.

Lemma hold_new : forall m s, sound s -> forall c, holders (i_new m s) c = if Nat.eqb c (g_next s) then 1%nat else holders s c.
Proof.
  intros m s S0 c. pose proof (hold_fresh s S0) as HF. unfold holders in *. cbn [i_new g_app g_pump g_retry]. unfold upd. destruct (Nat.eqb_spec c (g_next s)) as [->|N]; [|reflexivity].
  specialize (HF _ (Nat.le_refl _)). lia.
Qed.

Lemma sound_new : forall m s, sound s -> sound (i_new m s).
Proof.
  intros m s S0. pose proof (hold_new m s S0) as HN. destruct S0 as [F P R O V]. split; cbn [i_new g_next g_app g_live g_pump g_retry].
  - intros c L. rewrite !upd_other by lia. apply F. lia.
  - intros e I. apply P in I. lia.
  - intros f I. apply R in I. lia.
  - intro c. rewrite HN. destruct (Nat.eqb c (g_next s)); [lia|apply O].
  - intros c. rewrite HN. unfold upd. destruct (Nat.eqb c (g_next s)); [reflexivity|apply V].
Qed.

Lemma sound_flow : forall s s1 fr, sound s -> flow s s1 fr -> sound s1.
Proof.
  intros s s1 fr [F P R O V] [N M L D H A FP FR].
  assert (AB : forall c, g_app s c <> None -> (c < g_next s)%nat).
  { intros c X. destruct (Nat.lt_ge_cases c (g_next s)) as [Y|Y]; [exact Y|]. apply F in Y. tauto. }
  split.
  - intros c Lc. rewrite N in Lc. destruct (F c Lc) as [X Y]. split; [now apply A|]. rewrite L. destruct fr as [d|]; [destruct (Nat.eqb c d); auto|exact Y].
  - intros e I. rewrite N. destruct (FP e I) as [X|[(e' & X & <-)|(f & X & <-)]]; auto.
  - intros f I. rewrite N. destruct (FR f I) as [X|[(e' & X & <-)|(f' & X & <-)]]; auto.
  - intro c. specialize (H c). specialize (O c). lia.
  - intros c Hc. specialize (H c). specialize (O c). rewrite L. destruct fr as [d|]; [destruct (Nat.eqb c d)|]; [lia|apply V; lia|apply V; lia].
Qed.

Lemma sound_step : forall w size same o s s1 l, sound s -> i_step w size same o s = Ok (s1, l) -> sound s1.
Proof.
  intros w size same o s s1 l S0 E. pose proof (step_flow _ _ _ _ _ _ _ E) as H. destruct o; [subst s1; now apply sound_new|..]; destruct H as [fr H]; eapply sound_flow; eassumption.
Qed.
Lemma sound_run : forall w size same os s s1 l, sound s -> i_run w size same os s = Ok (s1, l) -> sound s1.
Proof.
  intros w size same os. induction os as [|o os IH]; intros s s1 l S0 E; cbn [i_run] in E; [now injection E as <- <-|].
  destruct (i_step w size same o s) as [[s2 l2]| |] eqn:D; try discriminate. cbn [bind fst snd] in E. destruct (i_run w size same os s2) as [[s3 l3]| |] eqn:F; try discriminate. cbn [bind fst snd] in E. injection E as <- <-.
  eapply IH; [|exact F]. eapply sound_step; eassumption.
Qed.

(** a chunk that nobody holds stays as it is *)
Lemma leak_run : forall w size same os s s1 l c, sound s -> (c < g_next s)%nat -> holders s c = 0%nat -> i_run w size same os s = Ok (s1, l) ->
  g_live s1 c = g_live s c /\ holders s1 c = 0%nat /\ g_msg s1 c = g_msg s c.
Proof.
  intros w size same os. induction os as [|o os IH]; intros s s1 l c S0 Lc H0 E; cbn [i_run] in E; [injection E as <- <-; auto|].
  destruct (i_step w size same o s) as [[s2 l2]| |] eqn:D; try discriminate. cbn [bind fst snd] in E. destruct (i_run w size same os s2) as [[s3 l3]| |] eqn:F; try discriminate. cbn [bind fst snd] in E. injection E as <- <-.
  assert (X : (c < g_next s2)%nat /\ holders s2 c = 0%nat /\ g_live s2 c = g_live s c /\ g_msg s2 c = g_msg s c).
  { pose proof (step_flow _ _ _ _ _ _ _ D) as H. destruct o as [m| | | | | | |].
    - subst s2. rewrite hold_new by exact S0. cbn [i_new g_next g_live g_msg]. unfold upd. destruct (Nat.eqb_spec c (g_next s)); [lia|]. repeat split; auto.
    - destruct H as [fr [N M L Dd H A FP FR]]. specialize (H c). rewrite N, M, L. destruct fr as [d|]; [destruct (Nat.eqb c d)|]; repeat split; auto; lia.
    - destruct H as [fr [N M L Dd H A FP FR]]. specialize (H c). rewrite N, M, L. destruct fr as [d|]; [destruct (Nat.eqb c d)|]; repeat split; auto; lia.
    - destruct H as [fr [N M L Dd H A FP FR]]. specialize (H c). rewrite N, M, L. destruct fr as [d|]; [destruct (Nat.eqb c d)|]; repeat split; auto; lia.
    - destruct H as [fr [N M L Dd H A FP FR]]. specialize (H c). rewrite N, M, L. destruct fr as [d|]; [destruct (Nat.eqb c d)|]; repeat split; auto; lia.
    - destruct H as [fr [N M L Dd H A FP FR]]. specialize (H c). rewrite N, M, L. destruct fr as [d|]; [destruct (Nat.eqb c d)|]; repeat split; auto; lia.
    - destruct H as [fr [N M L Dd H A FP FR]]. specialize (H c). rewrite N, M, L. destruct fr as [d|]; [destruct (Nat.eqb c d)|]; repeat split; auto; lia.
    - destruct H as [fr [N M L Dd H A FP FR]]. specialize (H c). rewrite N, M, L. destruct fr as [d|]; [destruct (Nat.eqb c d)|]; repeat split; auto; lia. }
  destruct X as (X1 & X2 & X3 & X4). rewrite <- X3, <- X4. eapply IH; eauto. eapply sound_step; eassumption.
Qed.

(** ** Contents *)
Lemma made_app : forall a b, i_made (a ++ b) = i_made a ++ i_made b.
Proof. induction a as [|[]]; intro b; cbn; auto. now rewrite IHa. Qed.
Lemma i_contents : forall w size same os s ws, i_run w size same os ist0 = Ok (s, ws) ->
  length (i_made os) = g_next s /\ (forall c m, nth_error (i_made os) c = Some m -> g_msg s c = m) /\ forall c a m, In (c, a, m) ws -> nth_error (i_made os) c = Some m.
Proof.
  intros w size same. apply (i_run_ind w size same (fun os s ws => length (i_made os) = g_next s /\ (forall c m, nth_error (i_made os) c = Some m -> g_msg s c = m) /\ forall c a m, In (c, a, m) ws -> nth_error (i_made os) c = Some m)).
  - cbn. repeat split; auto; [intros [|]; discriminate|contradiction].
  - intros os s ws o s1 l R (L & M & W) E. pose proof (sound_run _ _ _ _ _ _ _ sound0 R) as S0. rewrite made_app. pose proof (step_flow _ _ _ _ _ _ _ E) as H.
    destruct o as [m| | | | |t| |].
    + subst s1. cbn [i_step] in E. injection E as <-. cbn [i_made]. rewrite app_nil_r. repeat split.
      * rewrite app_length. cbn. lia.
      * intros c m' X. cbn [i_new g_msg]. unfold upd. destruct (Nat.eqb_spec c (g_next s)) as [->|N].
        -- rewrite nth_error_app2, L, Nat.sub_diag in X by lia. now injection X as <-.
        -- apply M. assert (c < length (i_made os ++ [m]))%nat by (apply nth_error_Some; congruence). rewrite app_length in H. cbn in H. rewrite nth_error_app1 in X by lia. exact X.
      * intros c a m' I. rewrite nth_error_app1; [eapply W; exact I|]. apply nth_error_Some. erewrite W by exact I. discriminate.
    + assert (l = []) by (cbn [i_step] in E; destruct (i_drop o s); try discriminate; now injection E). subst l. destruct H as [fr H]. cbn [i_made]. rewrite !app_nil_r, (f_next _ _ _ H), (f_msg _ _ _ H). auto.
    + assert (l = []) by (cbn [i_step] in E; destruct (i_send size o a s); try discriminate; now injection E). subst l. destruct H as [fr H]. cbn [i_made]. rewrite !app_nil_r, (f_next _ _ _ H), (f_msg _ _ _ H). auto.
    + assert (l = []) by (cbn [i_step] in E; destruct (i_track w o a now r s); try discriminate; now injection E). subst l. destruct H as [fr H]. cbn [i_made]. rewrite !app_nil_r, (f_next _ _ _ H), (f_msg _ _ _ H). auto.
    + assert (l = []) by (cbn [i_step] in E; destruct (i_back same o a vs s); try discriminate; now injection E). subst l. destruct H as [fr H]. cbn [i_made]. rewrite !app_nil_r, (f_next _ _ _ H), (f_msg _ _ _ H). auto.
    + destruct H as [fr H]. cbn [i_made]. rewrite !app_nil_r, (f_next _ _ _ H), (f_msg _ _ _ H). split; [exact L|]. split; [exact M|]. intros c a m I. apply in_app_iff in I. destruct I as [I|I]; [eapply W; exact I|].
      cbn [i_step] in E. destruct (wire_cases _ _ _ _ _ _ E) as [(_ & _ & ->)|(b & a' & q & b1 & s2 & P & Lv & -> & _)]; [destruct I|]. destruct I as [I|[]]. injection I as <- <- <-.
      assert (X : (b_chunk b < g_next s)%nat) by (apply (s_pump _ S0 (b, a')); rewrite P; now left). rewrite <- L in X. destruct (nth_error (i_made os) (b_chunk b)) eqn:Y; [|apply nth_error_None in Y; lia]. f_equal. symmetry. now apply M.
    + assert (l = []) by (cbn [i_step] in E; destruct (i_service w size now k s); try discriminate; now injection E). subst l. destruct H as [fr H]. cbn [i_made]. rewrite !app_nil_r, (f_next _ _ _ H), (f_msg _ _ _ H). auto.
    + assert (l = []) by (cbn [i_step] in E; destruct (i_ack same m a vs s); try discriminate; now injection E). subst l. destruct H as [fr H]. cbn [i_made]. rewrite !app_nil_r, (f_next _ _ _ H), (f_msg _ _ _ H). auto.
Qed.

(** ** Told to the observer *)
Lemma step_nil : forall w size same o s s1 l, i_step w size same o s = Ok (s1, l) -> match o with IWire _ => True | _ => l = [] end.
Proof.
  intros w size same o s s1 l E. assert (G : forall r : res ist, bind r (fun s1 => Ok (s1, [])) = Ok (s1, l) -> l = []) by (intros r H; destruct r; try discriminate; now injection H).
  destruct o; cbn [i_step] in E; auto; try (eapply G; exact E). now injection E.
Qed.

Record obs_inv (s : ist) (ws : list (nat * N * netmsg)) : Prop := ObsInv {
  o_retry : forall f, In f (g_retry s) -> con_msg (g_msg s (b_chunk (j_nb f))) = true /\ g_live s (b_chunk (j_nb f)) = true /\ g_app s (b_chunk (j_nb f)) <> Some true /\ j_count f <= 2;
  o_pump : forall e, In e (g_pump s) -> g_app s (b_chunk (fst e)) <> Some true /\ (con_msg (g_msg s (b_chunk (fst e))) = true -> g_live s (b_chunk (fst e)) = true);
  o_ws : forall x, In x ws -> (fst (fst x) < g_next s)%nat /\ snd x = g_msg s (fst (fst x)) /\ (con_msg (snd x) = true -> g_live s (fst (fst x)) = true /\ g_app s (fst (fst x)) <> Some true);
  o_len : (length (g_retry s) <= QUEUE_MAX)%nat;
  o_moved : forall c, g_app s c = Some false -> con_msg (g_msg s c) = true -> g_live s c = true }.

Lemma drop_len : forall (X : Type) (q : list X) k f, nth_error q k = Some f -> S (length (drop_at k q)) = length q.
Proof. intros X q k f H. pose proof (at_split _ _ _ _ H) as E. unfold drop_at. rewrite E at 3. rewrite !app_length. cbn [length]. lia. Qed.

(** what service_retry does *)
Lemma service_cases : forall w size now k s s1, i_service w size now k s = Ok s1 ->
  s1 = s \/ exists f, nth_error (g_retry s) k = Some f /\ j_due f <= now /\
    ((2 < j_count f /\ s1 = i_queue (drop_at k (g_retry s)) s) \/
     (j_count f = 2 /\ (length (g_pump s) < size)%nat /\ s1 = i_queue (drop_at k (g_retry s)) (i_out (g_pump s ++ [(j_nb f, j_addr f)]) s)) \/
     (j_count f < 2 /\ (length (g_pump s) < size)%nat /\ s1 = i_queue (drop_at k (g_retry s) ++ [IItem (nb_gone (j_nb f)) (j_count f + 1) (j_init f) (j_addr f) (time_add w now (meta_delta (j_count f + 1) (j_init f)))]) (i_out (g_pump s ++ [(j_nb f, j_addr f)]) s))).
Proof.
  intros w size now k s s1 E. unfold i_service in E. destruct (nth_error (g_retry s) k) as [f|] eqn:K; [|left; now injection E].
  destruct (N.leb_spec (j_due f) now) as [D|D]; [|left; now injection E]. right. exists f. split; [reflexivity|]. split; [exact D|]. change (MAX_RETRANSMIT - 2) with 2 in E. unfold i_enqueue_out in E.
  destruct (N.ltb_spec (j_count f) 2) as [C|C].
  - right. right. split; [exact C|]. destruct (_ <? _)%nat eqn:L; [|discriminate]. apply Nat.ltb_lt in L. split; [exact L|]. cbn [bind] in E. injection E as <-. cbn [i_out g_retry]. rewrite (N.mod_small (j_count f + 1) 8) by lia. reflexivity.
  - destruct (N.eqb_spec (j_count f) 2) as [C2|C2].
    + right. left. split; [exact C2|]. destruct (_ <? _)%nat eqn:L; [|discriminate]. apply Nat.ltb_lt in L. split; [exact L|]. cbn [bind] in E. injection E as <-. reflexivity.
    + left. split; [lia|]. now injection E.
Qed.
Lemma ack_cases : forall same m a vs s s1, i_ack same m a vs s = Ok s1 ->
  (s1 = s /\ (hdr_type (n_hdr m) = ACK -> i_match same s m a vs = Ok None)) \/
  (hdr_type (n_hdr m) = ACK /\ exists k f, i_match same s m a vs = Ok (Some k) /\ nth_error (g_retry s) k = Some f /\ s1 = i_queue (drop_at k (g_retry s)) s).
Proof.
  intros same m a vs s s1 E. unfold i_ack in E. destruct (N.eqb_spec (hdr_type (n_hdr m)) ACK) as [T|T]; [|left; injection E as <-; split; [reflexivity|tauto]].
  destruct (i_match same s m a vs) as [[k|]| |] eqn:M; try discriminate; cbn [bind] in E; injection E as <-; [right|left; auto].
  destruct (match_at _ _ _ _ _ _ M) as (f & K & _). split; [exact T|]. exists k, f. auto.
Qed.

Lemma obs_step : forall w size same o s s1 ws l, sound s -> observed o -> obs_inv s ws -> i_step w size same o s = Ok (s1, l) -> obs_inv s1 (ws ++ l).
Proof.
  intros w size same o s s1 ws l S0 Ob [R P W L Mv] E. pose proof (step_nil _ _ _ _ _ _ _ E) as Nl.
  assert (G : forall r, bind r (fun s1 => Ok (s1, [])) = Ok (s1, l) -> r = Ok s1) by (intros r H; destruct r; try discriminate; now injection H as <- _).
  assert (AB : forall c, g_app s c <> None -> (c < g_next s)%nat).
  { intros c X. destruct (Nat.lt_ge_cases c (g_next s)) as [Y|Y]; [exact Y|]. apply (s_fresh _ S0) in Y. tauto. }
  destruct o as [m|i|i a|i a now r|i a vs|t|now k|m a vs]; cbn [i_step] in E; try contradiction; try (subst l; rewrite app_nil_r); try apply G in E.
  - injection E as <-.
    assert (U : forall c, (c < g_next s)%nat -> g_msg (i_new m s) c = g_msg s c /\ g_live (i_new m s) c = g_live s c /\ g_app (i_new m s) c = g_app s c) by (intros c X; cbn [i_new g_msg g_live g_app]; rewrite !upd_other by lia; auto).
    split; try exact L.
    + intros f I. destruct (U _ (s_retry _ S0 f I)) as (-> & -> & ->). now apply R.
    + intros e I. destruct (U _ (s_pump _ S0 e I)) as (-> & -> & ->). now apply P.
    + intros x I. destruct (W x I) as (X & Y). destruct (U _ X) as (-> & -> & ->). split; [cbn; lia|exact Y].
    + intros c. destruct (Nat.eq_dec c (g_next s)) as [->|Ne]; [cbn; rewrite upd_same; discriminate|]. cbn [i_new g_app g_msg g_live]. rewrite !upd_other by exact Ne. apply Mv.
  - unfold i_drop in E. destruct (g_app s i) as [own|] eqn:O; [|discriminate]. unfold nb_free in E. cbn [b_own b_chunk] in E.
    assert (V : forall c, g_app s c <> Some true -> g_msg s1 c = g_msg s c /\ g_live s1 c = g_live s c /\ (g_app s1 c <> Some true)).
    { intros c X. destruct own; [destruct (g_live s i); [|discriminate]|]; cbn [bind] in E; injection E as <-; cbn [i_app g_msg g_live g_app]; unfold upd; destruct (Nat.eqb_spec c i) as [->|Ne]; try congruence; repeat split; auto; discriminate. }
    assert (Z : g_retry s1 = g_retry s /\ g_pump s1 = g_pump s /\ g_next s1 = g_next s /\ g_app s1 = upd (g_app s) i None) by (destruct own; [destruct (g_live s i); [|discriminate]|]; cbn [bind] in E; injection E as <-; auto). destruct Z as (Z1 & Z2 & Z3 & Z4).
    split; rewrite ?Z1, ?Z2, ?Z3; auto.
    + intros f I. destruct (R f I) as (A & B & C & D). destruct (V _ C) as (-> & -> & V3). auto.
    + intros e I. destruct (P e I) as (A & B). destruct (V _ A) as (-> & -> & V3). auto.
    + intros x I. destruct (W x I) as (A & B & C). split; [exact A|]. destruct (con_msg (snd x)) eqn:Cn.
      * destruct (C eq_refl) as [C1 C2]. destruct (V _ C2) as (-> & -> & V3). auto.
      * split; [|discriminate]. destruct own; [destruct (g_live s i); [|discriminate]|]; cbn [bind] in E; injection E as <-; exact B.
    + intros c A. rewrite Z4 in A. unfold upd in A. destruct (Nat.eqb c i); [discriminate|]. assert (X : g_app s c <> Some true) by congruence. destruct (V _ X) as (-> & -> & _). now apply Mv.
  - unfold i_send in E. destruct (g_app s i) as [own|] eqn:O; [|discriminate]. unfold i_enqueue_out in E. destruct (_ <? _)%nat; [|discriminate]. cbn [bind] in E. injection E as <-.
    assert (V : forall c, upd (g_app s) i (Some false) c = Some true -> g_app s c = Some true) by (intros c; unfold upd; destruct (Nat.eqb c i); [discriminate|auto]).
    assert (Lv : con_msg (g_msg s i) = true -> g_live s i = true). { destruct own; [|now apply Mv]. intros _. apply (s_live _ S0). unfold holders. rewrite O. lia. }
    split; cbn; auto.
    + intros f I. destruct (R f I) as (A & B & C & D). repeat split; auto.
    + intros e I. apply in_app_iff in I. destruct I as [I|[<-|[]]].
      * destruct (P e I) as (A & B). auto.
      * cbn. rewrite upd_same. split; [discriminate|exact Lv].
    + intros x I. destruct (W x I) as (A & B & C). split; [exact A|]. split; [exact B|]. intro Cn. destruct (C Cn). auto.
    + intros c. unfold upd. destruct (Nat.eqb_spec c i) as [->|Ne]; auto.
  - destruct (wire_cases _ _ _ _ _ _ E) as [(_ & -> & ->)|(b & a & q & b1 & s2 & Pq & Lv & -> & T & F)]; [rewrite app_nil_r; split; auto|].
    destruct t as [|now r|vs]; try contradiction. destruct (flow_free _ _ _ _ F) as [-> _]. rewrite Pq in P.
    assert (Bn : (b_chunk b < g_next s)%nat) by (apply (s_pump _ S0 (b, a)); rewrite Pq; now left).
    destruct (P (b, a) (or_introl eq_refl)) as [Pa Pl]. cbn [fst] in Pa, Pl.
    destruct (notify_cases _ _ _ _ _ _ _ _ T) as [_ [(Cn & -> & ->)|(Cn & -> & Lt & init & -> & _)]].
    + assert (V : forall c, con_msg (g_msg s c) = true -> g_live s c = true -> (if b_own b then upd (g_live s) (b_chunk b) false else g_live s) c = true).
      { intros c X Y. destruct (b_own b); [|exact Y]. unfold upd. destruct (Nat.eqb_spec c (b_chunk b)) as [->|Ne]; [congruence|exact Y]. }
      split; cbn; auto.
      * intros f I. destruct (R f I) as (A & B & C & D). auto.
      * intros e I. destruct (P e (or_intror I)). auto.
      * intros x I. apply in_app_iff in I. destruct I as [I|[<-|[]]].
        -- destruct (W x I) as (A & B & C). split; [exact A|]. split; [exact B|]. intro X. destruct (C X). rewrite B in X. auto.
        -- cbn. split; [exact Bn|]. split; [reflexivity|congruence].
    + cbn [nb_gone b_own]. split; cbn; auto.
      * intros f I. apply in_app_iff in I. destruct I as [I|[<-|[]]]; [auto|]. cbn. repeat split; auto. lia.
      * intros e I. destruct (P e (or_intror I)). auto.
      * intros x I. apply in_app_iff in I. destruct I as [I|[<-|[]]]; [auto|]. cbn. auto.
      * rewrite app_length. cbn. lia.
  - destruct (service_cases _ _ _ _ _ _ E) as [->|(f & K & _ & [(C & ->)|[(C & _ & ->)|(C & _ & ->)]])]; [split; auto|..]; pose proof (nth_error_In _ _ K) as KI; destruct (R f KI) as (F1 & F2 & F3 & F4); pose proof (drop_len _ _ _ _ K) as DL.
    + lia.
    + split; cbn; auto; try lia.
      * intros g I. apply R. now apply drop_in in I.
      * intros e I. apply in_app_iff in I. destruct I as [I|[<-|[]]]; [auto|]. cbn. auto.
    + split; cbn; auto.
      * intros g I. apply in_app_iff in I. destruct I as [I|[<-|[]]]; [apply R; now apply drop_in in I|]. cbn. repeat split; auto. lia.
      * intros e I. apply in_app_iff in I. destruct I as [I|[<-|[]]]; [auto|]. cbn. auto.
      * rewrite app_length. cbn [length]. lia.
  - destruct (ack_cases _ _ _ _ _ _ E) as [[-> _]|(_ & k & f & _ & K & ->)]; [split; auto|]. pose proof (drop_len _ _ _ _ K) as DL. split; cbn; auto; try lia. intros g I. apply R. now apply drop_in in I.
Qed.

Lemma obs0 : obs_inv ist0 [].
Proof. split; cbn; try contradiction; try discriminate. unfold QUEUE_MAX. lia. Qed.
Lemma obs_run : forall w size same os s ws, i_run w size same os ist0 = Ok (s, ws) -> Forall observed os -> sound s /\ obs_inv s ws.
Proof.
  intros w size same. apply (i_run_ind w size same (fun os s ws => Forall observed os -> sound s /\ obs_inv s ws)).
  - intros _. split; [apply sound0|apply obs0].
  - intros os s ws o s1 l R IH E Ob. apply Forall_app in Ob. destruct Ob as [Ob Oo]. destruct (IH Ob) as [S0 I0]. inversion Oo; subst. split; [eapply sound_step; eassumption|eapply obs_step; eassumption].
Qed.

(** how many there are of what: 3 * items + pump = 2 * transmissions + sends + counts *)
Definition counts (q : list iitem) : nat := list_sum (map (fun f => N.to_nat (j_count f)) q).
Lemma obs_count : forall w size same os s ws, i_run w size same os ist0 = Ok (s, ws) -> Forall observed os -> forallb (fun o => negb (is_ack o)) os = true ->
  (forall i a, In (ISend i a) os -> (i < g_next s)%nat) /\
  (3 * length (g_retry s) + con_pump (g_msg s) (g_pump s) = 2 * con_wires ws + con_sends (g_msg s) os + counts (g_retry s))%nat.
Proof.
  intros w size same. apply (i_run_ind w size same (fun os s ws => Forall observed os -> forallb (fun o => negb (is_ack o)) os = true -> (forall i a, In (ISend i a) os -> (i < g_next s)%nat) /\
    (3 * length (g_retry s) + con_pump (g_msg s) (g_pump s) = 2 * con_wires ws + con_sends (g_msg s) os + counts (g_retry s))%nat)).
  - intros _ _. split; [contradiction|reflexivity].
  - intros os s ws o s1 l R IH E Ob Na. apply Forall_app in Ob. destruct Ob as [Ob Oo]. inversion Oo as [|x y Oo1 _]. subst. rewrite forallb_app in Na. apply andb_prop in Na. destruct Na as [Na Nx].
    destruct (IH Ob Na) as [Lt Eq]. destruct (obs_run _ _ _ _ _ _ R Ob) as [S0 [Ri Pi Wi Li Mi]]. clear IH.
    assert (G : forall r, bind r (fun s1 => Ok (s1, [])) = Ok (s1, l) -> r = Ok s1) by (intros r H; destruct r; try discriminate; now injection H as <- _).
    assert (CS : forall msg o, con_sends msg (os ++ [o]) = (con_sends msg os + con_sends msg [o])%nat) by (intros; unfold con_sends; rewrite filter_app, app_length; reflexivity).
    pose proof (step_nil _ _ _ _ _ _ _ E) as Nl. rewrite CS.
    destruct o as [m|i|i a|i a now r|i a vs|t|now k|m a vs]; cbn [i_step] in E; try contradiction; try discriminate Nx; try (subst l; rewrite app_nil_r); try apply G in E.
    + injection E as <-. cbn [i_new g_next g_retry g_pump g_msg]. split.
      * intros i a I. apply in_app_iff in I. destruct I as [I|[I|[]]]; [apply Lt in I; lia|discriminate].
      * assert (X : con_pump (upd (g_msg s) (g_next s) m) (g_pump s) = con_pump (g_msg s) (g_pump s)).
        { unfold con_pump. f_equal. apply filter_ext_in. intros e I. apply (s_pump _ S0) in I. rewrite upd_other by lia. reflexivity. }
        assert (Y : con_sends (upd (g_msg s) (g_next s) m) os = con_sends (g_msg s) os).
        { unfold con_sends. f_equal. apply filter_ext_in. intros [] I; auto. apply Lt in I. rewrite upd_other by lia. reflexivity. }
        rewrite X, Y. unfold con_sends at 2. cbn [filter length]. lia.
    + unfold con_sends at 2. cbn [filter length]. unfold i_drop in E. destruct (g_app s i) as [own|]; [|discriminate]. unfold nb_free in E. cbn [b_own b_chunk] in E.
      destruct own; [destruct (g_live s i); [|discriminate]|]; cbn [bind] in E; injection E as <-; cbn [i_app g_next g_retry g_pump g_msg]; (split; [|lia]); intros j a I; apply in_app_iff in I; (destruct I as [I|[I|[]]]; [now apply Lt in I|discriminate]).
    + unfold i_send in E. destruct (g_app s i) as [own|] eqn:O; [|discriminate]. unfold i_enqueue_out in E. destruct (_ <? _)%nat; [|discriminate]. cbn [bind] in E. injection E as <-.
      cbn [i_app i_out g_next g_retry g_pump g_msg]. split.
      * intros j a' I. apply in_app_iff in I. destruct I as [I|[I|[]]]; [now apply Lt in I|]. injection I as <- <-.
        destruct (Nat.lt_ge_cases i (g_next s)) as [Y|Y]; [exact Y|]. apply (s_fresh _ S0) in Y. destruct Y. congruence.
      * unfold con_pump in *. rewrite filter_app, app_length. unfold con_sends at 2. cbn [filter fst b_chunk]. destruct (con_msg (g_msg s i)); cbn [length]; lia.
    + destruct (wire_cases _ _ _ _ _ _ E) as [(_ & -> & ->)|(b & a & q & b1 & s2 & Pq & Lv & -> & T & F)].
      * rewrite app_nil_r. unfold con_sends at 2. cbn [filter length]. split; [|lia]. intros j a I. apply in_app_iff in I. destruct I as [I|[I|[]]]; [now apply Lt in I|discriminate].
      * destruct t as [|now r|vs]; try contradiction. destruct (flow_free _ _ _ _ F) as [-> _]. rewrite Pq in Eq. unfold con_sends at 2. cbn [filter length].
        assert (LtN : forall n, n = g_next s -> forall j a', In (ISend j a') (os ++ [IWire (TObserver now r)]) -> (j < n)%nat) by (intros n -> j a' I; apply in_app_iff in I; destruct I as [I|[I|[]]]; [now apply Lt in I|discriminate]).
        unfold con_wires, con_pump in *. rewrite filter_app, app_length. cbn [filter fst snd] in *.
        destruct (notify_cases _ _ _ _ _ _ _ _ T) as [_ [(Cn & -> & ->)|(Cn & -> & Lq & init & -> & _)]]; rewrite Cn in *; cbn [length] in *; cbn [i_queue g_next g_retry g_pump g_msg] in *.
        -- split; [now apply LtN|]. lia.
        -- split; [now apply LtN|]. rewrite app_length. unfold counts in *. rewrite sum_snoc. cbn [j_count length]. lia.
    + unfold con_sends at 2. cbn [filter length].
      assert (LtN : forall n, n = g_next s -> forall j a', In (ISend j a') (os ++ [IService now k]) -> (j < n)%nat) by (intros n -> j a' I; apply in_app_iff in I; destruct I as [I|[I|[]]]; [now apply Lt in I|discriminate]).
      destruct (service_cases _ _ _ _ _ _ E) as [->|(f & K & _ & [(C & ->)|[(C & _ & ->)|(C & _ & ->)]])]; [split; [now apply LtN|lia]|..]; pose proof (nth_error_In _ _ K) as KI; destruct (Ri f KI) as (F1 & F2 & F3 & F4); pose proof (drop_len _ _ _ _ K) as DL;
        pose proof (sum_drop iitem (fun f => N.to_nat (j_count f)) _ _ _ K) as SD; cbn beta in SD.
      * lia.
      * cbn [i_queue i_out g_next g_retry g_pump g_msg]. split; [now apply LtN|]. unfold con_pump, counts in *. rewrite filter_app, app_length. cbn [filter fst]. rewrite F1. cbn [length]. lia.
      * cbn [i_queue i_out g_next g_retry g_pump g_msg]. split; [now apply LtN|]. unfold con_pump, counts in *. rewrite filter_app, !app_length, sum_snoc. cbn [filter fst j_count]. rewrite F1. cbn [length]. lia.
Qed.
