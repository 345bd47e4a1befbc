From Coq Require Import Permutation.
From Verif Require Import Base HeaderModel HeaderProofs RetryModel RetrySpec.
Local Open Scope N_scope.

(** * Lists *)

Lemma remove_at_perm : forall k q it, nth_error q k = Some it -> Permutation q (it :: remove_at k q).
Proof.
  induction k as [|k IH]; intros [|x q] it H; cbn in H; try discriminate.
  - injection H as ->. apply Permutation_refl.
  - unfold remove_at. cbn [firstn skipn app]. apply IH in H. unfold remove_at in H.
    eapply perm_trans; [apply perm_skip, H|apply perm_swap].
Qed.

Lemma remove_at_len : forall k q it, nth_error q k = Some it -> S (length (remove_at k q)) = length q.
Proof. intros k q it H. apply remove_at_perm, Permutation_length in H. cbn in H. lia. Qed.

Lemma remove_at_in : forall k q x, In x (remove_at k q) -> In x q.
Proof.
  induction k as [|k IH]; intros [|y q] x H; unfold remove_at in *; cbn [firstn skipn app] in *; try (destruct H; fail).
  - now right.
  - destruct H as [->|H]; [now left|right; auto].
Qed.

Lemma nodup_snoc : forall (l : list nat) x, NoDup l -> ~ In x l -> NoDup (l ++ [x]).
Proof.
  intros l x H1 H2. apply (Permutation_NoDup (l := x :: l)); [|now constructor].
  apply Permutation_cons_append.
Qed.

(** * Header bits *)

Lemma con_bits : forall m, hdr_ok (n_hdr m) -> (is_con m = true <-> confirmable m).
Proof.
  intros m H. unfold is_con, confirmable, hdr_type, CON, TYPE_MASK. inversion H as [|? ? Hb _]; subst. unfold byte_ok in Hb.
  assert (X := sweep 256 (fun b => Bool.eqb (N.shiftr (N.land b 48) 4 =? 0) (b / 16 mod 4 =? 0)) eq_refl _ Hb).
  apply eqb_prop in X. cbn beta in X. rewrite X. apply N.eqb_eq.
Qed.

Lemma ack_bits : forall m, hdr_ok (n_hdr m) -> (hdr_type (n_hdr m) =? ACK = true <-> acknowledgement m).
Proof.
  intros m H. unfold acknowledgement, hdr_type, ACK, TYPE_MASK. inversion H as [|? ? Hb _]; subst. unfold byte_ok in Hb.
  assert (X := sweep 256 (fun b => Bool.eqb (N.shiftr (N.land b 48) 4 =? 2) (b / 16 mod 4 =? 2)) eq_refl _ Hb).
  apply eqb_prop in X. cbn beta in X. rewrite X. apply N.eqb_eq.
Qed.

Lemma tok_eqb_eq : forall a b, tok_eqb a b = true <-> a = b.
Proof.
  induction a as [|x a IH]; intros [|y b]; cbn; try (split; congruence).
  rewrite andb_true_iff, N.eqb_eq, IH. split; [intros (-> & ->); reflexivity|intro H; injection H; auto].
Qed.

(** * Timing *)

Lemma handouts_app : forall id a b, handouts id (a ++ b) = handouts id a ++ handouts id b.
Proof. intros. unfold handouts. apply flat_map_app. Qed.

Lemma handouts_one : forall id e, handouts id [e] = handed id e.
Proof. intros. unfold handouts. cbn. apply app_nil_r. Qed.

Lemma backoff_snoc : forall ts wait t u, backoff wait t (ts ++ [u]) <->
  backoff wait t ts /\ last ts t + wait * 2 ^ N.of_nat (length ts) <= u.
Proof.
  induction ts as [|x ts IH]; intros wait t u; cbn [app backoff].
  - cbn [last length]. change (2 ^ N.of_nat 0) with 1. rewrite N.mul_1_r. tauto.
  - rewrite IH. cbn [length]. rewrite Nat2N.inj_succ, N.pow_succ_r'.
    replace (last (x :: ts) t) with (last ts x).
    2:{ clear. revert x. induction ts as [|y ts IH]; intros x; [reflexivity|]. cbn [last] in *. destruct ts; [reflexivity|]. apply (IH x). }
    replace (2 * wait * 2 ^ N.of_nat (length ts)) with (wait * (2 * 2 ^ N.of_nat (length ts))) by lia. tauto.
Qed.

Lemma delta_val : forall c i, c <= 2 -> i < 4096 -> meta_delta c i = i * 2 ^ c.
Proof.
  intros c i Hc Hi. unfold meta_delta.
  assert (E : N.shiftl 1 c mod 2 ^ 16 = 2 ^ c).
  { rewrite N.shiftl_mul_pow2, N.mul_1_l. apply N.mod_small. apply N.pow_lt_mono_r; lia. }
  rewrite E. apply N.mod_small.
  assert (2 ^ c <= 2 ^ 2) by (apply N.pow_le_mono_r; lia). change (2 ^ 2) with 4 in *. change (2 ^ 32) with 4294967296. nia.
Qed.

Lemma init_val : forall r, policy_rand r RAND_LOW RAND_HIGH mod 2 ^ 12 = 2000 + r mod 1000.
Proof. intros r. unfold policy_rand, RAND_LOW, RAND_HIGH. change (3000 - 2000) with 1000. change (2 ^ 12) with 4096. lia. Qed.

(** * The invariant of histories *)

Definition born (H : list (rop * outs)) (it : item) : Prop :=
  exists m a now r os, nth_error H (i_id it) = Some (RSent m a now r, os) /\ is_con m = true /\
    i_msg it = m /\ i_addr it = a /\ i_init it = 2000 + r mod 1000 /\
    i_count it = N.of_nat (length (handouts (i_id it) H)) /\ i_count it <= 2.

Definition on_time (H : list (rop * outs)) (it : item) : Prop :=
  exists m a now r os, nth_error H (i_id it) = Some (RSent m a now r, os) /\
    backoff (i_init it) now (handouts (i_id it) H) /\
    i_due it = last (handouts (i_id it) H) now + i_init it * 2 ^ i_count it.

Definition sourced (H : list (rop * outs)) : Prop :=
  forall e id m a, In e H -> In (id, m, a) (snd e) ->
    is_con m = true /\ exists now r os, nth_error H id = Some (RSent m a now r, os).

Definition limited (H : list (rop * outs)) : Prop := forall id, (length (handouts id H) <= 3)%nat.

Definition paced (H : list (rop * outs)) : Prop :=
  forall id, handouts id H <> [] -> exists m a now r os, nth_error H id = Some (RSent m a now r, os) /\
    backoff (2000 + r mod 1000) now (handouts id H).

Record inv (n : nat) (q : queue) (H : list (rop * outs)) : Prop := Inv {
  v_len : length H = n;
  v_ids : NoDup (map i_id q);
  v_cap : (length q <= QUEUE_MAX)%nat;
  v_born : Forall (born H) q;
  v_src : sourced H;
  v_lim : limited H
}.

Lemma inv_nil : inv 0 [] [].
Proof. constructor; [reflexivity|constructor|cbn; unfold QUEUE_MAX; lia|constructor| |]; [intros e id m a []|intros id; cbn; lia]. Qed.

Lemma nth_snoc_old : forall (H : list (rop * outs)) e i x, nth_error H i = Some x -> nth_error (H ++ [e]) i = Some x.
Proof. intros H e i x E. rewrite nth_error_app1; [assumption|]. apply nth_error_Some. congruence. Qed.

Lemma born_lt : forall H it, born H it -> (i_id it < length H)%nat.
Proof. intros H it (m & a & now & r & os & E & _). apply nth_error_Some. congruence. Qed.

(** an item keeps its standing when the new event does not hand it out *)
Lemma born_keep : forall H e it, born H it -> handed (i_id it) e = [] -> born (H ++ [e]) it.
Proof.
  intros H e it (m & a & now & r & os & E & E1 & E2 & E3 & E4 & E5 & E6) He.
  exists m, a, now, r, os. rewrite handouts_app, handouts_one, He, app_nil_r.
  split; [now apply nth_snoc_old|]. auto 10.
Qed.

Lemma on_time_keep : forall H e it, on_time H it -> handed (i_id it) e = [] -> on_time (H ++ [e]) it.
Proof.
  intros H e it (m & a & now & r & os & E & E1 & E2) He.
  exists m, a, now, r, os. rewrite handouts_app, handouts_one, He, app_nil_r.
  split; [now apply nth_snoc_old|]. auto.
Qed.

Lemma handed_nil_outs : forall id o, handed id (o, []) = [].
Proof. intros id o. unfold handed. cbn. destruct o; reflexivity. Qed.

Lemma handed_other : forall id o id' m a, id <> id' -> handed id (o, [(id', m, a)]) = [].
Proof. intros id o id' m a Hn. unfold handed. cbn. destruct o; try reflexivity. destruct (Nat.eqb_spec id' id); [congruence|reflexivity]. Qed.

Lemma handed_self : forall id now k m a, handed id (RService now k, [(id, m, a)]) = [now].
Proof. intros. unfold handed. cbn. rewrite Nat.eqb_refl. reflexivity. Qed.

Lemma sourced_snoc : forall H e, sourced H ->
  (forall id m a, In (id, m, a) (snd e) -> is_con m = true /\ exists now r os, nth_error (H ++ [e]) id = Some (RSent m a now r, os)) ->
  sourced (H ++ [e]).
Proof.
  intros H e HS He e1 id m a H1 H2. apply in_app_or in H1. destruct H1 as [H1|[->|[]]].
  - destruct (HS e1 id m a H1 H2) as (A & now & r & os & B). split; [assumption|]. exists now, r, os. now apply nth_snoc_old.
  - now apply He.
Qed.

(** fates of the items of a queue in one service call *)
Lemma service_cases : forall w now k q q1 os, (length q <= QUEUE_MAX)%nat -> service_retry w now k q = Ok (q1, os) ->
  (q1 = q /\ os = [] /\ (nth_error q k = None \/ exists f, nth_error q k = Some f /\ now < i_due f)) \/
  (exists f, nth_error q k = Some f /\ i_due f <= now /\
    ((i_count f < 2 /\ os = [(i_id f, i_msg f, i_addr f)] /\
      q1 = remove_at k q ++ [Item (i_id f) (i_count f + 1) (i_init f) (i_addr f) (i_msg f) (time_add w now (meta_delta (i_count f + 1) (i_init f)))]) \/
     (i_count f = 2 /\ os = [(i_id f, i_msg f, i_addr f)] /\ q1 = remove_at k q) \/
     (2 < i_count f /\ os = [] /\ q1 = remove_at k q))).
Proof.
  intros w now k q q1 os Hc H. unfold service_retry in H. destruct (nth_error q k) as [f|] eqn:E.
  2:{ injection H as <- <-. left. auto. }
  destruct (N.leb_spec (i_due f) now) as [Hd|Hd].
  2:{ injection H as <- <-. left. split; [reflexivity|]. split; [reflexivity|]. right. exists f. auto. }
  right. exists f. split; [reflexivity|]. split; [assumption|]. change (MAX_RETRANSMIT - 2) with 2 in H.
  destruct (N.ltb_spec (i_count f) 2) as [H2|H2].
  - replace ((i_count f + 1) mod 8) with (i_count f + 1) in H by lia.
    unfold push in H. replace (length (remove_at k q) <? QUEUE_MAX)%nat with true in H.
    2:{ symmetry. apply Nat.ltb_lt. pose proof (remove_at_len k q f E). lia. }
    cbn [bind] in H. injection H as <- <-. left. auto.
  - destruct (N.eqb_spec (i_count f) 2); injection H as <- <-; right; [left|right]; split; auto. lia.
Qed.

Lemma service_total : forall w now k q, (length q <= QUEUE_MAX)%nat -> exists q1 os, service_retry w now k q = Ok (q1, os).
Proof.
  intros w now k q Hc. unfold service_retry. destruct (nth_error q k) as [f|] eqn:E; [|eauto].
  destruct (_ <=? _); [|eauto]. destruct (_ <? _); [|destruct (_ =? _); eauto].
  unfold push. replace (length (remove_at k q) <? QUEUE_MAX)%nat with true; [cbn; eauto|].
  symmetry. apply Nat.ltb_lt. pose proof (remove_at_len k q f E). lia.
Qed.

Lemma remove_at_nodup : forall k q f, nth_error q k = Some f -> NoDup (map i_id q) ->
  NoDup (map i_id (remove_at k q)) /\ ~ In (i_id f) (map i_id (remove_at k q)).
Proof.
  intros k q f E H. pose proof (remove_at_perm k q f E) as P. apply (Permutation_map i_id) in P.
  apply (Permutation_NoDup P) in H. cbn in H. inversion H; auto.
Qed.

Lemma forall_remove : forall (P : item -> Prop) k q, Forall P q -> Forall P (remove_at k q).
Proof. intros P k q H. rewrite Forall_forall in *. intros x Hx. apply H. eapply remove_at_in. exact Hx. Qed.

Lemma keep_all : forall H e q, Forall (born H) q -> (forall it, In it q -> handed (i_id it) e = []) -> Forall (born (H ++ [e])) q.
Proof. intros H e q HB HE. rewrite Forall_forall in *. intros it Hi. apply born_keep; auto. Qed.

Lemma limited_keep : forall H e, limited H -> (forall id, handed id e = []) -> limited (H ++ [e]).
Proof. intros H e HL HE id. rewrite handouts_app, handouts_one, HE, app_nil_r. apply HL. Qed.

Lemma not_in_neq : forall q (x : nat) it, ~ In x (map i_id q) -> In it q -> i_id it <> x.
Proof. intros q x it H1 H2 E. apply H1. rewrite <- E. now apply in_map. Qed.

Lemma handed_id_dec : forall id o f, handed id (o, [(i_id f, i_msg f, i_addr f)]) <> [] -> id = i_id f.
Proof. intros id o f H. destruct (Nat.eq_dec id (i_id f)); [assumption|]. exfalso. apply H. now apply handed_other. Qed.

Lemma inv_step : forall w same n q H o q1 os, inv n q H -> rop_legal same o q = true -> rop_step w n o q = Ok (q1, os) ->
  inv (S n) q1 (H ++ [(o, os)]).
Proof.
  intros w same n q H o q1 os [VL VI VC VB VS VM] HL HS.
  assert (HLen : length (H ++ [(o, os)]) = S n) by (rewrite app_length; cbn; lia).
  destruct o as [m a now r|m a k|now k]; cbn [rop_step] in HS.
  - (* sent *)
    unfold on_sent in HS. destruct (is_con m) eqn:EC.
    + unfold push in HS. destruct (Nat.ltb_spec (length q) QUEUE_MAX) as [Hc|Hc]; cbn [bind] in HS; [|discriminate].
      injection HS as <- <-.
      assert (Hfresh : ~ In n (map i_id q)).
      { intros X. apply in_map_iff in X. destruct X as (it & E & Hi). rewrite Forall_forall in VB. pose proof (born_lt H it (VB it Hi)). lia. }
      constructor; auto.
      * rewrite map_app. cbn [map new_item i_id]. now apply nodup_snoc.
      * rewrite app_length. cbn. unfold QUEUE_MAX in *. lia.
      * apply Forall_app. split; [apply keep_all; [assumption|intros; apply handed_nil_outs]|]. constructor; [|constructor].
        exists m, a, now, r, []. cbn [new_item i_id i_msg i_addr i_init i_count].
        rewrite nth_error_app2 by lia. rewrite VL, Nat.sub_diag. split; [reflexivity|]. split; [assumption|].
        split; [reflexivity|]. split; [reflexivity|]. split; [apply init_val|].
        assert (E0 : handouts n (H ++ [(RSent m a now r, [] : outs)]) = []).
        { rewrite handouts_app, handouts_one, handed_nil_outs, app_nil_r.
          destruct (handouts n H) as [|t ts] eqn:E; [reflexivity|exfalso].
          assert (Hin : In t (handouts n H)) by (rewrite E; now left). unfold handouts in Hin. apply in_flat_map in Hin.
          destruct Hin as (e & He & Ht). unfold handed in Ht. destruct (fst e); try destruct Ht.
          destruct (existsb _ (snd e)) eqn:Ex; [|destruct Ht]. apply existsb_exists in Ex. destruct Ex as ([[i mm] aa] & Hi & Hn).
          cbn in Hn. apply Nat.eqb_eq in Hn. subst i. destruct (VS e n mm aa He Hi) as (_ & x & y & z & X).
          assert (n < length H)%nat by (apply nth_error_Some; congruence). lia. }
        rewrite E0. split; [reflexivity|lia].
      * apply sourced_snoc; [assumption|]. intros id mm aa [].
      * apply limited_keep; [assumption|]. intros; apply handed_nil_outs.
    + cbn [bind] in HS. injection HS as <- <-. constructor; auto.
      * apply keep_all; [assumption|]. intros; apply handed_nil_outs.
      * apply sourced_snoc; [assumption|]. intros id mm aa [].
      * apply limited_keep; [assumption|]. intros; apply handed_nil_outs.
  - (* received *)
    injection HS as <- <-. assert (X : fst (service_ack m k q) = q \/ exists i, fst (service_ack m k q) = remove_at i q /\ exists f, nth_error q i = Some f).
    { unfold service_ack. cbn [rop_legal] in HL. destruct (hdr_type (n_hdr m) =? ACK); [|now left].
      destruct k as [i|]; [|now left]. right. exists i. split; [reflexivity|]. cbn [is_match] in HL. destruct (nth_error q i) eqn:E; [eauto|discriminate]. }
    destruct X as [->|(i & -> & f & E)].
    + constructor; auto.
      * apply keep_all; [assumption|]. intros; apply handed_nil_outs.
      * apply sourced_snoc; [assumption|]. intros id mm aa [].
      * apply limited_keep; [assumption|]. intros; apply handed_nil_outs.
    + constructor; auto.
      * now apply remove_at_nodup with f.
      * pose proof (remove_at_len i q f E). lia.
      * apply keep_all; [now apply forall_remove|]. intros; apply handed_nil_outs.
      * apply sourced_snoc; [assumption|]. intros id mm aa [].
      * apply limited_keep; [assumption|]. intros; apply handed_nil_outs.
  - (* service *)
    destruct (service_cases w now k q q1 os VC HS) as [(-> & -> & _)|(f & E & Hd & HC)].
    + constructor; auto.
      * apply keep_all; [assumption|]. intros; apply handed_nil_outs.
      * apply sourced_snoc; [assumption|]. intros id mm aa [].
      * apply limited_keep; [assumption|]. intros; apply handed_nil_outs.
    + destruct (remove_at_nodup k q f E VI) as (N1 & N2).
      assert (Bf : born H f) by (rewrite Forall_forall in VB; apply VB; eapply nth_error_In; exact E).
      pose proof Bf as (m & a & now0 & r & os0 & F1 & F2 & F3 & F4 & F5 & F6 & F7).
      assert (HK : forall o, Forall (born (H ++ [(o, [(i_id f, i_msg f, i_addr f)])])) (remove_at k q)).
      { intros o. apply keep_all; [now apply forall_remove|]. intros it Hi. apply handed_other. eapply not_in_neq; eassumption. }
      assert (HS2 : forall o, sourced (H ++ [(o, [(i_id f, i_msg f, i_addr f)])])).
      { intros o. apply sourced_snoc; [assumption|]. intros id mm aa [X|[]]. injection X as <- <- <-. subst m a. split; [assumption|].
        exists now0, r, os0. now apply nth_snoc_old. }
      assert (HM : limited (H ++ [(RService now k, [(i_id f, i_msg f, i_addr f)])])).
      { intros id. rewrite handouts_app, handouts_one. destruct (Nat.eq_dec id (i_id f)) as [->|Ne].
        - rewrite handed_self, app_length. cbn. rewrite F6 in F7. lia.
        - rewrite handed_other by assumption. rewrite app_nil_r. apply VM. }
      pose proof (remove_at_len k q f E) as RL.
      destruct HC as [(H2 & -> & ->)|[(H2 & -> & ->)|(H2 & -> & ->)]].
      * constructor; auto.
        -- rewrite map_app. cbn [map i_id]. now apply nodup_snoc.
        -- rewrite app_length. cbn. lia.
        -- apply Forall_app. split; [apply HK|]. constructor; [|constructor].
           exists m, a, now0, r, os0. cbn [i_id i_msg i_addr i_init i_count].
           split; [now apply nth_snoc_old|]. do 4 (split; [assumption|]).
           rewrite handouts_app, handouts_one, handed_self, app_length. cbn. split; lia.
      * constructor; auto. lia.
      * lia.
Qed.

Lemma inv_hist : forall w same n q h q', rhist w same n q h q' -> forall H, inv n q H -> inv (n + length h) q' (H ++ h).
Proof.
  induction 1 as [n q|n q o os q1 h q2 HL HS HR IH]; intros H V.
  - cbn. rewrite Nat.add_0_r, app_nil_r. exact V.
  - cbn [length]. rewrite Nat.add_succ_r, <- Nat.add_succ_l.
    replace (H ++ (o, os) :: h) with ((H ++ [(o, os)]) ++ h) by (rewrite <- app_assoc; reflexivity).
    apply IH. eapply inv_step; eassumption.
Qed.

(** timing, when the clock does not wrap *)
Lemma time_hist_step : forall w same n q H o q1 os, inv n q H -> Forall (on_time H) q -> paced H -> op_time o + 12000 < 2 ^ w ->
  rop_legal same o q = true -> rop_step w n o q = Ok (q1, os) ->
  Forall (on_time (H ++ [(o, os)])) q1 /\ paced (H ++ [(o, os)]).
Proof.
  intros w same n q H o q1 os V HT HP HW HL HS. pose proof V as [VL VI VC VB VS VM].
  assert (KT : forall e q', Forall (on_time H) q' -> (forall it, In it q' -> handed (i_id it) e = []) -> Forall (on_time (H ++ [e])) q').
  { intros e q' A B. rewrite Forall_forall in *. intros it Hi. apply on_time_keep; auto. }
  assert (KP : forall e, (forall id, handed id e = []) -> paced (H ++ [e])).
  { intros e B id. rewrite handouts_app, handouts_one, B, app_nil_r. intros X. destruct (HP id X) as (m & a & t & r & os' & A1 & A2).
    exists m, a, t, r, os'. split; [now apply nth_snoc_old|assumption]. }
  assert (KR : forall k q', Forall (on_time H) q' -> Forall (on_time H) (remove_at k q')) by (intros; now apply forall_remove).
  destruct o as [m a now r|m a k|now k]; cbn [rop_step op_time] in *.
  - assert (HO : os = [] /\ (q1 = q \/ (is_con m = true /\ q1 = q ++ [new_item w n m a now r]))).
    { unfold on_sent in HS. destruct (is_con m); [unfold push in HS; destruct (_ <? _)%nat|]; cbn [bind] in HS; try discriminate; injection HS as <- <-; auto. }
    destruct HO as (-> & HO). split; [|apply KP; intros; apply handed_nil_outs].
    destruct HO as [->|(EC & ->)]; [apply KT; [assumption|intros; apply handed_nil_outs]|].
    apply Forall_app. split; [apply KT; [assumption|intros; apply handed_nil_outs]|]. constructor; [|constructor].
    pose proof (inv_step w same n q H (RSent m a now r) _ _ V eq_refl HS) as V'. cbn [rop_step] in HS.
    destruct V' as [_ _ _ VB' _ _]. apply Forall_app in VB'. destruct VB' as (_ & VB'). inversion VB' as [|? ? B' _]; subst.
    destruct B' as (m' & a' & now' & r' & os' & F1 & F2 & F3 & F4 & F5 & F6 & F7).
    cbn [new_item i_id i_count] in F1, F6. 
    exists m', a', now', r', os'. cbn [new_item i_id]. split; [exact F1|].
    assert (EH : handouts (length H) (H ++ [(RSent m a now r, [] : outs)]) = []).
    { destruct (handouts (length H) (H ++ [(RSent m a now r, [] : outs)])); [reflexivity|cbn in F6; lia]. }
    rewrite EH. split; [exact I|]. cbn [last]. rewrite nth_error_app2, Nat.sub_diag in F1 by lia. cbn in F1. injection F1 as <- <- <- <- <-.
    cbn [new_item i_due i_init i_count]. rewrite init_val, delta_val by lia. unfold time_add. change (2 ^ 0) with 1.
    apply N.mod_small. lia.
  - injection HS as <- <-. split; [|apply KP; intros; apply handed_nil_outs].
    assert (X : fst (service_ack m k q) = q \/ exists i, fst (service_ack m k q) = remove_at i q).
    { unfold service_ack. destruct (_ =? _); [|now left]. destruct k; [right; eexists; reflexivity|now left]. }
    destruct X as [->|(i & ->)]; (apply KT; [auto|intros; apply handed_nil_outs]).
  - destruct (service_cases w now k q q1 os VC HS) as [(-> & -> & _)|(f & E & Hd & HC)].
    { split; [apply KT; [assumption|intros; apply handed_nil_outs]|apply KP; intros; apply handed_nil_outs]. }
    destruct (remove_at_nodup k q f E VI) as (N1 & N2).
    assert (Bf : born H f) by (rewrite Forall_forall in VB; apply VB; eapply nth_error_In; exact E).
    destruct Bf as (m & a & now0 & r & os0 & F1 & F2 & F3 & F4 & F5 & F6 & F7).
    assert (Tf : on_time H f) by (rewrite Forall_forall in HT; apply HT; eapply nth_error_In; exact E).
    destruct Tf as (m' & a' & now' & r' & os' & G1 & G2 & G3). rewrite F1 in G1. injection G1 as <- <- <- <- <-.
    assert (HB : backoff (i_init f) now0 (handouts (i_id f) H ++ [now])).
    { apply backoff_snoc. split; [assumption|]. rewrite <- F6, <- G3. exact Hd. }
    assert (PP : paced (H ++ [(RService now k, [(i_id f, i_msg f, i_addr f)])])).
    { intros id. rewrite handouts_app, handouts_one. destruct (Nat.eq_dec id (i_id f)) as [->|Ne].
      - rewrite handed_self. intros _. exists m, a, now0, r, os0. split; [now apply nth_snoc_old|]. rewrite <- F5. exact HB.
      - rewrite handed_other by assumption. rewrite app_nil_r. intros X. destruct (HP id X) as (m1 & a1 & t1 & r1 & os1 & A1 & A2).
        exists m1, a1, t1, r1, os1. split; [now apply nth_snoc_old|assumption]. }
    assert (KK : forall o, Forall (on_time (H ++ [(o, [(i_id f, i_msg f, i_addr f)])])) (remove_at k q)).
    { intros o. apply KT; [auto|]. intros it Hi. apply handed_other. eapply not_in_neq; eassumption. }
    destruct HC as [(H2 & -> & ->)|[(H2 & -> & ->)|(H2 & -> & ->)]]; [|split; auto|lia].
    split; [|exact PP]. apply Forall_app. split; [apply KK|]. constructor; [|constructor].
    exists m, a, now0, r, os0. cbn [i_id i_init i_due i_count]. split; [now apply nth_snoc_old|].
    rewrite handouts_app, handouts_one, handed_self. split; [exact HB|]. rewrite last_last.
    assert (i_init f < 3000) by lia.
    rewrite delta_val by lia. unfold time_add. apply N.mod_small.
    assert (2 ^ (i_count f + 1) <= 2 ^ 2) by (apply N.pow_le_mono_r; lia). change (2 ^ 2) with 4 in *. nia.
Qed.

Lemma time_hist : forall w same n q h q', rhist w same n q h q' -> times_ok w h -> forall H, inv n q H -> Forall (on_time H) q -> paced H ->
  Forall (on_time (H ++ h)) q' /\ paced (H ++ h).
Proof.
  induction 1 as [n q|n q o os q1 h q2 HL HS HR IH]; intros HW H V HT HP.
  - rewrite app_nil_r. auto.
  - inversion HW as [|? ? W1 W2]; subst. cbn [fst] in W1.
    replace (H ++ (o, os) :: h) with ((H ++ [(o, os)]) ++ h) by (rewrite <- app_assoc; reflexivity).
    destruct (time_hist_step w same n q H o q1 os V HT HP W1 HL HS) as (A & B).
    apply IH; auto. eapply inv_step; eassumption.
Qed.

(** * An item that is gone stays gone *)

Lemma gone : forall w same n q h q', rhist w same n q h q' -> forall H id, inv n q H -> (id < n)%nat -> ~ In id (map i_id q) ->
  handouts id h = [] /\ ~ In id (map i_id q').
Proof.
  induction 1 as [n q|n q o os q1 h q2 HL HS HR IH]; intros H id V Hlt Hn; [auto|].
  assert (X : handed id (o, os) = [] /\ ~ In id (map i_id q1)).
  { destruct o as [m a now r|m a k|now k]; cbn [rop_step] in HS.
    - split; [reflexivity|]. unfold on_sent in HS. destruct (is_con m); [unfold push in HS; destruct (_ <? _)%nat|]; cbn [bind] in HS; try discriminate; injection HS as <- <-.
      + rewrite map_app. intros X. apply in_app_or in X. destruct X as [X|[X|[]]]; [auto|]. cbn in X. lia.
      + assumption.
    - split; [reflexivity|]. injection HS as <- <-. unfold service_ack. destruct (_ =? _); [|assumption]. destruct k as [i|]; [|assumption].
      cbn. intros X. apply Hn. apply in_map_iff in X. destruct X as (it & E & Hi). apply in_map_iff. exists it. split; [assumption|]. eapply remove_at_in. exact Hi.
    - destruct (service_cases w now k q q1 os (v_cap _ _ _ V) HS) as [(-> & -> & _)|(f & E & Hd & HC)].
      { split; [apply handed_nil_outs|assumption]. }
      assert (Nf : id <> i_id f) by (intros ->; apply Hn; apply in_map; eapply nth_error_In; exact E).
      assert (NR : ~ In id (map i_id (remove_at k q))).
      { intros X. apply Hn. apply in_map_iff in X. destruct X as (it & E1 & Hi). apply in_map_iff. exists it. split; [assumption|]. eapply remove_at_in. exact Hi. }
      destruct HC as [(H2 & -> & ->)|[(H2 & -> & ->)|(H2 & -> & ->)]].
      + split; [now apply handed_other|]. rewrite map_app. intros X. apply in_app_or in X. destruct X as [X|[X|[]]]; [auto|]. cbn in X. congruence.
      + split; [now apply handed_other|assumption].
      + split; [apply handed_nil_outs|assumption]. }
  destruct X as (X1 & X2). destruct (IH (H ++ [(o, os)]) id) as (Y1 & Y2); [eapply inv_step; eassumption|lia|assumption|].
  split; [|assumption]. unfold handouts in *. cbn. rewrite X1. exact Y1.
Qed.

(** * Draining *)

Fixpoint remaining (q : queue) : nat :=
  match q with [] => 0 | it :: r => (3 - N.to_nat (i_count it)) + remaining r end.

Lemma remaining_app : forall a b, remaining (a ++ b) = (remaining a + remaining b)%nat.
Proof. induction a as [|x a IH]; intros b; cbn; [reflexivity|]. rewrite IH. lia. Qed.

Lemma remaining_perm : forall a b, Permutation a b -> remaining a = remaining b.
Proof. induction 1; cbn; lia. Qed.

Lemma top_exists : forall q, q <> [] -> exists k, is_top k q = true.
Proof.
  intros q Hq.
  assert (X : exists it, In it q /\ forall x, In x q -> i_due it <= i_due x).
  { induction q as [|y q IH]; [congruence|]. destruct q as [|z q].
    - exists y. split; [now left|]. intros x [->|[]]. lia.
    - destruct IH as (it & Hi & Hm); [discriminate|]. destruct (N.le_gt_cases (i_due y) (i_due it)).
      + exists y. split; [now left|]. intros x [->|Hx]; [lia|]. specialize (Hm x Hx). lia.
      + exists it. split; [now right|]. intros x [->|Hx]; [lia|]. auto. }
  destruct X as (it & Hi & Hm). apply In_nth_error in Hi. destruct Hi as (k & E). exists k.
  unfold is_top. rewrite E. apply forallb_forall. intros x Hx. apply N.leb_le. auto.
Qed.

Lemma is_top_min : forall k q, is_top k q = true -> exists f, nth_error q k = Some f /\ forall x, In x q -> i_due f <= i_due x.
Proof.
  intros k q H. unfold is_top in H. destruct (nth_error q k) as [f|]; [|discriminate]. exists f. split; [reflexivity|].
  rewrite forallb_forall in H. intros x Hx. apply N.leb_le. auto.
Qed.

Lemma mid_val : forall m, hdr_ok (n_hdr m) -> hdr_mid (n_hdr m) = mid_of m.
Proof.
  intros m H. apply hdr_ok_iff in H. unfold hdr_mid, mid_of. apply nto_val; apply H.
Qed.

Lemma matches_answers : forall same m a it, hdr_ok (n_hdr m) -> hdr_ok (n_hdr (i_msg it)) ->
  (matches same a (hdr_mid (n_hdr m)) (n_tok m) it = true <-> answers same m a (i_msg it) (i_addr it)).
Proof.
  intros same m a it H1 H2. unfold matches, answers. rewrite !andb_true_iff, tok_eqb_eq, N.eqb_eq, (mid_val m H1), (mid_val _ H2). tauto.
Qed.

Lemma service_fate : forall w now k n q q1 os H id, inv n q H -> service_retry w now k q = Ok (q1, os) -> In id (map i_id q) ->
  In id (map i_id q1) \/ length (handouts id (H ++ [(RService now k, os)])) = 3%nat.
Proof.
  intros w now k n q q1 os H id V HS Hi.
  destruct (service_cases w now k q q1 os (v_cap _ _ _ V) HS) as [(-> & -> & _)|(f & E & Hd & HC)]; [now left|].
  assert (Bf : born H f).
  { pose proof (v_born _ _ _ V) as B. rewrite Forall_forall in B. apply B. eapply nth_error_In; exact E. }
  destruct Bf as (m & a & now0 & r & os0 & F1 & F2 & F3 & F4 & F5 & F6 & F7).
  assert (HR : id = i_id f \/ In id (map i_id (remove_at k q))).
  { apply (Permutation_in id (Permutation_map i_id (remove_at_perm k q f E))) in Hi. cbn in Hi. destruct Hi; auto. }
  destruct HC as [(H2 & -> & ->)|[(H2 & -> & ->)|(H2 & -> & ->)]].
  - left. rewrite map_app. apply in_or_app. cbn. destruct HR as [->|HR]; [right; now left|now left].
  - destruct HR as [->|HR]; [right|now left]. rewrite handouts_app, handouts_one, handed_self, app_length. cbn. lia.
  - lia.
Qed.

Lemma spaced_fate : forall w same n q h q', rhist w same n q h q' -> forall t H id, spaced t h -> inv n q H -> In id (map i_id q) ->
  In id (map i_id q') \/ length (handouts id (H ++ h)) = 3%nat.
Proof.
  induction 1 as [n q|n q o os q1 h q2 HL HS HR IH]; intros t H id SP V Hi; [now left|].
  destruct o as [| |now k]; try (exfalso; exact SP). cbn [spaced] in SP. destruct SP as (Hnow & SP).
  assert (V1 : inv (S n) q1 (H ++ [(RService now k, os)])) by (eapply inv_step; eassumption).
  replace (H ++ (RService now k, os) :: h) with ((H ++ [(RService now k, os)]) ++ h) by (rewrite <- app_assoc; reflexivity).
  destruct (in_dec Nat.eq_dec id (map i_id q1)) as [I1|I1]; [eapply IH; eauto|].
  destruct (service_fate w now k n q q1 os H id V HS Hi) as [?|E3]; [contradiction|right].
  assert (Hlt : (id < S n)%nat).
  { apply in_map_iff in Hi. destruct Hi as (it & <- & Hi). pose proof (v_born _ _ _ V) as B. rewrite Forall_forall in B.
    pose proof (born_lt H it (B it Hi)). pose proof (v_len _ _ _ V). lia. }
  destruct (gone w same (S n) q1 h q2 HR _ id V1 Hlt I1) as (G & _).
  rewrite handouts_app, G, app_nil_r. exact E3.
Qed.

Lemma due_bound : forall H n q it t, inv n q H -> In it q -> on_time H it -> (forall e, In e H -> op_time (fst e) + 12000 <= t) -> i_due it <= t.
Proof.
  intros H n q it t V Hi (m & a & now & r & os & E & _ & ->) HT.
  pose proof (v_born _ _ _ V) as B. rewrite Forall_forall in B. destruct (B it Hi) as (m' & a' & now' & r' & os' & E' & _ & _ & _ & F5 & _ & F7).
  assert (X : last (handouts (i_id it) H) now + 12000 <= t).
  { assert (Y : In (last (handouts (i_id it) H) now) (now :: handouts (i_id it) H)).
    { destruct (handouts (i_id it) H) as [|x l]; [now left|]. right. clear. revert x. induction l as [|y l IH]; intros x; [now left|]. right. apply (IH y). }
    revert Y. generalize (last (handouts (i_id it) H) now). intros z Y. destruct Y as [<-|Y].
    - apply nth_error_In in E. apply (HT _ E).
    - unfold handouts in Y. apply in_flat_map in Y. destruct Y as (e & He & Y). specialize (HT e He). unfold handed in Y.
      destruct (fst e) as [| |now2 k2]; try (exfalso; exact Y). destruct (existsb _ _); [|destruct Y]. destruct Y as [<-|[]]. exact HT. }
  assert (2 ^ i_count it <= 2 ^ 2) by (apply N.pow_le_mono_r; lia). change (2 ^ 2) with 4 in *. nia.
Qed.

Lemma spaced_remaining : forall w same n q h q', rhist w same n q h q' -> forall t H, times_ok w h -> spaced t h -> inv n q H ->
  (forall it, In it q -> i_due it <= t) -> (remaining q' = remaining q - length h)%nat.
Proof.
  induction 1 as [n q|n q o os q1 h q2 HL HS HR IH]; intros t H TO SP V HD; [cbn; lia|].
  destruct o as [| |now k]; try (exfalso; exact SP). cbn [spaced] in SP. destruct SP as (Hnow & SP').
  inversion TO as [|? ? T1 T2]; subst. cbn [fst op_time] in T1.
  assert (V1 : inv (S n) q1 (H ++ [(RService now k, os)])) by (eapply inv_step; eassumption).
  assert (X : (remaining q1 = remaining q - 1)%nat /\ forall it, In it q1 -> i_due it <= now + 12000).
  { destruct q as [|x q0].
    - cbn [rop_step] in HS. unfold service_retry in HS. destruct k; cbn in HS; injection HS as <- <-; cbn; split; try lia; intros ? [].
    - cbn [rop_legal] in HL. destruct (is_top_min k _ HL) as (f & E & Hm). remember (x :: q0) as q eqn:Eq. clear Eq.
      assert (Inf : In f q) by (eapply nth_error_In; exact E).
      assert (Bf : born H f) by (pose proof (v_born _ _ _ V) as B; rewrite Forall_forall in B; auto).
      destruct Bf as (m & a & now0 & r & os0 & F1 & F2 & F3 & F4 & F5 & F6 & F7).
      pose proof (HD f Inf) as Df. pose proof (remaining_perm _ _ (remove_at_perm k q f E)) as RP. cbn [remaining] in RP.
      assert (HR' : forall it, In it (remove_at k q) -> i_due it <= now + 12000).
      { intros it Hi. apply remove_at_in in Hi. specialize (HD it Hi). lia. }
      destruct (service_cases w now k q q1 os (v_cap _ _ _ V) HS) as [(-> & -> & C)|(f' & E' & Hd & HC)].
      { destruct C as [C|(f' & E' & C)]; [congruence|]. rewrite E in E'. injection E' as <-. lia. }
      rewrite E in E'. injection E' as <-.
      destruct HC as [(H2 & -> & ->)|[(H2 & -> & ->)|(H2 & -> & ->)]]; [| |lia].
      + split; [rewrite remaining_app; cbn [remaining i_count]; lia|]. intros it Hi. apply in_app_or in Hi. destruct Hi as [Hi|[<-|[]]]; [auto|].
        cbn [i_due]. unfold time_add. rewrite delta_val by lia.
        assert (2 ^ (i_count f + 1) <= 2 ^ 2) by (apply N.pow_le_mono_r; lia). change (2 ^ 2) with 4 in *.
        etransitivity; [apply N.mod_le, N.pow_nonzero; lia|]. nia.
      + split; [lia|assumption]. }
  destruct X as (X1 & X2). rewrite (IH (now + 12000) _ T2 SP' V1 X2). cbn [length]. lia.
Qed.

Lemma remaining_le : forall q, (remaining q <= 3 * length q)%nat.
Proof. induction q as [|x q IH]; cbn [remaining length]; [lia|]. destruct (N.to_nat (i_count x)); lia. Qed.

Lemma remaining_0 : forall H q, Forall (born H) q -> remaining q = 0%nat -> q = [].
Proof.
  intros H [|it q] B E; [reflexivity|exfalso]. inversion B as [|? ? B1 _]; subst. destruct B1 as (m & a & now & r & os & _ & _ & _ & _ & _ & _ & F7).
  cbn [remaining] in E. lia.
Qed.
