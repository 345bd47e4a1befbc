From Verif Require Import Base HeaderModel HeaderProofs OptDecModel DecoderModel DecoderSpec DecoderProofs NetDecModel NetDecProofs RetryModel RetrySpec RetryProofs PumpModel RetryMemModel RetryMemSpec.
Local Open Scope N_scope.

Lemma upd_same : forall X (f : nat -> X) o x, upd f o x o = x.
Proof. intros. unfold upd. now rewrite Nat.eqb_refl. Qed.
Lemma upd_other : forall X (f : nat -> X) o x i, i <> o -> upd f o x i = f i.
Proof. intros. unfold upd. apply Nat.eqb_neq in H. now rewrite H. Qed.

(** ** Every message at most once *)

(** where the chunk of a live netbuf is: still with its netbuf, and then nowhere in the pump,
    or with the first entry of the pump that came from this netbuf *)
Definition placed (s : mem) (o : nat) : Prop :=
  m_obj s o = Some true \/
  (exists p a r, m_pump s = p ++ (o, true, a) :: r /\ (forall e, In e p -> fst (fst e) <> o)).
Record good (inl : bool) (s : mem) : Prop := Good {
  g_fresh : forall o, (m_next s <= o)%nat -> m_live s o = false /\ m_obj s o = None;
  g_pump : forall e, In e (m_pump s) -> (fst (fst e) < m_next s)%nat;
  g_place : inl = true -> forall o, m_live s o = true -> placed s o;
  g_free : inl = true -> forall o, m_obj s o = Some true -> forall e, In e (m_pump s) -> fst (fst e) <> o;
  g_own : inl = false -> forall o, m_obj s o <> Some false }.

Lemma good0 : forall inl, good inl mem0.
Proof. intro inl. split; cbn; intros; try discriminate; try contradiction; auto. Qed.

Lemma good_new : forall inl m s, good inl s -> good inl (m_new m s).
Proof.
  intros inl m s [F P L D W]. split; cbn.
  - intros o Lo. rewrite !upd_other by lia. apply F. lia.
  - intros e H. apply P in H. lia.
  - intros I o. destruct (Nat.eq_dec o (m_next s)) as [->|N].
    + intros _. left. cbn. apply upd_same.
    + rewrite upd_other by exact N. intro A. destruct (L I o A) as [A1|(p & a & r & A1 & A2)]; [left|right]; cbn; [rewrite upd_other by exact N; auto|eauto].
  - intros I o. destruct (Nat.eq_dec o (m_next s)) as [->|N]; [intros _ e H; apply P in H; lia|]. rewrite upd_other by exact N. auto.
  - intros I o. destruct (Nat.eq_dec o (m_next s)) as [->|N]; [rewrite upd_same; discriminate|]. rewrite upd_other by exact N. auto.
Qed.

Lemma good_drop : forall inl o s s1, good inl s -> m_drop o s = Ok s1 -> good inl s1 /\ m_next s1 = m_next s /\ m_pump s1 = m_pump s /\ m_retry s1 = m_retry s /\
  m_msg s1 = m_msg s /\ (forall i, m_live s1 i = true -> m_live s i = true) /\ (m_obj s o = Some true -> m_live s1 o = false).
Proof.
  intros inl o s s1 [F P L D W] E. unfold m_drop in E. destruct (m_obj s o) as [own|] eqn:O; [|discriminate]. injection E as <-. cbn.
  assert (Lt : (o < m_next s)%nat) by (destruct (Nat.lt_ge_cases o (m_next s)) as [X|X]; [exact X|]; destruct (F o X); congruence).
  assert (M : forall i, (if own then upd (m_live s) o false else m_live s) i = true -> m_live s i = true /\ (own = true -> i <> o)).
  { intros i H. destruct own; [|split; [exact H|discriminate]]. destruct (Nat.eq_dec i o) as [->|N]; [rewrite upd_same in H; discriminate|]. rewrite upd_other in H by exact N. auto. }
  split; [split; cbn|repeat split; auto].
  - intros i Li. rewrite upd_other by lia. destruct (F i Li) as [A B]. split; [|exact B]. destruct own; [|exact A]. rewrite upd_other by lia. exact A.
  - exact P.
  - intros I i A. destruct (M i A) as [A1 A2]. destruct (L I i A1) as [B1|(p & a & r & B1 & B2)].
    + left. cbn. destruct (Nat.eq_dec i o) as [->|N]; [|rewrite upd_other by exact N; auto]. exfalso. rewrite O in B1. injection B1 as ->. now apply A2.
    + right. cbn. eauto.
  - intros I i. destruct (Nat.eq_dec i o) as [->|N]; [rewrite upd_same; discriminate|]. rewrite upd_other by exact N. now apply D.
  - intros I i. destruct (Nat.eq_dec i o) as [->|N]; [rewrite upd_same; discriminate|]. rewrite upd_other by exact N. auto.
  - intros i A. now apply M.
  - intro A. injection A as ->. apply upd_same.
Qed.

Lemma good_give : forall inl size o a s s1, good inl s -> m_give inl size o a s = Ok s1 -> good inl s1 /\ m_next s1 = m_next s /\ m_retry s1 = m_retry s /\
  m_msg s1 = m_msg s /\ m_live s1 = m_live s /\ exists own, m_pump s1 = m_pump s ++ [(o, own, a)].
Proof.
  intros inl size o a s s1 [F P L D W] E. unfold m_give in E. destruct (m_obj s o) as [own|] eqn:O; [|discriminate]. destruct (_ <? _)%nat; [|discriminate]. injection E as <-. cbn.
  assert (Lt : (o < m_next s)%nat) by (destruct (Nat.lt_ge_cases o (m_next s)) as [X|X]; [exact X|]; destruct (F o X); congruence).
  split; [split; cbn|repeat split; eauto].
  - intros i Li. destruct (F i Li) as [A B]. split; [exact A|]. destruct inl; [rewrite upd_other by lia|]; exact B.
  - intros e H. apply in_app_iff in H. destruct H as [H|[<-|[]]]; [now apply P|exact Lt].
  - intros -> i A. destruct (L eq_refl i A) as [B1|(p & a' & r & B1 & B2)].
    + destruct (Nat.eq_dec i o) as [->|N].
      * right. rewrite O in B1. injection B1 as ->. exists (m_pump s), a, []. cbn. auto.
      * left. cbn. rewrite upd_other by exact N. exact B1.
    + right. cbn. exists p, a', (r ++ [(o, own, a)]). rewrite B1, <- app_assoc. auto.
  - intros -> i. destruct (Nat.eq_dec i o) as [->|N]; [rewrite upd_same; discriminate|]. rewrite upd_other by exact N. intros A e H.
    apply in_app_iff in H. destruct H as [H|[<-|[]]]; [now apply D|cbn; congruence].
  - intros -> i. now apply W.
Qed.

Lemma good_requeue : forall inl q s, good inl s -> good inl (m_requeue q s).
Proof. intros inl q s [F P L D W]. split; cbn; auto. Qed.

(** what a step does to what matters: nothing dead comes alive but the netbuf just made, and
    the pump gains at most one entry at its end *)
Lemma good_service : forall inl w size now k s s1, good inl s -> m_service inl w size now k s = Ok s1 ->
  good inl s1 /\ m_next s1 = m_next s /\ m_msg s1 = m_msg s /\ m_live s1 = m_live s /\
  (m_pump s1 = m_pump s \/ exists f own, In f (m_retry s) /\ m_pump s1 = m_pump s ++ [(x_obj f, own, x_addr f)]) /\
  (forall f, In f (m_retry s1) -> exists g, In g (m_retry s) /\ x_obj g = x_obj f /\ x_addr g = x_addr f).
Proof.
  intros inl w size now k s s1 G E. unfold m_service in E. destruct (nth_error (m_retry s) k) as [f|] eqn:Ek.
  2: { injection E as <-. split; [exact G|]. repeat split; eauto. }
  assert (Inf : In f (m_retry s)) by (eapply nth_error_In; exact Ek).
  assert (Sub : forall q x, In x (@drop_at mitem k q) -> In x q).
  { intros q x H. unfold drop_at in H. apply in_app_iff in H. rewrite <- (firstn_skipn k q). apply in_app_iff. destruct H as [H|H]; [left; exact H|right].
    clear - H. revert q H. induction k as [|k IH]; intros [|y q] H; cbn in *; auto. }
  destruct (_ <=? _); [|injection E as <-; split; [exact G|]; repeat split; eauto].
  destruct (_ <? _).
  - destruct (m_give inl size (x_obj f) (x_addr f) s) as [s2| |] eqn:E2; try discriminate. cbn [bind] in E. injection E as <-.
    destruct (good_give _ _ _ _ _ _ G E2) as (G2 & N2 & R2 & M2 & V2 & own & P2).
    split; [now apply good_requeue|]. cbn. repeat split; auto.
    + right. exists f, own. auto.
    + intros x H. apply in_app_iff in H. destruct H as [H|[<-|[]]]; [rewrite R2 in H; apply Sub in H; eauto|exists f; auto].
  - destruct (_ =? _).
    + destruct (m_give inl size (x_obj f) (x_addr f) s) as [s2| |] eqn:E2; try discriminate. cbn [bind] in E. injection E as <-.
      destruct (good_give _ _ _ _ _ _ G E2) as (G2 & N2 & R2 & M2 & V2 & own & P2).
      split; [now apply good_requeue|]. cbn. repeat split; auto.
      * right. exists f, own. auto.
      * intros x H. rewrite R2 in H. apply Sub in H. eauto.
    + injection E as <-. split; [now apply good_requeue|]. cbn. repeat split; auto. intros x H. apply Sub in H. eauto.
Qed.

Lemma good_wire : forall inl s s1 ws, good inl s -> m_wire inl s = Ok (s1, ws) ->
  good inl s1 /\ m_next s1 = m_next s /\ m_msg s1 = m_msg s /\ m_retry s1 = m_retry s /\ (forall i, m_live s1 i = true -> m_live s i = true) /\
  (forall e, In e (m_pump s1) -> In e (m_pump s)) /\
  (ws = [] \/ exists o a own, ws = [(o, a, m_msg s o)] /\ In (o, own, a) (m_pump s) /\ m_live s o = true /\ m_live s1 o = false).
Proof.
  intros inl s s1 ws G E. unfold m_wire in E. destruct (m_pump s) as [|[[o own] a] r] eqn:EP.
  { injection E as <- <-. split; [exact G|]. rewrite EP. repeat split; auto. }
  destruct inl.
  - destruct (m_live s o) eqn:A; [|discriminate]. injection E as <- <-. destruct G as [F P L D W]. rewrite EP in P, D.
    assert (Own : own = true).
    { destruct (L eq_refl o A) as [B|(p & a' & q & B1 & B2)].
      - exfalso. apply (D eq_refl o B (o, own, a)); [now left|reflexivity].
      - rewrite EP in B1. destruct p as [|e p]; cbn in B1; injection B1; intros; [congruence|]. exfalso. apply (B2 e (or_introl eq_refl)). subst. reflexivity. }
    subst own. cbn.
    assert (M : forall i, upd (m_live s) o false i = true -> i <> o /\ m_live s i = true).
    { intros i H. destruct (Nat.eq_dec i o) as [->|N]; [rewrite upd_same in H; discriminate|]. rewrite upd_other in H by exact N. auto. }
    split; [split; cbn|repeat split; auto].
    + intros i Li. assert (o < m_next s)%nat by (apply (P (o, true, a)); now left). rewrite upd_other by lia. now apply F.
    + intros e H. apply P. now right.
    + intros _ i H. apply M in H. destruct H as [N H]. destruct (L eq_refl i H) as [B|(p & a' & q & B1 & B2)]; [left; exact B|].
      right. cbn. rewrite EP in B1. destruct p as [|e p]; cbn in B1; injection B1; intros; [congruence|]. exists p, a', q. split; [assumption|]. intros e' Ie. apply B2. now right.
    + intros _ i H e Ie. apply (D eq_refl i H). now right.
    + discriminate.
    + intros i H. now apply M in H.
    + right. exists o, a, true. repeat split; auto. apply upd_same.
  - unfold m_read in E. destruct (m_obj s o) as [ow|] eqn:O; [|discriminate]. destruct (m_live s o) eqn:A; [|discriminate]. cbn [bind] in E.
    destruct (m_drop o s) as [s2| |] eqn:E2; try discriminate. cbn [bind] in E. injection E as <- <-.
    assert (Ow : ow = true) by (destruct ow; [reflexivity|]; exfalso; exact (g_own _ _ G eq_refl o O)). subst ow.
    destruct (good_drop _ _ _ _ G E2) as (G2 & N2 & P2 & R2 & M2 & V2 & Dd). destruct G2 as [F P L D W]. rewrite P2, EP in P. cbn.
    split; [split; cbn; auto; try discriminate|repeat split; auto].
    + intros e H. apply P. now right.
    + right. exists o, a, own. repeat split; auto.
Qed.

Lemma skipn_less : forall (X : Type) (f : X) k q, In f (skipn (S k) q) -> In f (skipn k q).
Proof. intros X f k. induction k as [|k IH]; intros [|y q] H; [destruct H|right; exact H|destruct H|]. cbn [skipn] in *. apply IH. exact H. Qed.

Lemma good_ack : forall inl same m a vs s s1, good inl s -> m_ack same m a vs s = Ok s1 ->
  good inl s1 /\ m_next s1 = m_next s /\ m_msg s1 = m_msg s /\ m_live s1 = m_live s /\ m_pump s1 = m_pump s /\ (forall f, In f (m_retry s1) -> In f (m_retry s)).
Proof.
  intros inl same m a vs s s1 G E. unfold m_ack in E. destruct (_ =? _); [|injection E as <-; split; [exact G|]; repeat split; auto].
  destruct (m_match same s m a vs) as [[k|]| |]; try discriminate; cbn [bind] in E; injection E as <-.
  - split; [now apply good_requeue|]. cbn. repeat split; auto. intros f H. unfold drop_at in H. apply in_app_iff in H. rewrite <- (firstn_skipn k (m_retry s)). apply in_app_iff.
    destruct H as [H|H]; [left; exact H|right]. revert H. apply skipn_less.
  - split; [exact G|]. repeat split; auto.
Qed.

Lemma good_track : forall inl w o a now r s s1, good inl s -> m_track w o a now r s = Ok s1 ->
  good inl s1 /\ m_next s1 = m_next s /\ m_msg s1 = m_msg s /\ m_live s1 = m_live s /\ m_pump s1 = m_pump s /\ (o < m_next s)%nat /\
  (forall f, In f (m_retry s1) -> In f (m_retry s) \/ (x_obj f = o /\ x_addr f = a)).
Proof.
  intros inl w o a now r s s1 G E. unfold m_track in E. destruct (m_obj s o) as [own|] eqn:O; [|discriminate]. destruct (_ <? _)%nat; [|discriminate]. injection E as <-.
  assert (Lt : (o < m_next s)%nat) by (destruct (Nat.lt_ge_cases o (m_next s)) as [X|X]; [exact X|]; destruct (g_fresh _ _ G o X); congruence).
  split; [exact (good_requeue _ _ _ G)|]. cbn. repeat split; auto. intros f H. apply in_app_iff in H. destruct H as [H|[<-|[]]]; auto.
Qed.

Lemma step_all : forall inl w size same op s s1 ws, good inl s -> m_step inl w size same op s = Ok (s1, ws) ->
  good inl s1 /\
  (forall i, m_live s1 i = true -> m_live s i = true \/ i = m_next s) /\ (m_next s <= m_next s1)%nat /\
  m_next s1 = (m_next s + length (made [op]))%nat /\ (forall i, (i < m_next s)%nat -> m_msg s1 i = m_msg s i) /\
  (forall m, op = ONew m -> m_msg s1 (m_next s) = m) /\
  (forall e, In e (m_pump s1) -> In e (m_pump s) \/ In (snd e) (named (fst (fst e)) op) \/ exists f, In f (m_retry s) /\ x_obj f = fst (fst e) /\ x_addr f = snd e) /\
  (forall f, In f (m_retry s1) -> (exists g, In g (m_retry s) /\ x_obj g = x_obj f /\ x_addr g = x_addr f) \/ In (x_addr f) (named (x_obj f) op)) /\
  (ws = [] \/ exists o a own, ws = [(o, a, m_msg s o)] /\ In (o, own, a) (m_pump s) /\ m_live s o = true /\ m_live s1 o = false).
Proof.
  intros inl w size same op s s1 ws G E. destruct op as [m|o|o a|o a now r| |now k|m a vs]; cbn [m_step] in E.
  - injection E as <- <-. split; [now apply good_new|]. cbn. split; [|split; [lia|split; [lia|]]].
    { intros i. destruct (Nat.eq_dec i (m_next s)) as [->|N]; [auto|]. rewrite upd_other by exact N. auto. }
    split; [intros i Li; rewrite upd_other by lia; reflexivity|]. split; [intros m0 X; injection X as ->; apply upd_same|]. split; [auto|]. split; [eauto|auto].
  - destruct (m_drop o s) as [s2| |] eqn:E2; try discriminate. cbn [bind] in E. injection E as <- <-.
    destruct (good_drop _ _ _ _ G E2) as (G2 & N2 & P2 & R2 & M2 & V2 & _). split; [exact G2|]. rewrite P2, R2, M2, N2. cbn. repeat split; try solve [auto|lia|discriminate|eauto].
  - destruct (m_give inl size o a s) as [s2| |] eqn:E2; try discriminate. cbn [bind] in E. injection E as <- <-.
    destruct (good_give _ _ _ _ _ _ G E2) as (G2 & N2 & R2 & M2 & V2 & own & P2). split; [exact G2|]. rewrite P2, R2, M2, N2, V2. cbn. repeat split; try solve [auto|lia|discriminate|eauto].
    intros e H. apply in_app_iff in H. destruct H as [H|[<-|[]]]; [auto|]. right. left. cbn. rewrite Nat.eqb_refl. now left.
  - destruct (m_track w o a now r s) as [s2| |] eqn:E2; try discriminate. cbn [bind] in E. injection E as <- <-.
    destruct (good_track _ _ _ _ _ _ _ _ G E2) as (G2 & N2 & M2 & V2 & P2 & Lt & R2). split; [exact G2|]. rewrite P2, M2, N2, V2. cbn. repeat split; try solve [auto|lia|discriminate|eauto].
    intros f H. apply R2 in H. destruct H as [H|[<- <-]]; [eauto|]. right. rewrite Nat.eqb_refl. now left.
  - destruct (good_wire _ _ _ _ G E) as (G2 & N2 & M2 & R2 & V2 & P2 & H). split; [exact G2|]. rewrite M2, R2, N2. cbn. repeat split; try solve [auto|lia|discriminate|eauto].
  - destruct (m_service inl w size now k s) as [s2| |] eqn:E2; try discriminate. cbn [bind] in E. injection E as <- <-.
    destruct (good_service _ _ _ _ _ _ _ G E2) as (G2 & N2 & M2 & V2 & P2 & R2). split; [exact G2|]. rewrite M2, N2, V2. cbn. repeat split; try solve [auto|lia|discriminate|eauto].
    destruct P2 as [->|(f & own & If & ->)]; [auto|]. intros e H. apply in_app_iff in H. destruct H as [H|[<-|[]]]; [auto|]. right. right. exists f. auto.
  - destruct (m_ack same m a vs s) as [s2| |] eqn:E2; try discriminate. cbn [bind] in E. injection E as <- <-.
    destruct (good_ack _ _ _ _ _ _ _ G E2) as (G2 & N2 & M2 & V2 & P2 & R2). split; [exact G2|]. rewrite M2, N2, V2, P2. cbn. repeat split; try solve [auto|lia|discriminate|eauto]. intros f H. left. exists f. auto.
Qed.

Lemma run_once : forall inl w size same os s s1 ws, good inl s -> m_run inl w size same os s = Ok (s1, ws) ->
  good inl s1 /\ NoDup (wired ws) /\ (forall o, In o (wired ws) -> m_live s1 o = false /\ (o < m_next s1)%nat) /\
  (m_next s <= m_next s1)%nat /\ (forall o, (o < m_next s)%nat -> m_live s o = false -> m_live s1 o = false /\ ~ In o (wired ws)).
Proof.
  intros inl w size same. induction os as [|op os IH]; intros s s1 ws G E; cbn [m_run] in E.
  - injection E as <- <-. split; [exact G|]. split; [constructor|]. split; [intros o []|]. split; [lia|]. auto.
  - destruct (m_step inl w size same op s) as [[s2 w2]| |] eqn:E2; try discriminate. cbn [bind fst snd] in E.
    destruct (m_run inl w size same os s2) as [[s3 w3]| |] eqn:E3; try discriminate. cbn [bind fst snd] in E. injection E as <- <-.
    destruct (step_all _ _ _ _ _ _ _ _ G E2) as (G2 & V2 & N2 & _ & _ & _ & _ & _ & W2). destruct (IH _ _ _ G2 E3) as (G3 & ND & Dd & N3 & K3).
    split; [exact G3|]. unfold wired in *. rewrite map_app.
    assert (Old : forall o, (o < m_next s)%nat -> m_live s o = false -> m_live s2 o = false).
    { intros o Lo A. destruct (m_live s2 o) eqn:B; [|reflexivity]. apply V2 in B. destruct B as [B|B]; [congruence|lia]. }
    destruct W2 as [->|(o & a & own & -> & Io & Ao & Bo)].
    + cbn [map app]. split; [exact ND|]. split; [exact Dd|]. split; [lia|]. intros o Lo A. apply K3; [lia|now apply Old].
    + assert (Lo : (o < m_next s)%nat) by exact (g_pump _ _ G _ Io). destruct (K3 o ltac:(lia) Bo) as [K1 K2]. cbn [map app fst].
      split; [constructor; assumption|]. split; [intros i [<-|H]; [split; [exact K1|lia]|auto]|]. split; [lia|].
      intros i Li A. destruct (K3 i ltac:(lia) (Old i Li A)) as [K4 K5]. split; [exact K4|]. intros [<-|H]; [congruence|contradiction].
Qed.

(** the history so far explains the state *)
Record told (pre : list mop) (s : mem) : Prop := Told {
  t_next : m_next s = length (made pre);
  t_msg : forall o, (o < m_next s)%nat -> nth_error (made pre) o = Some (m_msg s o);
  t_pump : forall e, In e (m_pump s) -> In (snd e) (destinations (fst (fst e)) pre);
  t_retry : forall f, In f (m_retry s) -> In (x_addr f) (destinations (x_obj f) pre) }.
Lemma told0 : told [] mem0.
Proof. split; cbn; intros; try contradiction; try lia; auto. Qed.
Lemma made_app : forall xs ys, made (xs ++ ys) = made xs ++ made ys.
Proof. induction xs as [|[m|o|o a|o a now r| |now k|m a vs] xs IH]; intro ys; cbn [made app]; auto. now rewrite IH. Qed.
Lemma destinations_app : forall o xs ys, destinations o (xs ++ ys) = destinations o xs ++ destinations o ys.
Proof. intros. apply flat_map_app. Qed.
Lemma told_step : forall inl w size same pre op s s1 ws, good inl s -> told pre s -> m_step inl w size same op s = Ok (s1, ws) -> told (pre ++ [op]) s1.
Proof.
  intros inl w size same pre op s s1 ws G [T1 T2 T3 T4] E. destruct (step_all _ _ _ _ _ _ _ _ G E) as (_ & _ & _ & N2 & M2 & M3 & P2 & R2 & _).
  assert (D1 : forall o, destinations o (pre ++ [op]) = destinations o pre ++ named o op) by (intro o; rewrite destinations_app; cbn; now rewrite app_nil_r).
  split.
  - rewrite made_app, app_length. lia.
  - intros o Lo. rewrite made_app. destruct (Nat.lt_ge_cases o (m_next s)) as [X|X].
    + rewrite nth_error_app1 by lia. rewrite (M2 o X). now apply T2.
    + rewrite nth_error_app2 by lia. destruct op as [m|i|i a|i a now r| |now k|m a vs]; cbn [made length] in *; try lia.
      assert (o = m_next s) by lia. subst o. rewrite T1, Nat.sub_diag. cbn. rewrite <- T1. f_equal. symmetry. now apply M3.
  - intros e H. rewrite D1. apply in_app_iff. destruct (P2 e H) as [A|[A|(f & A1 & A2 & A3)]]; auto. left. rewrite <- A2, <- A3. auto.
  - intros f H. rewrite D1. apply in_app_iff. destruct (R2 f H) as [(g & A1 & A2 & A3)|A]; auto. left. rewrite <- A2, <- A3. auto.
Qed.

Lemma destinations_in : forall o a xs ys, In a (destinations o xs) -> In a (destinations o (xs ++ ys)).
Proof. intros. rewrite destinations_app. apply in_app_iff. auto. Qed.
Lemma run_told : forall inl w size same os pre s s1 ws, good inl s -> told pre s -> m_run inl w size same os s = Ok (s1, ws) ->
  told (pre ++ os) s1 /\ forall o a m, In (o, a, m) ws -> nth_error (made (pre ++ os)) o = Some m /\ In a (destinations o (pre ++ os)).
Proof.
  intros inl w size same. induction os as [|op os IH]; intros pre s s1 ws G T E; cbn [m_run] in E.
  - injection E as <- <-. rewrite app_nil_r. split; [exact T|]. intros o a m [].
  - destruct (m_step inl w size same op s) as [[s2 w2]| |] eqn:E2; try discriminate. cbn [bind fst snd] in E.
    destruct (m_run inl w size same os s2) as [[s3 w3]| |] eqn:E3; try discriminate. cbn [bind fst snd] in E. injection E as <- <-.
    destruct (step_all _ _ _ _ _ _ _ _ G E2) as (G2 & _ & _ & _ & _ & _ & _ & _ & W2). pose proof (told_step _ _ _ _ _ _ _ _ _ G T E2) as T2.
    destruct (IH (pre ++ [op]) s2 s3 w3 G2 T2 E3) as [T3 L3]. rewrite <- app_assoc in T3, L3. cbn [app] in T3, L3. split; [exact T3|].
    intros o a m H. apply in_app_iff in H. destruct H as [H|H]; [|now apply L3].
    destruct W2 as [->|(i & b & own & -> & Io & Ao & Bo)]; [destruct H|]. destruct H as [H|[]]. injection H as <- <- <-. split.
    + rewrite made_app, nth_error_app1; [apply (t_msg _ _ T); exact (g_pump _ _ G _ Io)|]. rewrite <- (t_next _ _ T). exact (g_pump _ _ G _ Io).
    + apply destinations_in. exact (t_pump _ _ T _ Io).
Qed.

(** ** Acknowledgements *)
Lemma step_msg : forall inl w size same op s s1 ws, m_step inl w size same op s = Ok (s1, ws) ->
  m_msg s1 = m_msg s \/ exists m, op = ONew m /\ m_msg s1 = upd (m_msg s) (m_next s) m.
Proof.
  assert (D : forall o s s1, m_drop o s = Ok s1 -> m_msg s1 = m_msg s).
  { intros o s s1 E. unfold m_drop in E. destruct (m_obj s o); [|discriminate]. now injection E as <-. }
  assert (V : forall inl size o a s s1, m_give inl size o a s = Ok s1 -> m_msg s1 = m_msg s).
  { intros inl size o a s s1 E. unfold m_give in E. destruct (m_obj s o); [|discriminate]. destruct (_ <? _)%nat; [|discriminate]. now injection E as <-. }
  intros inl w size same op s s1 ws E. destruct op as [m|o|o a|o a now r| |now k|m a vs]; cbn [m_step] in E.
  - injection E as <- <-. right. exists m. auto.
  - left. destruct (m_drop o s) as [s2| |] eqn:E2; try discriminate. injection E as <- <-. eauto.
  - left. destruct (m_give inl size o a s) as [s2| |] eqn:E2; try discriminate. injection E as <- <-. eauto.
  - left. unfold m_track in E. destruct (m_obj s o); [|discriminate]. destruct (_ <? _)%nat; [|discriminate]. now injection E as <- <-.
  - left. unfold m_wire in E. destruct (m_pump s) as [|[[o own] a] r]; [now injection E as <- <-|]. destruct inl.
    + destruct (m_live s o); [|discriminate]. now injection E as <- <-.
    + destruct (m_read s o); try discriminate. cbn [bind] in E. destruct (m_drop o s) as [s2| |] eqn:E2; try discriminate. injection E as <- <-. cbn. eauto.
  - left. unfold m_service in E. destruct (nth_error (m_retry s) k) as [f|]; [|now injection E as <- <-]. destruct (x_due f <=? now); [|now injection E as <- <-].
    destruct (_ <? _); [|destruct (_ =? _); [|now injection E as <- <-]];
      (destruct (m_give inl size (x_obj f) (x_addr f) s) as [s2| |] eqn:E2; try discriminate; injection E as <- <-; cbn; eauto).
  - left. unfold m_ack in E. destruct (_ =? _); [|now injection E as <- <-]. destruct (m_match same s m a vs) as [[k|]| |]; try discriminate; now injection E as <- <-.
Qed.
Lemma run_hdr : forall inl w size same os s s1 ws, m_run inl w size same os s = Ok (s1, ws) -> Forall (fun m => hdr_ok (n_hdr m)) (made os) ->
  (forall o, hdr_ok (n_hdr (m_msg s o))) -> forall o, hdr_ok (n_hdr (m_msg s1 o)).
Proof.
  intros inl w size same. induction os as [|op os IH]; intros s s1 ws E HF H; cbn [m_run] in E.
  - injection E as <- <-. exact H.
  - destruct (m_step inl w size same op s) as [[s2 w2]| |] eqn:E2; try discriminate. cbn [bind fst snd] in E.
    destruct (m_run inl w size same os s2) as [[s3 w3]| |] eqn:E3; try discriminate. cbn [bind fst snd] in E. injection E as <- <-.
    apply (IH _ _ _ E3).
    + destruct op; cbn [made] in HF; auto. now inversion HF.
    + destruct (step_msg _ _ _ _ _ _ _ _ E2) as [->|(m & -> & ->)]; [exact H|]. cbn [made] in HF. inversion HF; subst. intro o. unfold upd. destruct (Nat.eqb o (m_next s)); auto.
Qed.

Lemma read_cases : forall s o, m_read s o = Fault \/ (m_read s o = Ok (m_msg s o) /\ m_live s o = true).
Proof. intros s o. unfold m_read. destruct (m_obj s o); auto. destruct (m_live s o); auto. Qed.

Lemma match_fault : forall same s m a vs, hdr_ok (n_hdr m) -> (forall o, hdr_ok (n_hdr (m_msg s o))) ->
  (forall k, In k vs -> (k < length (m_retry s))%nat) ->
  (forall k it, In k vs -> nth_error (m_retry s) k = Some it -> m_live s (x_obj it) = false \/ ~ answers same m a (m_msg s (x_obj it)) (x_addr it)) ->
  (exists k it, In k vs /\ nth_error (m_retry s) k = Some it /\ m_live s (x_obj it) = false) ->
  m_match same s m a vs = Fault.
Proof.
  intros same s m a vs Hm Hs. induction vs as [|k vs IH]; intros Lt Un (k0 & it0 & I0 & N0 & D0); [destruct I0|]. cbn [m_match].
  destruct (nth_error (m_retry s) k) as [it|] eqn:Ek; [|reflexivity].
  destruct (read_cases s (x_obj it)) as [->|[-> L]]; [reflexivity|]. cbn [bind].
  destruct (matches _ _ _ _ _) eqn:Em.
  - apply (matches_answers same m a (Item 0 0 0 (x_addr it) (m_msg s (x_obj it)) 0) Hm (Hs _)) in Em. cbn in Em.
    destruct (Un k it (or_introl eq_refl) Ek) as [X|X]; [congruence|contradiction].
  - apply IH; [intros; apply Lt; now right|intros k1 it1 H1; apply (Un k1 it1); now right|].
    destruct I0 as [->|I0]; [|eauto]. rewrite Ek in N0. injection N0 as ->. congruence.
Qed.

Lemma match_alive : forall same s m a vs, hdr_ok (n_hdr m) -> (forall o, hdr_ok (n_hdr (m_msg s o))) ->
  (forall k, In k vs -> (k < length (m_retry s))%nat) ->
  (forall it, In it (m_retry s) -> m_read s (x_obj it) = Ok (m_msg s (x_obj it))) ->
  (exists k it, m_match same s m a vs = Ok (Some k) /\ In k vs /\ nth_error (m_retry s) k = Some it /\ answers same m a (m_msg s (x_obj it)) (x_addr it)) \/
  (m_match same s m a vs = Ok None /\ forall k it, In k vs -> nth_error (m_retry s) k = Some it -> ~ answers same m a (m_msg s (x_obj it)) (x_addr it)).
Proof.
  intros same s m a vs Hm Hs. induction vs as [|k vs IH]; intros Lt Rd; [right; split; [reflexivity|intros k it []]|]. cbn [m_match].
  destruct (nth_error (m_retry s) k) as [it|] eqn:Ek.
  2: { apply nth_error_None in Ek. specialize (Lt k (or_introl eq_refl)). lia. }
  rewrite (Rd it) by (eapply nth_error_In; exact Ek). cbn [bind].
  pose proof (matches_answers same m a (Item 0 0 0 (x_addr it) (m_msg s (x_obj it)) 0) Hm (Hs _)) as MA. cbn in MA.
  destruct (matches _ _ _ _ _).
  - left. exists k, it. repeat split; auto; try (now left); now apply MA.
  - destruct (IH (fun j H => Lt j (or_intror H)) Rd) as [(k1 & it1 & A1 & A2 & A3 & A4)|[A1 A2]].
    + left. exists k1, it1. repeat split; auto; try (now right); apply A4.
    + right. split; [exact A1|]. intros k1 it1 [<-|H] N1; [|eauto]. rewrite Ek in N1. injection N1 as <-. intro X. apply MA in X. discriminate.
Qed.

(** ** Nothing sent or destroyed yet *)
Definition whole (s : mem) : Prop :=
  (forall o, (o < m_next s)%nat -> m_live s o = true /\ m_obj s o <> None) /\ (forall it, In it (m_retry s) -> (x_obj it < m_next s)%nat).
Lemma whole_step : forall inl w size same op s s1 ws, quiet op -> good inl s -> whole s -> m_step inl w size same op s = Ok (s1, ws) -> whole s1 /\ ws = [].
Proof.
  intros inl w size same op s s1 ws Q G [A B] E. destruct op as [m|o|o a|o a now r| |now k|m a vs]; cbn [m_step] in E; try destruct Q.
  - injection E as <- <-. split; [|reflexivity]. split; cbn.
    + intros o Lo. destruct (Nat.eq_dec o (m_next s)) as [->|N]; [rewrite !upd_same; split; [reflexivity|discriminate]|]. rewrite !upd_other by exact N. apply A. lia.
    + intros it H. apply B in H. lia.
  - destruct (m_give inl size o a s) as [s2| |] eqn:E2; try discriminate. injection E as <- <-. split; [|reflexivity].
    destruct (good_give _ _ _ _ _ _ G E2) as (_ & N2 & R2 & M2 & V2 & own & P2). split; [|rewrite R2, N2; exact B]. intros i Li. rewrite N2 in Li. rewrite V2. split; [now apply A|].
    unfold m_give in E2. destruct (m_obj s o) eqn:O; [|discriminate]. destruct (_ <? _)%nat; [|discriminate]. injection E2 as <-. cbn. destruct inl; [|now apply A].
    destruct (Nat.eq_dec i o) as [->|N]; [rewrite upd_same; discriminate|rewrite upd_other by exact N; now apply A].
  - destruct (m_track w o a now r s) as [s2| |] eqn:E2; try discriminate. injection E as <- <-. split; [|reflexivity].
    destruct (good_track _ _ _ _ _ _ _ _ G E2) as (_ & N2 & M2 & V2 & P2 & Lt & R2). split.
    + intros i Li. rewrite N2 in Li. rewrite V2. split; [now apply A|]. unfold m_track in E2. destruct (m_obj s o); [|discriminate]. destruct (_ <? _)%nat; [|discriminate]. injection E2 as <-. now apply A.
    + intros it H. rewrite N2. apply R2 in H. destruct H as [H|[-> _]]; auto.
  - destruct (m_service inl w size now k s) as [s2| |] eqn:E2; try discriminate. injection E as <- <-. split; [|reflexivity].
    destruct (good_service _ _ _ _ _ _ _ G E2) as (_ & N2 & M2 & V2 & P2 & R2). split.
    + intros i Li. rewrite N2 in Li. rewrite V2. split; [now apply A|].
      assert (K : forall f s3, m_give inl size (x_obj f) (x_addr f) s = Ok s3 -> m_obj s3 i <> None).
      { intros f s3 E3. unfold m_give in E3. destruct (m_obj s (x_obj f)) eqn:O; [|discriminate]. destruct (_ <? _)%nat; [|discriminate]. injection E3 as <-. cbn. destruct inl; [|now apply A].
        destruct (Nat.eq_dec i (x_obj f)) as [->|N]; [rewrite upd_same; discriminate|rewrite upd_other by exact N; now apply A]. }
      unfold m_service in E2. destruct (nth_error (m_retry s) k) as [f|]; [|injection E2 as <-; now apply A]. destruct (x_due f <=? now); [|injection E2 as <-; now apply A].
      destruct (_ <? _); [|destruct (_ =? _); [|injection E2 as <-; now apply A]];
        (destruct (m_give inl size (x_obj f) (x_addr f) s) as [s3| |] eqn:E3; try discriminate; injection E2 as <-; cbn; now apply (K f)).
    + intros it H. rewrite N2. apply R2 in H. destruct H as (g & H & <- & _). auto.
  - destruct (m_ack same m a vs s) as [s2| |] eqn:E2; try discriminate. injection E as <- <-. split; [|reflexivity].
    destruct (good_ack _ _ _ _ _ _ _ G E2) as (_ & N2 & M2 & V2 & P2 & R2). split.
    + intros i Li. rewrite N2 in Li. rewrite V2. split; [now apply A|]. unfold m_ack in E2. destruct (_ =? _); [|injection E2 as <-; now apply A].
      destruct (m_match same s m a vs) as [[k|]| |]; try discriminate; injection E2 as <-; now apply A.
    + intros it H. rewrite N2. auto.
Qed.
Lemma whole_run : forall inl w size same os s s1 ws, Forall quiet os -> good inl s -> whole s -> m_run inl w size same os s = Ok (s1, ws) -> whole s1 /\ ws = [].
Proof.
  intros inl w size same. induction os as [|op os IH]; intros s s1 ws Q G W E; cbn [m_run] in E.
  - injection E as <- <-. auto.
  - inversion Q; subst. destruct (m_step inl w size same op s) as [[s2 w2]| |] eqn:E2; try discriminate. cbn [bind fst snd] in E.
    destruct (m_run inl w size same os s2) as [[s3 w3]| |] eqn:E3; try discriminate. cbn [bind fst snd] in E. injection E as <- <-.
    destruct (step_all _ _ _ _ _ _ _ _ G E2) as (G2 & _). destruct (whole_step _ _ _ _ _ _ _ _ H1 G W E2) as [W2 ->].
    destruct (IH _ _ _ H2 G2 W2 E3) as [W3 ->]. auto.
Qed.
Lemma whole0 : whole mem0.
Proof. split; cbn; [lia|intros it []]. Qed.

(** ** The helper *)
Lemma remove_nil : forall (X : Type) k, @nil X = firstn k [] ++ skipn (S k) [].
Proof. intros X k. now rewrite firstn_nil, skipn_nil. Qed.
Lemma ack_nil : forall m k, fst (service_ack m k []) = [].
Proof. intros m k. unfold service_ack. destruct (_ =? _); [|reflexivity]. destruct k as [k|]; [|reflexivity]. cbn. unfold remove_at. destruct k; reflexivity. Qed.
Lemma helper_ack_nil : forall d k p h, helper_ack d k (Helper p []) = Ok h -> h = Helper p [].
Proof.
  intros d k p h E. unfold helper_ack in E. cbn [s_pump s_retry] in E. destruct (p_in p) as [|[a b] r]; [now injection E as <-|].
  destruct (nd_header b true (ND d 0)) as [x| |]; try discriminate. cbn [bind] in E. destruct (nd_token b true (snd x)) as [y| |]; try discriminate. cbn [bind] in E.
  rewrite ack_nil in E. now injection E as <-.
Qed.
Lemma helper_retry_nil : forall w size now k p, helper_retry w size now k (Helper p []) = Ok (Helper p []).
Proof. intros w size now k [i o]. unfold helper_retry, service_retry. cbn [s_retry]. destruct k; reflexivity. Qed.

Lemma recv_out : forall A size v (p p1 : pump A), posix_recv size v p = Ok (Some p1) -> p_out p1 = p_out p.
Proof.
  intros A size v p p1 E. destruct v as [|a dg|]; cbn [posix_recv] in E; [now injection E as <-| |discriminate].
  destruct (firstn nb_size dg) as [|b l]; [discriminate|]. destruct (enqueue size (a, b :: l) (p_in p)) as [q| |]; try discriminate. now injection E as <-.
Qed.

Lemma hop_step_nil : forall w size d o p h1 ws, hop_step w size d o (Helper p []) = Ok (h1, ws) ->
  match h1 with
  | Some h => s_retry h = [] /\ p_out p ++ asked [(o, d)] = ws ++ p_out (s_pump h)
  | None => exists r, p_out p = ws ++ r
  end.
Proof.
  intros w size d o p h1 ws E. destruct o as [a dg|e now ka kt|]; cbn [hop_step] in E.
  - unfold helper_enqueue in E. destruct (nd_header dg true (ND d 0)) as [x| |]; try discriminate. cbn [bind s_pump s_retry] in E.
    unfold enqueue in E. destruct (_ <? _)%nat; [|discriminate]. cbn [bind] in E. injection E as <- <-. cbn. auto.
  - cbn [s_pump s_retry] in E. unfold posix_loop in E. destruct (p_out p) as [|x q] eqn:Eo.
    + destruct (posix_recv size (v_poll e) p) as [[p1|]| |] eqn:Er; try discriminate; cbn [bind fst snd] in E.
      * destruct (helper_ack d ka (Helper p1 [])) as [h2| |] eqn:Ea; try discriminate. apply helper_ack_nil in Ea. subst h2. cbn [bind] in E. rewrite helper_retry_nil in E. cbn [bind] in E.
        injection E as <- <-. cbn. apply recv_out in Er. rewrite Er, Eo. auto.
      * injection E as <- <-. exists []. reflexivity.
    + destruct (v_sent e).
      * destruct (posix_recv size (v_poll e) _) as [[p1|]| |] eqn:Er; try discriminate; cbn [bind fst snd] in E.
        -- destruct (helper_ack d ka (Helper p1 [])) as [h2| |] eqn:Ea; try discriminate. apply helper_ack_nil in Ea. subst h2. cbn [bind] in E. rewrite helper_retry_nil in E. cbn [bind] in E.
           injection E as <- <-. cbn. apply recv_out in Er. rewrite Er. cbn. split; [reflexivity|]. now rewrite app_nil_r.
        -- injection E as <- <-. exists q. reflexivity.
      * cbn [bind fst snd] in E. injection E as <- <-. exists (x :: q). reflexivity.
  - injection E as <- <-. cbn. rewrite app_nil_r. auto.
Qed.

Lemma asked_cons : forall o d os, asked ((o, d) :: os) = asked [(o, d)] ++ asked os.
Proof. intros [a dg|e now ka kt|] d os; reflexivity. Qed.
Lemma hop_run_nil : forall w size os p h1 ws, hop_run w size os (Helper p []) = Ok (h1, ws) ->
  match h1 with
  | Some h => s_retry h = [] /\ p_out p ++ asked os = ws ++ p_out (s_pump h)
  | None => exists r, p_out p ++ asked os = ws ++ r
  end.
Proof.
  intros w size. induction os as [|[o d] os IH]; intros p h1 ws E; cbn [hop_run] in E.
  - injection E as <- <-. cbn. rewrite app_nil_r. auto.
  - destruct (hop_step w size d o (Helper p [])) as [[h2 w2]| |] eqn:E2; try discriminate. apply hop_step_nil in E2. cbn [bind fst snd] in E. rewrite asked_cons.
    destruct h2 as [[p2 q2]|].
    + destruct E2 as [R2 E2]. cbn [s_retry s_pump] in R2, E2. subst q2.
      destruct (hop_run w size os (Helper p2 [])) as [[h3 w3]| |] eqn:E3; try discriminate. cbn [bind fst snd] in E. injection E as <- <-. apply IH in E3.
      rewrite app_assoc, E2, <- app_assoc. destruct h3 as [h3|].
      * destruct E3 as [R3 E3]. split; [exact R3|]. now rewrite E3, app_assoc.
      * destruct E3 as [r E3]. exists r. now rewrite E3, app_assoc.
    + injection E as <- <-. destruct E2 as [r ->]. exists (r ++ asked [(o, d)] ++ asked os). now rewrite <- !app_assoc.
Qed.

Lemma ack_reads : forall d k p a b r, p_in p = (a, b) :: r -> idle d ->
  (readable b -> helper_ack d k (Helper p []) = Ok (Helper p [])) /\ (unreadable b -> helper_ack d k (Helper p []) = Fault).
Proof.
  intros d k p a b r Ep Hd. unfold helper_ack. cbn [s_pump s_retry]. rewrite Ep. split.
  - intros (h & tok & rest & -> & Hb & Ht & H8). rewrite <- tkl_mod in Ht. destruct (header_token true d h tok rest Hd Hb Ht H8) as (x1 & x2 & A & B & _).
    rewrite A. cbn [bind fst snd]. rewrite B. cbn [bind fst snd]. now rewrite ack_nil.
  - intros [Hs|(h & rest & -> & Hb)]; [now rewrite header_short|]. rewrite <- tkl_mod in Hb.
    destruct (token_short true d h rest Hd) as (x & A & B); [rewrite tkl_mod; apply N.mod_lt; discriminate|exact Hb|]. rewrite A. cbn [bind fst snd]. now rewrite B.
Qed.

(** ** The retry queue is the one of C25-C30 *)

Definition tracked (s : mem) : Prop := (length (m_retry s) <= QUEUE_MAX)%nat /\ forall it, In it (m_retry s) -> (x_obj it < m_next s)%nat.

Lemma drop_at_map : forall X Y (f : X -> Y) k q, map f (drop_at k q) = drop_at k (map f q).
Proof. intros. unfold drop_at. now rewrite map_app, firstn_map, skipn_map. Qed.
Lemma drop_at_in : forall X k (q : list X) x, In x (drop_at k q) -> In x q.
Proof.
  intros X k q x H. unfold drop_at in H. apply in_app_iff in H. rewrite <- (firstn_skipn k q). apply in_app_iff. destruct H as [H|H]; [left; exact H|right].
  revert q H. induction k as [|k IH]; intros [|y q] H; cbn in *; auto.
Qed.
Lemma drop_at_length : forall X k (q : list X) x, nth_error q k = Some x -> S (length (drop_at k q)) = length q.
Proof.
  intros X k q x H. assert (L : (k < length q)%nat) by (apply nth_error_Some; congruence). unfold drop_at. rewrite app_length, firstn_length, skipn_length. lia.
Qed.

Lemma give_view : forall inl size o a s s1, m_give inl size o a s = Ok s1 -> view s1 = view s /\ queued s1 = queued s ++ [(o, a)] /\ m_retry s1 = m_retry s /\ m_next s1 = m_next s /\ m_msg s1 = m_msg s.
Proof.
  intros inl size o a s s1 E. unfold m_give in E. destruct (m_obj s o) as [own|]; [|discriminate]. destruct (_ <? _)%nat; [|discriminate]. injection E as <-.
  unfold view, queued. cbn. rewrite map_app. auto.
Qed.

Lemma match_view : forall same s m a vs r, m_match same s m a vs = Ok r ->
  match r with
  | Some k => exists it, nth_error (m_retry s) k = Some it /\ matches same a (hdr_mid (n_hdr m)) (n_tok m) (Item 0 0 0 (x_addr it) (m_msg s (x_obj it)) 0) = true
  | None => forall k it, In k vs -> nth_error (m_retry s) k = Some it -> matches same a (hdr_mid (n_hdr m)) (n_tok m) (Item 0 0 0 (x_addr it) (m_msg s (x_obj it)) 0) = false
  end.
Proof.
  intros same s m a vs. induction vs as [|k vs IH]; intros r H; cbn [m_match] in H.
  - injection H as <-. intros k it [].
  - destruct (nth_error (m_retry s) k) as [it|] eqn:E; [|discriminate]. unfold m_read in H. destruct (m_obj s (x_obj it)); [|discriminate]. destruct (m_live s (x_obj it)); [|discriminate]. cbn [bind] in H.
    destruct (matches _ _ _ _ _) eqn:M; [injection H as <-; eauto|]. specialize (IH _ H). destruct r as [j|]; [exact IH|].
    intros j it' [<-|I] F; [congruence|eauto].
Qed.

Lemma step_view : forall inl w size same o s s1 l, good inl s -> tracked s -> m_step inl w size same o s = Ok (s1, l) -> tracked s1 /\
  match o with
  | OTrack i a now r => push (new_item w i (m_msg s i) a now r) (view s) = Ok (view s1) /\ queued s1 = queued s
  | OService now k => exists outs, service_retry w now k (view s) = Ok (view s1, outs) /\ queued s1 = queued s ++ map (fun e => (fst (fst e), snd e)) outs
  | OAck m a vs => (whole_vector s vs -> exists k, view s1 = fst (service_ack m k (view s)) /\
      (hdr_type (n_hdr m) = ACK -> is_match same a (hdr_mid (n_hdr m)) (n_tok m) (view s) k = true)) /\ queued s1 = queued s
  | OSend i a => view s1 = view s /\ queued s1 = queued s ++ [(i, a)]
  | OWire => view s1 = view s /\ queued s1 = tl (queued s)
  | ONew _ | ODrop _ => view s1 = view s /\ queued s1 = queued s
  end.
Proof.
  intros inl w size same o s s1 l G [T1 T2] E. destruct o as [m|i|i a|i a now r| |now k|m a vs]; cbn [m_step] in E.
  - injection E as <- <-. split; [split; [exact T1|cbn; intros it H; apply T2 in H; lia]|]. split; [|reflexivity]. unfold view. cbn. apply map_ext_in. intros it H. apply T2 in H. rewrite upd_other by lia. reflexivity.
  - destruct (m_drop i s) as [s2| |] eqn:D; try discriminate. cbn [bind] in E. injection E as <- <-. unfold m_drop in D. destruct (m_obj s i); [|discriminate]. injection D as <-. split; [split; assumption|]. now split.
  - destruct (m_give inl size i a s) as [s2| |] eqn:D; try discriminate. cbn [bind] in E. injection E as <- <-. destruct (give_view _ _ _ _ _ _ D) as (V & Q & R & N & M). unfold tracked. rewrite R, N. auto.
  - unfold m_track in E. destruct (m_obj s i) as [own|] eqn:O; [|discriminate]. destruct (length (m_retry s) <? QUEUE_MAX)%nat eqn:L; [|discriminate]. cbn [bind] in E. injection E as <- <-.
    assert (Lt : (i < m_next s)%nat) by (destruct (Nat.lt_ge_cases i (m_next s)) as [X|X]; [exact X|]; destruct (g_fresh _ _ G i X); congruence).
    split.
    + split; cbn [m_retry m_next]; [apply Nat.ltb_lt in L; rewrite app_length; cbn [length]; lia|]. intros it H. apply in_app_iff in H. destruct H as [H|[<-|[]]]; [auto|exact Lt].
    + split; [|reflexivity]. unfold push, view. rewrite map_length, L. cbn [m_retry m_msg]. rewrite map_app. reflexivity.
  - unfold m_wire in E. destruct (m_pump s) as [|[[o own] a] r] eqn:P.
    + injection E as <- <-. split; [split; assumption|]. split; [reflexivity|]. unfold queued. now rewrite P.
    + assert (X : m_retry s1 = m_retry s /\ m_next s1 = m_next s /\ m_msg s1 = m_msg s /\ m_pump s1 = r).
      { destruct inl; [destruct (m_live s o); [|discriminate]; injection E as <- <-; auto|]. unfold m_read in E. destruct (m_obj s o) eqn:O; [|discriminate]. destruct (m_live s o); [|discriminate].
        cbn [bind] in E. unfold m_drop in E. rewrite O in E. cbn [bind] in E. injection E as <- <-. auto. }
      destruct X as (X1 & X2 & X3 & X4). unfold tracked, view, queued. rewrite X1, X2, X3, X4, P. auto.
  - destruct (m_service inl w size now k s) as [s2| |] eqn:D; try discriminate. cbn [bind] in E. injection E as <- <-. unfold m_service in D.
    assert (NV : nth_error (view s) k = option_map (fun it => Item (x_obj it) (x_count it) (x_init it) (x_addr it) (m_msg s (x_obj it)) (x_due it)) (nth_error (m_retry s) k)) by (unfold view; apply nth_error_map).
    unfold service_retry. rewrite NV. destruct (nth_error (m_retry s) k) as [f|] eqn:F; cbn [option_map].
    2: { injection D as <-. split; [split; assumption|]. exists []. cbn. rewrite app_nil_r. auto. }
    cbn [i_due i_count i_init i_addr i_msg i_id]. pose proof (drop_at_length _ _ _ _ F) as DL. pose proof (nth_error_In _ _ F) as FI.
    assert (RV : forall q msg, remove_at k (map (fun it => Item (x_obj it) (x_count it) (x_init it) (x_addr it) (msg (x_obj it)) (x_due it)) q) = map (fun it => Item (x_obj it) (x_count it) (x_init it) (x_addr it) (msg (x_obj it)) (x_due it)) (drop_at k q)).
    { intros q msg. rewrite drop_at_map. reflexivity. }
    destruct (x_due f <=? now).
    2: { injection D as <-. split; [split; assumption|]. exists []. cbn. rewrite app_nil_r. auto. }
    destruct (x_count f <? MAX_RETRANSMIT - 2).
    + destruct (m_give inl size (x_obj f) (x_addr f) s) as [s3| |] eqn:Gv; try discriminate. cbn [bind] in D. injection D as <-. destruct (give_view _ _ _ _ _ _ Gv) as (V & Q & R & N & M). split.
      * split; cbn [m_requeue m_retry m_next]; [rewrite app_length; cbn [length]; rewrite R; unfold QUEUE_MAX in *; lia|]. rewrite N. intros it H. apply in_app_iff in H. destruct H as [H|[<-|[]]]; [|cbn; auto]. rewrite R in H. apply drop_at_in in H. auto.
      * exists [(x_obj f, m_msg s (x_obj f), x_addr f)]. split.
        -- unfold push. unfold view at 1. unfold view at 1. rewrite RV, map_length. assert (LT : (length (drop_at k (m_retry s)) <? QUEUE_MAX)%nat = true) by (apply Nat.ltb_lt; unfold QUEUE_MAX in *; lia). rewrite LT. cbn [bind].
           unfold view, m_requeue. cbn [m_retry m_msg]. rewrite R, M, map_app. reflexivity.
        -- unfold queued in *. cbn [m_requeue m_pump map fst snd]. exact Q.
    + destruct (x_count f =? MAX_RETRANSMIT - 2).
      * destruct (m_give inl size (x_obj f) (x_addr f) s) as [s3| |] eqn:Gv; try discriminate. cbn [bind] in D. injection D as <-. destruct (give_view _ _ _ _ _ _ Gv) as (V & Q & R & N & M). split.
        -- split; cbn [m_requeue m_retry m_next]; [rewrite R; lia|]. rewrite N, R. intros it H. apply drop_at_in in H. auto.
        -- exists [(x_obj f, m_msg s (x_obj f), x_addr f)]. split; [|unfold queued in *; exact Q]. unfold view, m_requeue. cbn [m_retry m_msg]. rewrite RV, R, M. reflexivity.
      * injection D as <-. split.
        -- split; cbn [m_requeue m_retry m_next]; [lia|]. intros it H. apply drop_at_in in H. auto.
        -- exists []. split; [|cbn; rewrite app_nil_r; reflexivity]. unfold view, m_requeue. cbn [m_retry m_msg]. rewrite RV. reflexivity.
  - destruct (m_ack same m a vs s) as [s2| |] eqn:D; try discriminate. cbn [bind] in E. injection E as <- <-. unfold m_ack in D. unfold service_ack.
    destruct (hdr_type (n_hdr m) =? ACK) eqn:A.
    + destruct (m_match same s m a vs) as [r| |] eqn:M; try discriminate. cbn [bind] in D. injection D as <-. pose proof (match_view _ _ _ _ _ _ M) as MV. destruct r as [k|].
      * destruct MV as (it & F & MV). pose proof (drop_at_length _ _ _ _ F) as DL. split; [|split; [|reflexivity]].
        -- split; cbn [m_requeue m_retry m_next]; [lia|]. intros x H. apply drop_at_in in H. auto.
        -- intros _. exists (Some k). split; [unfold view, m_requeue; cbn [m_retry m_msg ack_received fst]; rewrite drop_at_map; reflexivity|]. intros _. cbn [is_match]. unfold view. rewrite nth_error_map, F. exact MV.
      * split; [split; assumption|]. split; [|reflexivity]. intros [_ W]. exists None. split; [reflexivity|]. intros _. cbn [is_match]. apply forallb_forall. intros x H. unfold view in H. apply in_map_iff in H.
        destruct H as (it & <- & H). apply In_nth_error in H. destruct H as (j & H). assert (Ij : In j vs) by (apply W; apply nth_error_Some; congruence). apply negb_true_iff. exact (MV j it Ij H).
    + injection D as <-. split; [split; assumption|]. split; [|reflexivity]. intros _. exists None. split; [reflexivity|]. intro X. apply N.eqb_neq in A. contradiction.
Qed.

Lemma run_tracked : forall inl w size same os s s1 ws, good inl s -> tracked s -> m_run inl w size same os s = Ok (s1, ws) -> tracked s1.
Proof.
  intros inl w size same os. induction os as [|o os IH]; intros s s1 ws G T E; cbn [m_run] in E; [injection E as <- <-; exact T|].
  destruct (m_step inl w size same o s) as [[s2 l]| |] eqn:D; try discriminate. cbn [bind fst snd] in E. destruct (m_run inl w size same os s2) as [[s3 l3]| |] eqn:F; try discriminate. cbn [bind fst snd] in E. injection E as <- <-.
  assert (R1 : m_run inl w size same [o] s = Ok (s2, l ++ [])) by (cbn [m_run]; rewrite D; reflexivity).
  apply (IH s2 s3 l3); [apply (run_once inl w size same [o] s s2 _ G R1)|exact (proj1 (step_view _ _ _ _ _ _ _ _ G T D))|exact F].
Qed.
