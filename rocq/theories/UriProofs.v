From Coq Require Import ZArith.
From Verif Require Import Base UriModel UriSpec.
Local Open Scope Z_scope.

Lemma str_eqb_eq : forall a b, str_eqb a b = true <-> a = b.
Proof.
  induction a as [|x a IH]; intros [|y b]; cbn [str_eqb]; split; intro H; try reflexivity; try discriminate.
  - apply andb_true_iff in H. destruct H as [H1 H2]. apply N.eqb_eq in H1. apply IH in H2. congruence.
  - injection H as <- <-. rewrite N.eqb_refl. cbn [andb]. apply IH. reflexivity.
Qed.
Lemma str_eqb_sym : forall a b, str_eqb a b = str_eqb b a.
Proof. intros a b. destruct (str_eqb a b) eqn:E, (str_eqb b a) eqn:F; try reflexivity; [apply str_eqb_eq in E|apply str_eqb_eq in F]; subst; rewrite (proj2 (str_eqb_eq _ _) eq_refl) in *; discriminate. Qed.

(** the test all the lookups make *)
Definition hit (s : list N) (p : Z) (r : row) : bool := str_eqb s (r_seg r) && (r_parent r =? p).
Lemma hit_iff : forall s p r, hit s p r = true <-> r_seg r = s /\ r_parent r = p.
Proof. intros s p r. unfold hit. rewrite andb_true_iff, str_eqb_eq, Z.eqb_eq. intuition congruence. Qed.

Lemma match_row_find : forall rows s p, match_row rows s p = find (hit s p) rows.
Proof. induction rows as [|r rows IH]; intros s p; [reflexivity|]. cbn [match_row find]. unfold hit at 1. destruct (_ && _); [reflexivity|apply IH]. Qed.

(** scanning: what is before the hit is dropped *)
Fixpoint drop_to (f : row -> bool) (l : list row) : list row :=
  match l with [] => [] | r :: t => if f r then r :: t else drop_to f t end.

Lemma scan_spec : forall rows p s, m3_scan rows p s =
  match drop_to (hit s p) rows with [] => (None, M3 [] NONE) | r :: t => (Some r, M3 (r :: t) (r_id r)) end.
Proof.
  induction rows as [|r rows IH]; intros p s; [reflexivity|]. cbn [m3_scan drop_to]. unfold hit at 1. rewrite (str_eqb_sym s).
  destruct (r_parent r =? p) eqn:E; destruct (str_eqb (r_seg r) s) eqn:F; cbn [andb]; try apply IH. reflexivity.
Qed.

Lemma base_find_spec : forall rows s p, base_find s p rows =
  match drop_to (hit s p) rows with [] => (NONE, []) | r :: t => (r_id r, r :: t) end.
Proof. induction rows as [|r rows IH]; intros s p; [reflexivity|]. cbn [base_find drop_to]. unfold hit at 1. destruct (_ && _); [reflexivity|apply IH]. Qed.

Lemma drop_to_split : forall f l r t, drop_to f l = r :: t -> exists pre, l = pre ++ r :: t /\ f r = true /\ (forall c, In c pre -> f c = false).
Proof.
  induction l as [|x l IH]; intros r t H; [discriminate|]. cbn [drop_to] in H. destruct (f x) eqn:E.
  - injection H as <- <-. exists []. repeat split; auto. intros c [].
  - destruct (IH _ _ H) as (pre & -> & A & B). exists (x :: pre). repeat split; auto. intros c [<-|C]; auto.
Qed.
Lemma drop_to_nil : forall f l, drop_to f l = [] <-> (forall c, In c l -> f c = false).
Proof.
  induction l as [|x l IH]; cbn [drop_to]; [split; [intros _ c []|reflexivity]|]. destruct (f x) eqn:E; split; intro H; try discriminate.
  - specialize (H x (or_introl eq_refl)). congruence.
  - intros c [<-|C]; [exact E|apply IH; assumption].
  - apply IH. intros c C. apply H. right. exact C.
Qed.
Lemma drop_to_app : forall f pre l, (forall c, In c pre -> f c = false) -> drop_to f (pre ++ l) = drop_to f l.
Proof. induction pre as [|x pre IH]; intros l H; [reflexivity|]. cbn [app drop_to]. rewrite (H x (or_introl eq_refl)). apply IH. intros c C. apply H. right. exact C. Qed.
Lemma find_drop : forall f l, find f l = match drop_to f l with [] => None | r :: _ => Some r end.
Proof. induction l as [|x l IH]; [reflexivity|]. cbn [find drop_to]. destruct (f x); [reflexivity|apply IH]. Qed.

(** ---- the stateful matcher ---- *)

Lemma path_dead : forall path p, m3_path path (M3 [] p) = (map (fun _ => None) path, M3 [] (match path with [] => p | _ => NONE end)).
Proof.
  induction path as [|s path IH]; intro p; [reflexivity|]. cbn [m3_path]. unfold m3_find. cbn [m_rest m_parent m3_scan]. rewrite IH. cbn [map].
  destruct path; reflexivity.
Qed.

Lemma path_sound : forall path rows p rs m, m3_path path (M3 rows p) = (rs, m) -> Forall (fun r => r <> None) rs -> ordered rows p path (m_parent m).
Proof.
  induction path as [|s path IH]; intros rows p rs m H F.
  - cbn [m3_path] in H. injection H as <- <-. constructor.
  - cbn [m3_path] in H. unfold m3_find in H. cbn [m_rest m_parent] in H. rewrite scan_spec in H.
    destruct (drop_to (hit s p) rows) as [|r t] eqn:D.
    + destruct (m3_path path _) as [rs' m']. injection H as <- _. inversion F. congruence.
    + destruct (m3_path path (M3 (r :: t) (r_id r))) as [rs' m'] eqn:E. injection H as <- <-. inversion F; subst.
      destruct (drop_to_split _ _ _ _ D) as (pre & -> & A & _). apply hit_iff in A. destruct A as [A1 A2]. subst p.
      econstructor; [reflexivity|exact A1|]. eapply IH; eassumption.
Qed.

Lemma unique_tail : forall a b, unique_siblings (a ++ b) -> unique_siblings b.
Proof. unfold unique_siblings. induction a as [|x a IH]; intros b H; [exact H|]. cbn [app map] in H. inversion H. auto. Qed.

Lemma path_complete : forall path rows p id, ordered rows p path id -> unique_siblings rows ->
  exists rs m, m3_path path (M3 rows p) = (rs, m) /\ Forall (fun r => r <> None) rs /\ m_parent m = id.
Proof.
  induction path as [|s path IH]; intros rows p id H U; inversion H as [|pre r post s' path' id' E1 E2 H4]; subst.
  - exists [], (M3 rows id). repeat split; constructor.
  - cbn [m3_path]. unfold m3_find. cbn [m_rest m_parent]. rewrite scan_spec.
    rewrite drop_to_app.
    + cbn [drop_to]. rewrite (proj2 (hit_iff _ _ r) (conj eq_refl eq_refl)).
      destruct (IH _ _ _ H4 (unique_tail pre _ U)) as (rs & m & E & F & G). rewrite E. exists (Some r :: rs), m.
      split; [reflexivity|]. split; [constructor; [discriminate|exact F]|exact G].
    + intros c C. destruct (hit (r_seg r) (r_parent r) c) eqn:K; [|reflexivity]. apply hit_iff in K. destruct K as [K1 K2].
      exfalso. unfold unique_siblings in U. rewrite map_app in U. cbn [map] in U. apply NoDup_remove_2 in U. apply U. apply in_or_app. left.
      rewrite <- K1, <- K2. apply (in_map (fun r => (r_seg r, r_parent r))) in C. exact C.
Qed.

Lemma path_all : forall path rows p rs m, ids_real rows -> path <> [] -> m3_path path (M3 rows p) = (rs, m) -> m_parent m <> NONE -> Forall (fun r => r <> None) rs.
Proof.
  induction path as [|s path IH]; intros rows p rs m R Hne H Hm; [congruence|].
  cbn [m3_path] in H. unfold m3_find in H. cbn [m_rest m_parent] in H. rewrite scan_spec in H.
  destruct (drop_to (hit s p) rows) as [|r t] eqn:D.
  - rewrite path_dead in H. injection H as <- <-. cbn [m_parent] in Hm. destruct path; congruence.
  - destruct (m3_path path (M3 (r :: t) (r_id r))) as [rs' m'] eqn:E. injection H as <- <-. constructor; [discriminate|].
    destruct path as [|s' path]; [injection E as <- _; constructor|].
    eapply IH; [|discriminate|exact E|exact Hm]. destruct (drop_to_split _ _ _ _ D) as (pre & -> & _). apply Forall_app in R. apply R.
Qed.

Lemma path_real : forall path rows p rs m, ids_real rows -> path <> [] -> m3_path path (M3 rows p) = (rs, m) -> Forall (fun r => r <> None) rs -> m_parent m <> NONE.
Proof.
  induction path as [|s path IH]; intros rows p rs m R Hne H F; [congruence|].
  cbn [m3_path] in H. unfold m3_find in H. cbn [m_rest m_parent] in H. rewrite scan_spec in H.
  destruct (drop_to (hit s p) rows) as [|r t] eqn:D.
  - destruct (m3_path path _) as [rs' m']. injection H as <- _. inversion F. congruence.
  - destruct (m3_path path (M3 (r :: t) (r_id r))) as [rs' m'] eqn:E. injection H as <- <-. inversion F; subst.
    destruct (drop_to_split _ _ _ _ D) as (pre & -> & _). apply Forall_app in R. destruct R as [_ R].
    destruct path as [|s' path]; [injection E as _ <-; cbn [m_parent]; inversion R; assumption|].
    eapply IH; [exact R|discriminate|exact E|assumption].
Qed.

Lemma matcher_iff : forall rows path id, unique_siblings rows -> ids_real rows -> path <> [] -> id <> NONE ->
  (m3_found (snd (m3_path path (m3_init rows))) = id <-> ordered rows NONE path id).
Proof.
  intros rows path id U R Hne Hid. unfold m3_found, m3_init. split; intro H.
  - destruct (m3_path path (M3 rows NONE)) as [rs m] eqn:E. cbn [snd] in H. subst id. eapply path_sound; [exact E|].
    eapply path_all; eassumption.
  - destruct (path_complete _ _ _ _ H U) as (rs & m & E & _ & G). rewrite E. exact G.
Qed.

Lemma chain_ordered : forall path rows pre r post id, parents_first rows -> rows = pre ++ r :: post -> chain rows (r_id r) path id -> ordered (r :: post) (r_id r) path id.
Proof.
  induction path as [|s path IH]; intros rows pre r post id P E H; inversion H as [|r2 s' path' id' Hin Hs Hc E1 E2 E3]; subst; [constructor|].
  assert (K : In r2 (r :: post)).
  { apply in_app_or in Hin. destruct Hin as [Hin|Hin]; [|exact Hin]. exfalso. eapply (P pre r post eq_refl r2 Hin). assumption. }
  destruct (in_split _ _ K) as (pre2 & post2 & E2).
  econstructor; [exact E2|reflexivity|]. eapply (IH (pre ++ r :: post) (pre ++ pre2)); [exact P|rewrite <- app_assoc, <- E2; reflexivity|assumption].
Qed.

Lemma ordered_chain : forall rows p path id, ordered rows p path id -> forall all, incl rows all -> chain all p path id.
Proof.
  intros rows p path id H. induction H as [|rows pre r post s path id E S H IH]; intros all I; [constructor|].
  constructor; [apply I; rewrite E; apply in_or_app; right; left; reflexivity|exact S|]. apply IH. intros x X. apply I. rewrite E. apply in_or_app. right. exact X.
Qed.

Lemma chain_start : forall rows path id, parents_first rows -> ids_real rows -> chain rows NONE path id -> ordered rows NONE path id.
Proof.
  intros rows path id P R H. inversion H as [|r s path' id' Hin Hs Hc E1 E2 E3]; subst; [constructor|].
  destruct (in_split _ _ Hin) as (pre & post & E). econstructor; [exact E|reflexivity|].
  eapply chain_ordered; [exact P|exact E|assumption].
Qed.

(** ---- trees ---- *)

Definition tree_ind2 (P : tree -> Prop) (step : forall s i cs, Forall P cs -> P (Tree s i cs)) : forall t, P t :=
  fix all (t : tree) : P t :=
  match t with
  | Tree s i cs => step s i cs ((fix go l := match l return Forall P l with [] => Forall_nil P | x :: r => Forall_cons x (all x) (go r) end) cs)
  end.

Fixpoint tree_ids (t : tree) : list Z := match t with Tree _ i cs => i :: flat_map tree_ids cs end.

Lemma map_flat : forall A B C (f : B -> C) (g : A -> list B) l, map f (flat_map g l) = flat_map (fun x => map f (g x)) l.
Proof. induction l as [|x l IH]; [reflexivity|]. cbn [flat_map]. rewrite map_app, IH. reflexivity. Qed.
Lemma flat_ext : forall A B (f g : A -> list B) l, Forall (fun x => f x = g x) l -> flat_map f l = flat_map g l.
Proof. intros A B f g l H. induction H as [|x l E _ IH]; [reflexivity|]. cbn [flat_map]. rewrite E, IH. reflexivity. Qed.

Lemma rows_ids : forall t p, map r_id (tree_rows p t) = tree_ids t.
Proof.
  induction t as [s i cs IH] using tree_ind2. intro p. cbn [tree_rows tree_ids map r_id]. f_equal. rewrite map_flat. apply flat_ext.
  eapply Forall_impl; [|exact IH]. intros a H. apply H.
Qed.
Lemma paths_ids : forall t a, map fst (tree_paths a t) = tree_ids t.
Proof.
  induction t as [s i cs IH] using tree_ind2. intro a. cbn [tree_paths tree_ids map fst]. f_equal. rewrite map_flat. apply flat_ext.
  eapply Forall_impl; [|exact IH]. intros x H. apply H.
Qed.
Lemma forest_rows_ids : forall ts p, map r_id (flat_map (tree_rows p) ts) = flat_map tree_ids ts.
Proof. intros ts p. rewrite map_flat. apply flat_ext. apply Forall_forall. intros x _. apply rows_ids. Qed.
Lemma forest_paths_ids : forall ts a, map fst (flat_map (tree_paths a) ts) = flat_map tree_ids ts.
Proof. intros ts a. rewrite map_flat. apply flat_ext. apply Forall_forall. intros x _. apply paths_ids. Qed.

(** a row and where its parent is *)
Lemma tree_row_path : forall t p above r, In r (tree_rows p t) ->
  exists q, In (r_id r, q ++ [r_seg r]) (tree_paths above t) /\ ((r_parent r = p /\ q = above) \/ In (r_parent r, q) (tree_paths above t)).
Proof.
  induction t as [s i cs IH] using tree_ind2. intros p above r H. cbn [tree_rows] in H. destruct H as [<-|H].
  - exists above. cbn [r_id r_seg r_parent tree_paths]. split; [left; reflexivity|left; auto].
  - apply in_flat_map in H. destruct H as (c & C1 & C2). rewrite Forall_forall in IH. destruct (IH c C1 i (above ++ [s]) r C2) as (q & Q1 & Q2).
    exists q. cbn [tree_paths]. split; [right; apply in_flat_map; eauto|]. right. destruct Q2 as [[-> ->]|Q2]; [left; reflexivity|right; apply in_flat_map; eauto].
Qed.

Lemma tree_path_chain : forall t p above all id q, incl (tree_rows p t) all -> In (id, q) (tree_paths above t) ->
  exists path, q = above ++ path /\ path <> [] /\ chain all p path id.
Proof.
  induction t as [s i cs IH] using tree_ind2. intros p above all id q I H. cbn [tree_paths] in H. destruct H as [H|H].
  - injection H as <- <-. exists [s]. split; [reflexivity|]. split; [discriminate|].
    change p with (r_parent (Row s i p)). econstructor; [apply I; left; reflexivity|reflexivity|]. constructor.
  - apply in_flat_map in H. destruct H as (c & C1 & C2). rewrite Forall_forall in IH.
    destruct (IH c C1 i (above ++ [s]) all id q) as (path & -> & N & C).
    + intros x X. apply I. cbn [tree_rows]. right. apply in_flat_map. eauto.
    + exact C2.
    + exists (s :: path). split; [rewrite <- app_assoc; reflexivity|]. split; [discriminate|].
      change p with (r_parent (Row s i p)). econstructor; [apply I; left; reflexivity|reflexivity|]. exact C.
Qed.

Lemma fst_unique : forall A (l : list (Z * A)) k x y, NoDup (map fst l) -> In (k, x) l -> In (k, y) l -> x = y.
Proof.
  induction l as [|[k0 a] l IH]; intros k x y N H1 H2; [destruct H1|]. cbn [map fst] in N. inversion N; subst.
  destruct H1 as [H1|H1], H2 as [H2|H2].
  - congruence.
  - injection H1 as -> ->. exfalso. apply H3. apply (in_map fst) in H2. exact H2.
  - injection H2 as -> ->. exfalso. apply H3. apply (in_map fst) in H1. exact H1.
  - eapply IH; eassumption.
Qed.

Lemma forest_chain : forall ts path id, NoDup (map r_id (forest_rows ts)) -> ids_real (forest_rows ts) -> path <> [] ->
  (chain (forest_rows ts) NONE path id <-> In (id, path) (forest_paths ts)).
Proof.
  intros ts path id N R Hne. unfold forest_rows in N. rewrite forest_rows_ids in N. rewrite <- (forest_paths_ids ts []) in N. split.
  - assert (G : forall path p q, chain (forest_rows ts) p path id -> (p = NONE /\ q = []) \/ In (p, q) (forest_paths ts) -> path <> [] -> In (id, q ++ path) (forest_paths ts)).
    { clear path Hne. induction path as [|s path IH]; intros p q H Hp Hne; [congruence|].
      inversion H as [|r s' path' id' Hin Hs Hc E1 E2 E3]; subst.
      unfold forest_rows in Hin. apply in_flat_map in Hin. destruct Hin as (t & T1 & T2).
      destruct (tree_row_path t NONE [] r T2) as (q' & Q1 & Q2).
      assert (P1 : In (r_id r, q' ++ [r_seg r]) (forest_paths ts)) by (apply in_flat_map; eauto).
      assert (NN : forall z, ~ In (NONE, z) (forest_paths ts)).
      { intros z Z. unfold ids_real in R. apply (in_map fst) in Z. cbn [fst] in Z. unfold forest_paths in Z. rewrite forest_paths_ids in Z.
        rewrite <- (forest_rows_ids ts NONE) in Z. apply in_map_iff in Z. destruct Z as (x & X1 & X2). rewrite Forall_forall in R. apply (R x X2). exact X1. }
      assert (Q : q' = q).
      { destruct Q2 as [[A ->]|A]; destruct Hp as [[B ->]|B].
        - reflexivity.
        - exfalso. rewrite A in B. apply (NN _ B).
        - exfalso. rewrite B in A. apply (NN q'). apply in_flat_map. eauto.
        - eapply (fst_unique _ _ _ _ _ N); [apply in_flat_map; eauto|exact B]. }
      subst q'. replace (q ++ r_seg r :: path) with ((q ++ [r_seg r]) ++ path) by (rewrite <- app_assoc; reflexivity).
      destruct path as [|s2 path].
      - inversion Hc; subst. rewrite app_nil_r. exact P1.
      - apply (IH _ _ Hc); [right; exact P1|discriminate]. }
    intro H. apply (G path NONE [] H); [left; auto|exact Hne].
  - intro H. unfold forest_paths in H. apply in_flat_map in H. destruct H as (t & T1 & T2).
    destruct (tree_path_chain t NONE [] (forest_rows ts) id path) as (path' & E & _ & C); [|exact T2|].
    + intros x X. apply in_flat_map. eauto.
    + cbn [app] in E. subst path'. exact C.
Qed.

(** a table in depth-first order has parents first *)
Lemma flat_split : forall A B (f : A -> list B) ts pre c post, flat_map f ts = pre ++ c :: post ->
  exists ts1 t ts2 p1 p2, ts = ts1 ++ t :: ts2 /\ pre = flat_map f ts1 ++ p1 /\ f t = p1 ++ c :: p2.
Proof.
  induction ts as [|t ts IH]; intros pre c post H; cbn [flat_map] in H; [destruct pre; discriminate|].
  assert (K : (exists p2, f t = pre ++ c :: p2) \/ (exists pre', pre = f t ++ pre' /\ flat_map f ts = pre' ++ c :: post)).
  { revert pre H. induction (f t) as [|x l IHl]; intros pre H; [right; exists pre; auto|].
    destruct pre as [|y pre]; cbn [app] in H.
    - injection H as <- _. left. exists l. reflexivity.
    - injection H as <- H. destruct (IHl _ H) as [(p2 & ->)|(pre' & -> & E)]; [left; exists p2; reflexivity|right; exists pre'; auto]. }
  destruct K as [(p2 & E)|(pre' & -> & E)].
  - exists [], t, ts, pre, p2. auto.
  - destruct (IH _ _ _ E) as (ts1 & t' & ts2 & p1 & p2 & -> & -> & F). exists (t :: ts1), t', ts2, p1, p2. cbn [app flat_map]. rewrite <- app_assoc. auto.
Qed.

Lemma tree_parent_before : forall t p pre c post, tree_rows p t = pre ++ c :: post ->
  r_parent c = p \/ exists r, In r pre /\ r_id r = r_parent c.
Proof.
  induction t as [s i cs IH] using tree_ind2. intros p pre c post H. cbn [tree_rows] in H. destruct pre as [|x pre]; cbn [app] in H.
  - injection H as <- _. left. reflexivity.
  - injection H as <- H. destruct (flat_split _ _ _ _ _ _ _ H) as (ts1 & t & ts2 & p1 & p2 & -> & -> & F).
    rewrite Forall_forall in IH. destruct (IH t (in_elt _ _ _) i _ _ _ F) as [E|(r & R1 & R2)].
    + right. exists (Row s i p). split; [left; reflexivity|]. cbn. congruence.
    + right. exists r. split; [right; apply in_or_app; right; exact R1|exact R2].
Qed.

Lemma forest_parents_first : forall ts, NoDup (map r_id (forest_rows ts)) -> ids_real (forest_rows ts) -> parents_first (forest_rows ts).
Proof.
  intros ts N R pre r post E c C Hc. destruct (in_split _ _ C) as (a & b & ->). rewrite <- app_assoc in E. cbn [app] in E.
  assert (X : exists r', In r' a /\ r_id r' = r_parent c).
  { unfold forest_rows in E. destruct (flat_split _ _ _ _ _ _ _ E) as (ts1 & t & ts2 & p1 & p2 & -> & -> & F).
    destruct (tree_parent_before t NONE _ _ _ F) as [K|(r' & R1 & R2)].
    - exfalso. unfold ids_real in R. rewrite Forall_forall in R. apply (R r); [|congruence].
      unfold forest_rows. rewrite E. apply in_or_app. right. right. apply in_or_app. right. left. reflexivity.
    - exists r'. split; [apply in_or_app; right; exact R1|exact R2]. }
  destruct X as (r' & R1 & R2). rewrite E in N. replace (a ++ c :: b ++ r :: post) with ((a ++ c :: b) ++ r :: post) in N by (rewrite <- app_assoc; reflexivity).
  rewrite map_app in N. cbn [map] in N. apply NoDup_remove_2 in N. apply N. apply in_or_app. left. rewrite <- Hc, <- R2. apply in_map. apply in_or_app. left. exact R1.
Qed.

(** ---- CoRE ---- *)

Lemma core_lookup_find : forall cd id, core_lookup cd id = first_data cd id.
Proof. induction cd as [|v cd IH]; intro id; [reflexivity|]. unfold first_data. cbn [core_lookup find]. destruct (cd_node v =? id); [reflexivity|apply IH]. Qed.

Lemma walk_app : forall cd a b st, core_walk cd (a ++ b) st = bind (core_walk cd a st) (fun x => bind (core_walk cd b (snd x)) (fun y => Ok (fst x ++ fst y, snd y))).
Proof.
  induction a as [|e a IH]; intros b st; cbn [app core_walk].
  - cbn [bind fst snd app]. destruct (core_walk cd b st) as [[? ?]| |]; reflexivity.
  - destruct (core_evaluate cd e st) as [[t s1]| |]; cbn [bind fst snd]; auto. rewrite IH.
    destruct (core_walk cd a s1) as [[y s2]| |]; cbn [bind fst snd]; auto. destruct (core_walk cd b s2) as [[z s3]| |]; cbn [bind fst snd]; auto. rewrite app_assoc. reflexivity.
Qed.

Definition no_id (p : Z) (x : list row) : Prop := Forall (fun r => r_id r <> p) x.
Definition ok_base (p : Z) (base : list row) : Prop := base = [] \/ exists r b, base = r :: b /\ r_id r = p.
Definition segs (base : list row) : list (list N) := map r_seg (rev base).

Lemma pop_base : forall x p base, no_id p x -> ok_base p base -> pop_until p (x ++ base) = base.
Proof.
  induction x as [|r x IH]; intros p base H B; cbn [app pop_until].
  - destruct B as [->|(r & b & -> & E)]; [reflexivity|]. cbn [pop_until]. rewrite E, Z.eqb_refl. reflexivity.
  - inversion H; subst. destruct (Z.eqb_spec (r_id r) p); [contradiction|]. apply IH; assumption.
Qed.

Lemma max_le : forall l x, In x l -> (x <= fold_right Nat.max 0 l)%nat.
Proof. induction l as [|y l IH]; intros x H; [destruct H|]. cbn [fold_right]. destruct H as [->|H]; [lia|]. apply IH in H. lia. Qed.

Definition walks cd rows paths st base (ids : list Z) (x : list row) : Prop :=
  exists x', core_walk cd rows st = Ok (links cd paths, x' ++ base) /\ (Forall (fun r => In (r_id r) ids) x' \/ x' = x).

Lemma forest_walk_aux : forall cd (ts : list tree) parent base,
  Forall (fun t => forall parent base x, ok_base parent base -> no_id parent x -> ~ In parent (tree_ids t) -> NoDup (tree_ids t) ->
    if (length base + height t <=? 10)%nat then walks cd (tree_rows parent t) (tree_paths (segs base) t) (x ++ base) base (tree_ids t) x
    else core_walk cd (tree_rows parent t) (x ++ base) = Fault) ts ->
  forall x, ok_base parent base -> no_id parent x -> ~ In parent (flat_map tree_ids ts) -> NoDup (flat_map tree_ids ts) -> (length base <= 10)%nat ->
  if (length base + fold_right Nat.max 0 (map height ts) <=? 10)%nat then walks cd (flat_map (tree_rows parent) ts) (flat_map (tree_paths (segs base)) ts) (x ++ base) base (flat_map tree_ids ts) x
  else core_walk cd (flat_map (tree_rows parent) ts) (x ++ base) = Fault.
Proof.
  intros cd ts parent base H. induction H as [|t ts Ht _ IH]; intros x B X P N L.
  - cbn [map fold_right flat_map]. destruct (Nat.leb_spec (length base + 0) 10); [|lia]. exists x. split; [reflexivity|right; reflexivity].
  - cbn [map fold_right flat_map] in *.
    assert (P1 : ~ In parent (tree_ids t)) by (intro A; apply P; apply in_or_app; left; exact A).
    assert (P2 : ~ In parent (flat_map tree_ids ts)) by (intro A; apply P; apply in_or_app; right; exact A).
    assert (N1 : NoDup (tree_ids t) /\ NoDup (flat_map tree_ids ts)).
    { clear -N. revert N. generalize (flat_map tree_ids ts) as q. induction (tree_ids t) as [|y l IHl]; intros q N; [split; [constructor|exact N]|].
      cbn [app] in N. inversion N; subst. destruct (IHl _ H2) as [A A']. split; [|exact A']. constructor; [|exact A]. intro K. apply H1. apply in_or_app. left. exact K. }
    destruct N1 as [N1 N2]. specialize (Ht parent base x B X P1 N1). unfold walks. rewrite !walk_app.
    destruct (Nat.leb_spec (length base + height t) 10) as [A|A].
    + destruct Ht as (x1 & E1 & F1). rewrite !E1. cbn [bind fst snd].
      assert (X1 : no_id parent x1).
      { destruct F1 as [F1| ->]; [|exact X]. unfold no_id. eapply Forall_impl; [|exact F1]. intros a K Q. apply P1. rewrite <- Q. exact K. }
      specialize (IH x1 B X1 P2 N2 L). destruct (Nat.leb_spec (length base + fold_right Nat.max 0%nat (map height ts)) 10) as [D|D].
      * destruct (Nat.leb_spec (length base + Nat.max (height t) (fold_right Nat.max 0%nat (map height ts))) 10); [|lia].
        destruct IH as (x2 & E2 & F2). exists x2. rewrite E2. cbn [bind fst snd]. split; [unfold links; rewrite flat_map_app; reflexivity|].
        destruct F2 as [F2| ->].
        -- left. eapply Forall_impl; [|exact F2]. intros a K. apply in_or_app. right. exact K.
        -- destruct F1 as [F1| ->]; [left|right; reflexivity]. eapply Forall_impl; [|exact F1]. intros a K. apply in_or_app. left. exact K.
      * destruct (Nat.leb_spec (length base + Nat.max (height t) (fold_right Nat.max 0%nat (map height ts))) 10); [lia|]. rewrite IH. reflexivity.
    + destruct (Nat.leb_spec (length base + Nat.max (height t) (fold_right Nat.max 0%nat (map height ts))) 10); [lia|]. rewrite Ht. reflexivity.
Qed.

Lemma tree_walk : forall cd t parent base x, ok_base parent base -> no_id parent x -> ~ In parent (tree_ids t) -> NoDup (tree_ids t) ->
  if (length base + height t <=? 10)%nat then walks cd (tree_rows parent t) (tree_paths (segs base) t) (x ++ base) base (tree_ids t) x
  else core_walk cd (tree_rows parent t) (x ++ base) = Fault.
Proof.
  intros cd. induction t as [s i cs IH] using tree_ind2. intros parent base x B X P N.
  cbn [tree_rows tree_paths tree_ids height] in *. unfold walks. cbn [core_walk].
  unfold core_evaluate, parent_handler. cbn [r_parent]. rewrite !pop_base by assumption.
  destruct (Nat.ltb_spec (length base) 10) as [L|L].
  2:{ destruct (Nat.leb_spec (length base + S (fold_right Nat.max 0%nat (map height cs))) 10); [lia|]. reflexivity. }
  cbn [bind fst snd].
  set (e := Row s i parent). inversion N as [|y z N1 N2]; subst.
  pose proof (forest_walk_aux cd cs i (e :: base) IH [] (or_intror (ex_intro _ e (ex_intro _ base (conj eq_refl eq_refl)))) (Forall_nil _) N1 N2 ltac:(cbn [length]; lia)) as W.
  cbn [length app] in W.
  replace (S (length base) + fold_right Nat.max 0%nat (map height cs))%nat with (length base + S (fold_right Nat.max 0%nat (map height cs)))%nat in W by lia.
  destruct (Nat.leb_spec (length base + S (fold_right Nat.max 0%nat (map height cs))) 10) as [D|D].
  - destruct W as (x' & E & F). rewrite E. cbn [bind fst snd]. exists (x' ++ [e]). split.
    + rewrite <- app_assoc. cbn [app]. cbn [r_id e]. rewrite core_lookup_find. unfold links. cbn [flat_map fst snd]. f_equal. f_equal.
      replace (segs (e :: base)) with (segs base ++ [s]) by (unfold segs; cbn [rev]; rewrite map_app; reflexivity).
      destruct (first_data cd i) as [v|]; [|reflexivity]. f_equal. f_equal. f_equal. unfold link_text, link. do 2 f_equal.
      cbn [rev]. rewrite map_app. unfold segs. rewrite map_app, map_map. reflexivity.
    + left. apply Forall_app. split; [|constructor; [left; reflexivity|constructor]].
      destruct F as [F| ->]; [|constructor]. eapply Forall_impl; [|exact F]. intros a K. right. exact K.
  - rewrite W. reflexivity.
Qed.

Lemma forest_walk : forall cd ts, NoDup (map r_id (forest_rows ts)) -> ids_real (forest_rows ts) ->
  if (fold_right Nat.max 0 (map height ts) <=? 10)%nat then exists st, core_walk cd (forest_rows ts) [] = Ok (links cd (forest_paths ts), st)
  else core_walk cd (forest_rows ts) [] = Fault.
Proof.
  intros cd ts N R.
  assert (P : ~ In NONE (flat_map tree_ids ts)).
  { intro H. rewrite <- (forest_rows_ids ts NONE) in H. apply in_map_iff in H. destruct H as (x & E & I). unfold ids_real in R. rewrite Forall_forall in R. apply (R x I E). }
  unfold forest_rows in N. rewrite forest_rows_ids in N.
  pose proof (forest_walk_aux cd ts NONE [] ltac:(apply Forall_forall; intros t _; apply tree_walk) [] (or_introl eq_refl) (Forall_nil _) P N ltac:(cbn [length]; lia)) as W.
  cbn [length app Nat.add] in W. destruct (_ <=? 10)%nat; [|exact W]. destruct W as (x' & E & _). exists (x' ++ []). exact E.
Qed.

(** ---- prefixes ---- *)

Lemma char_eqb_iff : forall p c, char_eqb p c = true <-> p = c /\ (p < 128)%N.
Proof. intros p c. unfold char_eqb. rewrite andb_true_iff, N.eqb_eq, N.ltb_lt. reflexivity. Qed.

Lemma factory_prefix : forall prefix s, factory_starts_with s prefix = true <-> ascii prefix /\ exists t, s = prefix ++ t.
Proof.
  induction prefix as [|p prefix IH]; intros s; cbn [factory_starts_with].
  - split; [intros _; split; [apply Forall_nil|exists s; reflexivity]|reflexivity].
  - destruct s as [|c s].
    + split; [discriminate|]. intros [_ [t H]]. discriminate.
    + destruct (char_eqb p c) eqn:E.
      * apply char_eqb_iff in E. destruct E as [-> E]. rewrite IH. split.
        -- intros [A [t ->]]. split; [apply Forall_cons; assumption|exists t; reflexivity].
        -- intros [A [t H]]. inversion A; subst. injection H as ->. split; [assumption|exists t; reflexivity].
      * split; [discriminate|]. intros [A [t H]]. inversion A; subst. injection H as -> _. rewrite (proj2 (char_eqb_iff p p) (conj eq_refl H2)) in E. discriminate.
Qed.

Lemma dispatcher_prefix : forall prefix s, dispatcher_starts_with s prefix = true <->
  (ascii prefix /\ exists t, s = prefix ++ t) \/ (ascii s /\ exists t, prefix = s ++ t).
Proof.
  induction prefix as [|p prefix IH]; intros s; cbn [dispatcher_starts_with].
  - split; [intros _; left; split; [apply Forall_nil|exists s; reflexivity]|reflexivity].
  - destruct s as [|c s].
    + split; [intros _; right; split; [apply Forall_nil|exists (p :: prefix); reflexivity]|reflexivity].
    + destruct (char_eqb p c) eqn:E.
      * apply char_eqb_iff in E. destruct E as [-> E]. rewrite IH. split.
        -- intros [[A [t ->]]|[A [t ->]]]; [left|right]; (split; [apply Forall_cons; assumption|exists t; reflexivity]).
        -- intros [[A [t H]]|[A [t H]]]; inversion A; subst; injection H as ->; [left|right]; (split; [assumption|exists t; reflexivity]).
      * split; [discriminate|]. intros [[A [t H]]|[A [t H]]]; inversion A; subst; injection H as -> _;
          rewrite (proj2 (char_eqb_iff _ _) (conj eq_refl H2)) in E; discriminate.
Qed.
