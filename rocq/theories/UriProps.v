(** C37, C38, C39: URI path lookup, CoRE links, prefixes. *)
From Coq Require Import ZArith.
From Verif Require Import Base UriModel UriSpec UriProofs.
Local Open Scope Z_scope.

(** ---- C37 ---- *)

(** the stateless lookups return the first row with this segment and parent ... *)
Theorem C37_first_row : forall rows s p r,
  match_row rows s p = Some r <->
  exists pre post, rows = pre ++ r :: post /\ r_seg r = s /\ r_parent r = p /\ forall c, In c pre -> ~ (r_seg c = s /\ r_parent c = p).
Proof.
  intros rows s p r. rewrite match_row_find, find_drop. split.
  - destruct (drop_to (hit s p) rows) as [|r' t] eqn:D; [discriminate|]. intro H. injection H as ->.
    destruct (drop_to_split _ _ _ _ D) as (pre & -> & A & B). apply hit_iff in A. exists pre, t. repeat split; try tauto.
    intros c C K. apply hit_iff in K. rewrite (B c C) in K. discriminate.
  - intros (pre & post & -> & A & B & C). rewrite drop_to_app.
    + cbn [drop_to]. rewrite (proj2 (hit_iff s p r) (conj A B)). reflexivity.
    + intros c K. destruct (hit s p c) eqn:E; [|reflexivity]. apply hit_iff in E. destruct (C c K E).
Qed.
Print Assumptions C37_first_row.

(** ... none exactly if there is no such row ... *)
Theorem C37_none : forall rows s p,
  match_row rows s p = None <-> ~ exists r, In r rows /\ r_seg r = s /\ r_parent r = p.
Proof.
  intros rows s p. rewrite match_row_find, find_drop. split.
  - destruct (drop_to (hit s p) rows) as [|r' t] eqn:D; [|discriminate]. intros _ (r & I & K). rewrite drop_to_nil in D. apply hit_iff in K. rewrite (D r I) in K. discriminate.
  - intro H. destruct (drop_to (hit s p) rows) as [|r t] eqn:D; [reflexivity|]. exfalso. apply H. destruct (drop_to_split _ _ _ _ D) as (pre & -> & A & _).
    exists r. split; [apply in_elt|]. apply hit_iff. exact A.
Qed.
Print Assumptions C37_none.

(** ... and UriPathMatcher2's stateless find is the same lookup, by id, at any time. *)
Theorem C37_lookup_id : forall m s p,
  m2_lookup s p m = match match_row (m2_rows m) s p with Some r => r_id r | None => NONE end.
Proof. intros m s p. unfold m2_lookup. rewrite base_find_spec, match_row_find, find_drop. destruct (drop_to _ _); reflexivity. Qed.
Print Assumptions C37_lookup_id.

(** The stateful matcher, any table: if every segment of a path was found, the rows
    were picked in table order and [found] is the last of them. *)
Theorem C37_sound : forall rows path rs m,
  m3_path path (m3_init rows) = (rs, m) -> Forall (fun r => r <> None) rs -> ordered rows NONE path (m3_found m).
Proof. intros rows path rs m H F. exact (path_sound path rows NONE rs m H F). Qed.
Print Assumptions C37_sound.

(** With unique siblings the converse holds too ... *)
Theorem C37_matcher : forall rows path id,
  unique_siblings rows -> ids_real rows -> path <> [] -> id <> NONE ->
  (m3_found (snd (m3_path path (m3_init rows))) = id <-> ordered rows NONE path id).
Proof. exact matcher_iff. Qed.
Print Assumptions C37_matcher.

(** ... with parents before their children the order does not matter ... *)
Theorem C37_parents_first : forall rows path id,
  parents_first rows -> unique_siblings rows -> ids_real rows -> path <> [] -> id <> NONE ->
  (m3_found (snd (m3_path path (m3_init rows))) = id <-> chain rows NONE path id).
Proof.
  intros rows path id P U R Hne Hid. rewrite matcher_iff by assumption. split; intro H.
  - eapply ordered_chain; [exact H|]. intros x X; exact X.
  - apply chain_start; assumption.
Qed.
Print Assumptions C37_parents_first.

(** ... and for the table of a forest in depth-first order a path resolves to [id]
    exactly if the forest has a node [id] with that path; to none exactly if it has no
    node with that path. *)
Theorem C37_forest : forall ts path id,
  NoDup (map r_id (forest_rows ts)) -> unique_siblings (forest_rows ts) -> ids_real (forest_rows ts) -> path <> [] -> id <> NONE ->
  (m3_found (snd (m3_path path (m3_init (forest_rows ts)))) = id <-> In (id, path) (forest_paths ts)).
Proof.
  intros ts path id N U R Hne Hid. rewrite C37_parents_first by (try assumption; apply forest_parents_first; assumption). apply forest_chain; assumption.
Qed.
Print Assumptions C37_forest.

Theorem C37_forest_none : forall ts path,
  NoDup (map r_id (forest_rows ts)) -> unique_siblings (forest_rows ts) -> ids_real (forest_rows ts) -> path <> [] ->
  (m3_found (snd (m3_path path (m3_init (forest_rows ts)))) = NONE <-> forall id, ~ In (id, path) (forest_paths ts)).
Proof.
  intros ts path N U R Hne. split.
  - intros H id I. assert (K : id <> NONE).
    { intro E. subst id. apply (in_map fst) in I. cbn [fst] in I. unfold forest_paths in I. rewrite forest_paths_ids, <- (forest_rows_ids ts NONE) in I.
      apply in_map_iff in I. destruct I as (x & X1 & X2). unfold ids_real in R. rewrite Forall_forall in R. apply (R x X2 X1). }
    apply (C37_forest ts path id) in I; try assumption. congruence.
  - intro H. destruct (Z.eq_dec (m3_found (snd (m3_path path (m3_init (forest_rows ts))))) NONE) as [E|E]; [exact E|]. exfalso.
    apply (H _ (proj1 (C37_forest ts path _ N U R Hne E) eq_refl)).
Qed.
Print Assumptions C37_forest_none.

(** After a miss the matcher never matches again. *)
Theorem C37_after_miss : forall s m later, fst (m3_find s m) = None ->
  fst (m3_path later (snd (m3_find s m))) = map (fun _ => None) later /\ m3_found (snd (m3_path later (snd (m3_find s m)))) = NONE.
Proof.
  intros s [rest p] later H. unfold m3_find in *. cbn [m_rest m_parent] in *. rewrite scan_spec in *. destruct (drop_to (hit s p) rest); [|discriminate].
  cbn [snd]. rewrite path_dead. split; [reflexivity|]. cbn [snd m3_found m_parent]. destruct later; reflexivity.
Qed.
Print Assumptions C37_after_miss.

(** UriPathMatcher2's stateful find gives for any sequence of segments the ids
    UriPathMatcher3 finds. *)
Fixpoint m2_path (path : list (list N)) (m : m2) : list Z * m2 :=
  match path with [] => ([], m) | s :: p => let '(r, m1) := m2_find s m in let '(rs, m2) := m2_path p m1 in (r :: rs, m2) end.
Theorem C37_matchers_agree : forall rows path,
  fst (m2_path path (m2_init rows)) = map (fun r => match r with Some r => r_id r | None => NONE end) (fst (m3_path path (m3_init rows))) /\
  m2_found (snd (m2_path path (m2_init rows))) = m3_found (snd (m3_path path (m3_init rows))).
Proof.
  assert (G : forall path rows rest p, fst (m2_path path (M2 rows p rest)) = map (fun r => match r with Some r => r_id r | None => NONE end) (fst (m3_path path (M3 rest p))) /\
    m2_found (snd (m2_path path (M2 rows p rest))) = m_parent (snd (m3_path path (M3 rest p)))).
  { induction path as [|s path IH]; intros rows rest p; [split; reflexivity|]. cbn [m2_path m3_path]. unfold m2_find, m3_find. cbn [m2_found m2_pos m2_rows m_rest m_parent].
    replace (if p =? NONE then NONE else p) with p by (destruct (Z.eqb_spec p NONE); congruence).
    rewrite base_find_spec, scan_spec.
    destruct (drop_to (hit s p) rest) as [|r t].
    - specialize (IH rows [] NONE). destruct (m2_path path (M2 rows NONE [])) as [a b], (m3_path path (M3 [] NONE)) as [c d]. cbn [fst snd map] in *. destruct IH as [-> ->]. split; reflexivity.
    - specialize (IH rows (r :: t) (r_id r)). destruct (m2_path path (M2 rows (r_id r) (r :: t))) as [a b], (m3_path path (M3 (r :: t) (r_id r))) as [c d]. cbn [fst snd map] in *. destruct IH as [-> ->]. split; reflexivity. }
  intros rows path. apply (G path rows rows NONE).
Qed.
Print Assumptions C37_matchers_agree.

(** Not without unique siblings: with two rows of one name and parent the first is
    taken, and a path through the second is not found although its rows are there in
    order. *)
Definition dup_table : list row := [Row [97%N] 1 NONE; Row [97%N] 2 NONE; Row [98%N] 3 2].
Theorem C37_duplicate_refuted :
  ordered dup_table NONE [[97%N]; [98%N]] 3 /\ m3_found (snd (m3_path [[97%N]; [98%N]] (m3_init dup_table))) = NONE.
Proof.
  split; [|reflexivity]. apply (ordered_step dup_table [Row [97%N] 1 NONE] (Row [97%N] 2 NONE) [Row [98%N] 3 2]); [reflexivity|reflexivity|].
  apply (ordered_step _ [Row [97%N] 2 NONE] (Row [98%N] 3 2) []); [reflexivity|reflexivity|]. apply ordered_end.
Qed.
Print Assumptions C37_duplicate_refuted.

(** Not with a child before its parent. *)
Definition late_table : list row := [Row [98%N] 2 1; Row [97%N] 1 NONE].
Theorem C37_late_parent_refuted :
  unique_siblings late_table /\ ids_real late_table /\ chain late_table NONE [[97%N]; [98%N]] 2 /\
  m3_found (snd (m3_path [[97%N]; [98%N]] (m3_init late_table))) = NONE.
Proof.
  split; [repeat constructor; cbn; intuition discriminate|]. split; [repeat constructor; discriminate|]. split; [|reflexivity].
  apply (chain_step late_table (Row [97%N] 1 NONE)); [right; left; reflexivity|reflexivity|].
  apply (chain_step late_table (Row [98%N] 2 1)); [left; reflexivity|reflexivity|]. apply chain_end.
Qed.
Print Assumptions C37_late_parent_refuted.

(** A matcher is good for one path: a second path of the same table started on it is
    looked up below the node already found, and behind it. *)
Theorem C37_second_path_refuted : exists rows a b,
  m3_found (snd (m3_path [a] (m3_init rows))) = 1 /\ m3_found (snd (m3_path [b] (m3_init rows))) = 2 /\
  m3_found (snd (m3_path [b] (snd (m3_path [a] (m3_init rows))))) = NONE.
Proof. exists [Row [97%N] 1 NONE; Row [98%N] 2 NONE], [97%N], [98%N]. repeat split. Qed.
Print Assumptions C37_second_path_refuted.

(** a forest: a(b(c),d) and e(b), the ids being 1,2,3,4,5,6 *)
Definition sample_forest : list tree :=
  [Tree [97%N] 1 [Tree [98%N] 2 [Tree [99%N] 3 []]; Tree [100%N] 4 []]; Tree [101%N] 5 [Tree [98%N] 6 []]].
Example C37_case :
  NoDup (map r_id (forest_rows sample_forest)) /\ unique_siblings (forest_rows sample_forest) /\ ids_real (forest_rows sample_forest) /\
  m3_found (snd (m3_path [[97%N]; [98%N]; [99%N]] (m3_init (forest_rows sample_forest)))) = 3 /\
  m3_found (snd (m3_path [[101%N]; [98%N]] (m3_init (forest_rows sample_forest)))) = 6 /\
  m3_found (snd (m3_path [[101%N]; [99%N]] (m3_init (forest_rows sample_forest)))) = NONE.
Proof.
  assert (A : NoDup (map r_id (forest_rows sample_forest))) by (repeat constructor; cbn; intuition discriminate).
  assert (B : unique_siblings (forest_rows sample_forest)) by (repeat constructor; cbn; intuition discriminate).
  assert (C : ids_real (forest_rows sample_forest)) by (repeat constructor; discriminate).
  repeat split; assumption || reflexivity.
Qed.

(** ---- C38 ---- *)

(** For the table of a forest in depth-first order, at most 10 levels deep, the links
    are those of the nodes with metadata, in order, each with the path from the root. *)
Theorem C38_links : forall cd ts,
  NoDup (map r_id (forest_rows ts)) -> ids_real (forest_rows ts) -> Forall (fun t => height t <= 10)%nat ts ->
  exists st, core_walk cd (forest_rows ts) [] = Ok (links cd (forest_paths ts), st).
Proof.
  intros cd ts N R H. pose proof (forest_walk cd ts N R) as W.
  destruct (Nat.leb_spec (fold_right Nat.max 0%nat (map height ts)) 10) as [L|L]; [exact W|]. exfalso. clear -H L.
  induction H as [|t ts Ht _ IH]; cbn [map fold_right] in L; [lia|]. apply IH. lia.
Qed.
Print Assumptions C38_links.

(** So the link of a node is that of its path, and there is one exactly for the nodes
    with metadata. *)
Theorem C38_link_of_node : forall cd ts out st id path v,
  NoDup (map r_id (forest_rows ts)) -> ids_real (forest_rows ts) ->
  core_walk cd (forest_rows ts) [] = Ok (out, st) -> In (id, path) (forest_paths ts) -> first_data cd id = Some v ->
  In (id, link path v) out /\ (forall t, In (id, t) out -> t = link path v).
Proof.
  intros cd ts out st id path v N R W I D. pose proof (forest_walk cd ts N R) as F. destruct (_ <=? _)%nat; [|congruence].
  destruct F as (st' & F). rewrite F in W. injection W as <- _. unfold links. split.
  - apply in_flat_map. exists (id, path). split; [exact I|]. cbn [fst snd]. rewrite D. left. reflexivity.
  - intros t T. apply in_flat_map in T. destruct T as ((id', path') & I' & T). cbn [fst snd] in T. destruct (first_data cd id') as [v'|] eqn:D'; [|destruct T].
    destruct T as [T|[]]. injection T as -> <-. rewrite D in D'. injection D' as <-. f_equal.
    unfold forest_rows in N. rewrite forest_rows_ids, <- (forest_paths_ids ts []) in N. eapply fst_unique; [exact N|exact I'|exact I].
Qed.
Print Assumptions C38_link_of_node.
Theorem C38_no_other_link : forall cd ts out st id t,
  NoDup (map r_id (forest_rows ts)) -> ids_real (forest_rows ts) ->
  core_walk cd (forest_rows ts) [] = Ok (out, st) -> In (id, t) out -> exists path v, In (id, path) (forest_paths ts) /\ first_data cd id = Some v /\ t = link path v.
Proof.
  intros cd ts out st id t N R W I. pose proof (forest_walk cd ts N R) as F. destruct (_ <=? _)%nat; [|congruence].
  destruct F as (st' & F). rewrite F in W. injection W as <- _. unfold links in I. apply in_flat_map in I. destruct I as ((id', path) & I & T). cbn [fst snd] in T.
  destruct (first_data cd id') as [v|] eqn:D; [|destruct T]. destruct T as [T|[]]. injection T as -> <-. eauto.
Qed.
Print Assumptions C38_no_other_link.

(** Deeper tables do not fit the stack. *)
Theorem C38_deep_refuted : forall cd ts,
  NoDup (map r_id (forest_rows ts)) -> ids_real (forest_rows ts) -> Exists (fun t => 10 < height t)%nat ts ->
  core_walk cd (forest_rows ts) [] = Fault.
Proof.
  intros cd ts N R H. pose proof (forest_walk cd ts N R) as W.
  destruct (Nat.leb_spec (fold_right Nat.max 0%nat (map height ts)) 10) as [L|L]; [|exact W]. exfalso.
  apply Exists_exists in H. destruct H as (t & I & T). pose proof (max_le (map height ts) (height t) (in_map height _ _ I)). lia.
Qed.
Print Assumptions C38_deep_refuted.

(** In another order links are wrong, even with parents first: here "c" is a child of
    "a" but the link printed is "</c>". *)
Definition breadth_table : list row := [Row [97%N] 1 NONE; Row [98%N] 2 NONE; Row [99%N] 3 1].
Theorem C38_breadth_first_refuted :
  parents_first breadth_table /\ unique_siblings breadth_table /\ chain breadth_table NONE [[97%N]; [99%N]] 3 /\
  exists st, core_walk [CoreData 3 [] []] breadth_table [] = Ok ([(3, [60; 47; 99; 62]%N)], st).
Proof.
  split.
  { intros pre r post E c C. unfold breadth_table in E.
    destruct pre as [|x pre]; [destruct C|]. injection E as <- E.
    destruct pre as [|x pre]; [injection E as <- E; destruct C as [<-|[]]; discriminate|]. injection E as <- E.
    destruct pre as [|x pre]; [injection E as <- E; destruct C as [<-|[<-|[]]]; discriminate|]. injection E as <- E. destruct pre; discriminate. }
  split; [repeat constructor; cbn; intuition discriminate|]. split.
  - apply (chain_step breadth_table (Row [97%N] 1 NONE)); [left; reflexivity|reflexivity|].
    apply (chain_step breadth_table (Row [99%N] 3 1)); [right; right; left; reflexivity|reflexivity|]. apply chain_end.
  - eexists. vm_compute. reflexivity.
Qed.
Print Assumptions C38_breadth_first_refuted.

Example C38_case :
  Forall (fun t => height t <= 10)%nat sample_forest /\
  exists st, core_walk [CoreData 3 [120%N] []; CoreData 5 [] [121%N]] (forest_rows sample_forest) [] =
    Ok ([(3, [60; 47; 97; 47; 98; 47; 99; 62; 59; 114; 116; 61; 34; 120; 34]%N); (5, [60; 47; 101; 62; 59; 105; 102; 61; 34; 121; 34]%N)], st).
Proof. split; [repeat constructor; cbn; lia|]. eexists. vm_compute. reflexivity. Qed.

(** ---- C39 ---- *)

Theorem C39_factory : forall s prefix, factory_starts_with s prefix = true <-> ascii prefix /\ exists t, s = prefix ++ t.
Proof. intros s prefix. apply factory_prefix. Qed.
Print Assumptions C39_factory.

Theorem C39_dispatcher : forall s prefix,
  dispatcher_starts_with s prefix = true <-> (ascii prefix /\ exists t, s = prefix ++ t) \/ (ascii s /\ exists t, prefix = s ++ t).
Proof. intros s prefix. apply dispatcher_prefix. Qed.
Print Assumptions C39_dispatcher.

(** an empty segment matches every handler, and a segment that is only the start of
    the handler's name matches it as well *)
Theorem C39_short_segment_refuted : forall prefix s t, prefix = s ++ t -> ascii s -> t <> [] ->
  dispatcher_starts_with s prefix = true /\ factory_starts_with s prefix = false.
Proof.
  intros prefix s t -> A Hne. split; [apply dispatcher_prefix; right; split; [exact A|exists t; reflexivity]|].
  destruct (factory_starts_with s (s ++ t)) eqn:E; [|reflexivity]. apply factory_prefix in E. destruct E as [_ [u U]].
  exfalso. rewrite <- app_assoc in U. rewrite <- (app_nil_r s) in U at 1. apply app_inv_head in U. destruct t; [congruence|discriminate].
Qed.
Print Assumptions C39_short_segment_refuted.

(** The factory takes the first item whose key starts the segment, none exactly if
    there is none. *)
Theorem C39_find : forall V (items : list (list N * V)) s v,
  factory_find items s = Some v <->
  exists pre k post, items = pre ++ (k, v) :: post /\ (ascii k /\ exists t, s = k ++ t) /\ forall k' v', In (k', v') pre -> ~ (ascii k' /\ exists t, s = k' ++ t).
Proof.
  induction items as [|[k w] items IH]; intros s v; cbn [factory_find].
  - split; [discriminate|]. intros (pre & k & post & H & _). destruct pre; discriminate.
  - destruct (factory_starts_with s k) eqn:E.
    + split.
      * intro H. injection H as ->. exists [], k, items. split; [reflexivity|]. split; [apply factory_prefix; exact E|]. intros k' v' [].
      * intros (pre & k' & post & H & A & B). destruct pre as [|[k2 v2] pre]; cbn [app] in H.
        -- injection H as -> -> _. reflexivity.
        -- injection H as <- <- _. exfalso. apply (B k w); [left; reflexivity|]. apply factory_prefix. exact E.
    + rewrite IH. split.
      * intros (pre & k' & post & -> & A & B). exists ((k, w) :: pre), k', post. split; [reflexivity|]. split; [exact A|].
        intros k2 v2 [K|K] C; [|apply (B k2 v2 K C)]. injection K as <- <-. apply factory_prefix in C. congruence.
      * intros (pre & k' & post & H & A & B). destruct pre as [|[k2 v2] pre]; cbn [app] in H.
        -- injection H as <- _ _. apply factory_prefix in A. congruence.
        -- injection H as _ _ ->. exists pre, k', post. split; [reflexivity|]. split; [exact A|]. intros k3 v3 K. apply (B k3 v3). right. exact K.
Qed.
Print Assumptions C39_find.
Theorem C39_find_none : forall V (items : list (list N * V)) s,
  factory_find items s = None <-> forall k v, In (k, v) items -> ~ (ascii k /\ exists t, s = k ++ t).
Proof.
  induction items as [|[k w] items IH]; intros s; cbn [factory_find].
  - split; [intros _ k v []|reflexivity].
  - destruct (factory_starts_with s k) eqn:E.
    + split; [discriminate|]. intro H. exfalso. apply (H k w (or_introl eq_refl)). apply factory_prefix. exact E.
    + rewrite IH. split.
      * intros H k' v' [K|K]; [|apply (H k' v' K)]. injection K as <- <-. intro C. apply factory_prefix in C. congruence.
      * intros H k' v' K. apply (H k' v'). right. exact K.
Qed.
Print Assumptions C39_find_none.

(** So the whole segment need not be the key: an earlier shorter key takes the
    requests of a later longer one, always. *)
Theorem C39_shadow_refuted : forall V k t (v v2 : V) mid post, ascii k ->
  factory_find ((k, v) :: mid ++ (k ++ t, v2) :: post) (k ++ t) = Some v.
Proof. intros V k t v v2 mid post A. cbn [factory_find]. rewrite (proj2 (factory_prefix k (k ++ t))); [reflexivity|]. split; [exact A|exists t; reflexivity]. Qed.
Print Assumptions C39_shadow_refuted.

(** a key with a character from 128 on (UTF-8) never matches, not even itself *)
Theorem C39_utf8_refuted : forall key s, ~ ascii key -> factory_starts_with s key = false.
Proof. intros key s H. destruct (factory_starts_with s key) eqn:E; [|reflexivity]. apply factory_prefix in E. tauto. Qed.
Print Assumptions C39_utf8_refuted.

(** "v1" and "v10" *)
Example C39_case :
  factory_find [([118; 49]%N, 1%nat); ([118; 49; 48]%N, 2%nat)] [118; 49; 48]%N = Some 1%nat /\
  factory_find [([118; 49; 48]%N, 2%nat); ([118; 49]%N, 1%nat)] [118; 49; 48]%N = Some 2%nat /\
  factory_find [([118; 49; 48]%N, 2%nat)] [118; 49]%N = None /\
  dispatcher_starts_with [118]%N [118; 49]%N = true /\ dispatcher_starts_with [] [118; 49]%N = true /\ dispatcher_starts_with [119]%N [118; 49]%N = false.
Proof. repeat split. Qed.
