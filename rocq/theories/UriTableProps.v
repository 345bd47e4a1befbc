(** C73: the CoRE listing of the observer, and the nested path tables. *)
From Coq Require Import Ascii String ZArith.
From Verif Require Import Base UriModel UriSpec UriProofs UriProps DiagModel DiagSpec DiagProofs UriTableModel UriTableSpec UriTableProofs.
Local Open Scope Z_scope.

(** The observer writes one line per node with metadata, in the order of the table:
    its link, the title and a line end; it faults exactly if that does not fit. *)
Theorem C73_listing : forall cap cd ts,
  NoDup (map r_id (forest_rows ts)) -> ids_real (forest_rows ts) -> Forall (fun t => height t <= 10)%nat ts ->
  let text := listing (map snd (links cd (forest_paths ts))) in
  if (List.length text <=? cap)%nat then exists st, co_walk cap cd (forest_rows ts) (CObs [] []) = Ok (CObs st text)
  else co_walk cap cd (forest_rows ts) (CObs [] []) = Fault.
Proof.
  intros cap cd ts D R H text. destruct (C38_links cd ts D R H) as (st & W).
  rewrite co_walk_view by (cbn [List.length]; lia). rewrite W. cbn [bind fst snd app]. fold text.
  destruct (List.length text <=? cap)%nat; [exists st; reflexivity|reflexivity].
Qed.
Print Assumptions C73_listing.

(** Cut at its line ends, the text gives back the links in order. *)
Theorem C73_lines : forall cap cd ts o,
  NoDup (map r_id (forest_rows ts)) -> ids_real (forest_rows ts) -> Forall (fun t => height t <= 10)%nat ts ->
  Forall (fun p => Forall (fun s => ~ In 10%N s) (snd p)) (forest_paths ts) -> data_free 10%N cd ->
  co_walk cap cd (forest_rows ts) (CObs [] []) = Ok o ->
  cut [] (o_out o) = map line (map snd (links cd (forest_paths ts))).
Proof.
  intros cap cd ts o D R H F G W. pose proof (C73_listing cap cd ts D R H) as L. cbv zeta in L.
  destruct (_ <=? cap)%nat; [|rewrite L in W; discriminate]. destruct L as (st & L). rewrite L in W. injection W as <-. cbn [o_out].
  apply cut_listing. apply Forall_forall. intros l I. apply in_map_iff in I. destruct I as ((id, t) & <- & I). cbn [snd].
  unfold links in I. apply in_flat_map in I. destruct I as ((id', path) & I & T). cbn [fst snd] in T.
  destruct (first_data cd id') as [v|] eqn:E; [|destruct T]. destruct T as [T|[]]. injection T as _ <-.
  rewrite Forall_forall in F. specialize (F _ I). cbn [snd] in F.
  unfold first_data in E. apply find_some in E. destruct E as [E _]. unfold data_free in G. rewrite Forall_forall in G. destruct (G v E).
  apply link_free; auto.
Qed.
Print Assumptions C73_lines.

(** Full claim (false): the listing is a CoRE link list, links separated by commas.
    No comma is ever written that was not in a segment or in the metadata. *)
Theorem C73_comma_refuted : forall cap cd ts o,
  NoDup (map r_id (forest_rows ts)) -> ids_real (forest_rows ts) -> Forall (fun t => height t <= 10)%nat ts ->
  Forall (fun p => Forall (fun s => ~ In 44%N s) (snd p)) (forest_paths ts) -> data_free 44%N cd ->
  co_walk cap cd (forest_rows ts) (CObs [] []) = Ok o -> forall a b, o_out o <> (a ++ 44%N :: b)%list.
Proof.
  intros cap cd ts o D R H F G W a b C. pose proof (C73_listing cap cd ts D R H) as L. cbv zeta in L.
  destruct (_ <=? cap)%nat; [|rewrite L in W; discriminate]. destruct L as (st & L). rewrite L in W. injection W as <-. cbn [o_out] in C.
  refine (listing_free (map snd (links cd (forest_paths ts))) _ _); [|rewrite C; apply in_elt].
  apply Forall_forall. intros l I. apply in_map_iff in I. destruct I as ((id, t) & <- & I). cbn [snd].
  unfold links in I. apply in_flat_map in I. destruct I as ((id', path) & I & T). cbn [fst snd] in T.
  destruct (first_data cd id') as [v|] eqn:E; [|destruct T]. destruct T as [T|[]]. injection T as _ <-.
  rewrite Forall_forall in F. specialize (F _ I). cbn [snd] in F.
  unfold first_data in E. apply find_some in E. destruct E as [E _]. unfold data_free in G. rewrite Forall_forall in G. destruct (G v E).
  apply link_free; auto.
Qed.
Print Assumptions C73_comma_refuted.

(** The attributes: the number written is the decimal numeral of the value, and no two
    values give the same text. *)
Theorem C73_attributes : forall n,
  (exists t, attr_ct n = (str ";ct=" ++ t)%list /\ numeral false 10 n t) /\
  (exists t, attr_sz n = (str ";sz=" ++ t)%list /\ numeral false 10 n t).
Proof. intro n. split; eexists; (split; [reflexivity|apply digits_numeral; lia]). Qed.
Print Assumptions C73_attributes.

Theorem C73_attributes_injective : forall n m, (attr_ct n = attr_ct m -> n = m) /\ (attr_sz n = attr_sz m -> n = m).
Proof.
  assert (A : forall n m, digits false 10 n = digits false 10 m -> n = m).
  { intros n m E. destruct (digits_numeral false 10 n ltac:(lia)) as (_ & V & _). destruct (digits_numeral false 10 m ltac:(lia)) as (_ & W & _). congruence. }
  intros n m. split; intro E; apply app_inv_head in E; apply A; exact E.
Qed.
Print Assumptions C73_attributes_injective.

(** A quote inside a title is not escaped: a reader that stops at the next quote gets
    the title back exactly if there is none in it. *)
Theorem C73_title : forall v rest,
  exists q, attr_title v = (str ";title=" ++ 34%N :: q)%list /\ (quoted (q ++ rest) = Some (v, rest) <-> ~ In 34%N v).
Proof.
  intros v rest. exists (v ++ [34%N])%list. split; [reflexivity|]. rewrite <- app_assoc. cbn [app].
  induction v as [|c v IH]; cbn [app quoted].
  - rewrite N.eqb_refl. split; [intros _ []|reflexivity].
  - destruct (N.eqb_spec c 34) as [E|E].
    + split; [discriminate|]. intro H. exfalso. apply H. left. exact E.
    + destruct (quoted (v ++ 34%N :: rest)) as [[a b]|].
      * split.
        -- intro H. injection H as <- <-. intros [K|K]; [congruence|]. apply (proj1 IH eq_refl K).
        -- intro H. f_equal. assert (K : ~ In 34%N v) by (intro K; apply H; right; exact K). apply IH in K. congruence.
      * split; [discriminate|]. intro H. exfalso. assert (K : ~ In 34%N v) by (intro K; apply H; right; exact K). apply IH in K. discriminate.
Qed.
Print Assumptions C73_title.

(** Nested tables: the entry found is the first of the array, or none is. *)
Theorem C73_entry : forall items count s id, (count <= List.length items)%nat ->
  (exists pre e post, firstn count items = pre ++ e :: post /\ e_seg e = s /\ e_id e = id /\ forall c, In c pre -> e_seg c <> s) \/
  (id = NONE /\ forall c, In c (firstn count items) -> e_seg c <> s) <->
  match2 items count s = Ok id.
Proof.
  induction items as [|c items IH]; intros count s id L.
  - cbn [List.length] in L. replace count with 0%nat by lia. cbn [firstn match2]. split.
    + intros [(pre & e & post & E & _)|[-> _]]; [destruct pre; discriminate|reflexivity].
    + intro H. injection H as <-. right. split; [reflexivity|intros c []].
  - destruct count as [|count]; cbn [firstn match2].
    + split; [intros [(pre & e & post & E & _)|[-> _]]; [destruct pre; discriminate|reflexivity]|].
      intro H. injection H as <-. right. split; [reflexivity|intros x []].
    + cbn [List.length] in L. destruct (str_eqb s (e_seg c)) eqn:E.
      * apply str_eqb_eq in E. subst s. split.
        -- intros [(pre & e & post & P & S1 & I & N)|[_ N]]; [|exfalso; apply (N c); [left; reflexivity|reflexivity]].
           destruct pre as [|x pre]; [injection P as <- _; congruence|]. injection P as <- _. exfalso. apply (N c); [left; reflexivity|reflexivity].
        -- intro H. injection H as <-. left. exists [], c, (firstn count items). repeat split. intros x [].
      * assert (Ne : e_seg c <> s) by (intro K; rewrite (proj2 (str_eqb_eq _ _) (eq_sym K)) in E; discriminate).
        rewrite <- (IH count s id) by lia. split.
        -- intros [(pre & e & post & P & S1 & I & N)|[I N]].
           ++ destruct pre as [|x pre]; [injection P as <- _; congruence|]. injection P as <- P. left. exists pre, e, post. repeat split; try assumption.
              intros y Y. apply N. right. exact Y.
           ++ right. split; [exact I|]. intros y Y. apply N. right. exact Y.
        -- intros [(pre & e & post & P & S1 & I & N)|[I N]].
           ++ left. exists (c :: pre), e, post. rewrite P. repeat split; try assumption. intros y [<-|Y]; [exact Ne|exact (N y Y)].
           ++ right. split; [exact I|]. intros y [<-|Y]; [exact Ne|exact (N y Y)].
Qed.
Print Assumptions C73_entry.

(** With each parent in one relation only, the two lookups after one another give the
    id that the flat table of C37 gives. *)
Theorem C73_nested : forall rels p s, NoDup (map l_key rels) -> counted rels ->
  match_nested rels (List.length rels) p s = Ok (match match_row (flat rels) s p with Some r => r_id r | None => NONE end).
Proof. exact nested_flat. Qed.
Print Assumptions C73_nested.

(** Not if a parent has two relations: the second is never looked at. *)
Theorem C73_nested_refuted : forall key a b s id rest, (forall e, In e a -> e_seg e <> s) -> id <> NONE ->
  match_row (flat (Relation key a (List.length a) :: Relation key (Entry s id :: b) (Datatypes.S (List.length b)) :: rest)) s key = Some (Row s id key) /\
  match_nested (Relation key a (List.length a) :: Relation key (Entry s id :: b) (Datatypes.S (List.length b)) :: rest)
    (Datatypes.S (Datatypes.S (List.length rest))) key s = Ok NONE.
Proof.
  intros key a b s id rest N I. split.
  - unfold flat. cbn [flat_map l_items l_count l_key]. rewrite match_row_app.
    replace (match_row (map (fun e => Row (e_seg e) (e_id e) key) (firstn (List.length a) a)) s key) with (@None row).
    + cbn [firstn map app match_row e_seg e_id r_seg r_parent]. rewrite (proj2 (str_eqb_eq s s) eq_refl), Z.eqb_refl. reflexivity.
    + rewrite firstn_all. symmetry. apply C37_none. intros (r & K & S1 & _). apply in_map_iff in K. destruct K as (e & <- & K). exact (N e K S1).
  - unfold match_nested. cbn [match_rel l_key]. rewrite Z.eqb_refl. cbn [bind l_items l_count].
    apply C73_entry; [lia|]. right. split; [reflexivity|]. rewrite firstn_all. exact N.
Qed.
Print Assumptions C73_nested_refuted.

(** The count is trusted: a count beyond the array is harmless only if the key is found
    (the unit test passes sizeof(relations), the size in bytes). *)
Theorem C73_count : forall rels count key, (List.length rels < count)%nat ->
  (match_rel rels count key = Fault <-> ~ In key (map l_key rels)).
Proof.
  intros rels count key L. rewrite match_rel_spec, firstn_all2 by lia. rewrite (proj2 (Nat.leb_gt _ _) L).
  destruct (find _ rels) as [r|] eqn:E.
  - split; [discriminate|]. intro H. exfalso. apply H. apply find_some in E. destruct E as [E K]. apply Z.eqb_eq in K. subst key. apply in_map. exact E.
  - split; [|reflexivity]. intros _ H. apply in_map_iff in H. destruct H as (r & K & I). pose proof (find_none _ _ E r I) as F. cbv beta in F. apply Z.eqb_neq in F. congruence.
Qed.
Print Assumptions C73_count.

(** The same for the entries of one table: reading past its end is reached exactly if the
    count is too large and no entry has the segment. *)
Theorem C73_entry_count : forall items count s,
  match2 items count s = Fault <-> (List.length items < count)%nat /\ ~ In s (map e_seg items).
Proof.
  induction items as [|c items IH]; intros [|count] s; cbn [match2 List.length map].
  - split; [discriminate|intros [H _]; lia].
  - split; [intros _; split; [lia|intros []]|reflexivity].
  - split; [discriminate|intros [H _]; lia].
  - destruct (str_eqb s (e_seg c)) eqn:E.
    + apply str_eqb_eq in E. split; [discriminate|]. intros [_ H]. exfalso. apply H. left. now symmetry.
    + rewrite IH. assert (Ne : e_seg c <> s) by (intro K; rewrite (proj2 (str_eqb_eq _ _) (eq_sym K)) in E; discriminate).
      split; intros [L H]; (split; [lia|]).
      * intros [K|K]; [exact (Ne K)|exact (H K)].
      * intro K. apply H. right. exact K.
Qed.
Print Assumptions C73_entry_count.

(** the forest of C37 with metadata for nodes 3 and 6 *)
Definition sample_data : list core_data := [CoreData 3 (str "star-power") (str "switch"); CoreData 6 (str "x") []].
Example C73_listing_case :
  NoDup (map r_id (forest_rows sample_forest)) /\ ids_real (forest_rows sample_forest) /\ Forall (fun t => height t <= 10)%nat sample_forest /\
  exists st, co_walk 256 sample_data (forest_rows sample_forest) (CObs [] []) =
    Ok (CObs st (str "</a/b/c>;rt=" ++ 34%N :: str "star-power" ++ 34%N :: str ";if=" ++ 34%N :: str "switch" ++ 34%N :: str ";title=" ++ 34%N :: str "test" ++ 34%N :: 10%N ::
      str "</e/b>;rt=" ++ 34%N :: str "x" ++ 34%N :: str ";title=" ++ 34%N :: str "test" ++ [34%N; 10%N])%list) /\
    co_walk 60 sample_data (forest_rows sample_forest) (CObs [] []) = Fault.
Proof.
  split; [repeat constructor; cbn; intuition discriminate|]. split; [repeat constructor; discriminate|]. split; [repeat constructor|].
  eexists. split; vm_compute; reflexivity.
Qed.
Example C73_lines_case : Forall (fun p => Forall (fun s => ~ In 10%N s) (snd p)) (forest_paths sample_forest) /\ data_free 10%N sample_data /\
  Forall (fun p => Forall (fun s => ~ In 44%N s) (snd p)) (forest_paths sample_forest) /\ data_free 44%N sample_data.
Proof. unfold data_free. repeat split; repeat constructor; vm_compute; intuition discriminate. Qed.

(** experimental2-test.cpp 119-143: v1 (0), api (1), power (2), and what match gives;
    with the count the test passes (72) a key without a relation reads past the end *)
Definition sample_rels : list relation :=
  [Relation NONE [Entry (str "v1") 0] 1; Relation 0 [Entry (str "api") 1] 1; Relation 1 [Entry (str "power") 2] 1].
Example C73_nested_case :
  NoDup (map l_key sample_rels) /\ counted sample_rels /\
  match2 [Entry (str "v1") 0] 1 (str "v1") = Ok 0 /\
  match_rel sample_rels 72 0 = Ok (Some (Relation 0 [Entry (str "api") 1] 1)) /\
  match_nested sample_rels 3 1 (str "power") = Ok 2 /\ match_nested sample_rels 3 0 (str "power") = Ok NONE /\
  match_rel sample_rels 72 2 = Fault /\ match_rel sample_rels 3 2 = Ok None /\
  match2 [Entry (str "v1") 0] 2 (str "v1") = Ok 0 /\ match2 [Entry (str "v1") 0] 2 (str "v2") = Fault /\
  quoted (str "ab" ++ 34%N :: str ";x")%list = Some (str "ab", str ";x") /\
  attr_ct 40 = str ";ct=40" /\ attr_sz 0 = str ";sz=0".
Proof. split; [repeat constructor; cbn; intuition discriminate|]. split; [repeat constructor|]. repeat split. Qed.
