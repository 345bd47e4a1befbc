(** Proofs about the CoRE listing and the nested tables. *)
From Coq Require Import Ascii String ZArith.
From Verif Require Import Base UriModel UriSpec UriProofs DiagModel UriTableModel UriTableSpec.
Local Open Scope Z_scope.

Lemma core_walk_fuel : forall cd rows ps, core_walk cd rows ps <> NoFuel.
Proof.
  intros cd. induction rows as [|e rows IH]; intros ps; cbn [core_walk]; [discriminate|].
  unfold core_evaluate, parent_handler. destruct (_ <? 10)%nat; cbn [bind]; [|discriminate].
  cbn [fst snd]. specialize (IH (e :: pop_until (r_parent e) ps)). destruct (core_walk cd rows _); cbn [bind]; [discriminate|discriminate|congruence].
Qed.

Lemma listing_app : forall a b, listing (a ++ b) = (listing a ++ listing b)%list.
Proof. intros. unfold listing. apply flat_map_app. Qed.

Lemma co_walk_view : forall cap cd rows ps out, (List.length out <= cap)%nat ->
  co_walk cap cd rows (CObs ps out) =
  bind (core_walk cd rows ps) (fun x =>
    let t := (out ++ listing (map snd (fst x)))%list in
    if (List.length t <=? cap)%nat then Ok (CObs (snd x) t) else Fault).
Proof.
  intros cap cd. induction rows as [|e rows IH]; intros ps out L.
  - cbn [co_walk core_walk bind fst snd map]. cbn [listing flat_map]. rewrite app_nil_r. rewrite (proj2 (Nat.leb_le _ _) L). reflexivity.
  - cbn [co_walk core_walk]. unfold co_notify. cbn [o_parents o_out].
    destruct (core_evaluate cd e ps) as [[t ps']| |] eqn:E; cbn [bind]; [|reflexivity|reflexivity]. cbn [fst snd].
    destruct t as [t|].
    + assert (A : (out ++ t ++ title_tacker ++ [10%N] = out ++ (line t ++ [10%N]))%list)
        by (unfold line, title_tacker, attr_title, QUOTE; repeat rewrite <- app_assoc; reflexivity).
      rewrite A.
      destruct (Nat.leb_spec (List.length (out ++ (line t ++ [10%N]))) cap) as [K|K]; cbn [bind].
      * rewrite IH by exact K. destruct (core_walk cd rows ps') as [[ls st]| |]; cbn [bind fst snd]; try reflexivity.
        cbn [app map snd]. change (listing (t :: map snd ls)) with ((line t ++ [10%N]) ++ listing (map snd ls))%list.
        rewrite <- !app_assoc. reflexivity.
      * pose proof (core_walk_fuel cd rows ps') as F. destruct (core_walk cd rows ps') as [[ls st]| |]; cbn [bind fst snd]; [|reflexivity|congruence].
        cbn [app map snd]. change (listing (t :: map snd ls)) with ((line t ++ [10%N]) ++ listing (map snd ls))%list.
        rewrite app_assoc, app_length. destruct (Nat.leb_spec (List.length (out ++ line t ++ [10%N]) + List.length (listing (map snd ls))) cap); [lia|reflexivity].
    + cbn [bind]. rewrite IH by exact L. destruct (core_walk cd rows ps') as [[ls st]| |]; reflexivity.
Qed.

Lemma cut_line : forall l cur t, ~ In 10%N l -> cut cur (l ++ 10%N :: t) = (rev cur ++ l)%list :: cut [] t.
Proof.
  induction l as [|c l IH]; intros cur t H; cbn [app cut].
  - rewrite N.eqb_refl, app_nil_r. reflexivity.
  - destruct (N.eqb_spec c 10) as [E|E]; [exfalso; apply H; left; exact E|].
    rewrite IH by (intro K; apply H; right; exact K). cbn [rev]. rewrite <- app_assoc. reflexivity.
Qed.

Lemma title_free : forall c, c = 10%N \/ c = 44%N -> ~ In c (str ";title=" ++ [34%N] ++ str "test" ++ [34%N])%list.
Proof. intros c H K. vm_compute in K. destruct H as [-> | ->]; repeat (destruct K as [K|K]; [discriminate K|]); exact K. Qed.

Lemma cut_listing : forall ls, Forall (fun l => ~ In 10%N l) ls -> cut [] (listing ls) = map line ls.
Proof.
  induction 1 as [|l ls H _ IH]; [reflexivity|].
  change (listing (l :: ls)) with ((line l ++ [10%N]) ++ listing ls)%list. rewrite <- app_assoc. cbn [app map].
  rewrite cut_line; [rewrite IH; reflexivity|].
  unfold line. intro K. apply in_app_or in K. destruct K as [K|K]; [exact (H K)|]. exact (title_free 10%N (or_introl eq_refl) K).
Qed.

Lemma listing_free : forall ls, Forall (fun l => ~ In 44%N l) ls -> ~ In 44%N (listing ls).
Proof.
  induction 1 as [|l ls H _ IH]; [intros []|].
  change (listing (l :: ls)) with ((line l ++ [10%N]) ++ listing ls)%list. intro K. apply in_app_or in K. destruct K as [K|K]; [|exact (IH K)].
  apply in_app_or in K. destruct K as [K|[K|[]]]; [|discriminate]. unfold line in K. apply in_app_or in K. destruct K as [K|K]; [exact (H K)|].
  exact (title_free 44%N (or_intror eq_refl) K).
Qed.

Lemma link_free : forall c path v, c = 10%N \/ c = 44%N -> Forall (fun s => ~ In c s) path -> ~ In c (cd_rt v) -> ~ In c (cd_if v) -> ~ In c (link path v).
Proof.
  intros c path v Hc P R I K. unfold link in K.
  assert (X : forall x, In c x -> In x [[60%N]; [62%N]; [59; 114; 116; 61; 34]%N; [59; 105; 102; 61; 34]%N; [34%N]] -> False).
  { intros x A B. cbn [In] in B. destruct Hc as [-> | ->]; repeat (destruct B as [B|B]; [subst x; cbn [In] in A; repeat (destruct A as [A|A]; [discriminate A|]); exact A|]); exact B. }
  assert (Y : forall p, Forall (fun s => ~ In c s) p -> ~ In c (concat (map (fun s => 47%N :: s) p))).
  { induction 1 as [|s p H _ IH]; cbn [map concat]; [intros []|]. intro A. apply in_app_or in A. destruct A as [A|A]; [|exact (IH A)].
    destruct A as [A|A]; [destruct Hc; subst c; discriminate|exact (H A)]. }
  apply in_app_or in K. destruct K as [K|K]; [eapply X; [exact K|cbn; tauto]|].
  apply in_app_or in K. destruct K as [K|K]; [exact (Y path P K)|].
  apply in_app_or in K. destruct K as [K|K]; [eapply X; [exact K|cbn; tauto]|].
  unfold core_attrs in K. apply in_app_or in K. destruct K as [K|K].
  - destruct (cd_rt v) as [|b s]; [destruct K|]. apply in_app_or in K. destruct K as [K|K]; [eapply X; [exact K|cbn; tauto]|].
    apply in_app_or in K. destruct K as [K|K]; [exact (R K)|eapply X; [exact K|cbn; tauto]].
  - destruct (cd_if v) as [|b s]; [destruct K|]. apply in_app_or in K. destruct K as [K|K]; [eapply X; [exact K|cbn; tauto]|].
    apply in_app_or in K. destruct K as [K|K]; [exact (I K)|eapply X; [exact K|cbn; tauto]].
Qed.

(** ---- tables ---- *)
Lemma match2_flat : forall items count s key, (count <= List.length items)%nat ->
  match2 items count s = Ok (match match_row (map (fun e => Row (e_seg e) (e_id e) key) (firstn count items)) s key with Some r => r_id r | None => NONE end).
Proof.
  induction items as [|e items IH]; intros count s key L.
  - cbn [List.length] in L. destruct count; [reflexivity|lia].
  - destruct count as [|count]; [reflexivity|]. cbn [match2 firstn map match_row r_seg r_parent]. rewrite Z.eqb_refl, andb_true_r.
    destruct (str_eqb s (e_seg e)); [reflexivity|]. apply IH. cbn [List.length] in L. lia.
Qed.

Lemma match_row_app : forall a b s p, match_row (a ++ b) s p = match match_row a s p with Some r => Some r | None => match_row b s p end.
Proof. induction a as [|r a IH]; intros b s p; [reflexivity|]. cbn [app match_row]. destruct (_ && _); [reflexivity|apply IH]. Qed.

Lemma match_row_other : forall rows s p, Forall (fun r => r_parent r <> p) rows -> match_row rows s p = None.
Proof.
  induction 1 as [|r rows H _ IH]; [reflexivity|]. cbn [match_row]. destruct (Z.eqb_spec (r_parent r) p); [congruence|]. rewrite andb_false_r. exact IH.
Qed.

Lemma flat_other : forall rels p, ~ In p (map l_key rels) -> Forall (fun r => r_parent r <> p) (flat rels).
Proof.
  induction rels as [|r rels IH]; intros p H; [constructor|]. unfold flat. cbn [flat_map]. apply Forall_app. split.
  - apply Forall_forall. intros x I. apply in_map_iff in I. destruct I as (e & <- & _). cbn [r_parent]. intro E. apply H. left. exact E.
  - apply IH. intro K. apply H. right. exact K.
Qed.

Lemma nested_flat : forall rels p s, NoDup (map l_key rels) -> counted rels ->
  match_nested rels (List.length rels) p s = Ok (match match_row (flat rels) s p with Some r => r_id r | None => NONE end).
Proof.
  unfold match_nested. induction rels as [|r rels IH]; intros p s D C; [reflexivity|].
  inversion D as [|? ? D1 D2]; subst. inversion C as [|? ? C1 C2]; subst.
  cbn [List.length match_rel]. unfold flat. cbn [flat_map]. fold (flat rels). rewrite match_row_app.
  destruct (Z.eqb_spec (l_key r) p) as [E|E].
  - subst p. cbn [bind]. rewrite (match2_flat _ _ s (l_key r) C1). destruct (match_row (map _ _) s (l_key r)); [reflexivity|].
    rewrite (match_row_other (flat rels)); [reflexivity|]. apply flat_other. exact D1.
  - rewrite (match_row_other (map _ _)); [apply IH; assumption|].
    apply Forall_forall. intros x I. apply in_map_iff in I. destruct I as (e & <- & _). exact E.
Qed.

Lemma match_rel_spec : forall rels count key,
  match_rel rels count key =
  match find (fun r => l_key r =? key) (firstn count rels) with
  | Some r => Ok (Some r)
  | None => if (count <=? List.length rels)%nat then Ok None else Fault
  end.
Proof.
  induction rels as [|r rels IH]; intros count key; destruct count as [|count]; try reflexivity.
  cbn [match_rel firstn find]. destruct (l_key r =? key); [reflexivity|]. rewrite IH. reflexivity.
Qed.
