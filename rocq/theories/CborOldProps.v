(** C72: the older CBOR decoder over whole texts, map heads, simple values. *)
From Verif Require Import Base UIntModel UIntSpec UIntProofs CborModel CborSpec CborProofs CborOldModel CborOldSpec.
Local Open Scope N_scope.

(** * Handing a text to an observer *)

(** Whenever a byte is not yet taken, the decoder is not done. *)
Lemma not_taken : forall d b d', o_iterate d b = Ok (d', false) -> o_state d' <> ODone.
Proof.
  intros [h mo st] b d' H. unfold o_iterate in H. cbn [o_state o_head o_more] in H.
  destruct st; repeat match type of H with context [if ?c then _ else _] => destruct c end; try discriminate H; inversion H; subst; discriminate.
Qed.

Lemma offer_silent : forall f d b d' l, o_offer f d b = Ok (d', l) -> l = [].
Proof.
  induction f as [|f IH]; intros d b d' l H; [discriminate H|]. cbn [o_offer] in H.
  destruct (o_iterate d b) as [[d1 taken]| |] eqn:E; cbn [bind] in H; try discriminate H.
  destruct taken; [inversion H; reflexivity|].
  destruct (o_offer f d1 b) as [[d2 l2]| |] eqn:E2; cbn [bind fst snd] in H; try discriminate H.
  apply not_taken in E. apply IH in E2. subst l2. rewrite app_nil_r in H.
  assert (R : o_report d1 = []) by (unfold o_report; destruct (o_state d1); congruence).
  inversion H. now rewrite R.
Qed.

(** Full claim (false): decode tells its observer of every integer and simple value of
    the text.  What holds: whatever the text, it tells it nothing. *)
Theorem C72_silent_refuted : forall h mo cbor d' told, o_decode h mo cbor = Ok (d', told) -> told = [].
Proof.
  intros h mo cbor. unfold o_decode. generalize (ODec h mo OUninitialized) as d.
  induction cbor as [|b r IH]; intros d d' told H; cbn [o_loop] in H; [inversion H; reflexivity|].
  destruct (o_offer 4 d b) as [[d1 l1]| |] eqn:E1; cbn [bind fst snd] in H; try discriminate H.
  destruct (o_loop d1 r) as [[d2 l2]| |] eqn:E2; cbn [bind fst snd] in H; try discriminate H.
  inversion H; subst. rewrite (offer_silent _ _ _ _ _ E1), (IH _ _ _ E2). reflexivity.
Qed.
Print Assumptions C72_silent_refuted.

Lemma offer_byte : forall f d b, o_offer f d b = bind (o_byte f d b) (fun d' => Ok (d', [])).
Proof.
  induction f as [|f IH]; intros d b; [reflexivity|]. cbn [o_offer o_byte].
  destruct (o_iterate d b) as [[d1 taken]| |] eqn:E; cbn [bind]; try reflexivity.
  destruct taken; [reflexivity|]. rewrite IH. destruct (o_byte f d1 b) as [d2| |]; cbn [bind fst snd]; try reflexivity.
  apply not_taken in E. unfold o_report. destruct (o_state d1); congruence || reflexivity.
Qed.

Lemma loop_app : forall a d b, o_loop d (a ++ b) = bind (o_loop d a) (fun x => bind (o_loop (fst x) b) (fun y => Ok (fst y, snd x ++ snd y))).
Proof.
  induction a as [|c a IH]; intros d b; cbn [app o_loop bind fst snd].
  - destruct (o_loop d b) as [[d' l]| |]; reflexivity.
  - destruct (o_offer 4 d c) as [[d1 l1]| |]; cbn [bind fst snd]; try reflexivity. rewrite IH.
    destruct (o_loop d1 a) as [[d2 l2]| |]; cbn [bind fst snd]; try reflexivity.
    destruct (o_loop d2 b) as [[d3 l3]| |]; cbn [bind fst snd]; try reflexivity. now rewrite app_assoc.
Qed.

Lemma info_mod : forall h mo st, o_info (ODec h mo st) = h mod 32.
Proof. intros. unfold o_info. cbn [o_head]. change 31 with (N.ones 5). now rewrite N.land_ones. Qed.

Lemma first_byte : forall d b, o_ready d ->
  o_offer 4 d b = Ok (ODec b [] (match arg_len b with O => ODone | _ => OAdditionalInteger end), []).
Proof.
  intros [h mo st] b HR. rewrite offer_byte. unfold o_ready in HR. cbn [o_state] in HR.
  assert (X : o_has_additional (ODec b [] OMajorTypeDone) = match arg_len b with O => false | _ => true end).
  { unfold o_has_additional, arg_len. rewrite info_mod.
    destruct (N.eqb_spec (b mod 32) 24); [reflexivity|]. destruct (N.eqb_spec (b mod 32) 25); [reflexivity|].
    destruct (N.eqb_spec (b mod 32) 26); [reflexivity|]. destruct (N.eqb_spec (b mod 32) 27); reflexivity. }
  destruct st; try destruct HR; cbn [o_byte o_iterate o_state bind o_head o_more]; rewrite X; destruct (arg_len b); reflexivity.
Qed.

(** the argument bytes of a head *)
Lemma arg_byte : forall b mo x, arg_len b <> 8%nat -> (length mo < arg_len b)%nat ->
  o_offer 4 (ODec b mo OAdditionalInteger) x =
    Ok (ODec b (mo ++ [x]) (if Nat.eqb (S (length mo)) (arg_len b) then ODone else OAdditionalInteger), []).
Proof.
  intros b mo x H8 Hl. rewrite offer_byte. cbn [o_byte o_iterate o_state o_more o_head bind]. rewrite info_mod, app_length. cbn [length].
  revert H8 Hl. unfold arg_len.
  destruct (N.eqb_spec (b mod 32) 24) as [E|E]; [rewrite E|destruct (N.eqb_spec (b mod 32) 25) as [E1|E1]; [rewrite E1|destruct (N.eqb_spec (b mod 32) 26) as [E2|E2]; [rewrite E2|destruct (N.eqb_spec (b mod 32) 27); intros; exfalso; lia]]];
  intros H8 Hl; destruct (Nat.ltb_spec 5 (S (length mo + 1))); try lia; cbn [N.eqb Pos.eqb];
  replace (length mo + 1)%nat with (S (length mo)) by lia; cbn [Nat.eqb];
  match goal with |- context [(length mo =? ?n)%nat] => destruct (Nat.eqb_spec (length mo) n) end; reflexivity.
Qed.

Lemma arg_bytes : forall xs b mo, arg_len b <> 8%nat -> (length mo + length xs <= arg_len b)%nat -> (length mo < arg_len b)%nat ->
  o_loop (ODec b mo OAdditionalInteger) xs =
    Ok (ODec b (mo ++ xs) (if Nat.eqb (length mo + length xs) (arg_len b) then ODone else OAdditionalInteger), []).
Proof.
  induction xs as [|x xs IH]; intros b mo H8 Hl Hlt; cbn [o_loop].
  - cbn [length] in *. rewrite app_nil_r, Nat.add_0_r. destruct (Nat.eqb_spec (length mo) (arg_len b)); [lia|reflexivity].
  - cbn [length] in *. rewrite arg_byte by assumption. cbn [bind fst snd]. destruct (Nat.eqb_spec (S (length mo)) (arg_len b)) as [E|E].
    + destruct xs as [|y xs]; [|cbn [length] in Hl; lia]. cbn [o_loop bind fst snd app length].
      destruct (Nat.eqb_spec (length mo + 1) (arg_len b)); [reflexivity|lia].
    + rewrite IH; [|assumption|rewrite app_length; cbn [length]; lia|rewrite app_length; cbn [length]; lia]. cbn [bind fst snd app].
      rewrite <- app_assoc, app_length. cbn [app length]. replace (length mo + 1 + length xs)%nat with (length mo + S (length xs))%nat by lia. reflexivity.
Qed.

Lemma at_end_cons : forall d b args hs t, at_end d ((b, args) :: hs) t = at_end (ODec b args ODone) hs t.
Proof.
  intros d b args hs t. unfold at_end. destruct t; try reflexivity; cbn [List.rev]; destruct (List.rev hs) as [|p r] eqn:E; try reflexivity;
  cbn [app]; destruct p; reflexivity.
Qed.

Lemma wide_fault : forall b x rest, arg_len b = 8%nat -> o_loop (ODec b [] OAdditionalInteger) (x :: rest) = Fault.
Proof.
  intros b x rest H. cbn [o_loop]. rewrite offer_byte. cbn [o_byte o_iterate o_state o_more o_head bind app length]. rewrite info_mod.
  change (5 <? 2)%nat with false. cbn iota.
  assert (E : b mod 32 = 27).
  { unfold arg_len in H. destruct (N.eqb_spec (b mod 32) 24); [discriminate|]. destruct (N.eqb_spec (b mod 32) 25); [discriminate|].
    destruct (N.eqb_spec (b mod 32) 26); [discriminate|]. destruct (N.eqb_spec (b mod 32) 27); [assumption|discriminate]. }
  rewrite E. reflexivity.
Qed.

Lemma loop_heads : forall cbor hs t, heads cbor hs t -> forall d, o_ready d ->
  o_loop d cbor = match t with Wide => Fault | _ => Ok (at_end d hs t, []) end.
Proof.
  intros cbor hs t H. induction H as [|b args rest hs t H8 Hl Hh IH|b args H8 Hl|b H8|b x rest H8]; intros d HR.
  - reflexivity.
  - cbn [o_loop]. rewrite first_byte by assumption. cbn [bind fst snd]. rewrite loop_app.
    assert (A : o_loop (ODec b [] (match arg_len b with O => ODone | _ => OAdditionalInteger end)) args = Ok (ODec b args ODone, [])).
    { destruct (arg_len b) as [|n] eqn:E.
      - destruct args; [reflexivity|discriminate Hl].
      - rewrite arg_bytes; [|congruence|cbn [length]; lia|cbn [length]; lia]. cbn [length Nat.add app]. rewrite Hl, E, Nat.eqb_refl. reflexivity. }
    rewrite A. cbn [bind fst snd]. rewrite (IH (ODec b args ODone) I), at_end_cons. destruct t; reflexivity.
  - cbn [o_loop]. rewrite first_byte by assumption. cbn [bind fst snd]. destruct (arg_len b) as [|n] eqn:E; [lia|].
    rewrite arg_bytes; [|congruence|cbn [length]; lia|cbn [length]; lia]. cbn [length Nat.add app bind fst snd]. rewrite E.
    destruct (Nat.eqb_spec (length args) (S n)); [lia|reflexivity].
  - cbn [o_loop]. rewrite first_byte by assumption. rewrite H8. reflexivity.
  - assert (A : o_loop d [b] = Ok (ODec b [] OAdditionalInteger, [])) by (cbn [o_loop]; rewrite first_byte by assumption; rewrite H8; reflexivity).
    change (b :: x :: rest) with ([b] ++ x :: rest). rewrite loop_app, A. cbn [bind fst snd app]. rewrite wide_fault by assumption. reflexivity.
Qed.

(** Every text has heads, and decode walks over exactly them: it returns with the
    decoder on the last one, or in the middle of the one cut off, and asserts at a 64-bit
    one if a byte follows. *)
Theorem C72_walk : forall cbor, exists hs t, heads cbor hs t /\
  forall h mo, o_decode h mo cbor = match t with Wide => Fault | _ => Ok (at_end (ODec h mo OUninitialized) hs t, []) end.
Proof.
  intros cbor. assert (H : exists hs t, heads cbor hs t).
  { remember (length cbor) as n eqn:En. revert cbor En. induction n as [n IH] using lt_wf_ind. intros cbor ->.
    destruct cbor as [|b r]; [exists [], Whole; constructor|].
    destruct (Nat.eq_dec (arg_len b) 8) as [E|E].
    { destruct r as [|x r]; eexists; eexists; [apply heads_cut_wide; assumption|apply heads_wide; assumption]. }
    destruct (Nat.lt_ge_cases (length r) (arg_len b)) as [L|L]; [eexists; eexists; apply heads_cut; assumption|].
    assert (A : length (firstn (arg_len b) r) = arg_len b) by (rewrite firstn_length; lia).
    destruct (IH (length (skipn (arg_len b) r))) with (cbor := skipn (arg_len b) r) as (hs & t & Hh); [cbn [length]; rewrite skipn_length; lia|reflexivity|].
    exists ((b, firstn (arg_len b) r) :: hs), t. rewrite <- (firstn_skipn (arg_len b) r) at 1. now apply heads_cons. }
  destruct H as (hs & t & H). exists hs, t. split; [exact H|]. intros h mo. unfold o_decode. now apply loop_heads.
Qed.
Print Assumptions C72_walk.

(** the text of the unit test's credentials, an integer and true: nothing is told; the
    bytes of the string count as heads *)
Example C72_walk_case :
  heads [0x18; 100; 0x61; 0x41; 0xF5] [(0x18, [100]); (0x61, []); (0x41, []); (0xF5, [])] Whole /\
  o_decode 0 [] [0x18; 100; 0x61; 0x41; 0xF5] = Ok (ODec 0xF5 [] ODone, []) /\
  heads [0x01; 0x1A; 7] [(1, [])] (Cut 0x1A [7]) /\ o_decode 0 [] [0x01; 0x1A; 7] = Ok (ODec 0x1A [7] OAdditionalInteger, []) /\
  heads [0x1B; 0] [] Wide /\ o_decode 0 [] [0x1B; 0] = Fault.
Proof.
  split; [|split; [reflexivity|split; [|split; [reflexivity|split; [|reflexivity]]]]].
  - apply (heads_cons 0x18 [100]); [discriminate|reflexivity|]. apply (heads_cons 0x61 []); [discriminate|reflexivity|].
    apply (heads_cons 0x41 []); [discriminate|reflexivity|]. apply (heads_cons 0xF5 []); [discriminate|reflexivity|]. constructor.
  - apply (heads_cons 1 []); [discriminate|reflexivity|]. apply heads_cut; [discriminate|apply Nat.ltb_lt; reflexivity].
  - apply heads_wide. reflexivity.
Qed.

(** * Map heads *)

Lemma process_keeps : forall bs h mo d' r, o_process (ODec h mo OAdditionalInteger) bs = Ok (d', r) -> o_head d' = h.
Proof.
  induction bs as [|b bs IH]; intros h mo d' r H; [discriminate H|]. cbn [o_process o_byte o_iterate o_state o_head o_more] in H.
  repeat match type of H with
  | context [bind (if ?c then _ else _)] => destruct c; cbn [bind o_iterate o_state o_head o_more] in H; try discriminate H
  end;
  try (inversion H; subst; reflexivity); apply IH in H; exact H.
Qed.

Lemma head_kept : forall d m v post, o_ready d -> m < 8 -> v < 2 ^ 32 ->
  exists d', o_process d (rfc_head m v ++ post) = Ok (d', post) /\ o_ready d' /\ o_type d' = m /\
    (if v <? 24 then o_info d' = v else if v <? 256 then o_info d' = 24 else if v <? 65536 then o_info d' = 25 else o_info d' = 26) /\
    forall w, 32 <= w -> o_value w d' = Ok (if (24 <=? v) && (v <? 256) then 24 else v).
Proof.
  intros d m v post HR Hm Hv. destruct (o_head_spec d m v post HR Hm Hv) as (d' & A & B & C & D). exists d'. split; [exact A|]. split; [exact B|]. split; [exact C|]. split; [|exact D].
  assert (X : exists x r, rfc_head m v = (m * 32 + x) :: r /\ x < 32 /\ (if v <? 24 then x = v else if v <? 256 then x = 24 else if v <? 65536 then x = 25 else x = 26)).
  { unfold rfc_head. destruct (N.ltb_spec v 24); [exists v; eexists; split; [reflexivity|split; [lia|reflexivity]]|].
    destruct (N.ltb_spec v 256); [exists 24; eexists; split; [reflexivity|split; [lia|reflexivity]]|].
    destruct (N.ltb_spec v 65536); [exists 25; eexists; split; [reflexivity|split; [lia|reflexivity]]|].
    destruct (N.ltb_spec v (2 ^ 32)); [exists 26; eexists; split; [reflexivity|split; [lia|reflexivity]]|lia]. }
  destruct X as (x & r & E & Hx & P). rewrite E in A. cbn [app o_process] in A. rewrite (o_first d _ m x HR eq_refl Hx) in A. cbn [bind o_state] in A.
  assert (HH : o_head d' = m * 32 + x).
  { destruct ((x =? 24) || (x =? 25) || (x =? 26) || (x =? 27)).
    - apply process_keeps in A. exact A.
    - inversion A. reflexivity. }
  assert (I : o_info d' = x). { destruct d' as [h mo st]. cbn [o_head] in HH. subst h. apply o_info_val. exact Hx. }
  rewrite I. exact P.
Qed.

(** get_map_experimental returns the number of pairs of every map whose number is not
    in 25 .. 255, leaving what follows; but it leaves *result as it was *)
Theorem C72_map : forall w d n post result, o_ready d -> 32 <= w -> n < 2 ^ 32 -> n < 25 \/ 256 <= n ->
  o_get_map w d (rfc_head 5 n ++ post) result = Ok (n, result, post).
Proof.
  intros w d n post result HR Hw Hn HX. destruct (head_kept d 5 n post HR ltac:(lia) Hn) as (d' & A & B & C & D & E).
  unfold o_get_map. rewrite A. cbn [bind]. rewrite C. change (5 =? M_MAP) with true. cbn iota. rewrite (E w Hw). cbn [bind].
  replace (if (24 <=? n) && (n <? 256) then 24 else n) with n; [reflexivity|]. destruct (N.leb_spec 24 n); destruct (N.ltb_spec n 256); cbn [andb]; lia.
Qed.
Print Assumptions C72_map.

(** every number of pairs in 25 .. 255 is read as 24 *)
Theorem C72_map_refuted : forall w d n post result, o_ready d -> 32 <= w -> 25 <= n < 256 ->
  o_get_map w d (rfc_head 5 n ++ post) result = Ok (24, result, post).
Proof.
  intros w d n post result HR Hw Hn. destruct (head_kept d 5 n post HR ltac:(lia)) as (d' & A & B & C & D & E); [change (2 ^ 32) with 4294967296; lia|].
  unfold o_get_map. rewrite A. cbn [bind]. rewrite C. change (5 =? M_MAP) with true. cbn iota. rewrite (E w Hw). cbn [bind].
  destruct (N.leb_spec 24 n); destruct (N.ltb_spec n 256); cbn [andb]; try lia; reflexivity.
Qed.
Print Assumptions C72_map_refuted.

(** any other head is refused, and consumed all the same *)
Theorem C72_no_map : forall w d m v post result, o_ready d -> m < 8 -> m <> 5 -> v < 2 ^ 32 ->
  o_get_map w d (rfc_head m v ++ post) result = Ok (0, PInvalidType, post).
Proof.
  intros w d m v post result HR Hm H5 Hv. destruct (head_kept d m v post HR Hm Hv) as (d' & A & B & C & D & E).
  unfold o_get_map. rewrite A. cbn [bind]. rewrite C. unfold M_MAP. destruct (N.eqb_spec m 5); [congruence|reflexivity].
Qed.
Print Assumptions C72_no_map.

Example C72_map_case : o_ready (ODec 0 [] OUninitialized) /\
  o_get_map 32 (ODec 0 [] OUninitialized) [0xB9; 1; 44; 0x61] PPartial = Ok (300, PPartial, [0x61]) /\
  o_get_map 32 (ODec 0 [] OUninitialized) [0xB8; 30; 0x61] POk = Ok (24, POk, [0x61]) /\
  o_get_map 32 (ODec 0 [] OUninitialized) [0x63; 0x61] POk = Ok (0, PInvalidType, [0x61]).
Proof. repeat split. Qed.

(** * Simple values *)

(** The older decoder: true and false are told from every other item, and asking for
    the value of another item asserts. *)
Theorem C72_bool : forall d m v post, o_ready d -> m < 8 -> v < 2 ^ 32 ->
  exists d', o_process d (rfc_head m v ++ post) = Ok (d', post) /\
    (o_is_bool d' = true <-> exists b, is_bool_item m v b) /\
    (forall b, o_bool d' = Ok b <-> is_bool_item m v b) /\
    (o_is_bool d' = false -> o_bool d' = Fault).
Proof.
  intros d m v post HR Hm Hv. destruct (head_kept d m v post HR Hm Hv) as (d' & A & B & C & D & E). exists d'. split; [exact A|].
  assert (K : forall k, k < 24 -> (o_info d' =? k) = (v =? k)).
  { intros k Hk. destruct (N.ltb_spec v 24); [rewrite D; reflexivity|]. destruct (N.ltb_spec v 256).
    - rewrite D. destruct (N.eqb_spec 24 k); destruct (N.eqb_spec v k); lia || reflexivity.
    - destruct (N.ltb_spec v 65536); rewrite D; match goal with |- (?a =? k) = _ => destruct (N.eqb_spec a k) end; destruct (N.eqb_spec v k); lia || reflexivity. }
  unfold o_bool, o_is_bool, is_bool_item. rewrite C, !K by lia. unfold M_SIMPLE.
  destruct (N.eqb_spec m 7) as [E7|E7]; cbn [andb].
  - destruct (N.eqb_spec v 20) as [E20|E20]; [|destruct (N.eqb_spec v 21) as [E21|E21]]; cbn [orb].
    + rewrite E20. change (20 =? 21) with false. split; [split; [intros _; exists false; split; auto|reflexivity]|]. split; [|discriminate].
      intros b. split; [intros H; injection H as <-; split; auto|intros [_ H]; destruct b; [discriminate H|reflexivity]].
    + rewrite E21. split; [split; [intros _; exists true; split; auto|reflexivity]|]. split; [|discriminate].
      intros b. split; [intros H; injection H as <-; split; auto|intros [_ H]; destruct b; [reflexivity|discriminate H]].
    + split; [split; [discriminate|intros [b [_ H]]; destruct b; contradiction]|]. split; [|reflexivity].
      intros b. split; [discriminate|intros [_ H]; destruct b; contradiction].
  - split; [split; [discriminate|intros [b [H _]]; contradiction]|]. split; [|reflexivity]. intros b. split; [discriminate|intros [H _]; contradiction].
Qed.
Print Assumptions C72_bool.

(** null likewise; asked of a simple value it answers, of anything else it asserts *)
Theorem C72_null : forall d m v post, o_ready d -> m < 8 -> v < 2 ^ 32 ->
  exists d', o_process d (rfc_head m v ++ post) = Ok (d', post) /\
    (o_null d' = Ok true <-> is_null_item m v) /\
    (o_null d' = Ok false <-> m = 7 /\ v < 256 /\ v <> 22) /\
    (o_null d' = Fault <-> m <> 7 \/ 256 <= v).
Proof.
  intros d m v post HR Hm Hv. destruct (head_kept d m v post HR Hm Hv) as (d' & A & B & C & D & E). exists d'. split; [exact A|].
  unfold o_null, o_is_simple, is_null_item. rewrite C. unfold M_SIMPLE. destruct (N.eqb_spec m 7) as [E7|E7]; cbn [andb].
  - destruct (N.ltb_spec v 24) as [L|L]; [rewrite D|destruct (N.ltb_spec v 256) as [L2|L2]; [rewrite D|]].
    + destruct (N.leb_spec v 24); [|lia]. destruct (N.eqb_spec v 22).
      * repeat split; try (intros; discriminate); auto; try lia.
      * repeat split; try (intros; discriminate); auto; try lia.
    + change (24 <=? 24) with true. change (24 =? 22) with false. repeat split; try (intros; discriminate); auto; try lia.
    + destruct (N.leb_spec (o_info d') 24); [destruct (N.ltb_spec v 65536); lia|]. repeat split; try (intros; discriminate); auto; try lia.
  - repeat split; try (intros; discriminate); auto; try lia.
Qed.
Print Assumptions C72_null.

(** The newer decoder: with the type asked first, true, false and null are exactly the
    items of that name. *)
Theorem C72_simple : forall pre post g d m v, m < 8 -> v < 2 ^ 32 -> length (c_buf d) = 4%nat ->
  c_state d = CHeaderStart \/ c_state d = CItemDone ->
  exists d', c_process (pre ++ rfc_head m v ++ post) g d (length pre) = Ok (d', (length pre + length (rfc_head m v))%nat, false) /\
    (c_is_simple d' = true <-> m = 7) /\
    (c_is_simple d' && c_is_true d' = true <-> is_bool_item m v true) /\
    (c_is_simple d' && c_is_false d' = true <-> is_bool_item m v false) /\
    (c_is_simple d' && c_is_null d' = true <-> is_null_item m v).
Proof.
  intros pre post g d m v Hm Hv Hb Hs. destruct (process_head pre post g d m v Hm Hv Hb Hs) as (d' & A & H). exists d'. split; [exact A|].
  assert (K : forall k, k < 24 -> (c_raw d' =? k) = (v =? k)).
  { intros k Hk. destruct (h_arg _ _ _ H) as [(T & _ & R)|(T & Z & _)]; [now rewrite R|]. unfold c_tiny in Z. apply N.ltb_ge in Z.
    destruct (N.eqb_spec (c_raw d') k); destruct (N.eqb_spec v k); lia || reflexivity. }
  unfold c_is_simple, c_is_true, c_is_false, c_is_null, is_bool_item, is_null_item. rewrite (h_type _ _ _ H), !K by lia. unfold M_SIMPLE.
  rewrite !andb_true_iff, !N.eqb_eq. split; [reflexivity|]. split; [reflexivity|]. split; reflexivity.
Qed.
Print Assumptions C72_simple.

(** Not asked first, the head of any item with argument 21 passes for true, also through
    SimpleDataHelper. *)
Theorem C72_type_blind_refuted : forall pre post g d m, m < 8 -> length (c_buf d) = 4%nat ->
  c_state d = CHeaderStart \/ c_state d = CItemDone ->
  exists d', c_process (pre ++ rfc_head m 21 ++ post) g d (length pre) = Ok (d', S (length pre), false) /\ c_type d' = m /\ c_is_true d' = true.
Proof.
  intros pre post g d m Hm Hb Hs. destruct (process_head pre post g d m 21 Hm) as (d' & A & H); auto; [reflexivity|]. exists d'. split.
  - rewrite A. do 3 f_equal. change (length (rfc_head m 21)) with 1%nat. lia.
  - split; [apply (h_type _ _ _ H)|]. unfold c_is_true. destruct (h_arg _ _ _ H) as [(T & _ & R)|(T & _)]; [now rewrite R|lia].
Qed.
Print Assumptions C72_type_blind_refuted.

(** Which of is_8bit, is_16bit and is_32bit holds is the width of the argument. *)
Theorem C72_width : forall d m v post, o_ready d -> m < 8 -> v < 2 ^ 32 ->
  exists d', o_process d (rfc_head m v ++ post) = Ok (d', post) /\
    o_bits d' = if v <? 24 then None else Some (8 * N.of_nat (length (rfc_head m v) - 1)).
Proof.
  intros d m v post HR Hm Hv. destruct (head_kept d m v post HR Hm Hv) as (d' & A & B & C & D & E). exists d'. split; [exact A|].
  unfold o_bits, rfc_head. revert D. destruct (N.ltb_spec v 24) as [L|L]; intros D.
  - rewrite D. destruct (N.eqb_spec v 24); [lia|]. destruct (N.eqb_spec v 25); [lia|]. destruct (N.eqb_spec v 26); [lia|]. destruct (N.eqb_spec v 27); [lia|reflexivity].
  - destruct (N.ltb_spec v 256); [rewrite D; reflexivity|]. destruct (N.ltb_spec v 65536); [rewrite D; reflexivity|].
    rewrite D. destruct (N.ltb_spec v (2 ^ 32)); [reflexivity|lia].
Qed.
Print Assumptions C72_width.

Example C72_simple_case :
  (exists d, o_process (ODec 0 [] OUninitialized) [0xF5; 1] = Ok (d, [1]) /\ o_is_bool d = true /\ o_bool d = Ok true /\ o_null d = Ok false) /\
  (exists d, o_process (ODec 0 [] OUninitialized) [0x15] = Ok (d, []) /\ o_is_bool d = false /\ o_bool d = Fault /\ o_null d = Fault) /\
  (exists d, c_process [0xF6] 0 (c_init [0; 0; 0; 0] 0 0) 0 = Ok (d, 1%nat, false) /\ c_is_simple d = true /\ c_is_null d = true /\ c_is_true d = false).
Proof. repeat split; eexists; (split; [vm_compute; reflexivity|]); repeat split. Qed.
