(** Lemmas for C57 and C58. *)
From Verif Require Import Base CopyModel CopySpec.
Local Open Scope N_scope.

(** ** coap_netbuf_copy *)
Lemma next_space : forall d, t_room d = 0%nat -> space (dest_next d) = space d /\ dest_bytes (dest_next d) = dest_bytes d /\ sizes (dest_next d) = sizes d.
Proof.
  intros [done cur room more] H. cbn in H. subst room. unfold dest_next, space, dest_bytes, sizes. destruct more as [|r rs]; cbn [t_more t_done t_cur t_room]; [auto|].
  split; [change (list_sum (r :: rs)) with (r + list_sum rs)%nat; lia|]. split.
  - rewrite concat_app. cbn [concat]. rewrite !app_nil_r. reflexivity.
  - rewrite map_app, <- app_assoc. cbn [map app length]. rewrite !Nat.add_0_r. reflexivity.
Qed.

Lemma some_step : forall s d, let n := Nat.min (length s) (t_room d) in
  let d1 := Dest (t_done d) (t_cur d ++ firstn n s) (t_room d - n) (t_more d) in
  copy_some (Some s) d = Ok (Some (skipn n s), d1) /\ dest_bytes d1 = dest_bytes d ++ firstn n s /\ sizes d1 = sizes d /\
  (length (skipn n s) + n = length s)%nat /\ (space d1 + n = space d)%nat /\ (skipn n s <> [] -> t_room d1 = 0%nat).
Proof.
  intros s d n d1. split; [reflexivity|]. unfold d1, dest_bytes, sizes, space. cbn [t_done t_cur t_room t_more]. split; [rewrite app_assoc; reflexivity|].
  assert (L : length (firstn n s) = n) by (rewrite firstn_length; lia). split; [f_equal; f_equal; rewrite app_length, L; lia|].
  split; [rewrite skipn_length; lia|]. split; [lia|]. intro H. destruct (Nat.le_gt_cases (length s) (t_room d)) as [G|G]; [|lia].
  destruct H. apply skipn_all2. lia.
Qed.

Lemma copy_fits : forall fuel s more d, (length more + length (t_more d) < fuel)%nat -> (length s + length (concat more) <= space d)%nat ->
  exists d', copy_loop fuel (Some s) more d = Ok d' /\ dest_bytes d' = dest_bytes d ++ s ++ concat more /\ sizes d' = sizes d.
Proof.
  induction fuel as [|k IH]; intros s more d F L; [lia|]. cbn [copy_loop]. destruct (some_step s d) as (E & B & Z & A1 & A2 & A3). cbv zeta in E. rewrite E. cbn [bind fst snd].
  set (n := Nat.min (length s) (t_room d)) in *. set (d1 := Dest (t_done d) (t_cur d ++ firstn n s) (t_room d - n) (t_more d)) in *.
  destruct (skipn n s) as [|x xs] eqn:K.
  - assert (Es : firstn n s = s) by (rewrite <- (firstn_skipn n s) at 2; rewrite K, app_nil_r; reflexivity). rewrite Es in B. cbn [length] in A1.
    destruct more as [|c cs]; [exists d1; cbn [concat]; rewrite app_nil_r; auto|]. cbn [concat] in *. rewrite app_length in L. cbn [length] in F.
    destruct (Nat.eqb_spec (t_room d1) 0) as [R|R].
    + destruct (next_space d1 R) as (S1 & S2 & S3). destruct (IH c cs (dest_next d1)) as (d' & C1 & C2 & C3).
      * unfold dest_next. cbn [t_more d1]. destruct (t_more d) eqn:T; cbn [t_more length]; [unfold d1; rewrite ?T; cbn; lia|cbn [length] in F; lia].
      * lia.
      * exists d'. rewrite C1, C2, C3, S2, S3, B, Z, <- app_assoc. auto.
    + destruct (IH c cs d1) as (d' & C1 & C2 & C3); [unfold d1; cbn [t_more]; lia|lia|].
      exists d'. rewrite C1, C2, C3, B, Z, <- app_assoc. auto.
  - assert (R : t_room d1 = 0%nat) by (apply A3; discriminate). destruct (next_space d1 R) as (S1 & S2 & S3).
    assert (M : t_more d <> []).
    { intro M. unfold space in A2, L. unfold d1 in A2, R. cbn [t_room t_more] in A2, R. rewrite M in *. cbn [list_sum fold_right length] in *. cbn [length] in A1. lia. }
    destruct (IH (x :: xs) more (dest_next d1)) as (d' & C1 & C2 & C3).
    + unfold dest_next. unfold d1; cbn [t_more]. destruct (t_more d); [congruence|]. cbn [t_more length] in *. lia.
    + cbn [length] in *. lia.
    + exists d'. rewrite C1, C2, C3, S2, S3, B, Z. split; [reflexivity|]. split; [|reflexivity].
      rewrite <- (firstn_skipn n s) at 2. rewrite K, <- !app_assoc. reflexivity.
Qed.

Lemma copy_endless : forall fuel s more d, (space d < length s + length (concat more))%nat -> copy_loop fuel (Some s) more d = NoFuel.
Proof.
  induction fuel as [|k IH]; intros s more d L; [reflexivity|]. cbn [copy_loop]. destruct (some_step s d) as (E & _ & _ & A1 & A2 & A3). cbv zeta in E. rewrite E. cbn [bind fst snd].
  set (n := Nat.min (length s) (t_room d)) in *. set (d1 := Dest (t_done d) (t_cur d ++ firstn n s) (t_room d - n) (t_more d)) in *.
  destruct (skipn n s) as [|x xs] eqn:K.
  - cbn [length] in A1. destruct more as [|c cs]; [unfold space in *; cbn [concat length] in L; lia|]. cbn [concat] in L. rewrite app_length in L.
    destruct (Nat.eqb_spec (t_room d1) 0) as [R|R]; [destruct (next_space d1 R) as (S1 & _)|]; apply IH; lia.
  - assert (R : t_room d1 = 0%nat) by (apply A3; discriminate). destruct (next_space d1 R) as (S1 & _). apply IH. cbn [length] in *. lia.
Qed.

Lemma copy_bad : forall fuel more d, (length (t_more d) < fuel)%nat -> (0 < space d)%nat -> copy_loop fuel None more d = Fault.
Proof.
  induction fuel as [|k IH]; intros more [done cur room rs] F L; [lia|]. cbn [copy_loop copy_some t_room t_more] in *. destruct room; [|reflexivity]. cbn [bind fst snd].
  unfold dest_next. cbn [t_more t_done t_cur]. unfold space in L. cbn [t_room t_more] in L. destruct rs as [|r rs]; [cbn in L; lia|].
  apply IH; cbn [t_more length] in *; [lia|]. unfold space. cbn [t_room t_more]. change (list_sum (r :: rs)) with (r + list_sum rs)%nat in L. lia.
Qed.

Lemma copy_bad_endless : forall fuel more d, space d = 0%nat -> copy_loop fuel None more d = NoFuel.
Proof.
  induction fuel as [|k IH]; intros more [done cur room rs] L; [reflexivity|]. cbn [copy_loop copy_some t_room t_more] in *.
  unfold space in L. cbn [t_room t_more] in L. destruct room; [|lia]. cbn [bind fst snd]. apply IH. rewrite (proj1 (next_space (Dest done cur 0 rs) eq_refl)). exact L.
Qed.

(** ** ManagedBuffer *)
Lemma sz_id : forall n, n < 2 ^ 64 -> sz n = n.
Proof. intros. apply N.mod_small. assumption. Qed.

Lemma sz_sub_le : forall a b, b <= a -> a < 2 ^ 64 -> sz_sub a b = a - b.
Proof. intros a b H L. unfold sz_sub, sz. replace (a + 2 ^ 64 - b) with (a - b + 1 * 2 ^ 64) by lia. rewrite N.mod_add by discriminate. apply N.mod_small. lia. Qed.

Lemma sz_sub_gt : forall a b, a < b -> b < 2 ^ 64 -> sz_sub a b = 2 ^ 64 - (b - a).
Proof. intros a b H L. unfold sz_sub, sz. rewrite N.mod_small by lia. lia. Qed.

(** the descriptors of segments that start at [base] *)
Fixpoint descs (base : N) (segs : list (N * list N)) : list (N * N) :=
  match segs with
  | [] => []
  | (c, bs) :: r => let e := base + N.of_nat (length bs) in (c, e) :: descs e r
  end.

Lemma descs_length : forall segs base, length (descs base segs) = length segs.
Proof. induction segs as [|[c bs] r IH]; intro base; cbn [descs length]; [reflexivity|]. rewrite IH. reflexivity. Qed.

Lemma total_cons : forall c bs r, total ((c, bs) :: r) = (length bs + total r)%nat.
Proof. intros. unfold total. cbn [map concat snd]. apply app_length. Qed.

Lemma fill_segs : forall segs mem desc n p, length mem = 1024%nat -> length desc = 10%nat ->
  (p + total segs <= 1024)%nat -> (n + length segs <= 10)%nat -> Forall (fun s => fst s <> 0) segs ->
  exists mem' desc', mb_fill segs (MB mem desc n 0 (N.of_nat p)) = Ok (MB mem' desc' (n + length segs) 0 (N.of_nat (p + total segs))) /\
    length mem' = 1024%nat /\ length desc' = 10%nat /\ firstn (p + total segs) mem' = firstn p mem ++ concat (map snd segs) /\
    firstn (n + length segs) desc' = firstn n desc ++ descs (N.of_nat p) segs.
Proof.
  induction segs as [|[c bs] r IH]; intros mem desc n p Lm Ld T C Nz.
  - exists mem, desc. unfold total. cbn [mb_fill map concat length descs]. rewrite !Nat.add_0_r, !app_nil_r. auto.
  - rewrite total_cons in *. cbn [length] in C. inversion Nz as [|x y N1 N2]; subst. cbn [fst] in N1. cbn [mb_fill].
    unfold mb_write. cbn [b_pos b_mem b_desc b_count b_cur]. rewrite Lm. unfold mb_size.
    destruct (N.leb_spec (N.of_nat p + N.of_nat (length bs)) 1024); [|lia]. change (1024 =? 1024)%nat with true. cbn [andb bind]. rewrite Nnat.Nat2N.id.
    set (m1 := firstn p mem ++ bs ++ skipn (p + length bs) mem).
    assert (Lm1 : length m1 = 1024%nat) by (unfold m1; rewrite !app_length, firstn_length, skipn_length; lia).
    unfold mb_boundary. cbn [b_pos b_mem b_desc b_count b_cur]. destruct (N.eqb_spec c 0); [contradiction|]. destruct (Nat.ltb_spec n 10); [|lia]. cbn [bind].
    rewrite sz_id by lia. set (d1 := firstn n desc ++ [(c, N.of_nat p + N.of_nat (length bs))] ++ skipn (S n) desc).
    assert (Ld1 : length d1 = 10%nat) by (unfold d1; rewrite !app_length, firstn_length, skipn_length; cbn [length]; lia).
    replace (N.of_nat p + N.of_nat (length bs)) with (N.of_nat (p + length bs)) by lia.
    destruct (IH m1 d1 (S n) (p + length bs)%nat Lm1 Ld1) as (mem' & desc' & E & A & B & D1 & D2); [lia|lia|assumption|].
    exists mem', desc'. rewrite E. replace (p + length bs + total r)%nat with (p + (length bs + total r))%nat in * by lia.
    replace (S n + length r)%nat with (n + S (length r))%nat in * by lia. split; [reflexivity|]. split; [exact A|]. split; [exact B|]. split.
    + assert (F : firstn (p + length bs) m1 = firstn p mem ++ bs).
      { unfold m1. rewrite app_assoc, firstn_app, firstn_all2 by (rewrite app_length, firstn_length; lia).
        rewrite app_length, firstn_length. replace (p + length bs - (Nat.min p (length mem) + length bs))%nat with 0%nat by lia. cbn [firstn]. apply app_nil_r. }
      rewrite D1, F. cbn [map concat snd]. rewrite <- app_assoc. reflexivity.
    + change (length ((c, bs) :: r)) with (S (length r)). rewrite D2. cbn [descs]. unfold d1. replace (N.of_nat p + N.of_nat (length bs)) with (N.of_nat (p + length bs)) by lia.
      assert (Lf : length (firstn n desc) = n) by (rewrite firstn_length; lia).
      rewrite firstn_app, firstn_all2 by (rewrite Lf; lia). rewrite Lf. replace (S n - n)%nat with 1%nat by lia. rewrite <- app_assoc. reflexivity.
Qed.

Lemma eleventh : forall segs mem desc n p, length mem = 1024%nat -> length desc = 10%nat ->
  (p + total segs <= 1024)%nat -> (n <= 10)%nat -> (10 < n + length segs)%nat -> Forall (fun s => fst s <> 0) segs ->
  mb_fill segs (MB mem desc n 0 (N.of_nat p)) = Fault.
Proof.
  induction segs as [|[c bs] r IH]; intros mem desc n p Lm Ld T C1 C2 Nz; [cbn [length] in C2; lia|].
  rewrite total_cons in *. cbn [length] in C2. inversion Nz as [|x y N1 N2]; subst. cbn [fst] in N1. cbn [mb_fill].
  unfold mb_write. cbn [b_pos b_mem b_desc b_count b_cur]. rewrite Lm. unfold mb_size.
  destruct (N.leb_spec (N.of_nat p + N.of_nat (length bs)) 1024); [|lia]. change (1024 =? 1024)%nat with true. cbn [andb bind]. rewrite Nnat.Nat2N.id.
  unfold mb_boundary. cbn [b_pos b_mem b_desc b_count b_cur]. destruct (N.eqb_spec c 0); [contradiction|]. destruct (Nat.ltb_spec n 10); [|reflexivity]. cbn [bind].
  rewrite sz_id by lia. replace (N.of_nat p + N.of_nat (length bs)) with (N.of_nat (p + length bs)) by lia.
  apply IH; try assumption; try lia; rewrite !app_length, firstn_length, skipn_length; cbn [length]; lia.
Qed.

Lemma search_first : forall segs base c, mb_search (descs base segs) c = None <-> ~ In c (map fst segs).
Proof.
  induction segs as [|[d bs] r IH]; intros base c; cbn [descs mb_search map fst In]; [intuition|].
  destruct (N.eqb_spec d c); [split; [discriminate|intuition]|]. rewrite IH. intuition.
Qed.

Lemma search_at : forall pre c bs post base, ~ In c (map fst pre) ->
  mb_search (descs base (pre ++ (c, bs) :: post)) c = Some (base + offset (pre ++ [(c, bs)])).
Proof.
  induction pre as [|[d ds] pre IH]; intros c bs post base H; cbn [app descs mb_search].
  - rewrite N.eqb_refl. unfold offset. cbn [map concat snd]. rewrite app_nil_r. reflexivity.
  - cbn [map fst In] in H. destruct (N.eqb_spec d c) as [->|_]; [tauto|]. rewrite IH by tauto. f_equal. unfold offset. cbn [map concat snd app]. rewrite app_length. lia.
Qed.

Lemma descs_app : forall a b base, descs base (a ++ b) = descs base a ++ descs (base + offset a) b.
Proof.
  induction a as [|[c bs] a IH]; intros b base; cbn [app descs].
  - unfold offset. cbn. rewrite N.add_0_r. reflexivity.
  - rewrite IH. f_equal. f_equal. f_equal. unfold offset. cbn [map concat snd]. rewrite app_length. lia.
Qed.

Fixpoint mb_nexts (k : nat) (b : mbuf) : res mbuf :=
  match k with O => Ok b | S j => bind (mb_next b) (mb_nexts j) end.

Lemma drift_bound : forall segs base, drift base segs <= N.of_nat (length segs) * (base + N.of_nat (total segs)).
Proof.
  induction segs as [|[c bs] r IH]; intro base; [cbn [drift length]; lia|]. cbn [drift]. rewrite total_cons. specialize (IH (base + N.of_nat (length bs))).
  replace (base + N.of_nat (length bs) + N.of_nat (total r)) with (base + N.of_nat (length bs + total r)) in IH by lia.
  change (length ((c, bs) :: r)) with (S (length r)).
  set (A := base + N.of_nat (length bs + total r)) in *. assert (base + N.of_nat (length bs) <= A) by (unfold A; lia). rewrite Nnat.Nat2N.inj_succ, N.mul_succ_l. lia.
Qed.

Lemma nexts_pos : forall segs pre mem desc count p base, firstn count desc = pre ++ descs base segs -> count = length (pre ++ descs base segs) -> length desc = 10%nat ->
  p + drift base segs < 2 ^ 64 -> forall k, (k <= length segs)%nat ->
  mb_nexts k (MB mem desc count (length pre) p) = Ok (MB mem desc count (length pre + k) (p + drift base (firstn k segs))).
Proof.
  induction segs as [|[c bs] r IH]; intros pre mem desc count p base Hd Hc L B k K; destruct k as [|k]; try (cbn [length] in K; lia).
  - cbn [mb_nexts firstn drift]. rewrite N.add_0_r, Nat.add_0_r. reflexivity.
  - cbn [mb_nexts firstn drift]. rewrite N.add_0_r, Nat.add_0_r. reflexivity.
  - cbn [mb_nexts]. unfold mb_next. cbn [b_desc b_cur b_mem b_count b_pos].
    assert (Cl : (count <= 10)%nat). { destruct (Nat.le_gt_cases count 10); [assumption|]. assert (Q := f_equal (@length _) Hd). rewrite firstn_length, <- Hc, L in Q. lia. }
    assert (Nt : nth_error desc (length pre) = Some (c, base + N.of_nat (length bs))).
    { rewrite <- (firstn_skipn count desc), Hd, <- app_assoc. rewrite nth_error_app2 by lia. rewrite Nat.sub_diag. reflexivity. }
    rewrite Nt. cbn [bind]. cbn [drift] in B. rewrite sz_id by lia.
    destruct (Nat.ltb_spec (length pre) count) as [_|G]; [|rewrite app_length in Hc; cbn [descs length] in Hc; lia].
    cbn [descs] in Hd, Hc. specialize (IH (pre ++ [(c, base + N.of_nat (length bs))]) mem desc count (p + (base + N.of_nat (length bs))) (base + N.of_nat (length bs))).
    rewrite <- app_assoc in IH. specialize (IH Hd Hc L). rewrite app_length in IH. cbn [length] in IH. rewrite Nat.add_1_r in IH.
    rewrite IH; [|lia|cbn [length] in K; lia]. f_equal. f_equal; [lia|]. cbn [firstn drift]. lia.
Qed.

(** a filled buffer *)
Definition filled (segs : list (N * list N)) (b : mbuf) : Prop :=
  length (b_mem b) = 1024%nat /\ length (b_desc b) = 10%nat /\ b_count b = length segs /\ b_cur b = 0%nat /\ b_pos b = N.of_nat (total segs) /\
  firstn (total segs) (b_mem b) = concat (map snd segs) /\ firstn (length segs) (b_desc b) = descs 0 segs.

Lemma fill_new : forall segs mem desc, length mem = 1024%nat -> length desc = 10%nat -> segs_ok segs ->
  exists b, mb_fill segs (mb_new mem desc) = Ok b /\ filled segs b.
Proof.
  intros segs mem desc Lm Ld (T & C & Nz). destruct (fill_segs segs mem desc 0 0 Lm Ld T C Nz) as (m & d & E & A & B & D1 & D2).
  eexists. split; [exact E|]. unfold filled. cbn [b_mem b_desc b_count b_cur b_pos]. cbn [firstn app] in D1, D2. auto 8.
Qed.

Lemma nexts_of_filled : forall segs b f k, filled segs b -> segs_ok segs -> (k <= length segs)%nat ->
  mb_nexts k (mb_reset f b) = Ok (MB (b_mem b) (b_desc b) (length segs) k (drift 0 (firstn k segs))).
Proof.
  intros segs b f k (Lm & Ld & Lc & _ & _ & _ & D) (T & C & Nz) K. unfold mb_reset. rewrite Lc.
  assert (Q := drift_bound segs 0). rewrite !N.add_0_l in Q.
  assert (Q2 : N.of_nat (length segs) * N.of_nat (total segs) <= 10 * 1024) by (apply N.mul_le_mono; lia).
  assert (Hc : length segs = length ([] ++ descs 0 segs)) by (cbn [app]; rewrite descs_length; reflexivity).
  pose proof (nexts_pos segs [] (b_mem b) (b_desc b) (length segs) 0 0 D Hc Ld) as N0. cbn [length Nat.add] in N0. rewrite N0; [rewrite N.add_0_l; reflexivity| |exact K].
  rewrite N.add_0_l. apply N.le_lt_trans with (10 * 1024); [lia|reflexivity].
Qed.

Lemma chunk_at : forall segs b k p c pre bs post, filled segs b -> segs = pre ++ (c, bs) :: post -> (k <= length pre)%nat -> ~ In c (map fst (skipn k pre)) -> c <> 0 ->
  mb_current_ro c (MB (b_mem b) (b_desc b) (length segs) k p) = (p, sz_sub (offset (pre ++ [(c, bs)])) p).
Proof.
  intros segs b k p c pre bs post (Lm & Ld & Lc & _ & _ & _ & D) Es K Nin Nz. unfold mb_current_ro. cbn [b_pos b_cur b_count b_desc].
  destruct (N.eqb_spec c 0); [contradiction|]. rewrite D. f_equal. f_equal.
  assert (S0 : skipn k (descs 0 segs) = descs (offset (firstn k pre)) (skipn k pre ++ (c, bs) :: post)).
  { rewrite Es. rewrite <- (firstn_skipn k pre) at 1. rewrite <- app_assoc, descs_app, N.add_0_l. rewrite skipn_app, descs_length, firstn_length.
    replace (k - Nat.min k (length pre))%nat with 0%nat by lia. cbn [skipn]. rewrite skipn_all2; [reflexivity|]. rewrite descs_length, firstn_length. lia. }
  rewrite S0, search_at by exact Nin. unfold offset. rewrite <- Nnat.Nat2N.inj_add, <- app_length, <- concat_app, <- map_app, app_assoc, firstn_skipn. reflexivity.
Qed.

Lemma bytes_between : forall segs b a z, filled segs b -> a <= z -> z <= N.of_nat (total segs) -> (total segs <= 1024)%nat ->
  mb_bytes b (a, z - a) = Some (firstn (N.to_nat (z - a)) (skipn (N.to_nat a) (concat (map snd segs)))).
Proof.
  intros segs b a z (Lm & _ & _ & _ & _ & D & _) H1 H2 H3. unfold mb_bytes. cbn [fst snd]. unfold mb_size. destruct (N.leb_spec (a + (z - a)) 1024); [|lia]. f_equal.
  rewrite <- D, skipn_firstn_comm, firstn_firstn. f_equal. lia.
Qed.

Lemma skipn_plus : forall {A} a b (l : list A), skipn (a + b) l = skipn a (skipn b l).
Proof.
  intros A a b. induction b as [|b IH]; intro l; [rewrite Nat.add_0_r; reflexivity|]. rewrite Nat.add_succ_r. destruct l as [|x l]; [destruct a; reflexivity|]. cbn [skipn]. apply IH.
Qed.

Lemma nexts_plus : forall a c b, mb_nexts (a + c) b = bind (mb_nexts a b) (mb_nexts c).
Proof. induction a as [|a IH]; intros c b; [reflexivity|]. cbn [Nat.add mb_nexts]. destruct (mb_next b) as [b1| |]; [|reflexivity..]. cbn [bind]. apply IH. Qed.
Lemma nexts_stay : forall j m d n x p pos, nth_error d n = Some (x, p) ->
  mb_nexts (S j) (MB m d n n pos) = Ok (MB m d n n (sz (pos + N.of_nat (S j) * p))).
Proof.
  induction j as [|j IH]; intros m d n x p pos H.
  - cbn [mb_nexts]. unfold mb_next. cbn [b_mem b_desc b_count b_cur b_pos]. rewrite H, Nat.ltb_irrefl. cbn [bind]. rewrite N.mul_1_l. reflexivity.
  - change (mb_nexts (S (S j)) (MB m d n n pos)) with (bind (mb_next (MB m d n n pos)) (mb_nexts (S j))). unfold mb_next at 1. cbn [b_mem b_desc b_count b_cur b_pos].
    rewrite H, Nat.ltb_irrefl. cbn [bind]. rewrite (IH m d n x p (sz (pos + p)) H). do 2 f_equal. unfold sz. rewrite N.add_mod_idemp_l by discriminate. f_equal. lia.
Qed.
