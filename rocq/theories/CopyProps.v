(** C57: coap_netbuf_copy.  C58: ManagedBuffer. *)
From Verif Require Import Base CopyModel CopySpec CopyProofs.
Local Open Scope N_scope.

(** C57: everything from the skipped place on arrives, in order and behind what was there,
    whatever the chunks on both sides; no chunk takes more than it holds and none is left
    before it is full. *)
Theorem C57_copy : forall c more skip d fuel, (skip <= length c)%nat -> (length (concat (c :: more)) - skip <= space d)%nat ->
  (length more + length (t_more d) < fuel)%nat ->
  exists d', netbuf_copy fuel c more skip d = Ok d' /\ dest_bytes d' = dest_bytes d ++ skipn skip (concat (c :: more)) /\ sizes d' = sizes d.
Proof.
  intros c more skip d fuel S0 L F. unfold netbuf_copy. destruct (Nat.ltb_spec (length c) skip); [lia|]. cbn [concat] in *. rewrite app_length in L.
  rewrite skipn_app. replace (skip - length c)%nat with 0%nat by lia. cbn [skipn]. apply copy_fits; [exact F|]. rewrite skipn_length. lia.
Qed.
Print Assumptions C57_copy.

(** That it returns when there is no room is false: it never does. *)
Theorem C57_full_refuted : forall c more skip d fuel, (skip <= length c)%nat -> (space d < length (concat (c :: more)) - skip)%nat ->
  netbuf_copy fuel c more skip d = NoFuel.
Proof.
  intros c more skip d fuel S0 L. unfold netbuf_copy. destruct (Nat.ltb_spec (length c) skip); [lia|]. cbn [concat] in *. rewrite app_length in L.
  apply copy_endless. rewrite skipn_length. lia.
Qed.
Print Assumptions C57_full_refuted.

(** That any number of bytes can be skipped is false: past the first chunk it reads out of
    bounds, or never returns if there is no room. *)
Theorem C57_skip_refuted : forall c more skip d fuel, (length c < skip)%nat ->
  ((0 < space d)%nat -> (length (t_more d) < fuel)%nat -> netbuf_copy fuel c more skip d = Fault) /\
  (space d = 0%nat -> netbuf_copy fuel c more skip d = NoFuel).
Proof.
  intros c more skip d fuel S0. unfold netbuf_copy. destruct (Nat.ltb_spec (length c) skip); [|lia]. split; intro H1.
  - intro H2. apply copy_bad; assumption.
  - apply copy_bad_endless; assumption.
Qed.
Print Assumptions C57_skip_refuted.

(** three source chunks into chunks of 2, 0 and 5 bytes, of which one byte is used *)
Example C57_case : let d := Dest [] [9] 1 [0; 5]%nat in
  netbuf_copy 6 [1; 2; 3] [[]; [4; 5]] 1 d = Ok (Dest [[9; 2]; []] [3; 4; 5] 2 []) /\ (space d = 6)%nat /\
  netbuf_copy 100 [1; 2; 3; 4; 5; 6; 7; 8] [] 1 d = NoFuel /\ netbuf_copy 6 [1; 2] [[3; 4]] 3 d = Fault /\ netbuf_copy 100 [1] [] 2 (Dest [] [] 0 []) = NoFuel.
Proof. repeat split. Qed.

(** C58: written segments, reset, then next() [k] times: the exact chunk current_ro returns
    for the first boundary [c] that follows. *)
Theorem C58_chunk : forall segs mem desc f k c pre bs post, length mem = 1024%nat -> length desc = 10%nat -> segs_ok segs ->
  segs = pre ++ (c, bs) :: post -> (k <= length pre)%nat -> ~ In c (map fst (skipn k pre)) ->
  exists b b1, mb_fill segs (mb_new mem desc) = Ok b /\ mb_nexts k (mb_reset f b) = Ok b1 /\
    mb_current_ro c b1 = (drift 0 (firstn k segs), sz_sub (offset (pre ++ [(c, bs)])) (drift 0 (firstn k segs))).
Proof.
  intros segs mem desc f k c pre bs post Lm Ld Hs Es K Nin. destruct (fill_new segs mem desc Lm Ld Hs) as (b & E & Fb). exists b.
  assert (Nc : c <> 0) by (destruct Hs as (_ & _ & Hs); rewrite Es in Hs; apply Forall_elt in Hs; exact Hs).
  eexists. split; [exact E|]. split; [apply (nexts_of_filled segs b f k Fb Hs); rewrite Es, app_length; lia|].
  apply (chunk_at segs b k _ c pre bs post Fb Es K Nin Nc).
Qed.
Print Assumptions C58_chunk.

(** the bytes a reader gets after [k] calls of next() *)
Definition mb_got (segs : list (N * list N)) (mem : list N) (desc : list (N * N)) (f : bool) (k : nat) (c : N) : res (option (list N)) :=
  bind (mb_fill segs (mb_new mem desc)) (fun b => bind (mb_nexts k (mb_reset f b)) (fun b1 => Ok (mb_bytes b1 (mb_current_ro c b1)))).

Lemma got_between : forall segs mem desc f k c pre bs post, length mem = 1024%nat -> length desc = 10%nat -> segs_ok segs ->
  segs = pre ++ (c, bs) :: post -> (k <= length pre)%nat -> ~ In c (map fst (skipn k pre)) ->
  let p := drift 0 (firstn k segs) in let e := offset (pre ++ [(c, bs)]) in
  (p <= e -> mb_got segs mem desc f k c = Ok (Some (firstn (N.to_nat (e - p)) (skipn (N.to_nat p) (concat (map snd segs)))))) /\
  (e < p -> mb_got segs mem desc f k c = Ok None).
Proof.
  intros segs mem desc f k c pre bs post Lm Ld Hs Es K Nin p e. destruct (fill_new segs mem desc Lm Ld Hs) as (b & E & Fb).
  assert (Nc : c <> 0) by (destruct Hs as (_ & _ & Hs); rewrite Es in Hs; apply Forall_elt in Hs; exact Hs).
  assert (Kl : (k <= length segs)%nat) by (rewrite Es, app_length; lia).
  assert (El : e <= N.of_nat (total segs)).
  { unfold e, offset, total. rewrite Es. change (pre ++ (c, bs) :: post) with (pre ++ [(c, bs)] ++ post). rewrite app_assoc, (map_app snd (pre ++ _)), concat_app, app_length. lia. }
  assert (Q : p < 2 ^ 64).
  { unfold p. assert (D := drift_bound (firstn k segs) 0). rewrite N.add_0_l in D. apply N.le_lt_trans with (10 * 1024); [|reflexivity].
    apply (N.le_trans _ _ _ D). destruct Hs as (T & C & _). apply N.mul_le_mono; [rewrite firstn_length; lia|].
    assert (X := f_equal (fun l => length (concat (map snd l))) (firstn_skipn k segs)). cbn beta in X. rewrite map_app, concat_app, app_length in X. unfold total in *. lia. }
  assert (T := proj1 Hs).
  unfold mb_got. rewrite E. cbn [bind]. rewrite (nexts_of_filled segs b f k Fb Hs Kl). cbn [bind].
  rewrite (chunk_at segs b k _ c pre bs post Fb Es K Nin Nc). fold p e.
  change (mb_bytes (MB (b_mem b) (b_desc b) (length segs) k p)) with (mb_bytes b). split; intro H.
  - rewrite sz_sub_le by lia. rewrite (bytes_between segs b p e Fb H El T). reflexivity.
  - rewrite sz_sub_gt by lia. unfold mb_bytes. cbn [fst snd]. unfold mb_size. destruct (N.leb_spec (p + (2 ^ 64 - (p - e))) 1024); [lia|reflexivity].
Qed.

(** C58: the first read gives everything up to the first boundary asked for ... *)
Theorem C58_first : forall mem desc f c pre bs post, length mem = 1024%nat -> length desc = 10%nat -> let segs := pre ++ (c, bs) :: post in
  segs_ok segs -> ~ In c (map fst pre) -> mb_got segs mem desc f 0 c = Ok (Some (concat (map snd (pre ++ [(c, bs)])))).
Proof.
  intros mem desc f c pre bs post Lm Ld segs Hs Nin. destruct (got_between segs mem desc f 0 c pre bs post Lm Ld Hs eq_refl) as [G _]; [lia|exact Nin|].
  cbn [firstn drift] in G. rewrite G by lia. f_equal. f_equal. rewrite N.sub_0_r. cbn [N.to_nat skipn]. unfold offset. rewrite Nnat.Nat2N.id. unfold segs.
  change (pre ++ (c, bs) :: post) with (pre ++ [(c, bs)] ++ post). rewrite app_assoc, (map_app snd (pre ++ _)), concat_app. rewrite firstn_app, firstn_all, Nat.sub_diag. apply app_nil_r.
Qed.
Print Assumptions C58_first.

(** ... and the second what follows the first segment ... *)
Theorem C58_second : forall mem desc f c1 s1 c pre bs post, length mem = 1024%nat -> length desc = 10%nat -> let segs := (c1, s1) :: pre ++ (c, bs) :: post in
  segs_ok segs -> ~ In c (map fst pre) -> mb_got segs mem desc f 1 c = Ok (Some (concat (map snd (pre ++ [(c, bs)])))).
Proof.
  intros mem desc f c1 s1 c pre bs post Lm Ld segs Hs Nin.
  destruct (got_between segs mem desc f 1 c ((c1, s1) :: pre) bs post Lm Ld Hs eq_refl) as [G _]; [cbn [length]; lia|exact Nin|].
  assert (Ep : drift 0 (firstn 1 segs) = N.of_nat (length s1)) by (unfold segs; cbn [firstn drift]; lia).
  assert (O : offset (((c1, s1) :: pre) ++ [(c, bs)]) = N.of_nat (length s1) + offset (pre ++ [(c, bs)])) by (unfold offset; cbn [app map concat snd]; rewrite app_length; lia).
  rewrite Ep, O in G. rewrite G by lia. f_equal. f_equal.
  replace (N.of_nat (length s1) + offset (pre ++ [(c, bs)]) - N.of_nat (length s1)) with (offset (pre ++ [(c, bs)])) by lia.
  rewrite Nnat.Nat2N.id. unfold segs. cbn [map concat snd]. rewrite skipn_app, skipn_all, Nat.sub_diag. cbn [app skipn]. unfold offset. rewrite Nnat.Nat2N.id.
  change (pre ++ (c, bs) :: post) with (pre ++ [(c, bs)] ++ post). rewrite app_assoc, (map_app snd (pre ++ _)), concat_app. rewrite firstn_app, firstn_all, Nat.sub_diag. apply app_nil_r.
Qed.
Print Assumptions C58_second.

(** ... but the third does not give what follows the second one, unless the first was
    empty: its beginning is missing, as much as the first segment was long, and if it is
    shorter than that the chunk is not in the buffer at all. *)
Theorem C58_third_refuted : forall mem desc f c1 s1 c2 s2 c pre bs post, length mem = 1024%nat -> length desc = 10%nat ->
  let segs := (c1, s1) :: (c2, s2) :: pre ++ (c, bs) :: post in let want := concat (map snd (pre ++ [(c, bs)])) in
  segs_ok segs -> ~ In c (map fst pre) ->
  mb_got segs mem desc f 2 c = Ok (if (length s1 <=? length want)%nat then Some (skipn (length s1) want) else None) /\
  (s1 <> [] -> mb_got segs mem desc f 2 c <> Ok (Some want)).
Proof.
  intros mem desc f c1 s1 c2 s2 c pre bs post Lm Ld segs want Hs Nin.
  assert (G : mb_got segs mem desc f 2 c = Ok (if (length s1 <=? length want)%nat then Some (skipn (length s1) want) else None)).
  { destruct (got_between segs mem desc f 2 c ((c1, s1) :: (c2, s2) :: pre) bs post Lm Ld Hs eq_refl) as [G1 G2]; [cbn [length]; lia|exact Nin|].
    assert (Ep : drift 0 (firstn 2 segs) = N.of_nat (length s1 + (length s1 + length s2))) by (unfold segs; cbn [firstn drift]; lia).
    assert (Ee : offset (((c1, s1) :: (c2, s2) :: pre) ++ [(c, bs)]) = N.of_nat (length s1 + (length s2 + length want))).
    { unfold offset, want. cbn [app map concat snd]. rewrite !app_length. reflexivity. }
    rewrite Ep, Ee in G1, G2. destruct (Nat.leb_spec (length s1) (length want)) as [L|L].
    - rewrite G1 by lia. f_equal. f_equal. replace (N.to_nat (N.of_nat (length s1 + (length s2 + length want)) - N.of_nat (length s1 + (length s1 + length s2)))) with (length want - length s1)%nat by lia.
      rewrite Nnat.Nat2N.id. unfold segs. cbn [map concat snd].
      rewrite skipn_app, skipn_all2 by lia. replace (length s1 + (length s1 + length s2) - length s1)%nat with (length s2 + length s1)%nat by lia.
      rewrite skipn_app, skipn_all2 by lia. replace (length s2 + length s1 - length s2)%nat with (length s1) by lia. cbn [app].
      change (pre ++ (c, bs) :: post) with (pre ++ [(c, bs)] ++ post). rewrite app_assoc, (map_app snd (pre ++ _)), concat_app. fold want.
      rewrite skipn_app, firstn_app, firstn_all2 by (rewrite skipn_length; lia). rewrite skipn_length, Nat.sub_diag. apply app_nil_r.
    - apply G2. lia. }
  split; [exact G|]. intros Ne C. rewrite G in C. destruct (Nat.leb_spec (length s1) (length want)) as [L|L]; [|discriminate].
  assert (Q : skipn (length s1) want = want) by congruence. apply (f_equal (@length N)) in Q. rewrite skipn_length in Q. destruct s1; [congruence|]. cbn [length] in *. lia.
Qed.
Print Assumptions C58_third_refuted.

(** An eleventh boundary is written past the array, also after reset(true), which does not
    remove the boundaries. *)
Theorem C58_eleventh_refuted : forall segs segs2 mem desc f, length mem = 1024%nat -> length desc = 10%nat -> segs_ok segs ->
  (total segs2 <= 1024)%nat -> Forall (fun s => fst s <> 0) segs2 -> (10 < length segs + length segs2)%nat ->
  bind (mb_fill segs (mb_new mem desc)) (fun b => mb_fill segs2 (mb_reset f b)) = Fault.
Proof.
  intros segs segs2 mem desc f Lm Ld Hs T Nz L. destruct (fill_new segs mem desc Lm Ld Hs) as (b & -> & (Bm & Bd & Bc & _)). cbn [bind]. unfold mb_reset. rewrite Bc.
  apply (eleventh segs2 (b_mem b) (b_desc b) (length segs) 0); auto; [destruct Hs as (_ & C & _); exact C].
Qed.
Print Assumptions C58_eleventh_refuted.

(** read() gives the chunk of the first boundary asked for and goes on by one: so two
    reads with the codes of the first two segments give those. *)
Theorem C58_read_two : forall mem desc f c1 s1 c2 s2 post, length mem = 1024%nat -> length desc = 10%nat ->
  let segs := (c1, s1) :: (c2, s2) :: post in segs_ok segs ->
  bind (mb_fill segs (mb_new mem desc)) (fun b => bind (mb_read c1 (mb_reset f b)) (fun x => bind (mb_read c2 (snd x)) (fun y =>
    Ok (mb_bytes b (fst x), mb_bytes b (fst y))))) = Ok (Some s1, Some s2).
Proof.
  intros mem desc f c1 s1 c2 s2 post Lm Ld segs Hs. pose proof (C58_first mem desc f c1 [] s1 ((c2, s2) :: post) Lm Ld Hs (fun x => x)) as A.
  pose proof (C58_second mem desc f c1 s1 c2 [] s2 post Lm Ld Hs (fun x => x)) as B. unfold mb_got in A, B. cbn [app] in A, B. fold segs in A, B.
  destruct (fill_new segs mem desc Lm Ld Hs) as (b & E & Fb). rewrite E in *. cbn [bind] in *.
  rewrite (nexts_of_filled segs b f 0 Fb Hs) in A by (cbn; lia). assert (K1 := nexts_of_filled segs b f 1 Fb Hs ltac:(cbn; lia)). rewrite K1 in B.
  assert (K2 := nexts_of_filled segs b f 2 Fb Hs ltac:(cbn; lia)). cbn [mb_nexts] in K1, K2. destruct (mb_next (mb_reset f b)) as [b1| |] eqn:N1; try discriminate.
  cbn [bind] in *. assert (UM : forall X Y : mbuf, Ok X = Ok Y -> X = Y) by (intros X Y Q; injection Q as Q; exact Q). apply UM in K1. subst b1. unfold mb_read at 1. rewrite N1. cbn [bind fst snd]. unfold mb_read. 
  destruct (mb_next (MB (b_mem b) (b_desc b) (length segs) 1 (drift 0 (firstn 1 segs)))) as [b2| |]; try discriminate. cbn [bind fst snd].
  replace (mb_reset f b) with (MB (b_mem b) (b_desc b) (length segs) 0 (drift 0 (firstn 0 segs))) by (destruct Fb as (_ & _ & C & _); unfold mb_reset; rewrite C; reflexivity).
  assert (P : forall c x y z, mb_bytes (MB (b_mem b) (b_desc b) x y z) c = mb_bytes b c) by reflexivity. rewrite P in A, B.
  assert (UA : forall X Y : option (list N), Ok X = Ok Y -> X = Y) by (intros X Y Q; injection Q as Q; exact Q).
  apply UA in A. apply UA in B. rewrite A, B. cbn [map concat snd]. rewrite !app_nil_r. reflexivity.
Qed.
Print Assumptions C58_read_two.

(** Without such a boundary ahead, or with code 0, the chunk goes on to the end of the
    whole buffer, past what was written. *)
Theorem C58_no_boundary : forall segs mem desc f k c, length mem = 1024%nat -> length desc = 10%nat -> segs_ok segs ->
  (k <= length segs)%nat -> c = 0 \/ ~ In c (map fst (skipn k segs)) -> drift 0 (firstn k segs) <= 1024 ->
  exists rest, length rest = (1024 - N.to_nat (drift 0 (firstn k segs)))%nat /\ mb_got segs mem desc f k c = Ok (Some rest) /\
    (k = 0%nat -> firstn (total segs) rest = concat (map snd segs)).
Proof.
  intros segs mem desc f k c Lm Ld Hs K Hc D. destruct (fill_new segs mem desc Lm Ld Hs) as (b & E & Fb).
  unfold mb_got. rewrite E. cbn [bind]. rewrite (nexts_of_filled segs b f k Fb Hs K). cbn [bind]. set (p := drift 0 (firstn k segs)) in *.
  assert (X : mb_current_ro c (MB (b_mem b) (b_desc b) (length segs) k p) = (p, 1024 - p)).
  { unfold mb_current_ro. cbn [b_pos b_cur b_count b_desc]. destruct Fb as (_ & _ & _ & _ & _ & _ & Fd). rewrite Fd.
    assert (Z : sz_sub mb_size p = 1024 - p) by (apply sz_sub_le; [exact D|reflexivity]).
    destruct (N.eqb_spec c 0) as [->|Nc]; [now rewrite Z|]. destruct Hc as [->|Hc]; [congruence|].
    replace (skipn k (descs 0 segs)) with (descs (0 + offset (firstn k segs)) (skipn k segs)).
    - rewrite (proj2 (search_first _ _ _) Hc), Z. reflexivity.
    - rewrite <- (firstn_skipn k segs) at 3. rewrite descs_app, skipn_app, (skipn_all2 (descs 0 (firstn k segs))) by (rewrite descs_length, firstn_length; lia).
      rewrite descs_length, firstn_length. replace (k - Nat.min k (length segs))%nat with 0%nat by lia. reflexivity. }
  rewrite X. unfold mb_bytes. cbn [fst snd b_mem]. replace (p + (1024 - p) <=? mb_size) with true by (symmetry; apply N.leb_le; unfold mb_size; lia).
  pose proof Fb as (Bm & _ & _ & _ & _ & Bf & _). eexists. split; [|split; [reflexivity|]].
  - rewrite firstn_length, skipn_length, Bm. lia.
  - intros ->. cbn [firstn drift] in p. subst p. change (N.to_nat 0) with O. cbn [skipn]. rewrite N.sub_0_r, firstn_firstn, <- Bf.
    f_equal. destruct Hs as (T & _). change (N.to_nat 1024) with 1024%nat. lia.
Qed.
Print Assumptions C58_no_boundary.

(** After the last segment every next() moves by the same descriptor nobody wrote, or
    reads past the array. *)
Theorem C58_past_end_refuted : forall segs mem desc f j, length mem = 1024%nat -> length desc = 10%nat -> segs_ok segs ->
  bind (mb_fill segs (mb_new mem desc)) (fun b => bind (mb_nexts (length segs + S j) (mb_reset f b)) (fun b1 => Ok (b_pos b1))) =
  match skipn (length segs) desc with [] => Fault | (_, p) :: _ => Ok (sz (drift 0 segs + N.of_nat (S j) * p)) end.
Proof.
  intros segs mem desc f j Lm Ld Hs. pose proof Hs as (T & C & Nz). destruct (fill_segs segs mem desc 0 0 Lm Ld T C Nz) as (m & d & E & A & B & D1 & D2).
  assert (Sk : skipn (length segs) d = skipn (length segs) desc).
  { clear - E Ld. assert (G : forall segs m0 d0 n p b, mb_fill segs (MB m0 d0 n 0 p) = Ok b -> length d0 = 10%nat ->
      skipn (n + length segs) (b_desc b) = skipn (n + length segs) d0).
    { clear. induction segs as [|[c bs] r IH]; intros m0 d0 n p b H L; cbn [mb_fill] in H; [injection H as <-; reflexivity|].
      destruct (mb_write bs (MB m0 d0 n 0 p)) as [b1| |] eqn:W; cbn [bind] in H; try discriminate. unfold mb_write in W. cbn [b_pos b_mem b_desc b_count b_cur] in W.
      destruct (_ && _) in W; [|discriminate]. injection W as <-. unfold mb_boundary in H. cbn [b_pos b_mem b_desc b_count b_cur] in H.
      cbn [length]. destruct (c =? 0).
      - cbn [bind] in H. replace (n + S (length r))%nat with (1 + (n + length r))%nat by lia. apply IH in H; [|exact L].
        rewrite !(skipn_plus 1 (n + length r)), H. reflexivity.
      - destruct (Nat.ltb_spec n 10) as [G|G]; cbn [bind] in H; [|discriminate]. apply IH in H.
        + replace (n + S (length r))%nat with (S n + length r)%nat by lia. rewrite H.
          rewrite !skipn_app, firstn_length. replace (Nat.min n (length d0)) with n by lia.
          rewrite skipn_all2 by (rewrite firstn_length; lia). cbn [app]. replace (S n + length r - n)%nat with (S (length r)) by lia.
          rewrite skipn_all2 by (cbn [length]; lia). cbn [app length]. rewrite <- skipn_plus. f_equal. lia.
        + rewrite !app_length, firstn_length, skipn_length. cbn [length]. lia. }
    apply (G _ _ _ _ _ _ E Ld). }
  unfold mb_new. change (MB mem desc 0 0 0) with (MB mem desc 0 0 (N.of_nat 0)). rewrite E. cbn [bind].
  assert (Fb : filled segs (MB m d (length segs) 0 (N.of_nat (total segs)))).
  { unfold filled. cbn [b_mem b_desc b_count b_cur b_pos]. cbn [firstn app Nat.add] in D1, D2. auto 8. }
  cbn [Nat.add]. rewrite nexts_plus, (nexts_of_filled segs _ f (length segs) Fb Hs (le_n _)). cbn [bind]. rewrite firstn_all.
  cbn [b_mem b_desc]. assert (Nd : nth_error d (length segs) = nth_error (skipn (length segs) d) 0).
  { rewrite <- (firstn_skipn (length segs) d) at 1. rewrite nth_error_app2 by (rewrite firstn_length; lia). rewrite firstn_length.
    replace (length segs - Nat.min (length segs) (length d))%nat with 0%nat by lia. reflexivity. }
  rewrite Sk in Nd. destruct (skipn (length segs) desc) as [|[x p] r]; cbn [nth_error] in Nd.
  - cbn [mb_nexts]. unfold mb_next at 1. cbn [b_desc b_cur]. rewrite Nd. reflexivity.
  - rewrite (nexts_stay _ m d (length segs) x p _ Nd). reflexivity.
Qed.
Print Assumptions C58_past_end_refuted.

(** the segments of the unit test and a third one *)
Definition abc : list (N * list N) := [(1, [97; 98; 99]); (1, [65; 66; 67; 68]); (2, [49; 50; 51; 52; 53])].
Definition zeros : list N := repeat 0 1024.
Definition slots : list (N * N) := repeat (0, 7) 10.
Example C58_case : segs_ok abc /\ mb_got abc zeros slots false 0 1 = Ok (Some [97; 98; 99]) /\ mb_got abc zeros slots false 1 1 = Ok (Some [65; 66; 67; 68]) /\
  mb_got abc zeros slots false 0 2 = Ok (Some [97; 98; 99; 65; 66; 67; 68; 49; 50; 51; 52; 53]) /\
  mb_got abc zeros slots false 2 2 = Ok (Some [52; 53]) /\ mb_got [(1, [1; 2; 3]); (1, []); (1, [4])] zeros slots true 2 1 = Ok None /\
  bind (mb_fill abc (mb_new zeros slots)) (fun b => bind (mb_read 1 (mb_reset true b)) (fun x => bind (mb_read 1 (snd x)) (fun y => Ok (fst x, fst y)))) = Ok ((0, 3), (3, 4)) /\
  bind (mb_fill abc (mb_new zeros slots)) (fun b => bind (mb_nexts 5 (mb_reset true b)) (fun b1 => Ok (b_pos b1))) = Ok (22 + 2 * 7) /\
  mb_got abc zeros slots false 1 9 = Ok (Some ([65; 66; 67; 68; 49; 50; 51; 52; 53] ++ repeat 0 1012)).
Proof. split; [split; [cbn; lia|]; split; [cbn; lia|repeat constructor; discriminate]|]. vm_compute. repeat split. Qed.
