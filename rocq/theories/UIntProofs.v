From Verif Require Import Base UIntModel UIntSpec.
Local Open Scope N_scope.

Lemma pow256_pos : forall k, 0 < 256 ^ k.
Proof. intro k. assert (256 ^ k <> 0) by (apply N.pow_nonzero; lia). lia. Qed.

Lemma pow256_S : forall k : nat, 256 ^ N.of_nat (S k) = 256 * 256 ^ N.of_nat k.
Proof. intro k. rewrite Nat2N.inj_succ, N.pow_succ_r'. reflexivity. Qed.

Lemma pow2_pow256 : forall k, 2 ^ (8 * k) = 256 ^ k.
Proof. intro k. rewrite N.pow_mul_r. reflexivity. Qed.

Lemma be_app : forall xs ys,
  be (xs ++ ys) = be xs * 256 ^ N.of_nat (length ys) + be ys.
Proof.
  induction xs as [|x xs IH]; intro ys; cbn [app be]; [lia|].
  rewrite IH, app_length, Nat2N.inj_add, N.pow_add_r. ring.
Qed.

Lemma be_bound : forall bs, bytes_ok bs -> be bs < 256 ^ N.of_nat (length bs).
Proof.
  induction 1 as [|b bs Hb Hbs IH]; [cbn; lia|].
  cbn [be length]. rewrite pow256_S. unfold byte_ok in Hb.
  set (p := 256 ^ N.of_nat (length bs)) in *.
  assert (b * p <= 255 * p) by (apply N.mul_le_mono_r; lia). lia.
Qed.

Lemma be_repeat0 : forall n bs, be (repeat 0 n ++ bs) = be bs.
Proof. induction n as [|n IH]; intro bs; cbn [repeat app be]; [reflexivity|]. rewrite IH. lia. Qed.

Lemma uint_set_len_length : forall n v, length (uint_set_len n v) = n.
Proof.
  induction n as [|n IH]; intro v; cbn [uint_set_len]; [reflexivity|].
  rewrite app_length, IH. cbn. lia.
Qed.

Lemma land255 : forall v, N.land v 255 = v mod 256.
Proof. intro v. change 255 with (N.ones 8). rewrite N.land_ones. reflexivity. Qed.

Lemma shr8 : forall v, N.shiftr v 8 = v / 256.
Proof. intro v. rewrite N.shiftr_div_pow2. reflexivity. Qed.

Lemma shl8 : forall v, N.shiftl v 8 = v * 256.
Proof. intro v. rewrite N.shiftl_mul_pow2. reflexivity. Qed.

Lemma uint_set_len_ok : forall n v, bytes_ok (uint_set_len n v).
Proof.
  induction n as [|n IH]; intro v; cbn [uint_set_len]; [constructor|].
  apply bytes_ok_app. split; [apply IH|].
  constructor; [|constructor]. unfold byte_ok. rewrite land255. apply N.mod_lt. lia.
Qed.

Lemma uint_set_len_be : forall n v, be (uint_set_len n v) = v mod 256 ^ N.of_nat n.
Proof.
  induction n as [|n IH]; intro v; cbn [uint_set_len].
  - cbn. rewrite N.mod_1_r. reflexivity.
  - rewrite be_app. cbn [be length]. rewrite IH, land255, shr8.
    rewrite (pow256_S n). pose proof (pow256_pos (N.of_nat n)) as Hp.
    rewrite N.mod_mul_r by lia.
    change (N.of_nat 1) with 1. change (N.of_nat 0) with 0.
    rewrite N.pow_1_r, N.pow_0_r. lia.
Qed.

(** number of significant bytes *)
Definition sig (v : N) : nat :=
  if v =? 0 then O else S (N.to_nat (N.log2 v / 8)).

Lemma sig_upper : forall v, v < 256 ^ N.of_nat (sig v).
Proof.
  intro v. unfold sig. destruct (N.eqb_spec v 0) as [->|Hv]; [cbn; lia|].
  destruct (N.log2_spec v) as [_ Hu]; [lia|].
  rewrite Nat2N.inj_succ, N2Nat.id, <- pow2_pow256.
  eapply N.lt_le_trans; [exact Hu|]. apply N.pow_le_mono_r; lia.
Qed.

Lemma sig_lower : forall v, v <> 0 -> 256 ^ N.of_nat (pred (sig v)) <= v.
Proof.
  intros v Hv. unfold sig. destruct (N.eqb_spec v 0) as [->|_]; [lia|].
  destruct (N.log2_spec v) as [Hl _]; [lia|].
  cbn [pred]. rewrite N2Nat.id, <- pow2_pow256.
  eapply N.le_trans; [|exact Hl]. apply N.pow_le_mono_r; lia.
Qed.

Lemma sig_le : forall v n, v < 256 ^ N.of_nat n -> (sig v <= n)%nat.
Proof.
  intros v n Hv. destruct (N.eq_dec v 0) as [->|Hn]; [change (sig 0) with O; lia|].
  pose proof (sig_lower v Hn) as Hl.
  assert (256 ^ N.of_nat (pred (sig v)) < 256 ^ N.of_nat n) as H by lia.
  apply N.pow_lt_mono_r_iff in H; [|lia].
  unfold sig in *. destruct (N.eqb_spec v 0); lia.
Qed.

Lemma sig_div : forall v, v <> 0 -> sig (v / 256) = pred (sig v).
Proof.
  intros v Hv. unfold sig.
  destruct (N.eqb_spec v 0) as [->|_]; [lia|].
  destruct (N.eqb_spec (v / 256) 0) as [Hz|Hz]; cbn [pred].
  - assert (v < 256) by lia.
    assert (N.log2 v < 8) by (apply N.log2_lt_pow2; lia).
    assert (N.log2 v / 8 = 0) by lia. lia.
  - change 256 with (2 ^ 8). rewrite <- N.shiftr_div_pow2, N.log2_shiftr.
    assert (8 <= N.log2 v).
    { apply N.log2_le_pow2; [lia|]. change (2 ^ 8) with 256. lia. }
    assert ((N.log2 v - 8) / 8 + 1 = N.log2 v / 8) by lia. lia.
Qed.

Lemma assess_loop_sig : forall k fuel v acc,
  sig v = k -> (k < fuel)%nat -> acc + N.of_nat k < 256 ->
  assess_loop fuel v acc = Ok (acc + N.of_nat k).
Proof.
  induction k as [|k IH]; intros fuel v acc Hs Hf Ha.
  - destruct fuel as [|fuel]; [lia|]. cbn [assess_loop].
    assert (v = 0) as ->.
    { pose proof (sig_upper v) as H. rewrite Hs in H. cbn in H. lia. }
    rewrite N.eqb_refl. f_equal. lia.
  - destruct fuel as [|fuel]; [lia|]. cbn [assess_loop].
    destruct (N.eqb_spec v 0) as [->|Hv]; [change (sig 0) with O in Hs; lia|].
    rewrite shr8, (N.mod_small (acc + 1)) by lia.
    rewrite (IH fuel (v / 256) (acc + 1)); [f_equal; lia| |lia|lia].
    rewrite sig_div by assumption. lia.
Qed.

Lemma sig_fuel : forall v, (sig v < S (N.to_nat (N.size v)))%nat.
Proof.
  intro v. unfold sig. destruct (N.eqb_spec v 0) as [->|Hv]; [lia|].
  rewrite N.size_log2 by assumption. lia.
Qed.

Lemma assess_sig : forall v h, h + N.of_nat (sig v) < 256 ->
  assess_bytes_used v h = Ok (h + N.of_nat (sig v)).
Proof.
  intros v h H. unfold assess_bytes_used.
  apply assess_loop_sig; [reflexivity| |assumption]. apply sig_fuel.
Qed.

(** the bytes [UInt::set] writes, without the [res] wrapper *)
Definition uenc (v : N) : list N := uint_set_len (sig v) v.

Definition small (v : N) : Prop := v < 2 ^ 64.

Lemma small_sig : forall v, small v -> (sig v <= 8)%nat.
Proof. intros v H. apply sig_le. exact H. Qed.

Lemma uint_set_uenc : forall v, small v -> uint_set v = Ok (uenc v).
Proof.
  intros v H. unfold uint_set, uenc. pose proof (small_sig v H).
  rewrite assess_sig by lia. cbn [bind]. f_equal. f_equal. lia.
Qed.

Lemma uenc_be : forall v, be (uenc v) = v.
Proof.
  intro v. unfold uenc. rewrite uint_set_len_be.
  apply N.mod_small, sig_upper.
Qed.

Lemma uenc_length : forall v, length (uenc v) = sig v.
Proof. intro; apply uint_set_len_length. Qed.

Lemma uenc_ok : forall v, bytes_ok (uenc v).
Proof. intro; apply uint_set_len_ok. Qed.

Lemma be_head_bound : forall bs, bytes_ok bs -> minimal bs -> bs <> [] ->
  256 ^ N.of_nat (pred (length bs)) <= be bs.
Proof.
  intros bs Hok Hmin Hne. destruct bs as [|b bs]; [congruence|].
  cbn [length pred be]. cbn in Hmin.
  set (p := 256 ^ N.of_nat (length bs)).
  assert (1 * p <= b * p) by (apply N.mul_le_mono_r; lia). lia.
Qed.

Lemma uenc_minimal : forall v, minimal (uenc v).
Proof.
  intro v. destruct (N.eq_dec v 0) as [->|Hv]; [exact I|].
  destruct (uenc v) as [|b bs] eqn:E; [exact I|].
  cbn. intros ->.
  pose proof (uenc_be v) as Hbe. pose proof (uenc_length v) as Hlen.
  pose proof (uenc_ok v) as Hok. rewrite E in *.
  cbn [be length] in *. pose proof (Forall_inv_tail Hok) as Hok'.
  pose proof (be_bound _ Hok'). pose proof (sig_lower v Hv) as Hl.
  rewrite <- Hlen in Hl. cbn [pred] in Hl. lia.
Qed.

Lemma be_inj_len : forall xs ys, bytes_ok xs -> bytes_ok ys ->
  length xs = length ys -> be xs = be ys -> xs = ys.
Proof.
  induction xs as [|x xs IH]; intros ys Hx Hy Hlen Hbe; destruct ys as [|y ys];
    cbn in Hlen; try discriminate; [reflexivity|].
  inversion Hx as [|? ? Hxb Hxs]; inversion Hy as [|? ? Hyb Hys]; subst.
  cbn [be] in Hbe. injection Hlen as Hlen.
  pose proof (be_bound _ Hxs) as Bx. pose proof (be_bound _ Hys) as By.
  rewrite Hlen in *. set (p := 256 ^ N.of_nat (length ys)) in *.
  assert (x = y).
  { pose proof (N.div_unique (x * p + be xs) p x (be xs) Bx) as H1.
    pose proof (N.div_unique (x * p + be xs) p y (be ys) By) as H2.
    rewrite H1 by lia. rewrite <- H2 by lia. reflexivity. }
  subst y. f_equal. apply IH; auto. lia.
Qed.

Lemma shortest : forall v bs, bytes_ok bs -> be bs = v ->
  (length (uenc v) <= length bs)%nat /\
  (length bs = length (uenc v) -> bs = uenc v).
Proof.
  intros v bs Hok Hbe. split.
  - rewrite uenc_length. apply sig_le. rewrite <- Hbe. apply be_bound, Hok.
  - intro Hl. apply be_inj_len; auto using uenc_ok. rewrite uenc_be. exact Hbe.
Qed.

Lemma minimal_unique : forall bs, bytes_ok bs -> minimal bs -> uenc (be bs) = bs.
Proof.
  intros bs Hok Hmin.
  destruct (shortest (be bs) bs Hok eq_refl) as [Hle Heq].
  symmetry. apply Heq.
  destruct bs as [|b bs]; [cbn in *; lia|].
  assert (b :: bs <> []) as Hne by congruence.
  pose proof (be_head_bound _ Hok Hmin Hne) as Hlow.
  pose proof (sig_upper (be (b :: bs))) as Hup. rewrite uenc_length in *.
  assert (256 ^ N.of_nat (pred (length (b :: bs))) < 256 ^ N.of_nat (sig (be (b :: bs)))) as H by lia.
  apply N.pow_lt_mono_r_iff in H; [|lia]. cbn [length pred] in *. lia.
Qed.

(** decoding *)
Lemma get_step : forall w v x, 8 <= w -> x < 256 ->
  N.lor ((N.shiftl (v mod 2 ^ w) 8) mod 2 ^ w) x = (v * 256 + x) mod 2 ^ w.
Proof.
  intros w v x Hw Hx. rewrite shl8.
  replace (2 ^ w) with (256 * 2 ^ (w - 8))
    by (change 256 with (2 ^ 8); rewrite <- N.pow_add_r; f_equal; lia).
  set (m := 2 ^ (w - 8)).
  assert (Hm : 0 < m) by (assert (m <> 0) by (apply N.pow_nonzero; lia); lia).
  rewrite (N.mul_comm _ 256), N.mul_mod_distr_l by lia.
  rewrite (N.mul_comm 256 (_ mod m)).
  change 256 with (2 ^ 8) at 2. rewrite lor_add by exact Hx. change (2 ^ 8) with 256.
  rewrite (N.mod_mul_r (v * 256 + x)) by lia.
  replace ((v * 256 + x) mod 256) with x by (rewrite N.add_comm, N.mod_add by lia; rewrite N.mod_small by exact Hx; reflexivity).
  replace ((v * 256 + x) / 256) with v by (rewrite N.div_add_l by lia; rewrite (N.div_small x) by exact Hx; lia).
  rewrite (N.mul_comm 256 m), N.mod_mul_r, N.add_comm by lia.
  f_equal.
  rewrite N.mul_comm. f_equal.
  rewrite N.add_mod, (N.mul_comm m), N.mod_mul by lia.
  rewrite N.add_0_r, !N.mod_mod by lia. reflexivity.
Qed.

Lemma get_fold : forall w bs v, 8 <= w -> bytes_ok bs ->
  fold_left (fun v x => N.lor ((N.shiftl v 8) mod 2 ^ w) x) bs (v mod 2 ^ w)
  = (v * 256 ^ N.of_nat (length bs) + be bs) mod 2 ^ w.
Proof.
  intros w bs. induction bs as [|b bs IH]; intros v Hw Hok; cbn [fold_left].
  - cbn. f_equal. lia.
  - inversion Hok as [|? ? Hb Hbs]; subst.
    rewrite get_step by assumption. rewrite IH by assumption.
    cbn [be length]. rewrite pow256_S. f_equal. ring.
Qed.

Lemma uint_get_be : forall w bs, 8 <= w -> bytes_ok bs ->
  uint_get w bs = be bs mod 2 ^ w.
Proof.
  intros w bs Hw Hok. destruct bs as [|b bs]; cbn [uint_get].
  - cbn. rewrite N.mod_0_l; [reflexivity|]. apply N.pow_nonzero. lia.
  - inversion Hok as [|? ? Hb Hbs]; subst.
    rewrite get_fold by assumption. reflexivity.
Qed.

Lemma uint_get_t_be : forall w bs, 8 < w -> bytes_ok bs ->
  uint_get_t w bs = be bs mod 2 ^ w.
Proof.
  intros w bs Hw Hok. unfold uint_get_t.
  destruct (N.eqb_spec w 8); [lia|]. apply uint_get_be; [lia|assumption].
Qed.

(** set_padded *)
Lemma uint_set_padded_fits : forall v n, small v ->
  v < 256 ^ N.of_nat n ->
  exists bs, uint_set_padded v n = Ok bs /\ length bs = n /\ bytes_ok bs /\ be bs = v.
Proof.
  intros v n Hs Hv. unfold uint_set_padded.
  destruct (N.eqb_spec v 0) as [->|Hz].
  - exists (repeat 0 n). repeat split.
    + apply repeat_length.
    + apply Forall_forall. intros x Hx. apply repeat_spec in Hx. subst. unfold byte_ok; lia.
    + rewrite <- (app_nil_r (repeat 0 n)). apply be_repeat0.
  - pose proof (small_sig v Hs). pose proof (sig_le v n Hv) as Hle.
    pose proof (sig_div v Hz) as Hd.
    assert (sig v <> 0%nat) by (unfold sig; destruct (N.eqb_spec v 0); lia).
    rewrite shr8, assess_sig by lia. cbn [bind].
    replace (N.to_nat (1 + N.of_nat (sig (v / 256)))) with (sig v) by lia.
    destruct (Nat.ltb_spec n (sig v)); [lia|].
    eexists. split; [reflexivity|].
    replace (n - (n - sig v))%nat with (sig v) by lia. repeat split.
    + rewrite app_length, repeat_length, uint_set_len_length. lia.
    + apply bytes_ok_app. split; [|apply uint_set_len_ok].
      apply Forall_forall. intros x Hx. apply repeat_spec in Hx. subst. unfold byte_ok; lia.
    + rewrite be_repeat0. apply uenc_be.
Qed.

Lemma uint_set_padded_overflow : forall v n, small v ->
  256 ^ N.of_nat n <= v -> uint_set_padded v n = Fault.
Proof.
  intros v n Hs Hv. unfold uint_set_padded.
  pose proof (pow256_pos (N.of_nat n)).
  destruct (N.eqb_spec v 0) as [->|Hz]; [lia|].
  pose proof (small_sig v Hs). pose proof (sig_div v Hz) as Hd.
  assert (sig v <> 0%nat) by (unfold sig; destruct (N.eqb_spec v 0); lia).
  rewrite shr8, assess_sig by lia. cbn [bind].
  replace (N.to_nat (1 + N.of_nat (sig (v / 256)))) with (sig v) by lia.
  destruct (Nat.ltb_spec n (sig v)) as [|Hge]; [reflexivity|].
  pose proof (sig_upper v) as Hu.
  assert (256 ^ N.of_nat (sig v) <= 256 ^ N.of_nat n) by (apply N.pow_le_mono_r; lia). lia.
Qed.

(** negative signed input *)
Lemma assess_signed_negative : forall fuel v acc, (v < 0)%Z ->
  assess_loop_signed fuel v acc = NoFuel.
Proof.
  induction fuel as [|fuel IH]; intros v acc Hv; cbn [assess_loop_signed]; [reflexivity|].
  destruct (Z.eqb_spec v 0); [lia|]. apply IH.
  apply Z.shiftr_neg. exact Hv.
Qed.

(** tokens *)
Lemma token_generate_eq : forall c, c < 2 ^ 32 ->
  token_generate c = Ok (uenc c, (c + 1) mod 2 ^ 32).
Proof.
  intros c Hc. unfold token_generate.
  assert (Hs : small c) by (unfold small; lia).
  pose proof (small_sig c Hs).
  rewrite assess_sig by lia. cbn [bind]. rewrite uint_set_uenc by assumption. cbn [bind].
  rewrite uenc_length. replace (N.to_nat (0 + N.of_nat (sig c))) with (sig c) by lia.
  rewrite Nat.eqb_refl. reflexivity.
Qed.

Lemma token_generate_n_nth : forall n c, c < 2 ^ 32 ->
  exists ts, token_generate_n n c = Ok (ts, (c + N.of_nat n) mod 2 ^ 32) /\
    length ts = n /\
    forall i, (i < n)%nat -> nth_error ts i = Some (uenc ((c + N.of_nat i) mod 2 ^ 32)).
Proof.
  induction n as [|n IH]; intros c Hc; cbn [token_generate_n].
  - exists []. repeat split; [|lia].
    rewrite N.add_0_r, N.mod_small by assumption. reflexivity.
  - rewrite token_generate_eq by assumption. cbn [bind fst snd].
    set (c' := (c + 1) mod 2 ^ 32).
    assert (Hc' : c' < 2 ^ 32) by (apply N.mod_lt; lia).
    destruct (IH c' Hc') as (ts & E & Hlen & Hnth).
    rewrite E. cbn [bind fst snd]. exists (uenc c :: ts).
    assert (Hadd : forall k, (c' + N.of_nat k) mod 2 ^ 32 = (c + N.of_nat (S k)) mod 2 ^ 32).
    { intro k. unfold c'. rewrite N.add_mod_idemp_l by lia. f_equal. lia. }
    repeat split.
    + rewrite Hadd. reflexivity.
    + cbn. lia.
    + intros i Hi. destruct i as [|i]; cbn [nth_error].
      * rewrite N.add_0_r, N.mod_small by assumption. reflexivity.
      * rewrite <- Hadd. apply Hnth. lia.
Qed.

Lemma uenc_inj : forall a b, uenc a = uenc b -> a = b.
Proof. intros a b H. rewrite <- (uenc_be a), <- (uenc_be b), H. reflexivity. Qed.

Lemma token_distinct : forall n c ts c', c < 2 ^ 32 ->
  token_generate_n n c = Ok (ts, c') ->
  forall i j ti tj, (i < j)%nat -> N.of_nat (j - i) < 2 ^ 32 ->
  nth_error ts i = Some ti -> nth_error ts j = Some tj -> ti <> tj.
Proof.
  intros n c ts c' Hc H i j ti tj Hij Hlt Hi Hj Heq.
  destruct (token_generate_n_nth n c Hc) as (ts' & E & Hlen & Hnth).
  rewrite H in E. injection E as E1 E2. subst ts'.
  assert (Hin : (i < n)%nat) by (rewrite <- Hlen; apply nth_error_Some; congruence).
  assert (Hjn : (j < n)%nat) by (rewrite <- Hlen; apply nth_error_Some; congruence).
  rewrite (Hnth i Hin) in Hi. rewrite (Hnth j Hjn) in Hj.
  injection Hi as <-. injection Hj as <-.
  apply uenc_inj in Heq. clear - Hij Hlt Heq Hc.
  change (2 ^ 32) with 4294967296 in *. lia.
Qed.

Lemma token_period : forall n c ts c', c < 2 ^ 32 ->
  token_generate_n n c = Ok (ts, c') ->
  forall i j ti tj, N.of_nat j = N.of_nat i + 2 ^ 32 ->
  nth_error ts i = Some ti -> nth_error ts j = Some tj -> ti = tj.
Proof.
  intros n c ts c' Hc H i j ti tj Hij Hi Hj.
  destruct (token_generate_n_nth n c Hc) as (ts' & E & Hlen & Hnth).
  rewrite H in E. injection E as E1 E2. subst ts'.
  assert (Hin : (i < n)%nat) by (rewrite <- Hlen; apply nth_error_Some; congruence).
  assert (Hjn : (j < n)%nat) by (rewrite <- Hlen; apply nth_error_Some; congruence).
  rewrite (Hnth i Hin) in Hi. rewrite (Hnth j Hjn) in Hj.
  injection Hi as <-. injection Hj as <-.
  f_equal. rewrite Hij, N.add_assoc.
  change (2 ^ 32) with 4294967296. lia.
Qed.

Lemma token_length_le4 : forall n c ts c' t, c < 2 ^ 32 ->
  token_generate_n n c = Ok (ts, c') -> In t ts -> (length t <= 4)%nat /\ bytes_ok t.
Proof.
  intros n c ts c' t Hc H Hin.
  destruct (token_generate_n_nth n c Hc) as (ts' & E & Hlen & Hnth).
  rewrite H in E. injection E as E1 E2. subst ts'.
  apply In_nth_error in Hin. destruct Hin as [i Hi].
  assert (Hin : (i < n)%nat) by (rewrite <- Hlen; apply nth_error_Some; congruence).
  rewrite (Hnth i Hin) in Hi. injection Hi as <-.
  rewrite uenc_length. split; [|apply uenc_ok].
  apply sig_le. change (256 ^ N.of_nat 4) with (2 ^ 32). apply N.mod_lt. lia.
Qed.
