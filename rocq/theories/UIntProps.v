(** C01-C04: CoAP uint values and generated tokens.
    Values are those of C++ types up to 64 bits, hence [v < 2^64]. *)
From Verif Require Import Base UIntModel UIntSpec UIntProofs.
Local Open Scope N_scope.

(** C01 *)
Theorem C01_uint_roundtrip : forall w v bs,
  8 < w -> v < 2 ^ 64 -> uint_set v = Ok bs -> uint_get_t w bs = v mod 2 ^ w.
Proof.
  intros w v bs Hw Hv H. rewrite uint_set_uenc in H by exact Hv. injection H as <-.
  rewrite uint_get_t_be by auto using uenc_ok. rewrite uenc_be. reflexivity.
Qed.
Print Assumptions C01_uint_roundtrip.

Theorem C01_uint_roundtrip_exact : forall w v, 8 < w -> v < 2 ^ 64 -> v < 2 ^ w ->
  exists bs, uint_set v = Ok bs /\ uint_get_t w bs = v.
Proof.
  intros w v Hw Hs Hv. exists (uenc v). split; [apply uint_set_uenc, Hs|].
  rewrite uint_get_t_be by auto using uenc_ok. rewrite uenc_be. apply N.mod_small, Hv.
Qed.
Print Assumptions C01_uint_roundtrip_exact.

(** The uint8_t specialisation: exact below 256 ... *)
Theorem C01_uint8_roundtrip : forall v, v < 256 ->
  exists bs, uint_set v = Ok bs /\ uint_get_t 8 bs = v.
Proof.
  intros v Hv. exists (uenc v). split; [apply uint_set_uenc; unfold small; lia|].
  assert (Hl : (sig v <= 1)%nat) by (apply sig_le; change (256 ^ N.of_nat 1) with 256; lia).
  pose proof (uenc_be v) as Hb. pose proof (uenc_length v) as Hlen.
  destruct (uenc v) as [|b [|b' r]]; cbn [length] in Hlen; [|  |lia].
  - cbn in Hb. subst v. reflexivity.
  - unfold uint_get_t. rewrite N.eqb_refl. cbn [uint_get_u8].
    cbn [be length] in Hb. rewrite N.add_0_r in Hb. change (256 ^ N.of_nat 0) with 1 in Hb. lia.
Qed.
Print Assumptions C01_uint8_roundtrip.

(** ... but for larger values it returns the most significant byte, not the
    value modulo 256. *)
Theorem C01_uint8_narrowing_refuted :
  exists v bs, v < 2 ^ 64 /\ uint_set v = Ok bs /\ uint_get_t 8 bs <> v mod 2 ^ 8.
Proof. exists 258, [1; 2]. repeat split. vm_compute. discriminate. Qed.
Print Assumptions C01_uint8_narrowing_refuted.

(** ... namely, of a value that takes [n + 1] bytes, the value divided by 256^n. *)
Theorem C01_uint8_top_byte : forall v, 0 < v -> v < 2 ^ 64 -> exists bs n, uint_set v = Ok bs /\ length bs = S n /\
  256 ^ N.of_nat n <= v /\ v < 256 ^ N.of_nat (S n) /\ uint_get_t 8 bs = v / 256 ^ N.of_nat n.
Proof.
  intros v H0 Hv. pose proof (uint_set_uenc v Hv) as E. pose proof (uenc_be v) as B. pose proof (uenc_length v) as L.
  pose proof (sig_upper v) as U. pose proof (sig_lower v ltac:(lia)) as W. pose proof (uenc_ok v) as K.
  destruct (uenc v) as [|b r] eqn:EU; [cbn in B; lia|].
  exists (b :: r), (length r). split; [exact E|]. split; [reflexivity|].
  rewrite <- L in U, W. cbn [length pred] in U, W. split; [exact W|]. split; [exact U|].
  unfold uint_get_t. rewrite N.eqb_refl. cbn [uint_get_u8]. cbn [be] in B.
  assert (Hr : be r < 256 ^ N.of_nat (length r)) by (apply be_bound; inversion K; assumption).
  rewrite <- B. assert (256 ^ N.of_nat (length r) <> 0) by (apply N.pow_nonzero; lia).
  rewrite N.div_add_l by assumption. rewrite N.div_small by assumption. lia.
Qed.
Print Assumptions C01_uint8_top_byte.

Example C01_uint8_case : uint_set 66051 = Ok [1; 2; 3] /\ uint_get_t 8 [1; 2; 3] = 66051 / 256 ^ 2.
Proof. split; reflexivity. Qed.

Example C01_case : uint_set 66051 = Ok [1; 2; 3] /\ uint_get_t 32 [1; 2; 3] = 66051
  /\ uint_get_t 16 [1; 2; 3] = 515.
Proof. repeat split. Qed.

(** The signed instantiation never returns for a negative input: the loop is
    still running after any number of iterations. *)
Theorem C01_negative_diverges : forall v, (v < 0)%Z ->
  forall fuel headstart, assess_loop_signed fuel v headstart = NoFuel.
Proof. intros v Hv fuel h. apply assess_signed_negative, Hv. Qed.
Print Assumptions C01_negative_diverges.

Example C01_negative_case : assess_loop_signed 1000 (-1) 0 = NoFuel.
Proof. apply C01_negative_diverges. reflexivity. Qed.

(** ... and for any other input it computes what the unsigned one does, step for step. *)
Theorem C01_nonnegative : forall fuel v headstart, assess_loop_signed fuel (Z.of_N v) headstart = assess_loop fuel v headstart.
Proof.
  induction fuel as [|fuel IH]; intros v h; cbn [assess_loop_signed assess_loop]; [reflexivity|].
  replace (Z.of_N v =? 0)%Z with (v =? 0) by (destruct (N.eqb_spec v 0); destruct (Z.eqb_spec (Z.of_N v) 0); try reflexivity; lia).
  destruct (v =? 0); [reflexivity|]. replace (Z.shiftr (Z.of_N v) 8) with (Z.of_N (N.shiftr v 8)); [apply IH|].
  rewrite N.shiftr_div_pow2, Z.shiftr_div_pow2 by discriminate. now rewrite N2Z.inj_div.
Qed.
Print Assumptions C01_nonnegative.

Example C01_nonnegative_case : assess_loop_signed 9 66051 0 = Ok 3 /\ assess_loop_signed 9 0 4 = Ok 4.
Proof. split; reflexivity. Qed.

(** C02 *)
Theorem C02_uint_minimal : forall v, v < 2 ^ 64 ->
  exists bs, uint_set v = Ok bs /\ bytes_ok bs /\ be bs = v /\ minimal bs /\
    (forall bs', bytes_ok bs' -> be bs' = v ->
       (length bs <= length bs')%nat /\ (length bs' = length bs -> bs' = bs)).
Proof.
  intros v Hv. exists (uenc v). split; [apply uint_set_uenc, Hv|].
  split; [apply uenc_ok|]. split; [apply uenc_be|]. split; [apply uenc_minimal|].
  intros bs' Hok Hbe. apply shortest; assumption.
Qed.
Print Assumptions C02_uint_minimal.

Theorem C02_uint_unique : forall bs, bytes_ok bs -> minimal bs -> (length bs <= 8)%nat ->
  uint_set (be bs) = Ok bs.
Proof.
  intros bs Hok Hmin Hlen. rewrite uint_set_uenc.
  - rewrite minimal_unique by assumption. reflexivity.
  - unfold small. change (2 ^ 64) with (256 ^ N.of_nat 8).
    eapply N.lt_le_trans; [apply be_bound, Hok|]. apply N.pow_le_mono_r; lia.
Qed.
Print Assumptions C02_uint_unique.

Theorem C02_uint_zero : uint_set 0 = Ok [].
Proof. reflexivity. Qed.
Print Assumptions C02_uint_zero.

Example C02_case : uint_set 256 = Ok [1; 0] /\ be [0; 1; 0] = 256 /\ ~ minimal [0; 1; 0].
Proof. repeat split. cbn. congruence. Qed.

(** C03 *)
Theorem C03_set_len : forall n v,
  length (uint_set_len n v) = n /\ bytes_ok (uint_set_len n v) /\
  be (uint_set_len n v) = v mod 256 ^ N.of_nat n.
Proof.
  intros n v. split; [apply uint_set_len_length|]. split; [apply uint_set_len_ok|].
  apply uint_set_len_be.
Qed.
Print Assumptions C03_set_len.

Theorem C03_set_uint24 : forall v,
  length (set_uint24 v) = 3%nat /\ bytes_ok (set_uint24 v) /\ be (set_uint24 v) = v mod 2 ^ 24.
Proof. intro v. exact (C03_set_len 3 v). Qed.
Print Assumptions C03_set_uint24.

Theorem C03_set_padded : forall v n, v < 2 ^ 64 -> v < 256 ^ N.of_nat n ->
  exists bs, uint_set_padded v n = Ok bs /\ length bs = n /\ bytes_ok bs /\ be bs = v.
Proof. exact uint_set_padded_fits. Qed.
Print Assumptions C03_set_padded.

Theorem C03_set_padded_too_small : forall v n, v < 2 ^ 64 -> 256 ^ N.of_nat n <= v ->
  uint_set_padded v n = Fault.
Proof. exact uint_set_padded_overflow. Qed.
Print Assumptions C03_set_padded_too_small.

Example C03_case : uint_set_padded 258 4 = Ok [0; 0; 1; 2] /\ uint_set_padded 65536 2 = Fault
  /\ uint_set_len 2 66051 = [2; 3].
Proof. repeat split. Qed.

(** layer2::UInt<cap>: exact within the capacity, overflow beyond *)
Theorem C03_layer2_set : forall cap v, v < 2 ^ 64 ->
  (v < 256 ^ N.of_nat cap /\ exists bs, layer2_set cap v = Ok bs /\ be bs = v /\ (length bs <= cap)%nat)
  \/ (256 ^ N.of_nat cap <= v /\ layer2_set cap v = Fault).
Proof.
  intros cap v Hv. unfold layer2_set. rewrite uint_set_uenc by exact Hv. cbn [bind].
  rewrite uenc_length. destruct (Nat.ltb_spec cap (sig v)) as [H|H].
  - right. split; [|reflexivity].
    destruct (N.le_gt_cases (256 ^ N.of_nat cap) v) as [|Hc]; [assumption|].
    apply sig_le in Hc. lia.
  - left. split.
    + eapply N.lt_le_trans; [apply sig_upper|]. apply N.pow_le_mono_r; lia.
    + exists (uenc v). rewrite uenc_be, uenc_length. auto.
Qed.
Print Assumptions C03_layer2_set.

(** ... and its readers give the big-endian value, modulo the width of what they return, of
    as many bytes as they accept (get_uint16_t 2, get_uint24_t 3, get the size of its type);
    get_uint8_t accepts one byte only, so it rejects the value 0 as set writes it. *)
Theorem C03_layer2_get : forall w maxlen bs, 8 < w -> bytes_ok bs ->
  ((length bs <= maxlen)%nat -> layer2_get w maxlen bs = Ok (be bs mod 2 ^ w)) /\
  ((maxlen < length bs)%nat -> layer2_get w maxlen bs = Fault) /\
  (length bs = 1%nat -> layer2_get_u8 bs = Ok (be bs)) /\ (length bs <> 1%nat -> layer2_get_u8 bs = Fault).
Proof.
  intros w maxlen bs Hw Hok. unfold layer2_get. split; [|split; [|split]]; intro H.
  - apply Nat.leb_le in H. rewrite H. rewrite uint_get_t_be by assumption. reflexivity.
  - apply Nat.leb_gt in H. rewrite H. reflexivity.
  - destruct bs as [|b [|c r]]; try discriminate. cbn [layer2_get_u8 be length]. change (256 ^ N.of_nat 0) with 1. f_equal. lia.
  - destruct bs as [|b [|c r]]; [reflexivity|elim H; reflexivity|reflexivity].
Qed.
Print Assumptions C03_layer2_get.

Example C03_layer2_get_case : layer2_get 16 2 [1; 2] = Ok 258 /\ layer2_get 32 3 [1; 0; 0; 0] = Fault /\
  bind (layer2_set 4 0) layer2_get_u8 = Fault /\ bind (layer2_set 4 200) layer2_get_u8 = Ok 200.
Proof. repeat split. Qed.

Example C03_layer2_case : layer2_set 4 4294967295 = Ok [255; 255; 255; 255]
  /\ layer2_set 4 4294967296 = Fault.
Proof. split; reflexivity. Qed.

(** C04 *)
Theorem C04_tokens_distinct : forall n c ts c', c < 2 ^ 32 ->
  token_generate_n n c = Ok (ts, c') ->
  forall i j ti tj, (i < j)%nat -> N.of_nat (j - i) < 2 ^ 32 ->
  nth_error ts i = Some ti -> nth_error ts j = Some tj -> ti <> tj.
Proof. exact token_distinct. Qed.
Print Assumptions C04_tokens_distinct.

Theorem C04_tokens_never_fault : forall n c, c < 2 ^ 32 ->
  exists ts, token_generate_n n c = Ok (ts, (c + N.of_nat n) mod 2 ^ 32) /\ length ts = n.
Proof.
  intros n c Hc. destruct (token_generate_n_nth n c Hc) as (ts & H & Hl & _). eauto.
Qed.
Print Assumptions C04_tokens_never_fault.

Theorem C04_token_length : forall n c ts c' t, c < 2 ^ 32 ->
  token_generate_n n c = Ok (ts, c') -> In t ts -> (length t <= 4)%nat /\ bytes_ok t.
Proof. exact token_length_le4. Qed.
Print Assumptions C04_token_length.

Theorem C04_token_period : forall n c ts c', c < 2 ^ 32 ->
  token_generate_n n c = Ok (ts, c') ->
  forall i j ti tj, N.of_nat j = N.of_nat i + 2 ^ 32 ->
  nth_error ts i = Some ti -> nth_error ts j = Some tj -> ti = tj.
Proof. exact token_period. Qed.
Print Assumptions C04_token_period.

Example C04_case : token_generate_n 4 4294967294 =
  Ok ([[255;255;255;254]; [255;255;255;255]; []; [1]], 2).
Proof. vm_compute. reflexivity. Qed.
