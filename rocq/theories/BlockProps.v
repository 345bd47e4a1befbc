(** C34: block options. *)
From Verif Require Import Base UIntModel UIntSpec UIntProofs BlockModel BlockSpec BlockProofs.
Local Open Scope N_scope.

(** C34: for a 32-bit number type and any number 1..2^28-1 (RFC 7959 allows
    2^20-1) the value emitted is the shortest encoding of NUM*16+M*8+SZX, and
    decoding it gives number, flag and block size back. *)
Theorem C34_round_trip : forall num m szx, 0 < num < 2 ^ 28 -> szx < 8 ->
  exists bs, block_encode 32 num m szx = Ok bs /\
    bytes_ok bs /\ minimal bs /\ be bs = block_value num m szx /\ (num < 2 ^ 20 -> (length bs <= 3)%nat) /\
    decode_num 32 bs = num /\ decode_m bs = Ok m /\ decode_szx bs = Ok (2 ^ (szx + 4)).
Proof.
  intros num m szx Hn Hs.
  assert (Hmod : num mod 2 ^ 28 = num) by (apply N.mod_small; lia).
  destruct (encode_spec 32 num m szx) as (bs & H1 & H2 & H3 & H4).
  { lia. } { change (32 - 4) with 28. rewrite Hmod. lia. } { exact Hs. }
  change (32 - 4) with 28 in H4. rewrite Hmod in H4.
  assert (Hne : bs <> []) by (intros ->; cbn in H4; unfold block_value in H4; destruct m; lia).
  destruct (decode_spec 32 bs ltac:(lia) H2 Hne) as (D1 & D2 & D3).
  exists bs. split; [exact H1|]. split; [exact H2|]. split; [exact H3|]. split; [exact H4|]. rewrite H4 in D1, D2, D3.
  split; [|split; [|split]].
  - intros Hr. destruct (Nat.le_gt_cases (length bs) 3) as [Hl|Hl]; [exact Hl|exfalso].
    pose proof (be_head_bound bs H2 H3 Hne) as B. rewrite H4 in B.
    assert (256 ^ 3 <= 256 ^ N.of_nat (pred (length bs))) by (apply N.pow_le_mono_r; lia).
    change (256 ^ 3) with 16777216 in H. unfold block_value in B. change (2 ^ 20) with 1048576 in Hr. destruct m; lia.
  - rewrite D1. unfold block_value. change (2 ^ 28) with 268435456 in Hn. change (2 ^ 32) with 4294967296. destruct m; lia.
  - rewrite D2. unfold block_value. f_equal. destruct m.
    + replace ((num * 16 + 8 + szx) / 8 mod 2) with 1 by lia. reflexivity.
    + replace ((num * 16 + 0 + szx) / 8 mod 2) with 0 by lia. reflexivity.
  - rewrite D3. unfold block_value. do 3 f_equal. destruct m; lia.
Qed.
Print Assumptions C34_round_trip.

(** C34: decoding any non-empty value of at most four bytes yields the RFC
    reading of it. *)
Theorem C34_decode : forall bs num m szx, bytes_ok bs -> bs <> [] -> (length bs <= 4)%nat ->
  szx < 8 -> be bs = block_value num m szx ->
  decode_num 32 bs = num /\ decode_m bs = Ok m /\ decode_szx bs = Ok (2 ^ (szx + 4)).
Proof.
  intros bs num m szx Hok Hne Hl Hs Hb. destruct (decode_spec 32 bs ltac:(lia) Hok Hne) as (D1 & D2 & D3).
  assert (B : be bs < 2 ^ 32).
  { eapply N.lt_le_trans; [apply be_bound, Hok|]. change (2 ^ 32) with (256 ^ 4). apply N.pow_le_mono_r; lia. }
  rewrite N.mod_small in D1 by exact B. rewrite Hb in D1, D2, D3. unfold block_value in *. split; [|split].
  - rewrite D1. destruct m; lia.
  - rewrite D2. f_equal. destruct m.
    + replace ((num * 16 + 8 + szx) / 8 mod 2) with 1 by lia. reflexivity.
    + replace ((num * 16 + 0 + szx) / 8 mod 2) with 0 by lia. reflexivity.
  - rewrite D3. do 3 f_equal. destruct m; lia.
Qed.
Print Assumptions C34_decode.

(** C34: the gaps of the full claim (every value RFC 7959 allows).  Block number 0
    makes the encoder touch the byte before the buffer, whatever the flags; the
    legal empty value (number 0, no more, size 16) is read out of bounds. *)
Theorem C34_number_zero_refuted : forall w m szx, block_encode w 0 m szx = Fault.
Proof.
  intros w m szx. unfold block_encode. rewrite N.shiftl_0_l. rewrite N.mod_0_l by (apply N.pow_nonzero; lia).
  reflexivity.
Qed.
Print Assumptions C34_number_zero_refuted.

Theorem C34_empty_value_refuted : decode_num 32 [] = 0 /\ decode_m [] = Fault /\ decode_szx [] = Fault.
Proof. repeat split. Qed.
Print Assumptions C34_empty_value_refuted.

(** C34: what happens to numbers of any size and either number type: the top four
    bits are lost, and numbers that become 0 that way fault too. *)
Theorem C34_any_number : forall w num m szx, w = 32 \/ w = 64 -> szx < 8 ->
  (num mod 2 ^ (w - 4) = 0 /\ block_encode w num m szx = Fault) \/
  exists bs, block_encode w num m szx = Ok bs /\ be bs = block_value (num mod 2 ^ (w - 4)) m szx.
Proof.
  intros w num m szx Hw Hs. destruct (N.eq_dec (num mod 2 ^ (w - 4)) 0) as [E|E].
  - left. split; [exact E|]. unfold block_encode. rewrite N.shiftl_mul_pow2.
    replace ((num * 2 ^ 4) mod 2 ^ w) with 0; [reflexivity|].
    replace w with ((w - 4) + 4) by lia. rewrite N.pow_add_r, N.mul_mod_distr_r by (apply N.pow_nonzero; lia). rewrite E. reflexivity.
  - right. destruct (encode_spec w num m szx) as (bs & H1 & _ & _ & H4); [lia|assumption|assumption|]. eauto.
Qed.
Print Assumptions C34_any_number.

(** C34: a size exponent above 7 is not masked: it changes the number. *)
Theorem C34_exponent_range_refuted : exists num m szx bs,
  0 < num < 2 ^ 20 /\ 8 <= szx < 256 /\ block_encode 32 num m szx = Ok bs /\ decode_num 32 bs <> num.
Proof. exists 2, false, 16, [48]. repeat split; vm_compute; discriminate. Qed.
Print Assumptions C34_exponent_range_refuted.

Example C34_case : block_encode 32 (2 ^ 20 - 1) true 6 = Ok [255; 255; 254] /\
  decode_num 32 [255; 255; 254] = 2 ^ 20 - 1 /\ decode_m [255; 255; 254] = Ok true /\ decode_szx [255; 255; 254] = Ok 1024 /\
  block_encode 32 16 false 2 = Ok [1; 2].
Proof. repeat split; vm_compute; reflexivity. Qed.
