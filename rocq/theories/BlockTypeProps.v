(** C99: block numbers of every integer type. *)
From Coq Require Import ZArith Lia.
From Verif Require Import Base UIntModel UIntSpec UIntProofs BlockModel BlockSpec BlockProofs BlockProps BlockTypeModel BlockTypeSpec.
Local Open Scope N_scope.

Lemma encode_fits : forall w num m szx, 4 <= w <= 64 -> 0 < num -> num * 16 < 2 ^ w -> szx < 8 ->
  exists bs, block_encode w num m szx = Ok bs /\ bytes_ok bs /\ minimal bs /\ be bs = block_value num m szx.
Proof.
  intros w num m szx Hw H0 Hn Hs. assert (E : num mod 2 ^ (w - 4) = num).
  { apply N.mod_small. replace w with ((w - 4) + 4) in Hn by lia. rewrite N.pow_add_r in Hn. change (2 ^ 4) with 16 in Hn.
    apply (N.mul_lt_mono_pos_r 16); [lia|exact Hn]. }
  destruct (encode_spec w num m szx) as (bs & B1 & B2 & B3 & B4); [lia|rewrite E; lia|exact Hs|]. rewrite E in B4. exists bs. auto.
Qed.

(** Numbers of every type are encoded right, whatever the type, if the 16-fold still has its place in
    32 bits (31 for a type that is signed or narrower than int); those RFC 7959 allows all do. *)
Theorem C99_encode : forall signed w num m szx, width w -> in_type signed w num -> (0 < num < 2 ^ 27)%Z -> szx < 8 ->
  exists bs, block_encode_t signed w num m szx = Ok bs /\ bytes_ok bs /\ minimal bs /\ be bs = block_value (Z.to_N num) m szx /\
    decode_num 32 bs = Z.to_N num /\ decode_m bs = Ok m /\ decode_szx bs = Ok (2 ^ (szx + 4)).
Proof.
  intros signed w num m szx Hw _ Hn Hs.
  assert (X : exists b, (b = 32 \/ b = 64) /\ N.max w 32 = b) by (destruct Hw as [->|[->|[->| ->]]]; [exists 32|exists 32|exists 32|exists 64]; auto).
  destruct X as (b & Hb & Eb).
  assert (E : block_encode_t signed w num m szx = block_encode b (Z.to_N num) m szx).
  { unfold block_encode_t. rewrite Eb. destruct (signed || (w <? 32))%bool; [|reflexivity].
    replace ((num <? 0) || (2 ^ Z.of_N (b - 1) <=? num * 16))%Z%bool with false; [reflexivity|]. symmetry. apply orb_false_iff.
    split; [apply Z.ltb_ge; lia|]. apply Z.leb_gt. change (2 ^ 27)%Z with 134217728%Z in Hn.
    destruct Hb as [->| ->]; [change (2 ^ Z.of_N (32 - 1))%Z with 2147483648%Z|change (2 ^ Z.of_N (64 - 1))%Z with 9223372036854775808%Z]; lia. }
  change (2 ^ 27)%Z with 134217728%Z in Hn.
  destruct (encode_fits b (Z.to_N num) m szx) as (bs & B1 & B2 & B3 & B4); try lia.
  { destruct Hb as [->| ->]; [change (2 ^ 32) with 4294967296|change (2 ^ 64) with 18446744073709551616]; lia. }
  exists bs. rewrite E. do 4 (split; [assumption|]).
  assert (Ne : bs <> []) by (intros ->; cbn [be] in B4; unfold block_value in B4; destruct m; lia).
  apply C34_decode; try assumption.
  destruct (Nat.le_gt_cases (length bs) 4) as [L|L]; [exact L|exfalso]. pose proof (be_head_bound bs B2 B3 Ne) as B. rewrite B4 in B.
  assert (256 ^ 4 <= 256 ^ N.of_nat (pred (length bs))) by (apply N.pow_le_mono_r; lia). change (256 ^ 4) with 4294967296 in H. unfold block_value in B. destruct m; lia.
Qed.
Print Assumptions C99_encode.

(** Every number but 0 of a type of 8 or 16 bits without sign is encoded right. *)
Theorem C99_narrow : forall w num m szx, w = 8 \/ w = 16 -> in_type false w num -> num <> 0%Z -> szx < 8 ->
  exists bs, block_encode_t false w num m szx = Ok bs /\ be bs = block_value (Z.to_N num) m szx /\ decode_num 32 bs = Z.to_N num.
Proof.
  intros w num m szx Hw Hn H0 Hs.
  destruct (C99_encode false w num m szx) as (bs & A & _ & _ & B & C & _); [unfold width; tauto|exact Hn| |exact Hs|eauto].
  unfold in_type in Hn. destruct Hw as [->| ->]; [change (2 ^ Z.of_N 8)%Z with 256%Z in Hn|change (2 ^ Z.of_N 16)%Z with 65536%Z in Hn]; change (2 ^ 27)%Z with 134217728%Z; lia.
Qed.
Print Assumptions C99_narrow.

(** Full claim (false): a number of any type is encoded or loses its top bits (C34). In a signed type a
    negative number, and from 2^27 (2^59 for 64 bits) on any number, is undefined; 0 is a fault in every
    type (C34). *)
Theorem C99_signed_refuted : forall w num m szx, width w -> in_type true w num -> szx < 8 ->
  (block_encode_t true w num m szx = Fault <-> (num <= 0 \/ 2 ^ (if (w =? 64)%N then 59 else 27) <= num)%Z) /\
  ((0 < num < 2 ^ (if (w =? 64)%N then 59 else 27))%Z -> exists bs, block_encode_t true w num m szx = Ok bs /\ be bs = block_value (Z.to_N num) m szx).
Proof.
  intros w num m szx Hw _ Hs.
  assert (X : exists b t, ((b = 32 /\ t = 27%Z) \/ (b = 64 /\ t = 59%Z)) /\ N.max w 32 = b /\ (if (w =? 64)%N then 59 else 27)%Z = t).
  { destruct Hw as [->|[->|[->| ->]]]; [exists 32, 27%Z|exists 32, 27%Z|exists 32, 27%Z|exists 64, 59%Z]; auto. }
  destruct X as (b & t & Hb & Eb & Et). rewrite Et. unfold block_encode_t. rewrite Eb. cbn [orb].
  assert (P : (2 ^ Z.of_N (b - 1) = 2 ^ t * 16)%Z) by (destruct Hb as [[-> ->]|[-> ->]]; reflexivity). rewrite P.
  assert (G : (0 < num < 2 ^ t)%Z -> exists bs, block_encode b (Z.to_N num) m szx = Ok bs /\ be bs = block_value (Z.to_N num) m szx).
  { intros Hn. destruct (encode_fits b (Z.to_N num) m szx) as (bs & B1 & _ & _ & B4); [lia|lia| |exact Hs|eauto].
    destruct Hb as [[-> ->]|[-> ->]].
    - change (2 ^ 27)%Z with 134217728%Z in Hn. change (2 ^ 32) with 4294967296. lia.
    - change (2 ^ 59)%Z with 576460752303423488%Z in Hn. change (2 ^ 64) with 18446744073709551616. lia. }
  clear Et P Eb Hw. destruct (Z.ltb_spec num 0) as [L|L]; cbn [orb].
  - split; [split; [intros _; left; lia|reflexivity]|intros; lia].
  - destruct (Z.leb_spec (2 ^ t * 16) (num * 16)) as [M|M].
    + split; [split; [intros _; right; lia|reflexivity]|intros; lia].
    + split; [|exact G]. split.
      * intros F. left. destruct (Z.le_gt_cases num 0) as [K|K]; [exact K|]. destruct G as (bs & B & _); [lia|]. rewrite F in B. discriminate.
      * intros [K|K]; [|lia]. replace num with 0%Z by lia. apply C34_number_zero_refuted.
Qed.
Print Assumptions C99_signed_refuted.

(** Read into a type of 64 bits the number of any value of up to eight bytes is right; into 16 bits only
    its last 12 bits come through. *)
Theorem C99_decode : forall bs num m szx, bytes_ok bs -> bs <> [] -> szx < 8 -> be bs = block_value num m szx ->
  ((length bs <= 8)%nat -> decode_num 64 bs = num) /\ decode_num 16 bs = num mod 2 ^ 12.
Proof.
  intros bs num m szx Hok Hne Hs Hb.
  destruct (decode_spec 64 bs ltac:(lia) Hok Hne) as (D & _). destruct (decode_spec 16 bs ltac:(lia) Hok Hne) as (F & _). split.
  - intros Hl. assert (B : be bs < 2 ^ 64).
    { eapply N.lt_le_trans; [apply be_bound, Hok|]. change (2 ^ 64) with (256 ^ 8). apply N.pow_le_mono_r; lia. }
    rewrite D, N.mod_small, Hb by exact B. unfold block_value. clear - Hs. destruct m; lia.
  - rewrite F, Hb. unfold block_value. change (2 ^ 16) with (16 * 4096). change (2 ^ 12) with 4096. rewrite N.mod_mul_r by lia.
    replace ((num * 16 + (if m then 8 else 0) + szx) / 16) with num by (clear - Hs; destruct m; lia).
    rewrite (N.mul_comm 16), N.div_add by lia. rewrite N.div_small by (apply N.mod_lt; lia). apply N.add_0_l.
Qed.
Print Assumptions C99_decode.

(** Full claim (false): a block number that fits in 8 bits is read right into 8 bits. Only a value of one
    byte (number below 16) is; of a longer one the top of the first byte is taken, which is never the number. *)
Theorem C99_decode_byte_refuted : forall bs num m szx, bytes_ok bs -> minimal bs -> bs <> [] -> szx < 8 -> be bs = block_value num m szx ->
  (decode_num 8 bs = num <-> length bs = 1%nat).
Proof.
  intros bs num m szx Hok Hm Hne Hs Hb. destruct bs as [|b r]; [congruence|]. unfold decode_num, uint_get_t, uint_get_u8. change (8 =? 8) with true. cbn iota.
  rewrite N.shiftr_div_pow2. change (2 ^ 4) with 16. inversion Hok as [|? ? Hb0 Hr]; subst. unfold byte_ok in *. destruct r as [|c r].
  - split; [reflexivity|]. intros _. cbn [be length] in Hb. change (256 ^ N.of_nat 0) with 1 in Hb. unfold block_value in Hb. clear - Hb Hs. destruct m; lia.
  - split; [|discriminate]. intros E. exfalso. pose proof (be_head_bound (b :: c :: r) Hok Hm Hne) as B. rewrite Hb in B.
    assert (256 ^ 1 <= 256 ^ N.of_nat (pred (length (b :: c :: r)))) by (apply N.pow_le_mono_r; cbn [length pred]; lia).
    change (256 ^ 1) with 256 in H. unfold block_value in B. assert (b < 256) by assumption. clear - B H H0 E Hs. destruct m; lia.
Qed.
Print Assumptions C99_decode_byte_refuted.

Example C99_case : block_encode_t false 16 65535 true 6 = Ok [0x0F; 0xFF; 0xFE] /\ decode_num 32 [0x0F; 0xFF; 0xFE] = 65535 /\ decode_num 16 [0x0F; 0xFF; 0xFE] = 4095 /\
  decode_num 8 [0x0F; 0xFF; 0xFE] = 0 /\ decode_num 8 [0xF0] = 15 /\ block_encode_t true 32 (-1) false 0 = Fault /\ block_encode_t true 32 (2 ^ 27) false 0 = Fault /\
  block_encode_t true 64 (2 ^ 27) false 0 = Ok [0x80; 0; 0; 0] /\ in_type false 16 65535 /\ in_type true 32 (2 ^ 27) /\ width 16.
Proof. unfold in_type, width. repeat split; try (vm_compute; reflexivity); try (vm_compute; discriminate). auto. Qed.
