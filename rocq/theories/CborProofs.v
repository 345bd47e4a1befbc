From Verif Require Import Base UIntModel UIntSpec UIntProofs CborModel CborSpec.
Local Open Scope N_scope.

(** * Encoder *)

Lemma be_bytes_snoc : forall n v, be_bytes (S n) v = be_bytes n (v / 256) ++ [v mod 256].
Proof.
  induction n as [|n IH]; intros v.
  - cbn [be_bytes app]. change (256 ^ N.of_nat 0) with 1. now rewrite N.div_1_r.
  - remember (S n) as k eqn:Ek. cbn [be_bytes]. rewrite IH. subst k. cbn [be_bytes app]. f_equal.
    rewrite pow256_S, <- N.div_div by (try lia; pose proof (pow256_pos (N.of_nat n)); lia). reflexivity.
Qed.

Lemma be_bytes_set : forall n v, uint_set_len n v = be_bytes n v.
Proof.
  induction n as [|n IH]; intros v; [reflexivity|]. rewrite be_bytes_snoc. cbn [uint_set_len]. now rewrite IH, land255, shr8.
Qed.

Lemma be_bytes_length : forall n v, length (be_bytes n v) = n.
Proof. induction n as [|n IH]; intros v; cbn; [reflexivity|now rewrite IH]. Qed.

Lemma be_bytes_ok : forall n v, bytes_ok (be_bytes n v).
Proof. intros. rewrite <- be_bytes_set. apply uint_set_len_ok. Qed.

Lemma be_bytes_be : forall n v, be (be_bytes n v) = v mod 256 ^ N.of_nat n.
Proof. intros. rewrite <- be_bytes_set. apply uint_set_len_be. Qed.

Lemma head_byte : forall m x, m < 8 -> x < 32 -> N.lor (N.shiftl m 5) x mod 256 = m * 32 + x.
Proof.
  intros m x Hm Hx. rewrite N.shiftl_mul_pow2, lor_add by (change (2 ^ 5) with 32; lia). change (2 ^ 5) with 32. apply N.mod_small. lia.
Qed.

Lemma sig_range : forall v k, v <> 0 -> 256 ^ N.of_nat k <= v -> v < 256 ^ N.of_nat (S k) -> sig v = S k.
Proof.
  intros v k H0 H1 H2. pose proof (sig_le v (S k) H2). pose proof (sig_upper v) as U.
  destruct (Nat.le_gt_cases (sig v) k) as [L|L]; [exfalso|lia].
  assert (256 ^ N.of_nat (sig v) <= 256 ^ N.of_nat k) by (apply N.pow_le_mono_r; lia). lia.
Qed.

Lemma mt_int_long : forall m v k, v < 2 ^ 64 -> m < 8 -> 24 < v -> sig v = k -> (k <= 8)%nat ->
  mt_int m v = Ok (N.lor (N.shiftl m 5) (info_from_wordsize (round_wordsize (N.of_nat k))) mod 256
                   :: be_bytes (N.to_nat (round_wordsize (N.of_nat k))) v).
Proof.
  intros m v k H64 Hm Hv Hk Hk8. unfold mt_int. destruct (N.leb_spec v 24); [lia|].
  rewrite assess_sig by lia. cbn [bind]. rewrite N.add_0_l, Hk, be_bytes_set. reflexivity.
Qed.

Lemma mt_int_rfc : forall m v, m < 8 -> v < 2 ^ 64 -> v <> 24 -> mt_int m v = Ok (rfc_head m v).
Proof.
  intros m v Hm Hv Hn. unfold rfc_head.
  destruct (N.ltb_spec v 24) as [H|H].
  { unfold mt_int. destruct (N.leb_spec v 24); [|lia]. rewrite head_byte by lia. reflexivity. }
  assert (L : forall k, 256 ^ N.of_nat k <= v -> v < 256 ^ N.of_nat (S k) -> (S k <= 8)%nat ->
     mt_int m v = Ok (N.lor (N.shiftl m 5) (info_from_wordsize (round_wordsize (N.of_nat (S k)))) mod 256
                   :: be_bytes (N.to_nat (round_wordsize (N.of_nat (S k)))) v)).
  { intros k H1 H2 H3. apply mt_int_long; auto; [lia|]. apply sig_range; auto. lia. }
  assert (HB : forall x, x < 32 -> N.lor (N.shiftl m 5) x mod 256 = m * 32 + x) by (intros; now apply head_byte).
  destruct (N.ltb_spec v 256).
  { rewrite (L 0%nat) by (cbn; lia). change (info_from_wordsize (round_wordsize (N.of_nat 1))) with 24. rewrite HB by lia. reflexivity. }
  destruct (N.ltb_spec v 65536).
  { rewrite (L 1%nat) by (cbn; lia). change (info_from_wordsize (round_wordsize (N.of_nat 2))) with 25. rewrite HB by lia. reflexivity. }
  destruct (N.ltb_spec v (2 ^ 32)).
  { destruct (N.lt_ge_cases v 16777216).
    - rewrite (L 2%nat) by (cbn; lia). change (info_from_wordsize (round_wordsize (N.of_nat 3))) with 26. rewrite HB by lia. reflexivity.
    - rewrite (L 3%nat) by (cbn; lia). change (info_from_wordsize (round_wordsize (N.of_nat 4))) with 26. rewrite HB by lia. reflexivity. }
  destruct (N.lt_ge_cases v (2 ^ 40)).
  { rewrite (L 4%nat) by (cbn in *; lia). change (info_from_wordsize (round_wordsize (N.of_nat 5))) with 27. rewrite HB by lia. reflexivity. }
  destruct (N.lt_ge_cases v (2 ^ 48)).
  { rewrite (L 5%nat) by (cbn in *; lia). change (info_from_wordsize (round_wordsize (N.of_nat 6))) with 27. rewrite HB by lia. reflexivity. }
  destruct (N.lt_ge_cases v (2 ^ 56)).
  { rewrite (L 6%nat) by (cbn in *; lia). change (info_from_wordsize (round_wordsize (N.of_nat 7))) with 27. rewrite HB by lia. reflexivity. }
  rewrite (L 7%nat) by (cbn in *; lia). change (info_from_wordsize (round_wordsize (N.of_nat 8))) with 27. rewrite HB by lia. reflexivity.
Qed.

(** * Decoder *)

Lemma raw_val : forall b m x p s, x < 32 -> c_raw (CDec b (m * 32 + x) p s) = x.
Proof. intros b m x p s H. unfold c_raw. cbn [c_hdr]. change 31 with (N.ones 5). rewrite land_mask. change (2 ^ 5) with 32. lia. Qed.

Lemma type_val : forall b m x p s, x < 32 -> c_type (CDec b (m * 32 + x) p s) = m.
Proof. intros b m x p s H. unfold c_type. cbn [c_hdr]. rewrite N.shiftr_div_pow2. change (2 ^ 5) with 32. lia. Qed.

Definition short_m (m : N) : bool := (m =? M_UINT) || (m =? M_NEG) || (m =? M_TAG) || (m =? M_SIMPLE).
Definition end_state (m : N) : cstate := if short_m m then CItemDone else CLongStart.

Lemma short_val : forall b m x p s, x < 32 -> c_short (CDec b (m * 32 + x) p s) = short_m m.
Proof. intros b m x p s H. unfold c_short. rewrite type_val by assumption. reflexivity. Qed.

Lemma tiny_val : forall b m x p s, x < 32 -> c_tiny (CDec b (m * 32 + x) p s) = (x <? 24).
Proof. intros. unfold c_tiny. now rewrite raw_val. Qed.

Lemma addlen_val : forall b m x p s, x < 32 -> c_addlen (CDec b (m * 32 + x) p s) = N.shiftl 1 (x - 24) mod 256.
Proof. intros. unfold c_addlen. now rewrite raw_val. Qed.

Definition can_go (chunk : list N) (d : cdec) (pos : nat) : Prop :=
  (pos < length chunk)%nat \/ (pos = length chunk /\ is_item_done d = false).

Definition after (f : nat) (chunk : list N) (g : N) (d' : cdec) (pos' : nat) : res (cdec * nat * bool) :=
  match c_state d' with
  | CLongStart | CItemDone => Ok (d', pos', false)
  | _ => c_loop f chunk g d' pos'
  end.

Lemma loop_eq : forall f chunk g d pos, can_go chunk d pos ->
  c_loop (S f) chunk g d pos = bind (c_iterate d (nth pos chunk g)) (fun r => let '(d', adv) := r in after f chunk g d' (if adv : bool then S pos else pos)).
Proof.
  intros f chunk g d pos H. cbn [c_loop].
  replace ((pos <? length chunk)%nat || (pos =? length chunk)%nat && negb (is_item_done d)) with true; [reflexivity|].
  symmetry. destruct H as [H|(H1 & H2)].
  - apply Nat.ltb_lt in H. now rewrite H.
  - rewrite H2. apply Nat.eqb_eq in H1. rewrite H1. apply orb_true_r.
Qed.

Lemma loop_end : forall f chunk g d pos, ~ can_go chunk d pos -> c_loop (S f) chunk g d pos = Ok (d, pos, true).
Proof.
  intros f chunk g d pos H. cbn [c_loop].
  replace ((pos <? length chunk)%nat || (pos =? length chunk)%nat && negb (is_item_done d)) with false; [reflexivity|].
  symmetry. apply orb_false_iff. split.
  - apply Nat.ltb_ge. destruct (Nat.le_gt_cases (length chunk) pos); [assumption|]. exfalso. apply H. now left.
  - destruct (Nat.eqb_spec pos (length chunk)) as [E|E]; [|reflexivity]. cbn. apply negb_false_iff.
    destruct (is_item_done d) eqn:X; [reflexivity|]. exfalso. apply H. now right.
Qed.

Lemma process_end : forall chunk g d pos, ~ can_go chunk d pos -> c_process chunk g d pos = Ok (d, pos, true).
Proof. intros. unfold c_process, c_fuel. cbn [Nat.add]. now apply loop_end. Qed.

Lemma nth_pre : forall (pre : list N) i bs g, nth (length pre + i) (pre ++ bs) g = nth i bs g.
Proof. intros. apply app_nth2_plus. Qed.

Lemma nth_pre0 : forall (pre : list N) b bs g, nth (length pre) (pre ++ b :: bs) g = b.
Proof. intros. rewrite <- (Nat.add_0_r (length pre)) at 1. now rewrite nth_pre. Qed.

(** from the header byte on, in state [CHeader] *)
Lemma run_tiny : forall f pre post g buf h0 p m v, m < 8 -> v < 24 ->
  c_loop (S (S f)) (pre ++ (m * 32 + v) :: post) g (CDec buf h0 p CHeader) (length pre) =
  Ok (CDec buf (m * 32 + v) p (end_state m), S (length pre), false).
Proof.
  intros f pre post g buf h0 p m v Hm Hv.
  rewrite loop_eq by (left; rewrite app_length; cbn; lia).
  rewrite <- (Nat.add_0_r (length pre)) at 1. rewrite nth_pre. cbn [c_iterate c_state bind nth after c_buf c_pos].
  rewrite loop_eq. 2:{ unfold can_go. rewrite app_length. cbn. destruct post; [right; cbn; split; [lia|reflexivity]|left; cbn; lia]. }
  cbn [c_iterate c_state bind]. rewrite tiny_val, short_val by lia. destruct (N.ltb_spec v 24); [|lia].
  unfold end_state, c_set. cbn [c_buf c_hdr c_pos]. destruct (short_m m); reflexivity.
Qed.

(** the [n]-th of [k] additional bytes *)
Lemma run_additional : forall bs f pre post g buf m x p, m < 8 -> 24 <= x -> x <= 26 -> length buf = 4%nat ->
  (length bs > 0)%nat -> p + N.of_nat (length bs) = 2 ^ (x - 24) ->
  exists buf', length buf' = 4%nat /\ firstn (N.to_nat p) buf' = firstn (N.to_nat p) buf /\
    firstn (length bs) (skipn (N.to_nat p) buf') = bs /\
  c_loop (length bs + S f) (pre ++ bs ++ post) g (CDec buf (m * 32 + x) p CAdditional) (length pre) =
  Ok (CDec buf' (m * 32 + x) (2 ^ (x - 24)) (end_state m), (length pre + length bs)%nat, false).
Proof.
  induction bs as [|b bs IH]; intros f pre post g buf m x p Hm Hx1 Hx2 Hb Hl Hp; [cbn in Hl; lia|].
  assert (Hpow : 2 ^ (x - 24) <= 4) by (change 4 with (2 ^ 2); apply N.pow_le_mono_r; lia).
  assert (Hp4 : (N.to_nat p < 4)%nat) by (cbn [length] in Hp; lia).
  cbn [length Nat.add]. rewrite loop_eq by (left; rewrite app_length; cbn; lia).
  cbn [app]. rewrite nth_pre0.
  cbn [c_iterate c_state]. cbn [c_pos c_buf c_hdr]. unfold BUF_LEN.
  destruct (Nat.ltb_spec (N.to_nat p) 4); [|lia]. cbn [bind app].
  set (buf1 := firstn (N.to_nat p) buf ++ b :: skipn (S (N.to_nat p)) buf).
  assert (L1 : length buf1 = 4%nat).
  { unfold buf1. rewrite app_length, firstn_length. cbn [length]. rewrite skipn_length. lia. }
  assert (F1 : firstn (N.to_nat p) buf1 = firstn (N.to_nat p) buf).
  { unfold buf1. rewrite firstn_app, firstn_firstn, firstn_length.
    replace (N.to_nat p - Nat.min (N.to_nat p) (length buf))%nat with 0%nat by lia. cbn. rewrite app_nil_r. f_equal. lia. }
  assert (F2 : firstn 1 (skipn (N.to_nat p) buf1) = [b]).
  { unfold buf1. rewrite skipn_app, firstn_length, skipn_firstn_comm.
    replace (N.to_nat p - Nat.min (N.to_nat p) (length buf))%nat with 0%nat by lia. rewrite Nat.sub_diag. reflexivity. }
  rewrite addlen_val by lia. replace ((p + 1) mod 8) with (p + 1) by lia.
  replace (N.shiftl 1 (x - 24) mod 256) with (2 ^ (x - 24)).
  2:{ rewrite N.shiftl_mul_pow2, N.mul_1_l. symmetry. apply N.mod_small. lia. }
  destruct (N.eqb_spec (p + 1) (2 ^ (x - 24))) as [E|E].
  - assert (bs = []) as -> by (destruct bs; [reflexivity|cbn [length] in Hp; lia]).
    exists buf1. split; [assumption|]. split; [assumption|]. split; [exact F2|].
    unfold c_set. cbn [c_buf c_hdr c_pos after c_state length Nat.add].
    rewrite loop_eq. 2:{ unfold can_go. rewrite !app_length. cbn [length app]. destruct post; [right|left]; cbn [length app]; [split; [lia|reflexivity]|lia]. }
    cbn [c_iterate c_state bind]. rewrite short_val by lia. rewrite E. unfold end_state, c_set. cbn [c_buf c_hdr c_pos].
    replace (length pre + 1)%nat with (S (length pre)) by lia. destruct (short_m m); reflexivity.
  - destruct (IH f (pre ++ [b]) post g buf1 m x (p + 1)) as (buf' & A & B & C & D); auto.
    { destruct bs; [cbn [length] in Hp; lia|cbn; lia]. } { cbn [length] in Hp. lia. }
    assert (EN : N.to_nat (p + 1) = S (N.to_nat p)) by lia. rewrite EN in *.
    assert (SK : skipn (N.to_nat p) buf' = b :: skipn (S (N.to_nat p)) buf').
    { assert (X : firstn 1 (skipn (N.to_nat p) buf') = [b]).
      { rewrite <- F2. rewrite !firstn_skipn_comm. replace (N.to_nat p + 1)%nat with (S (N.to_nat p)) by lia. now rewrite B. }
      replace (skipn (S (N.to_nat p)) buf') with (skipn 1 (skipn (N.to_nat p) buf')).
      2:{ clear. generalize (N.to_nat p). intros n. revert buf'. induction n as [|n IHn]; intros [|y l]; try reflexivity. cbn [skipn]. apply IHn. }
      destruct (skipn (N.to_nat p) buf') as [|y l]; [discriminate|]. cbn in X. injection X as ->. reflexivity. }
    exists buf'. split; [assumption|]. split.
    { rewrite <- F1. assert (Y : firstn (N.to_nat p) (firstn (S (N.to_nat p)) buf') = firstn (N.to_nat p) (firstn (S (N.to_nat p)) buf1)) by now rewrite B.
      rewrite !firstn_firstn in Y. replace (Nat.min (N.to_nat p) (S (N.to_nat p))) with (N.to_nat p) in Y by lia. exact Y. }
    split; [rewrite SK; cbn [firstn]; now rewrite C|].
    cbn [after c_state]. rewrite <- app_assoc in D. cbn [app] in D. rewrite app_length in D. cbn [length] in D.
    replace (length pre + 1)%nat with (S (length pre)) in D by lia. rewrite D. f_equal. f_equal. f_equal. lia.
Qed.

Lemma sgn_small : forall w x, 0 < w -> x < 2 ^ (w - 1) -> sgn w x = Z.of_N x.
Proof.
  intros w x Hw H. unfold sgn.
  assert (2 ^ (w - 1) < 2 ^ w) by (apply N.pow_lt_mono_r; lia).
  rewrite N.mod_small by lia. destruct (N.ltb_spec x (2 ^ (w - 1))); [reflexivity|lia].
Qed.

Lemma get_firstn : forall w bs v n, 32 <= w -> bytes_ok bs -> bs = be_bytes n v -> (n <= 4)%nat -> v < 256 ^ N.of_nat n ->
  uint_get w bs = v.
Proof.
  intros w bs v n Hw Hb -> Hn Hv. rewrite uint_get_be by (auto; lia). rewrite be_bytes_be, (N.mod_small v (256 ^ N.of_nat n)) by assumption.
  apply N.mod_small. eapply N.lt_le_trans; [exact Hv|]. eapply N.le_trans; [|apply N.pow_le_mono_r; [lia|exact Hw]].
  change (2 ^ 32) with (256 ^ N.of_nat 4). apply N.pow_le_mono_r; lia.
Qed.

(** the integer read from a head: the RFC reading except for tiny negative ones *)
Definition seen (m v : N) : Z := if (m =? 1) && (24 <=? v) then (-1 - Z.of_N v)%Z else Z.of_N v.

Record holds (m v : N) (d : cdec) : Prop := Holds {
  h_type : c_type d = m;
  h_state : c_state d = end_state m;
  h_buf : length (c_buf d) = 4%nat;
  h_int : forall w, 32 < w -> c_integer w d = Ok (seen m v);
  h_int32 : v < 2 ^ 31 -> c_integer 32 d = Ok (seen m v);
  h_uns : m <> 1 -> c_unsigned d = Ok v;
  h_arg : (v < 24 /\ c_tiny d = true /\ c_raw d = v) \/
    (24 <= v /\ c_tiny d = false /\ c_addlen d <= 4 /\ v < 256 ^ c_addlen d /\
     firstn (N.to_nat (c_addlen d)) (c_buf d) = be_bytes (N.to_nat (c_addlen d)) v)
}.

Lemma holds_tiny : forall buf m v p, m < 8 -> v < 24 -> length buf = 4%nat -> holds m v (CDec buf (m * 32 + v) p (end_state m)).
Proof.
  intros buf m v p Hm Hv Hb.
  assert (S : seen m v = Z.of_N v).
  { unfold seen. destruct (N.leb_spec 24 v); [lia|]. now rewrite andb_false_r. }
  constructor; [apply type_val; lia|reflexivity|assumption| | | |left; rewrite tiny_val, raw_val by lia; repeat split; [assumption|apply N.ltb_lt; assumption]].
  - intros w Hw. unfold c_integer. rewrite tiny_val, raw_val, S by lia. destruct (N.ltb_spec v 24); [reflexivity|lia].
  - intros _. unfold c_integer. rewrite tiny_val, raw_val, S by lia. destruct (N.ltb_spec v 24); [reflexivity|lia].
  - intros _. unfold c_unsigned. rewrite tiny_val, raw_val by lia. destruct (N.ltb_spec v 24); [reflexivity|lia].
Qed.

Lemma holds_long : forall buf m v x p, m < 8 -> 24 <= v -> 24 <= x -> x <= 26 -> length buf = 4%nat ->
  firstn (N.to_nat (2 ^ (x - 24))) buf = be_bytes (N.to_nat (2 ^ (x - 24))) v -> v < 256 ^ (2 ^ (x - 24)) ->
  holds m v (CDec buf (m * 32 + x) p (end_state m)).
Proof.
  intros buf m v x p Hm Hv Hx1 Hx2 Hb Hf Hr.
  assert (Hpow : 2 ^ (x - 24) <= 4) by (change 4 with (2 ^ 2); apply N.pow_le_mono_r; lia).
  assert (HA : forall s, c_addlen (CDec buf (m * 32 + x) p s) = 2 ^ (x - 24)).
  { intros s. rewrite addlen_val by lia. rewrite N.shiftl_mul_pow2, N.mul_1_l. apply N.mod_small. lia. }
  assert (G : forall w, 32 <= w -> uint_get w (firstn (N.to_nat (2 ^ (x - 24))) buf) = v).
  { intros w Hw. apply (get_firstn w _ v (N.to_nat (2 ^ (x - 24)))); auto; [rewrite Hf; apply be_bytes_ok|lia|now rewrite N2Nat.id]. }
  assert (V32 : v < 2 ^ 32).
  { eapply N.lt_le_trans; [exact Hr|]. change (2 ^ 32) with (256 ^ 4). apply N.pow_le_mono_r; lia. }
  assert (I : forall w, 32 <= w -> v < 2 ^ (w - 1) -> c_integer w (CDec buf (m * 32 + x) p (end_state m)) = Ok (seen m v)).
  { intros w Hw Hvw. unfold c_integer. rewrite tiny_val, type_val, HA by lia. destruct (N.ltb_spec x 24); [lia|].
    unfold BUF_LEN. destruct (Nat.leb_spec (N.to_nat (2 ^ (x - 24))) 4); [|lia]. cbn [c_buf]. rewrite G by assumption.
    rewrite sgn_small by (auto; lia). unfold seen, M_NEG. destruct (N.leb_spec 24 v); [|lia]. rewrite andb_true_r. reflexivity. }
  constructor; [apply type_val; lia|reflexivity|assumption| | | |right; rewrite HA, tiny_val by lia; repeat split; auto; apply N.ltb_ge; assumption].
  - intros w Hw. apply I; [lia|]. eapply N.lt_le_trans; [exact V32|]. apply N.pow_le_mono_r; lia.
  - intros H31. apply I; [lia|exact H31].
  - intros Hm1. unfold c_unsigned. rewrite tiny_val, type_val, HA by lia. destruct (N.ltb_spec x 24); [lia|].
    unfold BUF_LEN. destruct (Nat.leb_spec (N.to_nat (2 ^ (x - 24))) 4); [|lia]. cbn [c_buf]. rewrite G by lia.
    unfold M_NEG. destruct (N.eqb_spec m 1); [congruence|reflexivity].
Qed.

(** reading one head in state [CHeader] *)
Lemma run_head : forall f pre post g buf h0 p m v, m < 8 -> v < 2 ^ 32 -> length buf = 4%nat -> (9 <= f)%nat ->
  exists d, c_loop f (pre ++ rfc_head m v ++ post) g (CDec buf h0 p CHeader) (length pre) =
    Ok (d, (length pre + length (rfc_head m v))%nat, false) /\ holds m v d.
Proof.
  intros f pre post g buf h0 p m v Hm Hv Hb Hf.
  destruct (N.lt_ge_cases v 24) as [T|T].
  { unfold rfc_head. destruct (N.ltb_spec v 24); [|lia]. cbn [app length].
    destruct f as [|[|f]]; [lia|lia|]. rewrite run_tiny by assumption. eexists. split; [repeat f_equal; lia|]. now apply holds_tiny. }
  assert (X : exists x, 24 <= x <= 26 /\ rfc_head m v = (m * 32 + x) :: be_bytes (N.to_nat (2 ^ (x - 24))) v /\ v < 256 ^ (2 ^ (x - 24))).
  { unfold rfc_head. destruct (N.ltb_spec v 24); [lia|]. destruct (N.ltb_spec v 256); [exists 24; split; [lia|split; [reflexivity|exact H0]]|].
    destruct (N.ltb_spec v 65536); [exists 25; split; [lia|split; [reflexivity|exact H1]]|].
    destruct (N.ltb_spec v (2 ^ 32)); [|lia]. exists 26; split; [lia|split; [reflexivity|exact H2]]. }
  destruct X as (x & Hx & Eh & Hr). rewrite Eh.
  assert (Hpow : 2 ^ (x - 24) <= 4) by (change 4 with (2 ^ 2); apply N.pow_le_mono_r; lia).
  assert (Hpos : 1 <= 2 ^ (x - 24)) by (pose proof (N.pow_nonzero 2 (x - 24)); lia).
  set (n := N.to_nat (2 ^ (x - 24))) in *.
  destruct (run_additional (be_bytes n v) (f - n - 4) (pre ++ [m * 32 + x]) post g buf m x 0) as (buf' & A & _ & C & D); auto; try lia.
  { rewrite be_bytes_length. lia. } { rewrite be_bytes_length. lia. }
  rewrite be_bytes_length in *. cbn [N.to_nat skipn] in C.
  exists (CDec buf' (m * 32 + x) (2 ^ (x - 24)) (end_state m)). split.
  - replace f with (S (S (S (n + S (f - n - 4))))) by lia. cbn [app].
    rewrite loop_eq by (left; rewrite app_length; cbn; lia). rewrite nth_pre0. cbn [c_iterate c_state bind after c_buf c_pos].
    assert (GO : forall d, can_go (pre ++ m * 32 + x :: be_bytes n v ++ post) d (S (length pre))).
    { intros d. left. rewrite app_length. cbn [length]. rewrite app_length, be_bytes_length. lia. }
    rewrite loop_eq by apply GO. cbn [c_iterate c_state bind]. rewrite tiny_val by lia. destruct (N.ltb_spec x 24); [lia|].
    unfold c_set. cbn [c_buf c_hdr c_pos after c_state].
    rewrite loop_eq by apply GO. cbn [c_iterate c_state bind after c_buf c_hdr].
    rewrite <- app_assoc in D. cbn [app] in D. rewrite app_length in D. cbn [length] in D.
    replace (length pre + 1)%nat with (S (length pre)) in D by lia. rewrite D. cbn [length]. rewrite be_bytes_length. f_equal. f_equal. f_equal. lia.
  - apply holds_long; auto; lia.
Qed.

Lemma process_head : forall pre post g d m v, m < 8 -> v < 2 ^ 32 -> length (c_buf d) = 4%nat ->
  (c_state d = CHeaderStart \/ c_state d = CItemDone) ->
  exists d', c_process (pre ++ rfc_head m v ++ post) g d (length pre) = Ok (d', (length pre + length (rfc_head m v))%nat, false) /\ holds m v d'.
Proof.
  intros pre post g [buf hd p st] m v Hm Hv Hb Hs. cbn [c_buf c_state] in *.
  assert (NE : rfc_head m v <> []) by (unfold rfc_head; repeat destruct (_ <? _); discriminate).
  assert (Hlt : (length pre < length (pre ++ rfc_head m v ++ post))%nat).
  { rewrite !app_length. destruct (rfc_head m v); [congruence|cbn; lia]. }
  unfold c_process, c_fuel. cbn [Nat.add]. destruct Hs as [->| ->].
  - rewrite loop_eq by (now left). cbn [c_iterate c_state bind]. unfold c_set. cbn [after c_state c_buf c_hdr c_pos].
    apply run_head; auto. lia.
  - rewrite loop_eq by (now left). cbn [c_iterate c_state bind]. unfold c_set. cbn [after c_state c_buf c_hdr c_pos].
    rewrite loop_eq by (now left). cbn [c_iterate c_state bind]. unfold c_set. cbn [after c_state c_buf c_hdr c_pos].
    apply run_head; auto. lia.
Qed.

(** * Reading a sequence of items *)

Definition im (i : citem) : N := match i with CI m _ => m | CS m _ => m end.
Definition iv (i : citem) : N := match i with CI _ v => v | CS _ s => N.of_nat (length s) end.
Definition ic (i : citem) : list N := match i with CI _ _ => [] | CS _ s => s end.

Lemma item_split : forall i, item_bytes i = rfc_head (im i) (iv i) ++ ic i.
Proof. destruct i; cbn; [now rewrite app_nil_r|reflexivity]. Qed.

Lemma item_ok_head : forall i, item_ok i -> im i < 8 /\ iv i < 2 ^ 32.
Proof. destruct i as [m v|m s]; cbn; intros H; [tauto|]. destruct H as [[->| ->] H]; split; lia. Qed.

Lemma ghost : forall chunk g d, c_state d = CHeaderStart ->
  exists d', c_process chunk g d (length chunk) = Ok (d', S (length chunk), true) /\ c_state d' = CHeaderDone.
Proof.
  intros chunk g [buf hd p st] Hs. cbn in Hs. subst st. unfold c_process, c_fuel. rewrite Nat.sub_diag. cbn [Nat.add Nat.mul].
  rewrite loop_eq by (right; split; reflexivity). cbn [c_iterate c_state bind after]. unfold c_set. cbn [after c_state c_buf c_hdr c_pos].
  rewrite loop_eq by (right; split; reflexivity). cbn [c_iterate c_state bind after c_buf c_hdr c_pos].
  rewrite loop_end. { eexists. split; reflexivity. }
  intros [X|(X & _)]; lia.
Qed.

Lemma c_set_fields : forall d s, c_type (c_set d s) = c_type d /\ length (c_buf (c_set d s)) = length (c_buf d) /\ c_state (c_set d s) = s.
Proof. intros d s. repeat split. Qed.

Definition reads (i : citem) : N * Z * list N := (im i, seen (im i) (iv i), ic i).

Lemma walk_items : forall its i pre g d fuel, Forall item_ok (i :: its) -> holds (im i) (iv i) d -> (S (S (length its)) <= fuel)%nat ->
  c_walk fuel (pre ++ items_bytes (i :: its)) g d (length pre + length (rfc_head (im i) (iv i))) = Ok (map reads (i :: its)).
Proof.
  induction its as [|j its IH]; intros i pre g d fuel HO HH HF.
  - (* last item *)
    destruct fuel as [|[|fuel]]; [cbn in HF; lia|cbn in HF; lia|]. inversion HO as [|? ? O1 _]; subst.
    assert (EB : items_bytes [i] = rfc_head (im i) (iv i) ++ ic i) by (unfold items_bytes; cbn [flat_map]; rewrite app_nil_r; apply item_split).
    rewrite EB. pose proof (h_state _ _ _ HH) as ST. pose proof (h_int _ _ _ HH 64 ltac:(lia)) as HI. pose proof (h_type _ _ _ HH) as HT.
    cbn [c_walk map reads]. destruct (short_m (im i)) eqn:SM.
    + assert (EC : ic i = []).
      { destruct i as [m v|m s]; [reflexivity|]. exfalso. cbn in O1, SM. destruct O1 as [[->| ->] _]; discriminate. }
      unfold end_state in ST. rewrite SM in ST. rewrite ST. unfold c_see. rewrite HI. cbn [bind]. rewrite ST. cbn [bind].
      rewrite process_end.
      * cbn [bind]. unfold reads. rewrite HT, EC. reflexivity.
      * intros [X|(_ & X)]; [rewrite !app_length, EC in X; cbn in X; lia|]. unfold is_item_done in X. rewrite ST in X. discriminate.
    + unfold end_state in ST. rewrite SM in ST. rewrite ST. unfold c_see. rewrite HI. cbn [bind]. rewrite ST. cbn [bind].
      destruct (c_container d) eqn:CC.
      * assert (EC : ic i = []).
        { destruct i as [m v|m s]; [reflexivity|]. exfalso. cbn in O1. unfold c_container in CC. rewrite HT in CC. cbn in CC. destruct O1 as [[->| ->] _]; discriminate. }
        cbn [bind]. unfold c_fast_forward. rewrite CC.
        replace (length pre + length (rfc_head (im i) (iv i)))%nat with (length (pre ++ rfc_head (im i) (iv i) ++ ic i)) by (rewrite !app_length, EC; cbn; lia).
        destruct (ghost (pre ++ rfc_head (im i) (iv i) ++ ic i) g (c_set d CHeaderStart) eq_refl) as (d' & E1 & E2). rewrite E1. cbn [bind].
        rewrite E2. cbn [bind]. unfold reads. rewrite HT, EC. reflexivity.
      * destruct i as [m v|m s].
        { exfalso. cbn in O1, SM. unfold c_container in CC. rewrite HT in CC. cbn in CC. unfold short_m, M_UINT, M_NEG, M_TAG, M_SIMPLE, M_MAP, M_ITEMS in *.
          destruct O1 as (A1 & A2 & A3 & _).
          repeat match goal with X : _ || _ = false |- _ => apply orb_false_iff in X; destruct X end.
          repeat match goal with X : (_ =? _) = false |- _ => apply N.eqb_neq in X end. lia. }
        assert (Hm1 : m <> 1) by (destruct O1 as [[->| ->] _]; discriminate).
        pose proof (h_uns _ _ _ HH Hm1) as HU. cbn [im iv ic] in *. unfold c_fast_forward. rewrite CC, HU. cbn [bind]. rewrite Nat2N.id.
        replace (length pre + length (rfc_head m (N.of_nat (length s))) + length s)%nat with (length (pre ++ rfc_head m (N.of_nat (length s)) ++ s)) by (rewrite !app_length; lia).
        destruct (ghost (pre ++ rfc_head m (N.of_nat (length s)) ++ s) g (c_set d CHeaderStart) eq_refl) as (d' & E1 & E2). rewrite E1. cbn [bind].
        rewrite E2. cbn [bind]. unfold reads. rewrite HT. cbn [im iv ic]. rewrite app_assoc, <- app_length, skipn_app, Nat.sub_diag, skipn_all. cbn [app skipn]. rewrite firstn_all. reflexivity.
  - (* more items *)
    destruct fuel as [|fuel]; [cbn in HF; lia|]. inversion HO as [|? ? O1 O2]; subst. inversion O2 as [|? ? O3 _]; subst.
    destruct (item_ok_head j O3) as (J1 & J2).
    assert (EB : items_bytes (i :: j :: its) = rfc_head (im i) (iv i) ++ ic i ++ items_bytes (j :: its)).
    { unfold items_bytes. cbn [flat_map]. rewrite item_split, <- app_assoc. reflexivity. }
    assert (EJ : items_bytes (j :: its) = rfc_head (im j) (iv j) ++ ic j ++ items_bytes its).
    { unfold items_bytes. cbn [flat_map]. rewrite item_split, <- app_assoc. reflexivity. }
    pose proof (h_state _ _ _ HH) as ST. pose proof (h_int _ _ _ HH 64 ltac:(lia)) as HI. pose proof (h_type _ _ _ HH) as HT. pose proof (h_buf _ _ _ HH) as HB.
    cbn [c_walk]. change (map reads (i :: j :: its)) with (reads i :: map reads (j :: its)).
    set (pre2 := pre ++ rfc_head (im i) (iv i) ++ ic i).
    assert (EP : pre ++ items_bytes (i :: j :: its) = pre2 ++ rfc_head (im j) (iv j) ++ ic j ++ items_bytes its).
    { unfold pre2. rewrite EB, EJ, <- !app_assoc. reflexivity. }
    assert (EP2 : pre ++ items_bytes (i :: j :: its) = pre2 ++ items_bytes (j :: its)).
    { unfold pre2. rewrite EB, <- !app_assoc. reflexivity. }
    assert (NX : forall d0, c_state d0 = CHeaderStart \/ c_state d0 = CItemDone -> length (c_buf d0) = 4%nat ->
      exists d', c_process (pre ++ items_bytes (i :: j :: its)) g d0 (length pre2) = Ok (d', (length pre2 + length (rfc_head (im j) (iv j)))%nat, false) /\ 
        c_walk fuel (pre ++ items_bytes (i :: j :: its)) g d' (length pre2 + length (rfc_head (im j) (iv j))) = Ok (map reads (j :: its))).
    { intros d0 S0 B0. destruct (process_head pre2 (ic j ++ items_bytes its) g d0 (im j) (iv j) J1 J2 B0 S0) as (d' & E1 & E2).
      exists d'. rewrite EP at 1. split; [exact E1|]. rewrite EP2. apply IH; auto. cbn [length] in HF. lia. }
    destruct (short_m (im i)) eqn:SM.
    + assert (EC : ic i = []).
      { destruct i as [m v|m s]; [reflexivity|]. exfalso. cbn in O1, SM. destruct O1 as [[->| ->] _]; discriminate. }
      unfold end_state in ST. rewrite SM in ST. rewrite ST. unfold c_see. rewrite HI. cbn [bind]. rewrite ST. cbn [bind].
      replace (length pre + length (rfc_head (im i) (iv i)))%nat with (length pre2) by (unfold pre2; rewrite !app_length, EC; cbn; lia).
      destruct (NX d (or_intror ST) HB) as (d' & E1 & E2). rewrite E1. cbn [bind]. rewrite E2. cbn [bind]. unfold reads at 2. rewrite HT, EC. reflexivity.
    + unfold end_state in ST. rewrite SM in ST. rewrite ST. unfold c_see. rewrite HI. cbn [bind]. rewrite ST. cbn [bind].
      destruct (NX (c_set d CHeaderStart) (or_introl eq_refl) HB) as (d' & E1 & E2).
      destruct (c_container d) eqn:CC.
      * assert (EC : ic i = []).
        { destruct i as [m v|m s]; [reflexivity|]. exfalso. cbn in O1. unfold c_container in CC. rewrite HT in CC. cbn in CC. destruct O1 as [[->| ->] _]; discriminate. }
        cbn [bind]. unfold c_fast_forward. rewrite CC.
        replace (length pre + length (rfc_head (im i) (iv i)))%nat with (length pre2) by (unfold pre2; rewrite !app_length, EC; cbn; lia).
        rewrite E1. cbn [bind]. rewrite E2. cbn [bind]. unfold reads at 2. rewrite HT, EC. reflexivity.
      * destruct i as [m v|m s].
        { exfalso. cbn in O1, SM. unfold c_container in CC. rewrite HT in CC. cbn in CC. unfold short_m, M_UINT, M_NEG, M_TAG, M_SIMPLE, M_MAP, M_ITEMS in *.
          destruct O1 as (A1 & A2 & A3 & _).
          repeat match goal with X : _ || _ = false |- _ => apply orb_false_iff in X; destruct X end.
          repeat match goal with X : (_ =? _) = false |- _ => apply N.eqb_neq in X end. lia. }
        assert (Hm1 : m <> 1) by (destruct O1 as [[->| ->] _]; discriminate).
        pose proof (h_uns _ _ _ HH Hm1) as HU. cbn [im iv ic] in *. unfold c_fast_forward. rewrite CC, HU. cbn [bind]. rewrite Nat2N.id.
        replace (length pre + length (rfc_head m (N.of_nat (length s))) + length s)%nat with (length pre2) by (unfold pre2; rewrite !app_length; lia).
        rewrite E1. cbn [bind]. rewrite E2. cbn [bind]. unfold reads at 2. cbn [im iv ic]. rewrite HT.
        do 3 f_equal. rewrite EB. rewrite app_assoc, <- app_length, skipn_app, Nat.sub_diag, skipn_all. cbn [app skipn].
        rewrite firstn_app, Nat.sub_diag, firstn_all. cbn [firstn]. apply app_nil_r.
Qed.

Lemma read_items : forall its g buf hd p, Forall item_ok its -> its <> [] -> length buf = 4%nat ->
  c_read (S (length its)) (items_bytes its) g (c_init buf hd p) = Ok (map reads its).
Proof.
  intros [|i its] g buf hd p HO HN HB; [congruence|]. inversion HO as [|? ? O1 _]; subst. destruct (item_ok_head i O1) as (J1 & J2).
  unfold c_read.
  destruct (process_head [] (ic i ++ items_bytes its) g (c_init buf hd p) (im i) (iv i) J1 J2 HB (or_introl eq_refl)) as (d & E1 & E2).
  cbn [app length] in E1.
  assert (EB : items_bytes (i :: its) = rfc_head (im i) (iv i) ++ ic i ++ items_bytes its).
  { unfold items_bytes. cbn [flat_map]. rewrite item_split, <- app_assoc. reflexivity. }
  rewrite EB at 1. rewrite E1. cbn [bind]. apply (walk_items its i [] g d); auto.
Qed.

(** * NetBufEncoder *)

Lemma nb_mt_spec : forall m v s, m < 8 -> v < 2 ^ 64 -> v <> 24 -> (length (rfc_head m v) <= nb_room s)%nat ->
  nb_mt_int m v s = Ok (Nb (nb_out s ++ rfc_head m v) (nb_room s - length (rfc_head m v))).
Proof.
  intros m v s Hm Hv Hn Hl. unfold nb_mt_int. rewrite mt_int_rfc by assumption. cbn [bind]. unfold nb_store.
  apply Nat.leb_le in Hl. now rewrite Hl.
Qed.

(** A value of a type narrower than int, or not the least one of its type, can be negated. *)
Lemma not_least : forall w z, (- 2 ^ Z.of_N (w - 1) <= z)%Z -> w < 32 \/ (- 2 ^ Z.of_N (w - 1) < z)%Z -> z <> (- 2 ^ Z.of_N (N.max w 32 - 1))%Z.
Proof.
  intros w z H1 H2 E. destruct (N.lt_ge_cases w 32) as [L|L].
  - rewrite N.max_r in E by lia.
    assert (2 ^ Z.of_N (w - 1) < 2 ^ Z.of_N (32 - 1))%Z by (apply Z.pow_lt_mono_r; lia). lia.
  - rewrite N.max_l in E by lia. lia.
Qed.

Lemma nb_step_spec : forall o s, op_ok o -> (length (op_bytes o) <= nb_room s)%nat ->
  nb_step o s = Ok (Nb (nb_out s ++ op_bytes o) (nb_room s - length (op_bytes o))).
Proof.
  intros o s HO HL. destruct o as [|b|str|w z|n|n|n]; cbn [op_ok op_bytes nb_step] in *.
  - unfold nb_null, nb_tiny, nb_store. change (N.lor (N.shiftl M_SIMPLE 5) 22 mod 256) with 0xF6. apply Nat.leb_le in HL. now rewrite HL.
  - unfold nb_boolean, nb_tiny, nb_store. apply Nat.leb_le in HL. destruct b; cbn [length] in *; rewrite HL; reflexivity.
  - unfold nb_string. rewrite app_length in HL. rewrite nb_mt_spec by (unfold M_STRING; try tauto; lia). cbn [bind nb_out nb_room fst].
    rewrite firstn_all2 by (unfold M_STRING; lia). rewrite <- app_assoc, app_length. f_equal. f_equal. unfold M_STRING. lia.
  - unfold nb_integer, rfc_int_head in *. destruct (Z.leb_spec 0 z).
    + apply nb_mt_spec; auto; unfold M_UINT; lia.
    + destruct (Z.eqb_spec z (- 2 ^ Z.of_N (N.max w 32 - 1))) as [E|_]; [exfalso; revert E; apply not_least; tauto|]. replace (- z - 1)%Z with (-1 - z)%Z by lia. apply nb_mt_spec; auto; unfold M_NEG; lia.
  - apply nb_mt_spec; try tauto. unfold M_MAP. lia.
  - apply nb_mt_spec; try tauto. unfold M_BYTES. lia.
  - apply nb_mt_spec; try tauto. unfold M_ITEMS. lia.
Qed.

Lemma nb_run_spec : forall os s, Forall op_ok os -> (length (flat_map op_bytes os) <= nb_room s)%nat ->
  nb_run os s = Ok (Nb (nb_out s ++ flat_map op_bytes os) (nb_room s - length (flat_map op_bytes os))).
Proof.
  induction os as [|o os IH]; intros [out room] HO HL; cbn [nb_run flat_map nb_out nb_room] in *.
  - rewrite app_nil_r, Nat.sub_0_r. reflexivity.
  - inversion HO as [|? ? O1 O2]; subst. rewrite app_length in HL. rewrite nb_step_spec by (cbn; auto; lia). cbn [bind nb_out nb_room].
    rewrite IH by (cbn; auto; lia). cbn [nb_out nb_room]. rewrite app_assoc, app_length. f_equal. f_equal. lia.
Qed.

Lemma op_item_bytes : forall o, op_readable o -> item_bytes (op_item o) = op_bytes o.
Proof.
  intros o H. destruct o as [|b|str|w z|n|n|n]; cbn [op_item op_bytes op_readable] in H |- *; try reflexivity.
  - destruct b; reflexivity.
  - unfold rfc_int_head. destruct (0 <=? z)%Z; reflexivity.
Qed.

Lemma op_items_bytes : forall os, Forall op_readable os -> items_bytes (map op_item os) = flat_map op_bytes os.
Proof.
  induction 1 as [|o os H _ IH]; [reflexivity|]. unfold items_bytes in *. cbn [map flat_map]. now rewrite IH, op_item_bytes.
Qed.

Lemma op_item_ok : forall o, op_readable o -> item_ok (op_item o).
Proof.
  intros o H. destruct o as [|b|str|w z|n|n|n]; cbn [op_item op_readable] in H |- *.
  - cbn. repeat split; lia.
  - destruct b; cbn; repeat split; lia.
  - split; [now right|exact H].
  - destruct (Z.leb_spec 0 z); cbn [item_ok]; repeat split; lia.
  - cbn [item_ok]. repeat split; try lia; exact H.
  - destruct H.
  - cbn [item_ok]. repeat split; try lia; exact H.
Qed.

Lemma op_item_reads : forall o, op_readable o -> reads (op_item o) = item_reads (op_item o).
Proof.
  intros o H. destruct o as [|b|str|w z|n|n|n]; cbn [op_item op_readable] in *; try reflexivity; try (destruct b; reflexivity).
  destruct (Z.leb_spec 0 z); [reflexivity|]. destruct H as [H|H]; [|lia]. unfold reads, seen, item_reads, rfc_int. cbn [im iv ic].
  change (1 =? 1) with true. destruct (N.leb_spec 24 (Z.to_N (-1 - z))); [reflexivity|lia].
Qed.

(** * Heads the decoder does not handle *)

Lemma long_fault : forall bs p f pre post g buf m x, (3 <= N.to_nat (x - 24))%nat -> x < 32 -> m < 8 ->
  (N.to_nat p + length bs = 5)%nat -> (length bs > 0)%nat -> length buf = 4%nat ->
  c_loop (length bs + f) (pre ++ bs ++ post) g (CDec buf (m * 32 + x) p CAdditional) (length pre) = Fault.
Proof.
  induction bs as [|b bs IH]; intros p f pre post g buf m x Hx Hx2 Hm Hp Hl Hb; [cbn in Hl; lia|].
  cbn [length Nat.add]. rewrite loop_eq by (left; rewrite app_length; cbn; lia). cbn [app]. rewrite nth_pre0.
  cbn [c_iterate c_state c_pos c_buf c_hdr]. unfold BUF_LEN. cbn [length] in Hp.
  destruct (Nat.ltb_spec (N.to_nat p) 4) as [H4|H4]; [|reflexivity]. cbn [bind app].
  rewrite addlen_val by lia.
  assert (NE : (p + 1) mod 8 <> N.shiftl 1 (x - 24) mod 256).
  { assert (X : In x [27;28;29;30;31]) by (cbn; lia). destruct X as [<-|[<-|[<-|[<-|[<-|[]]]]]]; vm_compute (N.shiftl _ _ mod _); lia. }
  apply N.eqb_neq in NE. rewrite NE. replace ((p + 1) mod 8) with (p + 1) by lia. cbn [after c_state].
  replace (S (length pre)) with (length (pre ++ [b])) by (rewrite app_length; cbn; lia).
  replace (pre ++ b :: bs ++ post) with ((pre ++ [b]) ++ bs ++ post) by (rewrite <- app_assoc; reflexivity).
  apply IH; auto; try lia.
  rewrite app_length, firstn_length. cbn [length]. rewrite skipn_length. lia.
Qed.

Lemma process_fault : forall pre post g d b, b < 256 -> 27 <= b mod 32 -> (5 <= length post)%nat -> length (c_buf d) = 4%nat ->
  (c_state d = CHeaderStart \/ c_state d = CItemDone) -> c_process (pre ++ b :: post) g d (length pre) = Fault.
Proof.
  intros pre post g [buf hd p st] b Hb Hi Hl HB HS. cbn [c_buf c_state] in *.
  assert (X : exists m x, b = m * 32 + x /\ m < 8 /\ 27 <= x < 32) by (exists (b / 32), (b mod 32); lia).
  destruct X as (m & x & -> & Hm & Hx). clear Hb Hi.
  assert (Hlt : (length pre < length (pre ++ (m * 32 + x)%N :: post))%nat) by (rewrite app_length; cbn; lia).
  assert (R : forall f p0 hd0, (30 <= f)%nat -> c_loop f (pre ++ (m * 32 + x)%N :: post) g (CDec buf hd0 p0 CHeader) (length pre) = Fault).
  { intros f p0 hd0 Hf. destruct f as [|[|[|f]]]; try lia.
    assert (GO : forall d, can_go (pre ++ (m * 32 + x)%N :: post) d (S (length pre))) by (intros d; left; rewrite app_length; cbn; lia).
    rewrite loop_eq by (now left). rewrite nth_pre0. cbn [c_iterate c_state bind after c_buf c_pos].
    rewrite loop_eq by apply GO. cbn [c_iterate c_state bind]. rewrite tiny_val by lia.
    destruct (N.ltb_spec x 24); [lia|]. unfold c_set. cbn [c_buf c_hdr c_pos after c_state].
    rewrite loop_eq by apply GO. cbn [c_iterate c_state bind after c_buf c_hdr].
    replace (S (length pre)) with (length (pre ++ [m * 32 + x])) by (rewrite app_length; cbn; lia).
    replace (pre ++ (m * 32 + x)%N :: post) with ((pre ++ [m * 32 + x]) ++ firstn 5 post ++ skipn 5 post) by (rewrite firstn_skipn, <- app_assoc; reflexivity).
    replace f with (length (firstn 5 post) + (f - 5))%nat by (rewrite firstn_length; lia).
    apply long_fault; auto; try lia; rewrite firstn_length; lia. }
  unfold c_process, c_fuel. assert (LF : (5 <= length (pre ++ (m * 32 + x)%N :: post) - length pre)%nat) by (rewrite app_length; cbn; lia).
  cbn [Nat.add]. destruct HS as [->| ->].
  - rewrite loop_eq by (now left). cbn [c_iterate c_state bind]. unfold c_set. cbn [after c_state c_buf c_hdr c_pos]. apply R. lia.
  - rewrite loop_eq by (now left). cbn [c_iterate c_state bind]. unfold c_set. cbn [after c_state c_buf c_hdr c_pos].
    rewrite loop_eq by (now left). cbn [c_iterate c_state bind]. unfold c_set. cbn [after c_state c_buf c_hdr c_pos]. apply R. lia.
Qed.

(** a run of bytes in state [CAdditional], of a head with additional information 27..31, that stays inside the buffer *)
Lemma long_run : forall bs p f pre post g buf m x, 27 <= x < 32 -> m < 8 -> (N.to_nat p + length bs <= 4)%nat -> length buf = 4%nat ->
  exists buf', length buf' = 4%nat /\
  c_loop (length bs + f) (pre ++ bs ++ post) g (CDec buf (m * 32 + x) p CAdditional) (length pre) =
  c_loop f (pre ++ bs ++ post) g (CDec buf' (m * 32 + x) (p + N.of_nat (length bs)) CAdditional) (length pre + length bs).
Proof.
  induction bs as [|b bs IH]; intros p f pre post g buf m x Hx Hm Hp Hb.
  { exists buf. split; [assumption|]. cbn [length Nat.add]. now rewrite N.add_0_r, Nat.add_0_r. }
  cbn [length Nat.add] in *. rewrite loop_eq by (left; rewrite app_length; cbn; lia). cbn [app]. rewrite nth_pre0.
  cbn [c_iterate c_state c_pos c_buf c_hdr]. unfold BUF_LEN.
  destruct (Nat.ltb_spec (N.to_nat p) 4) as [H4|H4]; [|lia]. cbn [bind app].
  rewrite addlen_val by lia.
  assert (NE : (p + 1) mod 8 <> N.shiftl 1 (x - 24) mod 256).
  { assert (X : In x [27;28;29;30;31]) by (cbn; lia). destruct X as [<-|[<-|[<-|[<-|[<-|[]]]]]]; vm_compute (N.shiftl _ _ mod _); lia. }
  apply N.eqb_neq in NE. rewrite NE. replace ((p + 1) mod 8) with (p + 1) by lia. cbn [after c_state].
  set (buf1 := firstn (N.to_nat p) buf ++ b :: skipn (S (N.to_nat p)) buf).
  destruct (IH (p + 1) f (pre ++ [b]) post g buf1 m x Hx Hm) as (buf' & A & B); [lia| |].
  { unfold buf1. rewrite app_length, firstn_length. cbn [length]. rewrite skipn_length. lia. }
  exists buf'. split; [exact A|]. rewrite <- !app_assoc in B. cbn [app] in B. rewrite app_length in B. cbn [length] in B.
  replace (length pre + 1)%nat with (S (length pre)) in B by lia. rewrite B.
  f_equal; [f_equal; lia|lia].
Qed.

(** the same at the end of the data: the loop takes the byte after it and stops *)
Lemma long_end : forall f chunk g buf m x p, 27 <= x < 32 -> m < 8 -> length buf = 4%nat -> (N.to_nat p < 4)%nat ->
  exists d, c_loop (S (S f)) chunk g (CDec buf (m * 32 + x) p CAdditional) (length chunk) = Ok (d, S (length chunk), true).
Proof.
  intros f chunk g buf m x p Hx Hm Hb Hp. rewrite loop_eq by (right; split; reflexivity).
  cbn [c_iterate c_state c_pos c_buf c_hdr]. unfold BUF_LEN.
  destruct (Nat.ltb_spec (N.to_nat p) 4) as [H4|H4]; [|lia]. cbn [bind app].
  rewrite addlen_val by lia.
  assert (NE : (p + 1) mod 8 <> N.shiftl 1 (x - 24) mod 256).
  { assert (X : In x [27;28;29;30;31]) by (cbn; lia). destruct X as [<-|[<-|[<-|[<-|[<-|[]]]]]]; vm_compute (N.shiftl _ _ mod _); lia. }
  apply N.eqb_neq in NE. rewrite NE. cbn [after c_state]. rewrite loop_end by (intros [X|(X & _)]; lia). eauto.
Qed.

Lemma long_full : forall f chunk g buf m x pos, (pos <= length chunk)%nat ->
  c_loop (S f) chunk g (CDec buf (m * 32 + x) 4 CAdditional) pos = Fault.
Proof.
  intros f chunk g buf m x pos H. rewrite loop_eq; [reflexivity|]. unfold can_go.
  destruct (Nat.eq_dec pos (length chunk)); [right; split; [assumption|reflexivity]|left; lia].
Qed.

(** one head with additional information below 27 never leaves the buffer *)
Lemma short_run : forall bs f pre post g buf m x p, m < 8 -> 24 <= x <= 26 -> length buf = 4%nat ->
  p + N.of_nat (length bs) < 2 ^ (x - 24) ->
  exists buf', length buf' = 4%nat /\
  c_loop (length bs + f) (pre ++ bs ++ post) g (CDec buf (m * 32 + x) p CAdditional) (length pre) =
  c_loop f (pre ++ bs ++ post) g (CDec buf' (m * 32 + x) (p + N.of_nat (length bs)) CAdditional) (length pre + length bs).
Proof.
  induction bs as [|b bs IH]; intros f pre post g buf m x p Hm Hx Hb Hp.
  { exists buf. split; [assumption|]. cbn [length Nat.add]. now rewrite N.add_0_r, Nat.add_0_r. }
  assert (Hpow : 2 ^ (x - 24) <= 4) by (change 4 with (2 ^ 2); apply N.pow_le_mono_r; lia).
  cbn [length Nat.add] in *. rewrite loop_eq by (left; rewrite app_length; cbn; lia). cbn [app]. rewrite nth_pre0.
  cbn [c_iterate c_state c_pos c_buf c_hdr]. unfold BUF_LEN.
  destruct (Nat.ltb_spec (N.to_nat p) 4) as [H4|H4]; [|lia]. cbn [bind app].
  rewrite addlen_val by lia.
  replace (N.shiftl 1 (x - 24) mod 256) with (2 ^ (x - 24)).
  2:{ rewrite N.shiftl_mul_pow2, N.mul_1_l. symmetry. apply N.mod_small. lia. }
  replace ((p + 1) mod 8) with (p + 1) by lia.
  destruct (N.eqb_spec (p + 1) (2 ^ (x - 24))) as [E|E]; [lia|]. cbn [after c_state].
  set (buf1 := firstn (N.to_nat p) buf ++ b :: skipn (S (N.to_nat p)) buf).
  destruct (IH f (pre ++ [b]) post g buf1 m x (p + 1)) as (buf' & A & B); auto; [|lia|].
  { unfold buf1. rewrite app_length, firstn_length. cbn [length]. rewrite skipn_length. lia. }
  exists buf'. split; [exact A|]. rewrite <- !app_assoc in B. cbn [app] in B. rewrite app_length in B. cbn [length] in B.
  replace (length pre + 1)%nat with (S (length pre)) in B by lia. rewrite B.
  f_equal; [f_equal; lia|lia].
Qed.

Lemma short_end : forall f chunk g buf m x p, 24 <= x <= 26 -> m < 8 -> length buf = 4%nat -> p < 2 ^ (x - 24) ->
  exists d, c_loop (S (S f)) chunk g (CDec buf (m * 32 + x) p CAdditional) (length chunk) = Ok (d, S (length chunk), true).
Proof.
  intros f chunk g buf m x p Hx Hm Hb Hp.
  assert (Hpow : 2 ^ (x - 24) <= 4) by (change 4 with (2 ^ 2); apply N.pow_le_mono_r; lia).
  rewrite loop_eq by (right; split; reflexivity).
  cbn [c_iterate c_state c_pos c_buf c_hdr]. unfold BUF_LEN.
  destruct (Nat.ltb_spec (N.to_nat p) 4) as [H4|H4]; [|lia]. cbn [bind app].
  set (d1 := if _ =? _ then _ else _). assert (E : c_state d1 = CAdditional \/ c_state d1 = CAdditionalDone) by (unfold d1; destruct (_ =? _); auto).
  unfold after. destruct E as [E|E]; rewrite E, loop_end by (intros [X|(X & _)]; lia); eauto.
Qed.

(** * The loop ends *)

Definition rank (s : cstate) : nat :=
  match s with CHeaderDone | CItemDone => 3 | CHeaderStart | CAdditionalStart => 2 | _ => 1 end.
Definition live (s : cstate) : Prop := s <> CLong /\ s <> CLongDone.

Lemma loop_ends : forall f chunk g d pos, live (c_state d) -> (8 * (S (length chunk) - pos) + rank (c_state d) < f)%nat ->
  c_loop f chunk g d pos <> NoFuel /\
  forall d' pos' b, c_loop f chunk g d pos = Ok (d', pos', b) -> live (c_state d').
Proof.
  induction f as [|f IH]; intros chunk g d pos HL HF; [lia|].
  assert (D : can_go chunk d pos \/ ~ can_go chunk d pos).
  { unfold can_go. destruct (Nat.lt_trichotomy pos (length chunk)) as [H|[H|H]]; [auto| |right; intros [X|(X & _)]; lia].
    destruct (is_item_done d); [right; intros [X|(_ & X)]; [lia|discriminate]|left; right; auto]. }
  destruct D as [D|D].
  2:{ rewrite loop_end by assumption. split; [discriminate|]. intros d' pos' b E. injection E as <- _ _. assumption. }
  assert (DP : (pos <= length chunk)%nat) by (destruct D as [D|(D & _)]; lia).
  rewrite loop_eq by assumption. destruct d as [buf hd p st]. cbn [c_state] in *. unfold c_iterate.
  assert (K : forall d1 adv, live (c_state d1) ->
    (match c_state d1 with CLongStart | CItemDone => True | _ =>
      (8 * (S (length chunk) - (if adv : bool then S pos else pos)) + rank (c_state d1) < f)%nat end) ->
    bind (Ok (d1, adv)) (fun r => let '(d', adv) := r in after f chunk g d' (if adv : bool then S pos else pos)) <> NoFuel /\
    forall d' pos' b, bind (Ok (d1, adv)) (fun r => let '(d', adv) := r in after f chunk g d' (if adv : bool then S pos else pos)) = Ok (d', pos', b) -> live (c_state d')).
  { intros d1 adv L1 H1. cbn [bind]. unfold after.
    destruct (c_state d1) eqn:E; try (apply IH; rewrite ?E; assumption);
      (split; [discriminate|]; intros d' pos' b E'; injection E' as <- _ _; rewrite E; assumption). }
  destruct st; cbn [c_state c_buf c_hdr c_pos c_set rank] in *.
  - apply K; cbn [c_state c_set rank]; [split; discriminate|lia].
  - apply K; cbn [c_state rank]; [split; discriminate|lia].
  - apply K; destruct (c_tiny _); [destruct (c_short _)| |destruct (c_short _)|]; cbn [c_state c_set rank]; try (split; discriminate); try exact I; lia.
  - apply K; cbn [c_state rank]; [split; discriminate|lia].
  - destruct (_ <? _)%nat; [|split; [discriminate|intros; discriminate]].
    apply K; destruct (_ =? _); cbn [c_state c_set rank]; try (split; discriminate); lia.
  - apply K; destruct (c_short _); cbn [c_state c_set rank]; try (split; discriminate); exact I.
  - apply K; cbn [c_state]; [split; discriminate|exact I].
  - destruct HL. congruence.
  - destruct HL. congruence.
  - apply K; cbn [c_state c_set rank]; [split; discriminate|lia].
Qed.

(** * The older decoder *)

Lemma o_info_val : forall m x mo s, x < 32 -> o_info (ODec (m * 32 + x) mo s) = x.
Proof. intros m x mo s H. unfold o_info. cbn [o_head]. change 31 with (N.ones 5). rewrite land_mask. change (2 ^ 5) with 32. lia. Qed.

Definition o_ready (d : odec) : Prop := match o_state d with OUninitialized | OMajorType | ODone => True | _ => False end.

Lemma o_first : forall d b m x, o_ready d -> b = m * 32 + x -> x < 32 ->
  o_byte 4 d b = Ok (ODec b [] (if (x =? 24) || (x =? 25) || (x =? 26) || (x =? 27) then OAdditionalInteger else ODone)).
Proof.
  intros [h mo st] b m x HR -> Hx. unfold o_ready in HR. cbn [o_state] in HR.
  destruct st; try destruct HR; cbn [o_byte o_iterate o_state bind o_head o_more]; unfold o_has_additional; rewrite o_info_val by assumption; reflexivity.
Qed.

Lemma o_more_bytes : forall bs mo m x post, x < 27 -> 24 <= x -> m < 8 -> (length bs > 0)%nat ->
  N.of_nat (length mo + length bs) = 2 ^ (x - 24) ->
  o_process (ODec (m * 32 + x) mo OAdditionalInteger) (bs ++ post) = Ok (ODec (m * 32 + x) (mo ++ bs) ODone, post).
Proof.
  induction bs as [|b bs IH]; intros mo m x post Hx Hx1 Hm Hl HN; [cbn in Hl; lia|].
  assert (Hpow : 2 ^ (x - 24) <= 4) by (change 4 with (2 ^ 2); apply N.pow_le_mono_r; lia).
  cbn [app o_process]. cbn [length] in HN.
  assert (ST : o_byte 4 (ODec (m * 32 + x) mo OAdditionalInteger) b =
    Ok (ODec (m * 32 + x) (mo ++ [b]) (match bs with [] => ODone | _ => OAdditionalInteger end))).
  { cbn [o_byte o_iterate o_state o_more o_head bind]. rewrite o_info_val by lia. rewrite app_length. cbn [length].
    destruct (Nat.ltb_spec 5 (S (length mo + 1))); [lia|]. destruct (N.eqb_spec x 27); [lia|].
    assert (DN : (if x =? 24 then (S (length mo + 1) =? 2)%nat else if x =? 25 then (S (length mo + 1) =? 3)%nat
        else if x =? 26 then (S (length mo + 1) =? 5)%nat else false) = match bs with [] => true | _ => false end).
    { assert (X : x = 24 \/ x = 25 \/ x = 26) by lia.
      destruct X as [->|[->| ->]]; [change (2 ^ (24 - 24)) with 1 in HN|change (2 ^ (25 - 24)) with 2 in HN|change (2 ^ (26 - 24)) with 4 in HN]; vm_compute (_ =? _);
      destruct bs; cbn [length] in HN; lia. }
    rewrite DN. destruct bs; reflexivity. }
  rewrite ST. cbn [bind o_state]. destruct bs as [|c bs].
  - reflexivity.
  - rewrite IH; auto; [|cbn; lia|rewrite app_length; cbn [length] in *; lia]. rewrite <- app_assoc. reflexivity.
Qed.

Lemma o_head_spec : forall d m v post, o_ready d -> m < 8 -> v < 2 ^ 32 ->
  exists d', o_process d (rfc_head m v ++ post) = Ok (d', post) /\ o_ready d' /\ N.shiftr (o_head d') 5 = m /\
    forall w, 32 <= w -> o_value w d' = Ok (if (24 <=? v) && (v <? 256) then 24 else v).
Proof.
  intros d m v post HR Hm Hv.
  assert (TY : forall x, x < 32 -> N.shiftr (m * 32 + x) 5 = m) by (intros x Hx; rewrite N.shiftr_div_pow2; change (2 ^ 5) with 32; lia).
  destruct (N.lt_ge_cases v 24) as [T|T].
  - unfold rfc_head. destruct (N.ltb_spec v 24); [|lia]. cbn [app o_process]. rewrite (o_first d _ m v) by (auto; lia). cbn [bind].
    replace ((v =? 24) || (v =? 25) || (v =? 26) || (v =? 27)) with false by lia. cbn [o_state].
    eexists. split; [reflexivity|]. split; [exact I|]. split; [apply TY; lia|]. intros w Hw. unfold o_value. rewrite o_info_val by lia.
    destruct (N.leb_spec v 24); [|lia]. replace ((24 <=? v) && (v <? 256)) with false by lia. reflexivity.
  - assert (X : exists x, 24 <= x <= 26 /\ rfc_head m v = (m * 32 + x) :: be_bytes (N.to_nat (2 ^ (x - 24))) v /\ v < 256 ^ (2 ^ (x - 24)) /\ (x = 24 <-> v < 256)).
    { unfold rfc_head. destruct (N.ltb_spec v 24); [lia|]. destruct (N.ltb_spec v 256); [exists 24; split; [lia|split; [reflexivity|split; [assumption|lia]]]|].
      destruct (N.ltb_spec v 65536); [exists 25; split; [lia|split; [reflexivity|split; [assumption|lia]]]|].
      destruct (N.ltb_spec v (2 ^ 32)); [|lia]. exists 26; split; [lia|split; [reflexivity|split; [assumption|lia]]]. }
    destruct X as (x & Hx & Eh & Hr & Hx24). rewrite Eh. cbn [app o_process]. rewrite (o_first d _ m x) by (auto; lia). cbn [bind].
    replace ((x =? 24) || (x =? 25) || (x =? 26) || (x =? 27)) with true by lia. cbn [o_state].
    assert (Hpow : 2 ^ (x - 24) <= 4) by (change 4 with (2 ^ 2); apply N.pow_le_mono_r; lia).
    assert (Hpos : 1 <= 2 ^ (x - 24)) by (pose proof (N.pow_nonzero 2 (x - 24)); lia).
    rewrite o_more_bytes; try lia; [|rewrite be_bytes_length; lia|cbn [length]; rewrite be_bytes_length; lia].
    eexists. split; [reflexivity|]. split; [exact I|]. split; [apply TY; lia|]. intros w Hw. unfold o_value. rewrite o_info_val by lia. cbn [app o_more].
    destruct (N.leb_spec x 24).
    + replace ((24 <=? v) && (v <? 256)) with true by lia. f_equal. lia.
    + replace ((24 <=? v) && (v <? 256)) with false by lia.
      assert (WS : o_wordsize (ODec (m * 32 + x) (be_bytes (N.to_nat (2 ^ (x - 24))) v) ODone) = 2 ^ (x - 24)).
      { unfold o_wordsize. rewrite o_info_val by lia. assert (Y : x = 25 \/ x = 26) by lia. destruct Y as [->| ->]; reflexivity. }
      rewrite WS. destruct (N.leb_spec (8 * 2 ^ (x - 24)) w); [|lia].
      rewrite firstn_all2 by (rewrite be_bytes_length; lia). f_equal. unfold uint_get_t. destruct (N.eqb_spec w 8); [lia|].
      apply (get_firstn w _ v (N.to_nat (2 ^ (x - 24)))); auto; [apply be_bytes_ok|lia|now rewrite N2Nat.id].
Qed.
