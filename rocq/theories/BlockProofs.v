From Verif Require Import Base UIntModel UIntSpec UIntProofs BlockModel BlockSpec.
Local Open Scope N_scope.

Lemma be_snoc : forall bs b, be (bs ++ [b]) = be bs * 256 + b.
Proof. intros. rewrite be_app. cbn [length be]. change (256 ^ N.of_nat 1) with 256. change (256 ^ N.of_nat 0) with 1. lia. Qed.

Lemma last_byte_snoc : forall bs b, last_byte (bs ++ [b]) = Ok b.
Proof. induction bs as [|c bs IH]; intros b; [reflexivity|]. cbn [app last_byte]. rewrite IH. destruct (bs ++ [b]) eqn:E; [destruct bs; discriminate|reflexivity]. Qed.

Lemma or_last_snoc : forall bs b x, or_last (bs ++ [b]) x = Ok (bs ++ [N.lor b x mod 256]).
Proof.
  induction bs as [|c bs IH]; intros b x; [reflexivity|]. cbn [app or_last]. rewrite IH.
  destruct (bs ++ [b]) eqn:E; [destruct bs; discriminate|reflexivity].
Qed.

Lemma snoc_cases : forall bs : list N, bs = [] \/ exists a b, bs = a ++ [b].
Proof. intros bs. destruct bs as [|x bs]; [now left|right]. exists (removelast (x :: bs)), (last (x :: bs) 0). now apply app_removelast_last. Qed.

Lemma szx_byte : forall b, b < 256 -> decode_szx_byte b = 2 ^ (b mod 8 + 4).
Proof.
  intros b Hb. assert (H := sweep 256 (fun b => decode_szx_byte b =? 2 ^ (b mod 8 + 4)) eq_refl b Hb).
  now apply N.eqb_eq.
Qed.

Lemma m_byte : forall b, b < 256 -> negb (N.land b 8 =? 0) = negb (b / 8 mod 2 =? 0).
Proof.
  intros b Hb. assert (H := sweep 256 (fun b => Bool.eqb (negb (N.land b 8 =? 0)) (negb (b / 8 mod 2 =? 0))) eq_refl b Hb).
  now apply eqb_prop.
Qed.

(** or-ing flags into a byte whose low four bits are clear *)
Lemma or_flags : forall k m szx, k < 16 -> szx < 8 ->
  N.lor (N.lor (k * 16) (if m : bool then 8 else 0) mod 256) szx mod 256 = k * 16 + (if m then 8 else 0) + szx.
Proof.
  intros k m szx Hk Hs.
  assert (H := sweep 128 (fun x => N.lor (N.lor ((x / 8) * 16) (if m then 8 else 0) mod 256) (x mod 8) mod 256
      =? (x / 8) * 16 + (if m then 8 else 0) + x mod 8) ltac:(destruct m; vm_compute; reflexivity) (k * 8 + szx) ltac:(lia)).
  apply N.eqb_eq in H. replace ((k * 8 + szx) / 8) with k in H by lia. replace ((k * 8 + szx) mod 8) with szx in H by lia. exact H.
Qed.

Lemma encode_spec : forall w num m szx, 4 <= w <= 64 -> num mod 2 ^ (w - 4) <> 0 -> szx < 8 ->
  exists bs, block_encode w num m szx = Ok bs /\ bytes_ok bs /\ minimal bs /\
    be bs = block_value (num mod 2 ^ (w - 4)) m szx.
Proof.
  intros w num m szx Hw Hn Hs. unfold block_encode. rewrite N.shiftl_mul_pow2.
  set (k := num mod 2 ^ (w - 4)) in *.
  assert (E : (num * 2 ^ 4) mod 2 ^ w = k * 16).
  { unfold k. replace w with ((w - 4) + 4) at 1 by (clear - Hw; lia).
    rewrite N.pow_add_r, N.mul_mod_distr_r; [reflexivity| |]; apply N.pow_nonzero; discriminate. }
  rewrite E.
  assert (Hsm : small (k * 16)).
  { unfold small. rewrite <- E. eapply N.lt_le_trans; [apply N.mod_lt, N.pow_nonzero; discriminate|].
    change (256 ^ 8) with (2 ^ 64). apply N.pow_le_mono_r; [discriminate|apply Hw]. }
  clearbody k. clear E Hw num w.
  rewrite uint_set_uenc by exact Hsm. clear Hsm. cbn [bind].
  destruct (snoc_cases (uenc (k * 16))) as [H0|(a & b & Hab)].
  { exfalso. pose proof (uenc_be (k * 16)) as X. rewrite H0 in X. cbn in X. lia. }
  pose proof (uenc_be (k * 16)) as X. pose proof (uenc_ok (k * 16)) as Y. pose proof (uenc_minimal (k * 16)) as Z.
  rewrite Hab in *. clear Hab. rewrite be_snoc in X. apply bytes_ok_app in Y. destruct Y as (Y1 & Y2).
  inversion Y2 as [|? ? Yb _]; subst. unfold byte_ok in Yb. clear Y2.
  assert (Hb : exists q, b = q * 16 /\ q < 16).
  { exists (b / 16). clear - X Yb. generalize dependent (be a). intros t X.
    pose proof (N.div_mod b 16 ltac:(discriminate)). pose proof (N.mod_lt b 16 ltac:(discriminate)). lia. }
  destruct Hb as (q & -> & Hq). clear Yb.
  rewrite or_last_snoc. cbn [bind]. rewrite or_last_snoc.
  rewrite or_flags by assumption.
  eexists. split; [reflexivity|]. split; [|split].
  - apply bytes_ok_app. split; [assumption|]. constructor; [|constructor]. unfold byte_ok. clear - Hq Hs. destruct m; lia.
  - destruct a as [|x a]; [|exact Z]. cbn [app minimal] in *. clear - Z Hs. destruct m; lia.
  - rewrite be_snoc. unfold block_value. clear - X Hs. generalize dependent (be a). intros t X. destruct m; lia.
Qed.

Lemma decode_spec : forall w bs, 8 < w -> bytes_ok bs -> bs <> [] ->
  decode_num w bs = be bs mod 2 ^ w / 16 /\
  decode_m bs = Ok (negb (be bs / 8 mod 2 =? 0)) /\
  decode_szx bs = Ok (2 ^ (be bs mod 8 + 4)).
Proof.
  intros w bs Hw Hok Hne. split; [|destruct (snoc_cases bs) as [->|(a & b & ->)]; [congruence|]].
  - unfold decode_num. rewrite uint_get_t_be by assumption. rewrite N.shiftr_div_pow2. reflexivity.
  - apply bytes_ok_app in Hok. destruct Hok as (_ & Hb). inversion Hb as [|? ? Hb' _]; subst. unfold byte_ok in Hb'.
    unfold decode_m, decode_szx. rewrite last_byte_snoc, be_snoc. cbn [bind]. rewrite szx_byte, m_byte by assumption.
    replace ((be a * 256 + b) / 8 mod 2) with (b / 8 mod 2) by lia.
    replace ((be a * 256 + b) mod 8) with (b mod 8) by lia. auto.
Qed.
