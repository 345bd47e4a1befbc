(** Proofs about the echo server. *)
From Verif Require Import Base HeaderModel HeaderProofs StreambufModel OptEncModel OptDecModel DecoderModel DecoderSpec DecoderProofs
  SbDecModel SbDecSpec SbDecProofs AppModel CodecProps EchoModel.
Local Open Scope N_scope.

Lemma steps_app : forall a b sg neg d s, sbd_steps (a + b) sg neg d s =
  bind (sbd_steps a sg neg d s) (fun x => sbd_steps b sg neg (fst x) (snd x)).
Proof.
  induction a as [|a IH]; intros; [reflexivity|]. cbn [Nat.add sbd_steps].
  destruct (sbd_step sg neg d s) as [[[d1 s1] e]| |]; [|reflexivity..]. cbn [bind fst snd]. apply IH.
Qed.

(** what is sent, from the header *)
Lemma echo_out : forall h t, byte_ok (h0 h) -> hdr_tkl h <= 8 -> length t = 8%nat ->
  s_out (sb_sink (sb_token (firstn (N.to_nat (hdr_tkl (hdr_set_code code_valid (hdr_set_type ACK h)))) t)
    (sb_header (hdr_set_code code_valid (hdr_set_type ACK h)) (sb_init 32)))) =
  [h0 h / 64 * 64 + 32 + h0 h mod 16; 67; h2 h; h3 h] ++ firstn (N.to_nat (h0 h mod 16)) t.
Proof.
  intros h t Hb Ht Hl. rewrite tkl_mod in Ht.
  assert (E0 : h0 (hdr_set_type ACK h) = h0 h / 64 * 64 + 32 + h0 h mod 16).
  { unfold hdr_set_type. cbn [h0]. now rewrite b0_set_type. }
  assert (E1 : hdr_set_code code_valid (hdr_set_type ACK h) = Hdr (h0 h / 64 * 64 + 32 + h0 h mod 16) 67 (h2 h) (h3 h)).
  { unfold hdr_set_code. rewrite E0. destruct h. reflexivity. }
  rewrite E1. unfold sb_token, sb_header, sb_write, sb_init. cbn [sb_sink sb_enc].
  rewrite sputn_fits by (cbn; lia). cbn [snd app]. rewrite sputn_fits by (rewrite firstn_length; cbn [length hdr_bytes]; lia).
  cbn [snd s_out]. rewrite tkl_mod. unfold hdr_bytes. cbn [h0 h1 h2 h3]. do 3 f_equal.
  replace ((h0 h / 64 * 64 + 32 + h0 h mod 16) mod 16) with (h0 h mod 16); [reflexivity|].
  replace (h0 h / 64 * 64 + 32 + h0 h mod 16) with (h0 h mod 16 + (h0 h / 64 * 4 + 2) * 16) by lia.
  rewrite N.mod_add by discriminate. symmetry. apply N.mod_mod. discriminate.
Qed.

(** a complete header in one call *)
Lemma hdr_clean : forall L sg s g q h x, at_pos L q s -> skipn q (concat L) = hdr_bytes h ++ x -> (sg = true -> ~ In 255 (hdr_bytes h)) ->
  exists s1, sb_hdr_loop 5 sg s g 0 = Ok (h, 4, s1, true) /\ at_pos L (q + 4) s1 /\ skipn (q + 4) (concat L) = x.
Proof.
  intros L sg s g q [a b c e] x Hat Hq Hs. unfold hdr_bytes in *. cbn [h0 h1 h2 h3 app] in *.
  assert (K : forall v, In v [a; b; c; e] -> sb_char sg (Some v) = Some v).
  { intros v Hv. apply sb_char_keep. intros H E. subst v. exact (Hs H Hv). }
  destruct (bump_cons L q s a _ Hat Hq) as (s1 & B1 & A1 & Q1).
  destruct (bump_cons L _ s1 b _ A1 Q1) as (s2 & B2 & A2 & Q2).
  destruct (bump_cons L _ s2 c _ A2 Q2) as (s3 & B3 & A3 & Q3).
  destruct (bump_cons L _ s3 e _ A3 Q3) as (s4 & B4 & A4 & Q4).
  exists s4. replace (q + 4)%nat with (S (S (S (S q)))) by lia. split; [|split; assumption].
  cbn [sb_hdr_loop]. rewrite B1, K by (cbn; auto). cbn [hdr_put bind]. change (4 <=? (0 + 1) mod 256) with false. cbn iota.
  rewrite B2, K by (cbn; auto). cbn [hdr_put bind]. change ((0 + 1) mod 256) with 1. cbn [hdr_put bind]. change (4 <=? (1 + 1) mod 256) with false. cbn iota.
  rewrite B3, K by (cbn; auto). change ((1 + 1) mod 256) with 2. cbn [hdr_put bind]. change (4 <=? (2 + 1) mod 256) with false. cbn iota.
  rewrite B4, K by (cbn; auto 6). change ((2 + 1) mod 256) with 3. cbn [hdr_put bind]. reflexivity.
Qed.

(** a complete token in one call *)
Lemma tok_clean : forall L sg tok x, (length tok <= 8)%nat -> (sg = true -> ~ In 255 tok) -> forall n i s t q,
  (i < length tok)%nat -> (9 <= n + i)%nat -> firstn i t = firstn i tok -> length t = 8%nat -> at_pos L q s ->
  skipn q (concat L) = skipn i tok ++ x ->
  exists s1 t1, sb_tok_loop n sg (N.of_nat (length tok)) s t (N.of_nat i) = Ok (t1, N.of_nat (length tok), s1, true) /\
    firstn (length tok) t1 = tok /\ length t1 = 8%nat.
Proof.
  intros L sg tok x H8 Hs. induction n as [|n IH]; intros i s t q Hi Hn Hg Hl Hat Hq; [lia|].
  destruct (skipn i tok) as [|b r] eqn:ES. { apply (f_equal (@length N)) in ES. rewrite skipn_length in ES. cbn in ES. lia. }
  destruct (skipn_nth _ _ _ _ ES) as (E1 & E2). cbn [app] in Hq.
  destruct (bump_cons L q s b _ Hat Hq) as (s1 & B1 & A1 & Q1). cbn [sb_tok_loop]. rewrite B1, sb_char_keep.
  2:{ intros H E. subst b. apply (Hs H). rewrite <- E. apply nth_In. exact Hi. }
  rewrite tok_put_ok by lia. cbn [bind]. replace ((N.of_nat i + 1) mod 256) with (N.of_nat (S i)) by (rewrite N.mod_small; lia).
  set (t1 := firstn i t ++ b :: skipn (S i) t).
  assert (G1 : firstn (S i) t1 = firstn (S i) tok).
  { unfold t1. rewrite firstn_put by lia. rewrite Hg, <- E1. symmetry. now apply firstn_app_nth. }
  assert (L1 : length t1 = 8%nat) by (unfold t1; rewrite tok_put_length; lia).
  destruct (N.leb_spec (N.of_nat (length tok)) (N.of_nat (S i))) as [Hle|Hlt].
  - assert (E : S i = length tok) by lia. rewrite E in *. exists s1, t1. split; [reflexivity|]. split; [|exact L1]. rewrite G1. apply firstn_all.
  - apply (IH (S i) s1 t1 (S q)); try assumption; try lia. rewrite Q1, E2. reflexivity.
Qed.

Lemma first_two : forall L sg neg d h x, k_st d = Uninitialized -> concat L = hdr_bytes h ++ x -> (sg = true -> ~ In 255 (hdr_bytes h)) ->
  exists s1, sbd_steps 2 sg neg d (SBuf [] L) = Ok (Dec HeaderDone h 4 (k_tok d) (k_tpos d) (k_od d) (k_hold d), s1) /\
    at_pos L 4 s1 /\ skipn 4 (concat L) = x.
Proof.
  intros L sg neg d h x Hst HL Hs.
  destruct (hdr_clean L sg (sb_fill (sb_fill (SBuf [] L))) (k_h d) 0 h x) as (s1 & A & B & C).
  - apply at_fill, at_fill, at_open.
  - exact HL.
  - exact Hs.
  - exists s1. split; [|split; [exact B|exact C]]. cbn [sbd_steps]. unfold sbd_step at 1, sb_eof. rewrite Hst. cbn [bind fst snd].
    unfold sbd_step, sb_eof. cbn [k_st k_h k_hpos k_tok k_tpos k_od k_hold bind fst snd]. rewrite A. reflexivity.
Qed.

Lemma echo_token : forall L sg neg d h tok x, k_st d = Uninitialized -> length (k_tok d) = 8%nat -> byte_ok (h0 h) ->
  h0 h mod 16 = N.of_nat (length tok) -> (0 < length tok <= 8)%nat -> (sg = true -> ~ In 255 (hdr_bytes h ++ tok)) ->
  concat L = hdr_bytes h ++ tok ++ x ->
  echo sg neg d L = Ok ([h0 h / 64 * 64 + 32 + h0 h mod 16; 67; h2 h; h3 h] ++ tok).
Proof.
  intros L sg neg d h tok x Hst Hk Hb Ht Hl Hs HL.
  destruct (first_two L sg neg d h (tok ++ x) Hst HL) as (s1 & A & B & C).
  { intros H I. apply (Hs H). apply in_or_app. now left. }
  destruct (tok_clean L sg tok x (proj2 Hl)) with (n := 9%nat) (i := 0%nat) (s := sb_fill (sb_fill (sb_fill s1))) (t := k_tok d) (q := 4%nat) as (s2 & t2 & T1 & T2 & T3).
  { intros H I. apply (Hs H). apply in_or_app. now right. }
  { lia. } { lia. } { reflexivity. } { exact Hk. } { now apply at_fill, at_fill, at_fill. } { exact C. }
  set (d2 := Dec HeaderDone h 4 (k_tok d) (k_tpos d) (k_od d) (k_hold d)) in *.
  set (d4 := Dec RToken h 4 (k_tok d) 0 (k_od d) (k_hold d)).
  assert (E3 : sbd_step sg neg d2 s1 = Ok (k_goto TokenStart d2, sb_fill s1, is_nil (s_cur (sb_fill s1)))).
  { unfold sbd_step, sb_eof, dec_tkl. cbn [d2 k_st k_h]. rewrite tkl_mod, Ht.
    replace (0 <? N.of_nat (length tok)) with true by (symmetry; apply N.ltb_lt; lia). reflexivity. }
  assert (E4 : sbd_step sg neg (k_goto TokenStart d2) (sb_fill s1) = Ok (d4, sb_fill (sb_fill s1), is_nil (s_cur (sb_fill (sb_fill s1))))) by reflexivity.
  assert (E5 : exists d5 e, sbd_step sg neg d4 (sb_fill (sb_fill s1)) = Ok (d5, s2, e) /\ k_st d5 = TokenDone /\ k_tok d5 = t2).
  { unfold sbd_step, sb_eof, dec_tkl. cbn [d4 k_st k_h k_hpos k_tok k_tpos k_od k_hold]. rewrite tkl_mod, Ht.
    change (N.of_nat 0) with 0 in T1. rewrite T1. cbn [bind]. do 2 eexists. split; [reflexivity|]. split; reflexivity. }
  destruct E5 as (d5 & e & E5 & S5 & K5).
  assert (E6 : sbd_steps 4 sg neg d2 s1 = Ok (k_goto OptionsStart d5, sb_fill s2)).
  { cbn [sbd_steps]. rewrite E3. cbn [bind fst snd]. rewrite E4. cbn [bind fst snd]. rewrite E5. cbn [bind fst snd].
    unfold sbd_step, sb_eof. rewrite S5. reflexivity. }
  unfold echo. rewrite A. cbn [bind fst snd]. rewrite E6. cbn [bind fst snd]. cbn [d2 k_h k_goto k_tok]. rewrite K5, tkl_mod, Ht.
  replace (8 <? N.of_nat (length tok)) with false by (symmetry; apply N.ltb_ge; lia).
  rewrite <- Ht, echo_out; [|exact Hb|rewrite tkl_mod; lia|exact T3]. rewrite Ht, Nat2N.id, T2. reflexivity.
Qed.

(** a run of the notifying decoder that succeeds contains these calls *)
Lemma run_three : forall sg neg eat fuel d s r, sbd_run fuel sg neg eat d s = Ok r -> k_st d = OptionsStart ->
  exists y, sbd_steps 2 sg neg d s = Ok y.
Proof.
  intros sg neg eat fuel d s r H Hst. destruct fuel as [|fuel]; [discriminate|]. cbn [sbd_run] in H. unfold sbd_notify in H.
  destruct (sbd_step sg neg d s) as [[[d1 s1] e1]| |] eqn:E1; [|discriminate..]. cbn [bind] in H.
  destruct (sbd_events neg eat d1 s1) as [[es s2]| |] eqn:Ev; [|discriminate..]. cbn [bind fst snd] in H.
  assert (S1 : k_st d1 = OptionsDone \/ k_st d1 = ROptions).
  { unfold sbd_step, sb_eof in E1. rewrite Hst in E1. destruct (is_nil (s_cur (sb_fill s))); [injection E1 as <- _ _; left; reflexivity|].
    destruct (sb_options neg (od_goto FirstByte (k_od d)) holder_reset (sb_fill s)) as [[[o h] s3]| |]; [|discriminate..]. cbn [bind] in E1.
    injection E1 as <- _ _. cbn [k_st]. destruct (ostate_eqb (d_st o) OPayload); auto. }
  assert (S2 : s2 = s1).
  { unfold sbd_events in Ev. destruct S1 as [S1|S1]; rewrite S1 in Ev; [congruence|].
    destruct (d_st (k_od d1)); try congruence. destruct (0 <? hd_len (k_hold d1)); [|congruence].
    destruct (sbd_option neg d1 s1); [|discriminate..]. cbn [bind] in Ev. congruence. }
  subst s2. replace (rstate_eqb (k_st d1) RDone) with false in H by (destruct S1 as [-> | ->]; reflexivity).
  destruct fuel as [|fuel]; [discriminate|]. cbn [sbd_run] in H. unfold sbd_notify in H.
  destruct (sbd_step sg neg d1 s1) as [[[d2 s2] e2]| |] eqn:E2; [|discriminate..].
  cbn [sbd_steps]. rewrite E1. cbn [bind fst snd]. rewrite E2. cbn [bind fst snd]. eauto.
Qed.

Lemma run_step : forall sg neg eat fuel d s r d1 s1 e, sbd_run fuel sg neg eat d s = Ok r -> sbd_step sg neg d s = Ok (d1, s1, e) ->
  In (k_st d1) [RHeader; HeaderDone; TokenDone; OptionsStart] -> exists fuel' r', sbd_run fuel' sg neg eat d1 s1 = Ok r'.
Proof.
  intros sg neg eat fuel d s r d1 s1 e H E HI. destruct fuel as [|fuel]; [discriminate|]. cbn [sbd_run] in H. unfold sbd_notify in H.
  rewrite E in H. cbn [bind] in H.
  assert (Ev : exists es, sbd_events neg eat d1 s1 = Ok (es, s1)).
  { unfold sbd_events. destruct HI as [<-|[<-|[<-|[<-|[]]]]]; eauto. }
  destruct Ev as (es & Ev). rewrite Ev in H. cbn [bind fst snd] in H.
  replace (rstate_eqb (k_st d1) RDone) with false in H by (destruct HI as [<-|[<-|[<-|[<-|[]]]]]; reflexivity).
  destruct (sbd_run fuel sg neg eat d1 s1) as [r'| |] eqn:R; [|discriminate..]. exists fuel, r'. exact R.
Qed.

Lemma echo_plain : forall L sg neg eat fuel r d h x, k_st d = Uninitialized -> length (k_tok d) = 8%nat -> byte_ok (h0 h) ->
  h0 h mod 16 = 0 -> (sg = true -> ~ In 255 (hdr_bytes h)) -> concat L = hdr_bytes h ++ x ->
  sbd_run fuel sg neg eat d (SBuf [] L) = Ok r ->
  echo sg neg d L = Ok [h0 h / 64 * 64 + 32 + h0 h mod 16; 67; h2 h; h3 h].
Proof.
  intros L sg neg eat fuel r d h x Hst Hk Hb Ht Hs HL HR.
  destruct (first_two L sg neg d h x Hst HL Hs) as (s1 & A & B & C).
  set (d2 := Dec HeaderDone h 4 (k_tok d) (k_tpos d) (k_od d) (k_hold d)) in *.
  set (d1 := Dec RHeader (k_h d) 0 (k_tok d) (k_tpos d) (k_od d) (k_hold d)).
  assert (E1 : sbd_step sg neg d (SBuf [] L) = Ok (d1, sb_fill (SBuf [] L), is_nil (s_cur (sb_fill (SBuf [] L))))).
  { unfold sbd_step, sb_eof. rewrite Hst. reflexivity. }
  assert (E2 : exists e, sbd_step sg neg d1 (sb_fill (SBuf [] L)) = Ok (d2, s1, e)).
  { cbn [sbd_steps] in A. rewrite E1 in A. cbn [bind fst snd] in A.
    destruct (sbd_step sg neg d1 (sb_fill (SBuf [] L))) as [[[dd ss] e]| |]; [|discriminate..]. cbn [bind fst snd] in A. injection A as -> ->. eauto. }
  destruct E2 as (e2 & E2).
  assert (E3 : sbd_step sg neg d2 s1 = Ok (k_goto TokenDone d2, sb_fill s1, is_nil (s_cur (sb_fill s1)))).
  { unfold sbd_step, sb_eof, dec_tkl. cbn [d2 k_st k_h]. rewrite tkl_mod, Ht. reflexivity. }
  assert (E4 : sbd_step sg neg (k_goto TokenDone d2) (sb_fill s1) =
    Ok (k_goto OptionsStart d2, sb_fill (sb_fill s1), is_nil (s_cur (sb_fill (sb_fill s1))))) by reflexivity.
  destruct (run_step _ _ _ _ _ _ _ _ _ _ HR E1) as (f1 & r1 & R1); [cbn; auto|].
  destruct (run_step _ _ _ _ _ _ _ _ _ _ R1 E2) as (f2 & r2 & R2); [cbn; auto|].
  destruct (run_step _ _ _ _ _ _ _ _ _ _ R2 E3) as (f3 & r3 & R3); [cbn; auto|].
  destruct (run_step _ _ _ _ _ _ _ _ _ _ R3 E4) as (f4 & r4 & R4); [cbn; auto 6|].
  destruct (run_three _ _ _ _ _ _ _ R4 eq_refl) as ([d6 s6] & E5).
  assert (E6 : sbd_steps 4 sg neg d2 s1 = Ok (d6, s6)).
  { change 4%nat with (1 + (1 + 2))%nat. rewrite !steps_app. cbn [sbd_steps]. rewrite E3. cbn [bind fst snd]. rewrite steps_app. cbn [sbd_steps].
    rewrite E4. cbn [bind fst snd]. exact E5. }
  unfold echo. rewrite A. cbn [bind fst snd]. rewrite E6. cbn [bind fst snd]. cbn [d2 k_h].
  replace (8 <? hdr_tkl h) with false by (rewrite tkl_mod, Ht; reflexivity).
  assert (X : forall t, s_out (sb_sink (sb_token (firstn (N.to_nat (hdr_tkl (hdr_set_code code_valid (hdr_set_type ACK h)))) t)
    (sb_header (hdr_set_code code_valid (hdr_set_type ACK h)) (sb_init 32)))) = [h0 h / 64 * 64 + 32 + h0 h mod 16; 67; h2 h; h3 h]); [|now rewrite X].
  intros t. assert (Z : hdr_tkl (hdr_set_code code_valid (hdr_set_type ACK h)) = 0).
  { rewrite tkl_mod. unfold hdr_set_code, hdr_set_type. cbn [h0]. rewrite b0_set_type by (try exact Hb; reflexivity). rewrite Ht.
    replace (h0 h / 64 * 64 + ACK * 16 + 0) with ((h0 h / 64 * 4 + 2) * 16) by (unfold ACK; lia). apply N.mod_mul. discriminate. }
  assert (Q := echo_out h (k_tok d) Hb ltac:(rewrite tkl_mod, Ht; discriminate) Hk). rewrite Z in *. rewrite Ht in *.
  change (N.to_nat 0) with O in *. cbn [firstn] in *. rewrite Q. apply app_nil_r.
Qed.

(** signed char: a datagram without four good bytes *)
Lemma stuck_steps : forall n neg s d i, k_st d = RHeader -> k_hpos d = N.of_nat i -> flat s = [] -> (i < 4)%nat ->
  sbd_steps n true neg d s = Ok (d, match n with O => s | _ => SBuf [] [] end).
Proof.
  induction n as [|n IH]; intros neg s d i Hs Hp Hf Hi; [reflexivity|]. cbn [sbd_steps].
  assert (E : sbd_step true neg d s = Ok (d, SBuf [] [], true)).
  { unfold sbd_step, sb_eof. rewrite Hs, (flat_nil s Hf), Hp. cbn [sb_hdr_loop]. unfold sb_bump. cbn [sb_fill sb_next s_cur s_rest sb_char bind is_nil].
    destruct d; cbn in *; subst; reflexivity. }
  rewrite E. cbn [bind fst snd]. rewrite (IH neg (SBuf [] []) d i Hs Hp eq_refl Hi). destruct n; reflexivity.
Qed.

Lemma bump_nil : forall s, flat s = [] -> sb_bump s = (None, SBuf [] []).
Proof. intros s H. unfold sb_bump. rewrite (flat_nil s H). reflexivity. Qed.
Lemma bump_byte : forall s b r, flat s = b :: r -> exists s1, sb_bump s = (Some b, s1) /\ flat s1 = r.
Proof. intros s b r H. assert (X := bump_flat s). rewrite H in X. exact X. Qed.

(** the bytes that came, then what the memory held *)
Lemma hdr_cut : forall s g bs tl, (length bs < 4)%nat -> ~ In 255 bs -> flat s = bs ++ tl -> tl = [] \/ tl = [255] ->
  exists s1 g1, sb_hdr_loop 5 true s g 0 = Ok (g1, N.of_nat (length bs), s1, false) /\ flat s1 = [] /\
    hdr_bytes g1 = bs ++ skipn (length bs) (hdr_bytes g).
Proof.
  intros s g bs tl Hl Hn Hf Ht.
  assert (K : forall v, In v bs -> sb_char true (Some v) = Some v).
  { intros v Hv. apply sb_char_keep. intros _ E. subst v. contradiction. }
  assert (Z : forall s0, flat s0 = tl -> exists x s1, sb_bump s0 = (x, s1) /\ sb_char true x = None /\ flat s1 = []).
  { intros s0 H0. destruct Ht as [-> | ->].
    - exists None, (SBuf [] []). split; [now apply bump_nil|]. split; reflexivity.
    - destruct (bump_byte s0 255 [] H0) as (s1 & B & F). exists (Some 255), s1. split; [exact B|]. split; [reflexivity|exact F]. }
  destruct bs as [|a [|b [|c [|? ?]]]]; [..|cbn in Hl; lia]; cbn [app length] in *.
  - destruct (Z s Hf) as (x & s1 & B & X & F). exists s1, g. cbn [sb_hdr_loop]. rewrite B, X. repeat split; assumption.
  - destruct (bump_byte s _ _ Hf) as (s1 & B1 & F1). destruct (Z s1 F1) as (x & s2 & B & X & F).
    exists s2, (Hdr a (h1 g) (h2 g) (h3 g)). cbn [sb_hdr_loop]. rewrite B1, K by (cbn; auto). cbn [hdr_put bind].
    change (4 <=? (0 + 1) mod 256) with false. cbn iota. rewrite B, X. repeat split; assumption.
  - destruct (bump_byte s _ _ Hf) as (s1 & B1 & F1). destruct (bump_byte s1 _ _ F1) as (s2 & B2 & F2). destruct (Z s2 F2) as (x & s3 & B & X & F).
    exists s3, (Hdr a b (h2 g) (h3 g)). cbn [sb_hdr_loop]. rewrite B1, K by (cbn; auto). cbn [hdr_put bind].
    change (4 <=? (0 + 1) mod 256) with false. cbn iota. rewrite B2, K by (cbn; auto). change ((0 + 1) mod 256) with 1. cbn [hdr_put bind].
    change (4 <=? (1 + 1) mod 256) with false. cbn iota. rewrite B, X. repeat split; assumption.
  - destruct (bump_byte s _ _ Hf) as (s1 & B1 & F1). destruct (bump_byte s1 _ _ F1) as (s2 & B2 & F2). destruct (bump_byte s2 _ _ F2) as (s3 & B3 & F3).
    destruct (Z s3 F3) as (x & s4 & B & X & F).
    exists s4, (Hdr a b c (h3 g)). cbn [sb_hdr_loop]. rewrite B1, K by (cbn; auto). cbn [hdr_put bind].
    change (4 <=? (0 + 1) mod 256) with false. cbn iota. rewrite B2, K by (cbn; auto). change ((0 + 1) mod 256) with 1. cbn [hdr_put bind].
    change (4 <=? (1 + 1) mod 256) with false. cbn iota. rewrite B3, K by (cbn; auto). change ((1 + 1) mod 256) with 2. cbn [hdr_put bind].
    change (4 <=? (2 + 1) mod 256) with false. cbn iota. rewrite B, X. repeat split; assumption.
Qed.

Lemma echo_cut : forall L neg d bs tl x, k_st d = Uninitialized -> length (k_tok d) = 8%nat ->
  (length bs < 4)%nat -> ~ In 255 bs -> concat L = bs ++ tl -> tl = [] \/ tl = [255] ->
  hdr_bytes x = bs ++ skipn (length bs) (hdr_bytes (k_h d)) -> byte_ok (h0 x) -> h0 x mod 16 <= 8 ->
  echo true neg d L = Ok ([h0 x / 64 * 64 + 32 + h0 x mod 16; 67; h2 x; h3 x] ++ firstn (N.to_nat (h0 x mod 16)) (k_tok d)).
Proof.
  intros L neg d bs tl x Hst Hk Hl Hn HL Ht Hx Hb H8.
  destruct (hdr_cut (sb_fill (sb_fill (SBuf [] L))) (k_h d) bs tl Hl Hn) as (s1 & g1 & A & B & C); [|exact Ht|].
  { rewrite !flat_fill. exact HL. }
  assert (g1 = x). { apply hdr_bytes_full. rewrite C, Hx. reflexivity. } subst g1. clear C.
  set (d2 := Dec RHeader x (N.of_nat (length bs)) (k_tok d) (k_tpos d) (k_od d) (k_hold d)).
  assert (E2 : sbd_steps 2 true neg d (SBuf [] L) = Ok (d2, s1)).
  { cbn [sbd_steps]. unfold sbd_step at 1, sb_eof. rewrite Hst. cbn [bind fst snd].
    unfold sbd_step, sb_eof. cbn [k_st k_h k_hpos k_tok k_tpos k_od k_hold bind fst snd]. rewrite A. reflexivity. }
  unfold echo. rewrite E2. cbn [bind fst snd]. rewrite (stuck_steps 4 neg s1 d2 (length bs)); try assumption; try reflexivity.
  cbn [bind fst snd]. cbn [d2 k_h k_tok]. replace (8 <? hdr_tkl x) with false by (symmetry; apply N.ltb_ge; rewrite tkl_mod; exact H8).
  rewrite echo_out; [reflexivity|exact Hb|rewrite tkl_mod; exact H8|exact Hk].
Qed.

Lemma echo_long : forall L sg neg d h x r, k_st d = Uninitialized -> 8 < h0 h mod 16 -> (sg = true -> ~ In 255 (hdr_bytes h)) ->
  concat L = hdr_bytes h ++ x -> echo sg neg d L <> Ok r.
Proof.
  intros L sg neg d h x r Hst Ht Hs HL H. destruct (first_two L sg neg d h x Hst HL Hs) as (s1 & A & _).
  unfold echo in H. rewrite A in H. cbn [bind fst snd k_h] in H.
  replace (8 <? hdr_tkl h) with true in H by (symmetry; apply N.ltb_lt; rewrite tkl_mod; exact Ht).
  destruct (sbd_steps 4 sg neg _ s1); discriminate.
Qed.
