(** A stream that ends inside an option header, whatever precedes it (C19, C53, C83). *)
From Verif Require Import Base HeaderModel HeaderProofs OptEncModel OptSpec OptDecModel OptDecSpec OptDecProofs DecoderModel DecoderSpec DecoderProofs
  ChunkSpec SbDecModel SbDecSpec SbDecProofs CutProofs HeadCutSpec.
Local Open Scope N_scope.

Lemma last_num_cons : forall n l o vs d, last_num ((n, l, o) :: vs) d = last_num vs n.
Proof. intros. unfold last_num. cbn [map fst snd]. apply last_cons. Qed.
Lemma last_vlen_cons : forall n l o vs d, last_vlen ((n, l, o) :: vs) d = last_vlen vs l.
Proof. intros. unfold last_vlen. cbn [map fst snd]. apply last_cons. Qed.

Lemma ext_take_app : forall nb bs v r x, take_ext nb bs = OptDecSpec.Got v r -> take_ext nb (bs ++ x) = OptDecSpec.Got v (r ++ x).
Proof.
  intros nb bs v r x H. unfold take_ext in *. destruct (nb <? 13); [injection H as <- <-; reflexivity|].
  destruct bs as [|a s]; [discriminate|]. cbn [app]. destruct (nb =? 13); [injection H as <- <-; reflexivity|].
  destruct (nb =? 14); [|discriminate]. destruct s; [discriminate|]. injection H as <- <-. reflexivity.
Qed.

(** stripping the header off *)
Lemma ext_strip : forall nb bs v r, take_ext nb bs = OptDecSpec.Got v r -> exists e, bs = e ++ r /\ forall x, take_ext nb (e ++ x) = OptDecSpec.Got v x.
Proof.
  intros nb bs v r H. unfold take_ext in *. destruct (nb <? 13); [injection H as <- <-; exists []; split; reflexivity|].
  destruct bs as [|a s]; [discriminate|]. destruct (nb =? 13); [injection H as <- <-; exists [a]; split; reflexivity|].
  destruct (nb =? 14); [|discriminate]. destruct s as [|c s]; [discriminate|]. injection H as <- <-. exists [a; c]; split; reflexivity.
Qed.

Lemma inhead_run : forall n bs prev off vs, (length bs <= n)%nat -> prev < 65536 -> bytes_ok bs ->
  oparse n prev off bs = (vs, EndInHead) ->
  exists pre b r, cut_after prev off bs pre b r vs /\ forall d h, boundary d -> hd_num h = prev ->
  exists d1 h1, boundary d1 /\ hd_num h1 = last_num vs prev /\ hd_len h1 = last_vlen vs (hd_len h) /\ hd_num h1 < 65536 /\
    forall R, mrun d1 h1 (off + length pre) (b :: r) R -> mrun d h off bs (addv vs R).
Proof.
  induction n as [|n IH]; intros bs prev off vs Hn Hh Hok HP.
  { destruct bs; [discriminate|cbn in Hn; lia]. }
  destruct bs as [|b r]; [discriminate|]. cbn [oparse] in HP.
  destruct (N.eqb_spec b 255) as [->|Hb]; [discriminate|].
  assert (Hlo : b mod 16 < 16) by (apply N.mod_lt; discriminate).
  assert (Hhi : b / 16 < 16) by (inversion Hok; subst; unfold byte_ok in *; lia).
  assert (HC : (take_ext (b / 16) r = Short \/ exists delta r1, take_ext (b / 16) r = OptDecSpec.Got delta r1 /\ take_ext (b mod 16) r1 = Short) -> vs = [] ->
    exists pre b0 r0, cut_after prev off (b :: r) pre b0 r0 vs /\ forall d h, boundary d -> hd_num h = prev -> exists d1 h1, boundary d1 /\
    hd_num h1 = last_num vs prev /\ hd_len h1 = last_vlen vs (hd_len h) /\ hd_num h1 < 65536 /\
    forall R, mrun d1 h1 (off + length pre) (b0 :: r0) R -> mrun d h off (b :: r) (addv vs R)).
  { intros H ->. exists [], b, r. split; [repeat split; try assumption; cbn [app length]; rewrite Nat.add_0_r; reflexivity|].
    intros d h Hd Eh. exists d, h. split; [assumption|]. split; [exact Eh|]. split; [reflexivity|]. split; [rewrite Eh; assumption|].
    intros R HR. cbn [length] in HR. rewrite Nat.add_0_r in HR. rewrite addv_nil. exact HR. }
  destruct (take_ext (b / 16) r) as [delta r1| |] eqn:E1; [|apply HC; [auto|congruence]|discriminate].
  destruct (take_ext (b mod 16) r1) as [l r2| |] eqn:E2; [|apply HC; [eauto|congruence]|discriminate].
  clear HC.
  destruct (take_ext_bound _ _ _ _ Hhi (Forall_inv_tail Hok) E1) as (Bd & Hok1 & L1).
  destruct (take_ext_bound _ _ _ _ Hlo Hok1 E2) as (Bl & Hok2 & L2).
  set (num := (prev + delta) mod 65536) in *.
  assert (Hnum : num < 65536) by (apply N.mod_lt; discriminate).
  destruct (ext_strip _ _ _ _ E1) as (e1 & F1 & G1). destruct (ext_strip _ _ _ _ E2) as (e2 & F2 & G2).
  set (hb := b :: e1 ++ e2).
  assert (Ebs : b :: r = hb ++ r2) by (unfold hb; rewrite F1, F2; cbn [app]; rewrite <- app_assoc; reflexivity).
  replace (off + (length (b :: r) - length r2))%nat with (off + length hb)%nat in HP by (rewrite Ebs, app_length; lia).
  set (off2 := (off + length hb)%nat) in *.
  destruct r2 as [|c s]; [discriminate|].
  destruct (Nat.ltb_spec (length (c :: s)) (N.to_nat l)) as [Hcut|Hfull]; [discriminate|].
  set (v := firstn (N.to_nat l) (c :: s)) in *. set (w := skipn (N.to_nat l) (c :: s)) in *.
  destruct (oparse n num (off2 + N.to_nat l) w) as [vs1 ee] eqn:EP. injection HP as <- ->.
  assert (Lv : length v = N.to_nat l) by (unfold v; rewrite firstn_length; lia).
  assert (Evw : c :: s = v ++ w) by (symmetry; apply firstn_skipn).
  assert (Hlen : (length w <= n)%nat).
  { assert (X := f_equal (@length N) Ebs). assert (Y := f_equal (@length N) Evw). rewrite app_length in X, Y. unfold hb in X. cbn [length] in *. lia. }
  assert (Hokw : bytes_ok w) by (rewrite Evw in Hok2; apply bytes_ok_app in Hok2; tauto).
  destruct (IH w num (off2 + N.to_nat l)%nat vs1 Hlen Hnum Hokw EP) as (pre & b0 & r0 & (C1 & C2 & C3 & C4) & HW).
  exists (hb ++ v ++ pre), b0, r0. split.
  { split; [rewrite Ebs, Evw, C1, <- !app_assoc; reflexivity|]. split; [assumption|]. split; [assumption|].
    unfold parse. rewrite <- !app_assoc. unfold hb at 1 2. cbn [app length oparse].
    rewrite (proj2 (N.eqb_neq _ _) Hb), <- !app_assoc, G1, G2. fold num.
    set (z := v ++ pre ++ [255]).
    assert (LE : length z = (N.to_nat l + length pre + 1)%nat) by (unfold z; rewrite !app_length; cbn [length]; lia).
    assert (Ez : skipn (N.to_nat l) z = pre ++ [255]) by (unfold z; rewrite skipn_app, skipn_all2, Lv, Nat.sub_diag by lia; reflexivity).
    clearbody z. destruct z as [|x y]; [cbn in LE; lia|].
    replace (length (x :: y) <? N.to_nat l)%nat with false by (symmetry; apply Nat.ltb_ge; lia).
    replace (off + (S (length (e1 ++ e2 ++ x :: y)) - length (x :: y)))%nat with off2
      by (unfold off2, hb; cbn [length]; rewrite !app_length; cbn [length]; lia).
    rewrite Ez.
    unfold parse in C4. rewrite (oparse_fuel _ (length (pre ++ [255]))). rewrite C4.
    - replace (off + length (hb ++ v ++ pre) + 1)%nat with (off2 + N.to_nat l + length pre + 1)%nat by (rewrite !app_length; unfold off2; lia). reflexivity.
    - rewrite !app_length, LE. cbn [length]. lia.
    - lia.
    - apply bytes_ok_app. split; [rewrite C1 in Hokw; apply bytes_ok_app in Hokw; tauto|repeat constructor; unfold byte_ok; lia]. }
  intros d h Hd Eh.
  destruct (head_run (od_goto FirstByte d) h off b r delta r1 l (c :: s) eq_refl Hb Hok E1 E2) as (hb' & d2 & Ebs' & _ & Hrd & HR).
  rewrite Ebs in Ebs'. apply app_inv_tail in Ebs'. subst hb'. rewrite Eh in HR. fold num off2 in HR.
  assert (Hnp : d_st d2 <> OPayload) by apply Hrd.
  (* through the value *)
  assert (HV : exists d4, boundary d4 /\ forall R,
     mrun d4 (Holder num l) (off2 + N.to_nat l) w R -> mrun d2 (Holder num l) off2 (c :: s) (addv [(num, l, off2)] R)).
  { destruct Hrd as (R1 & R2 & R3 & R4 & R5 & R6 & R7). destruct (R7 c) as (d3 & X1 & X2 & X3).
    assert (ST : forall R, mrun d3 (Holder num l) off2 (c :: s) R -> mrun d2 (Holder num l) off2 (c :: s) (addv [(num, l, off2)] R)).
    { intros R HR0. eapply (mrun_step' _ _ _ _ _ d3 (Holder num l) false R); [assumption|exact X1| | |].
      + unfold hold_upd. rewrite X2. reflexivity.
      + exact HR0.
      + unfold emit. rewrite X2. reflexivity. }
    destruct (N.eq_dec l 0) as [El|El].
    - rewrite El in X3. destruct (start_zero d3 X2 X3) as (d4 & Y1 & Y2). exists d4. split; [assumption|].
      intros R HR0. replace (off2 + N.to_nat l)%nat with off2 in HR0 by (rewrite El; cbn; lia).
      replace w with (c :: s) in HR0 by (unfold w; rewrite El; reflexivity). apply ST, Y2, HR0.
    - destruct (start_pos d3 l X2 X3 El) as (d4 & D1 & D2 & D3).
      destruct (value_run_all v d4 (Holder num l) off2 D1) as (d5 & V1 & V2);
        [unfold len; lia|lia|destruct v; [cbn in Lv; lia|discriminate]|].
      exists d5. split; [right; exact V1|]. intros R HR0. apply ST, D3. rewrite Evw.
      rewrite <- (addv_nil R). apply (mrun_app _ _ _ _ _ V2 w); [rewrite V1; discriminate|]. rewrite Lv. exact HR0. }
  destruct HV as (d4 & Z1 & Z2).
  destruct (HW d4 (Holder num l) Z1 eq_refl) as (d1 & h1 & W1 & W2 & W3 & W4 & W5). cbn [hd_len] in W3.
  exists d1, h1. split; [assumption|]. rewrite last_num_cons, last_vlen_cons. split; [assumption|]. split; [assumption|]. split; [assumption|].
  intros R HR0. apply boundary_run; [assumption|]. rewrite Ebs.
  replace (addv ((num, l, off2) :: vs1) R) with (addv [] (addv [(num, l, off2)] (addv vs1 R))) by (rewrite !addv_app; reflexivity).
  apply (mrun_app _ _ _ _ _ HR); [assumption|]. apply Z2, W5.
  replace (off2 + N.to_nat l + length pre)%nat with (off + length (hb ++ v ++ pre))%nat by (rewrite !app_length; unfold off2; lia). exact HR0.
Qed.

Lemma short_count : forall b r, b / 16 <> 15 -> b mod 16 <> 15 -> b < 256 ->
  (take_ext (b / 16) r = Short \/ exists delta r1, take_ext (b / 16) r = OptDecSpec.Got delta r1 /\ take_ext (b mod 16) r1 = Short) ->
  (length r < ext_count (b / 16) + ext_count (b mod 16))%nat.
Proof.
  intros b r H1 H2 Hb H.
  assert (Hlo : b mod 16 < 16) by (apply N.mod_lt; discriminate).
  assert (Hhi : b / 16 < 16) by lia.
  unfold take_ext, ext_count in *. revert H.
  destruct (N.ltb_spec (b / 16) 13); destruct (N.ltb_spec (b mod 16) 13);
  destruct (N.eqb_spec (b / 16) 13); destruct (N.eqb_spec (b / 16) 14); destruct (N.eqb_spec (b mod 16) 13); destruct (N.eqb_spec (b mod 16) 14);
  try lia; destruct r as [|r1 [|r2 [|r3 [|r4 r]]]]; cbn [length]; try lia;
  (intros [Q|(dl & x & Hg & Q)]; [discriminate|try discriminate; injection Hg as <- <-; try discriminate Q; try lia]).
Qed.

Lemma gfault_late : forall n d, k_st d = ROptions -> gfault n (k_od d) ->
  exists dm, nsteps [] true stop_done n d 0 [] dm 0 /\ k_st dm = ROptions /\ dec_notify [] true dm 0 = Fault.
Proof.
  intros n d Hs H. remember (k_od d) as o eqn:Eo. revert d Hs Eo.
  induction H as [o E|n o o1 p E Hh H IH]; intros d Hs Eo; rewrite Eo in E.
  - exists d. split; [constructor|]. split; [exact Hs|]. unfold dec_notify, dec_iterate, dec_step. rewrite Hs. unfold remainder. cbn [skipn].
    unfold od_chunk_last. rewrite E. reflexivity.
  - destruct (IH (opt_dec d o1 (k_hold d)) eq_refl eq_refl) as (dm & A & B & C). exists dm. split; [|split; [exact B|exact C]].
    eapply (nsS [] true stop_done n d 0%nat [] _ _ true []); [eapply (notify_head []); eassumption|reflexivity|exact A].
Qed.

(** the stream decoder *)
Lemma stream_inhead : forall L sg eat h tok raw rest vs, bytes_ok (concat L) ->
  hdr_tkl h = N.of_nat (length tok) -> (length tok <= 8)%nat -> skims sg raw (hdr_bytes h ++ tok) -> rest <> [] ->
  concat L = raw ++ rest -> parse 0 (length raw) rest = (vs, EndInHead) ->
  exists pre b r, cut_after 0 (length raw) rest pre b r vs /\ forall d, idle d ->
  if (b / 16 =? 15) || (b mod 16 =? 15) then SF sg false eat d (SBuf [] L)
  else SR sg false eat d (SBuf [] L) ([EHeader h; EToken tok; EOptStart] ++ map (opt_view L 0) vs ++
         [EOption (cut_num (last_num vs 0) b r) [] (cut_len (last_vlen vs 0) b =? 0); EOptDone; ECompleted]).
Proof.
  intros L sg eat h tok raw rest vs Hok Ht H8 HS Hr HL HP.
  assert (Hokr : bytes_ok raw /\ bytes_ok rest) by (apply bytes_ok_app; rewrite <- HL; exact Hok). destruct Hokr as (Hok1 & Hok2).
  destruct (inhead_run (length rest) rest 0 (length raw) vs (le_n _) ltac:(lia) Hok2 HP) as (pre & b & r & HC & HW).
  exists pre, b, r. split; [exact HC|]. intros d Hd.
  destruct HC as (C1 & C2 & C3 & C4).
  destruct (prefix_phase L sg false eat h tok raw d (SBuf [] L) rest Hd Hok1 Ht H8 HS (at_open L) HL)
    as (n & d1 & s1 & A1 & A2 & A3 & A4 & A5 & A6).
  assert (Hfl : flat s1 = rest).
  { rewrite (at_flat _ _ _ A6), HL, skipn_app, skipn_all, Nat.sub_diag. reflexivity. }
  set (o0 := od_goto FirstByte (k_od d1)).
  assert (Hbo : od_bytes (k_od d1)) by (destruct A3 as (_ & _ & A3); exact A3).
  assert (HO := fun m => opts_phase L sg false eat Hok m d1 s1 (length raw) o0 holder_reset).
  assert (Go : forall R, mrun o0 holder_reset (length raw) rest R -> 
    match R with
    | Ok (vs, o1, h1, e1) => linv o1 h1 /\ exists n s1',
      ssteps sg false eat (S n) d1 s1 (map (opt_view L 0) vs ++ oev (ost o1 true)) (k_goto (ost o1 true) (opt_dec d1 o1 h1)) s1' /\
      at_pos L e1 s1' /\ (d_st o1 <> OPayload -> flat s1' = [])
    | Fault => SF sg false eat d1 s1
    | NoFuel => False
    end).
  { intros R HM. eapply HO; [apply le_n|right; auto|rewrite Hfl; exact Hr|discriminate|apply linv_fresh; [reflexivity|exact Hbo]|exact A6|rewrite Hfl; exact HM]. }
  clear HO.
  destruct (HW o0 holder_reset (or_introl eq_refl) eq_refl) as (da & ha & W1 & W2 & W3 & W4 & W5). change (hd_len holder_reset) with 0 in W3.
  assert (Hbr : bytes_ok (b :: r)) by (rewrite C1 in Hok2; apply bytes_ok_app in Hok2; tauto).
  assert (Hbb : b < 256) by (inversion Hbr; assumption).
  assert (MID : forall o1 h1, mrun o0 holder_reset (length raw) rest (Ok (vs, o1, h1, length raw + length rest)%nat) -> midhead o1 ->
    exists n2 s2, ssteps sg false eat n2 d1 s1 (map (opt_view L 0) vs) (opt_dec d1 o1 h1) s2 /\ flat s2 = [] /\ od_bytes o1).
  { intros o1 h1 HM Hb. destruct (Go _ HM) as ((Hi & Hby & _) & n2 & s2 & B1 & B2 & B3).
    assert (Hnp : d_st o1 <> OPayload) by (unfold midhead in Hb; destruct (d_st o1); (discriminate || destruct Hb)).
    assert (Es : ost o1 true = ROptions) by (unfold ost; unfold midhead in Hb; destruct (d_st o1); (reflexivity || destruct Hb)).
    rewrite Es in B1. cbn [oev] in B1. rewrite app_nil_r in B1. change (k_goto ROptions ?x) with x in B1.
    exists (S n2), s2. split; [exact B1|]. split; [exact (B3 Hnp)|exact Hby]. }
  assert (Hend : (length raw + length pre + length (b :: r))%nat = (length raw + length rest)%nat) by (rewrite C1, app_length; lia).
  destruct ((b / 16 =? 15) || (b mod 16 =? 15)) eqn:E15.
  - assert (H15 : b / 16 = 15 \/ b mod 16 = 15).
    { apply orb_prop in E15. destruct E15 as [E|E]; apply N.eqb_eq in E; auto. }
    destruct (head_cut_fault (od_goto FirstByte da) ha (length raw + length pre) b r eq_refl C2 Hbr H15 C3) as (d2 & h2 & m & Q1 & Q2 & Q3 & Q4).
    apply (boundary_run da ha) in Q1; [|assumption]. apply W5 in Q1. cbn [addv] in Q1. rewrite app_nil_r, Hend in Q1.
    destruct (MID _ _ Q1 Q2) as (n2 & s2 & B1 & B2 & B3).
    destruct (gfault_late m (opt_dec d1 d2 h2) eq_refl Q3) as (dm & M1 & MS & M2).
    destruct (late_steps sg eat _ _ _ _ _ _ M1 eq_refl I s2 B2) as (s3 & D1 & D2).
    eapply SF_steps; [exact A1|]. eapply SF_steps; [exact B1|]. eapply SF_steps; [exact D1|]. apply SF_now.
    rewrite (eof_agree sg eat dm s3); [|rewrite MS; exact I|exact D2]. rewrite M2. reflexivity.
  - apply orb_false_iff in E15. destruct E15 as (E1 & E2). apply N.eqb_neq in E1, E2.
    destruct (head_cut_exact (od_goto FirstByte da) ha (length raw + length pre) b r eq_refl C2 Hbr W4 E1 E2 (short_count _ _ E1 E2 Hbb C3))
      as (d2 & m & o & l & Q1 & Q2 & Q3 & Q4 & Q5 & Q6).
    apply (boundary_run da ha) in Q1; [|assumption]. apply W5 in Q1. cbn [addv] in Q1. rewrite app_nil_r, Hend in Q1.
    rewrite W2, W3 in Q1. rewrite W3 in Q6.
    destruct (MID _ _ Q1 Q2) as (n2 & s2 & B1 & B2 & B3).
    set (hx := Holder (cut_num (last_num vs 0) b r) (cut_len (last_vlen vs 0) b)) in *.
    destruct (gpath_run [] m (opt_dec d1 d2 hx) o l eq_refl Q3 Q5 B3 Q6) as (m2 & o3 & M1 & M2 & M3 & M4).
    destruct (late_steps sg eat _ _ _ _ _ _ M4 eq_refl I s2 B2) as (s3 & D1 & D2).
    eapply SR_steps; [exact A1|]. eapply SR_steps; [exact B1|].
    match goal with |- SR _ _ _ _ _ [?e; EOptDone; ECompleted] => change [e; EOptDone; ECompleted] with ([e; EOptDone] ++ [ECompleted]) end.
    eapply SR_steps; [exact D1|]. apply finish_plain; [reflexivity|cbn; rewrite M2; discriminate|exact (opt_mem d1 _ _ A3 M3)|exact D2].
Qed.

(** the decoder of one contiguous datagram *)
Lemma run_inhead : forall chunk pos vs, bytes_ok chunk -> (pos < length chunk)%nat -> parse 0 pos (skipn pos chunk) = (vs, EndInHead) ->
  exists pre b r, cut_after 0 pos (skipn pos chunk) pre b r vs /\
  forall d, k_st d = OptionsStart -> dec_mem d -> forall fuel, (opt_fuel (length chunk - pos) <= fuel)%nat ->
  if (b / 16 =? 15) || (b mod 16 =? 15) then dec_run fuel chunk d pos = Fault
  else exists d1, dec_run fuel chunk d pos = Ok (map (vev 0 chunk) vs ++
         [EOption (cut_num (last_num vs 0) b r) [] (cut_len (last_vlen vs 0) b =? 0); EOptDone; ECompleted], d1, length chunk) /\
       k_st d1 = RDone /\ dec_mem d1.
Proof.
  intros chunk pos vs Hok Hp HP. set (rest := skipn pos chunk) in *.
  assert (Hok2 : bytes_ok rest) by (now apply bytes_ok_skipn).
  destruct (inhead_run (length rest) rest 0 pos vs (le_n _) ltac:(lia) Hok2 HP) as (pre & b & r & HC & HW).
  exists pre, b, r. split; [exact HC|]. intros d Hs Hmem fuel Hf. destruct HC as (C1 & C2 & C3 & C4).
  rewrite run_start_fresh by assumption.
  assert (Hbr : bytes_ok (b :: r)) by (rewrite C1 in Hok2; apply bytes_ok_app in Hok2; tauto).
  assert (Hbb : b < 256) by (inversion Hbr; assumption).
  assert (HLEN : (3 * length (skipn pos chunk) + 3 + N.to_nat 65567 <= fuel)%nat)
    by (rewrite skipn_length; unfold opt_fuel in Hf; lia).
  assert (Hend : (pos + length pre + length (b :: r))%nat = length chunk).
  { assert (X := f_equal (@length N) C1). unfold rest in X. rewrite skipn_length, app_length in X. lia. }
  destruct (HW (od_goto FirstByte (k_od d)) holder_reset (or_introl eq_refl) eq_refl) as (da & ha & W1 & W2 & W3 & W4 & W5).
  change (hd_len holder_reset) with 0 in W3.
  destruct ((b / 16 =? 15) || (b mod 16 =? 15)) eqn:E15.
  - assert (H15 : b / 16 = 15 \/ b mod 16 = 15).
    { apply orb_prop in E15. destruct E15 as [E|E]; apply N.eqb_eq in E; auto. }
    destruct (head_cut_fault (od_goto FirstByte da) ha (pos + length pre) b r eq_refl C2 Hbr H15 C3) as (d2 & h2 & m & Q1 & Q2 & Q3 & Q4).
    apply (boundary_run da ha) in Q1; [|assumption]. apply W5 in Q1. cbn [addv] in Q1. rewrite app_nil_r, Hend in Q1.
    destruct (drained chunk d pos _ _ _ Hok Hs Hmem Hp Q1 Q2) as (mm & A1 & A2 & _).
    destruct (gfault_run chunk m (opt_dec d d2 h2) eq_refl Q3) as (dm & M1 & M2).
    eapply run_fault; [eapply nsteps_app; [exact A2|exact M1]|exact M2|]. lia.
  - apply orb_false_iff in E15. destruct E15 as (E1 & E2). apply N.eqb_neq in E1, E2.
    destruct (head_cut_exact (od_goto FirstByte da) ha (pos + length pre) b r eq_refl C2 Hbr W4 E1 E2 (short_count _ _ E1 E2 Hbb C3))
      as (d2 & m & o & l & Q1 & Q2 & Q3 & Q4 & Q5 & Q6).
    apply (boundary_run da ha) in Q1; [|assumption]. apply W5 in Q1. cbn [addv] in Q1. rewrite app_nil_r, Hend in Q1.
    rewrite W2, W3 in Q1. rewrite W3 in Q6.
    set (hx := Holder (cut_num (last_num vs 0) b r) (cut_len (last_vlen vs 0) b)) in *.
    destruct (drained chunk d pos _ _ _ Hok Hs Hmem Hp Q1 Q2) as (mm & A1 & A2 & (A3 & A3b & A3c)).
    destruct (gpath_run chunk m (opt_dec d d2 hx) o l eq_refl Q3 Q5 A3b Q6) as (m2 & o3 & M1 & M2 & M3 & M4).
    match type of M4 with nsteps _ _ _ _ _ _ _ ?dd _ => exists (k_goto RDone dd) end. split.
    + match goal with |- context [?x ++ [?e; EOptDone; ECompleted]] =>
        change [e; EOptDone; ECompleted] with ([e; EOptDone] ++ [ECompleted]) end. rewrite app_assoc.
      eapply run_pieces; [eapply nsteps_app; [exact A2|exact M4]| |].
      * intros k. apply run_done_end; [reflexivity|]. cbn. rewrite M2. discriminate.
      * lia.
    + split; [reflexivity|]. unfold dec_mem in *. cbn. destruct Hmem as (M5 & M6 & M7). auto.
Qed.

Lemma message_inhead : forall h tok rest vs, bytes_ok (hdr_bytes h ++ tok ++ rest) ->
  h0 h mod 16 = N.of_nat (length tok) -> (length tok <= 8)%nat -> rest <> [] -> parse 0 (4 + length tok) rest = (vs, EndInHead) ->
  let chunk := hdr_bytes h ++ tok ++ rest in
  exists pre b r, cut_after 0 (4 + length tok) rest pre b r vs /\
  forall d fuel, idle d -> (dec_fuel chunk <= fuel)%nat ->
  if (b / 16 =? 15) || (b mod 16 =? 15) then dec_run fuel chunk d 0 = Fault
  else exists d1, dec_run fuel chunk d 0 = Ok ([EHeader h; EToken tok; EOptStart] ++ map (vev 0 chunk) vs ++
         [EOption (cut_num (last_num vs 0) b r) [] (cut_len (last_vlen vs 0) b =? 0); EOptDone; ECompleted], d1, length chunk) /\ idle d1.
Proof.
  intros h tok rest vs Hok Ht H8 Hr HP chunk. fold chunk in Hok. rewrite <- tkl_mod in Ht.
  assert (Hlen := prefix_length h tok rest (length tok) eq_refl). fold chunk in Hlen.
  assert (Hrl : (0 < length rest)%nat) by (destruct rest; [congruence|cbn; lia]).
  assert (Hsk : skipn (4 + length tok) chunk = rest) by (now apply skipn_prefix).
  destruct (run_inhead chunk (4 + length tok)%nat vs Hok ltac:(lia) ltac:(rewrite Hsk; exact HP)) as (pre & b & r & HC & HO). rewrite Hsk in HC.
  exists pre, b, r. split; [exact HC|]. intros d fuel Hd Hf. unfold dec_fuel in Hf.
  destruct (message_start d h tok rest (length tok) fuel Hd Hok Ht eq_refl H8 ltac:(fold chunk; lia)) as (d1 & k & Hk & (P1 & P2 & P3 & P4 & P5) & ER).
  fold chunk in ER, Hk. specialize (HO d1 P1 P3 k ltac:(unfold opt_fuel; lia)).
  destruct ((b / 16 =? 15) || (b mod 16 =? 15)).
  - rewrite ER, HO. reflexivity.
  - destruct HO as (d2 & Y1 & Y2 & Y3). exists d2. rewrite ER, Y1. split; [reflexivity|]. split; [right; assumption|assumption].
Qed.
