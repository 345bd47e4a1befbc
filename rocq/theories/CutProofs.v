(** A message that ends inside an option header: what the end-of-message
    iterations make of the missing bytes. *)
From Verif Require Import Base HeaderModel OptEncModel OptSpec OptDecModel OptDecSpec OptDecProofs DecoderModel DecoderSpec DecoderProofs.
Local Open Scope N_scope.

Lemma last_cons : forall (l : list N) a d, last (a :: l) d = last l a.
Proof.
  induction l as [|x l IH]; intros a d; [reflexivity|].
  transitivity (last (x :: l) d); [reflexivity|]. rewrite !IH. reflexivity.
Qed.

Lemma last_len_cons : forall os l0 num v, last_len l0 ((num, v) :: os) = last_len (len v) os.
Proof. intros. unfold last_len. cbn [map]. apply last_cons. Qed.

Lemma head_split : forall prev num v t, prev <= num -> num < 65536 -> len v < 65536 ->
  exists b r, opt_head (num - prev) (len v) ++ t = b :: r /\ b <> 255 /\
    exists r1, take_ext (b / 16) r = OptDecSpec.Got (num - prev) r1 /\ take_ext (b mod 16) r1 = OptDecSpec.Got (len v) t.
Proof.
  intros prev num v t Hp Hn Hv. unfold opt_head. cbn [app]. do 2 eexists. split; [reflexivity|].
  pose proof (nib_lt (num - prev)) as N1. pose proof (nib_lt (len v)) as N2.
  split; [lia|].
  replace ((nib (num - prev) * 16 + nib (len v)) / 16) with (nib (num - prev)) by lia.
  replace ((nib (num - prev) * 16 + nib (len v)) mod 16) with (nib (len v)) by lia.
  rewrite <- app_assoc. eexists. split; apply take_ext_enc; lia.
Qed.

(** the options that are complete, when at least one byte follows *)
Lemma opts_mrun : forall os prev d h off b t, boundary d -> hd_num h = prev -> opts_ok prev os -> bytes_ok (b :: t) ->
  exists d1 h1, boundary d1 /\ hd_num h1 = last_number prev os /\ hd_len h1 = last_len (hd_len h) os /\
    forall R, mrun d1 h1 (off + length (opts_bytes prev os)) (b :: t) R ->
      mrun d h off (opts_bytes prev os ++ b :: t) (addv (views prev off os) R).
Proof.
  induction os as [|[num v] os IH]; intros prev d h off b t Hd Hn Ho Hok.
  - exists d, h. split; [assumption|]. split; [exact Hn|]. split; [reflexivity|]. intros R HR. cbn [opts_bytes app length views] in *.
    rewrite Nat.add_0_r in HR. rewrite addv_nil. exact HR.
  - pose proof Ho as Ho'. cbn in Ho'. destruct Ho' as (A & B & C & D & E).
    set (hb := opt_head (num - prev) (len v)).
    set (off2 := (off + length hb)%nat).
    assert (Hok2 : bytes_ok (v ++ opts_bytes num os ++ b :: t)).
    { apply bytes_ok_app. split; [assumption|]. apply bytes_ok_app. split; [now apply opts_bytes_ok|assumption]. }
    destruct (head_split prev num v (v ++ opts_bytes num os ++ b :: t) A B C) as (c & r & E1 & E2 & r1 & E3 & E4).
    assert (Hokc : bytes_ok (c :: r)).
    { rewrite <- E1. apply bytes_ok_app. split; [apply opt_head_ok; lia|assumption]. }
    assert (HH := head_run (od_goto FirstByte d) h off c r _ r1 _ _ eq_refl E2 Hokc E3 E4).
    destruct HH as (hb2 & d2 & Q1 & Q2 & Q3 & Q4). rewrite <- E1 in Q1. fold hb in Q1.
    apply app_inv_tail in Q1. subst hb2. rewrite Hn in Q4. replace ((prev + (num - prev)) mod 65536) with num in Q4 by lia.
    fold off2 in Q4.
    assert (Hd2 : d_st d2 <> OPayload) by apply Q3.
    (* after the header and value *)
    assert (HV : exists d4, boundary d4 /\ forall R c s, opts_bytes num os ++ b :: t = c :: s ->
       mrun d4 (Holder num (len v)) (off2 + length v) (c :: s) R ->
       mrun d2 (Holder num (len v)) off2 (v ++ c :: s) (addv [(num, len v, off2)] R)).
    { destruct Q3 as (R1 & R2 & R3 & R4 & R5 & R6 & R7).
      set (x := match v ++ opts_bytes num os ++ b :: t with y :: _ => y | [] => 0 end).
      destruct (R7 x) as (d3 & X1 & X2 & X3).
      assert (ST : forall s R, mrun d3 (Holder num (len v)) off2 (x :: s) R ->
         mrun d2 (Holder num (len v)) off2 (x :: s) (addv [(num, len v, off2)] R)).
      { intros s R HR. eapply (mrun_step' _ _ _ _ _ d3 (Holder num (len v)) false R); [assumption|exact X1| | |].
        + unfold hold_upd. rewrite X2. reflexivity.
        + exact HR.
        + unfold emit. rewrite X2. reflexivity. }
      destruct v as [|v0 v'] eqn:Ev.
      - destruct (start_zero d3 X2 X3) as (d4 & Y1 & Y2). exists d4. split; [assumption|].
        intros R c0 s Es HR. cbn [app length] in *. rewrite Nat.add_0_r in HR.
        assert (Ex : x = c0) by (unfold x; rewrite Es; reflexivity). rewrite Ex in *. apply ST, Y2, HR.
      - rewrite <- Ev in *. destruct (start_pos d3 (len v) X2 X3) as (d4 & Y1 & Y2 & Y3); [rewrite Ev; unfold len; cbn; lia|].
        destruct (value_run_all v d4 (Holder num (len v)) off2 Y1) as (d5 & V1 & V2); [lia|lia|rewrite Ev; discriminate|].
        exists d5. split; [right; exact V1|]. intros R c0 s Es HR.
        assert (Exv : v = x :: v').
        { unfold x. rewrite Ev. reflexivity. }
        rewrite Exv at 2. cbn [app]. apply ST, Y3. change (x :: v' ++ c0 :: s) with ((x :: v') ++ c0 :: s). rewrite <- Exv.
        rewrite <- (addv_nil R). apply (mrun_app _ _ _ _ _ V2 (c0 :: s)); [|exact HR].
        rewrite V1. discriminate. }
    destruct HV as (d4 & Z1 & Z2).
    destruct (IH num d4 (Holder num (len v)) (off2 + length v)%nat b t Z1 eq_refl E Hok) as (d5 & h5 & W1 & W2 & W3 & W4).
    exists d5, h5. split; [assumption|]. rewrite last_number_cons, last_len_cons. split; [assumption|]. split; [assumption|].
    intros R HR. cbn [opts_bytes views]. fold hb. fold off2. rewrite <- !app_assoc.
    assert (HB : hb ++ v ++ opts_bytes num os ++ b :: t = c :: r) by exact E1.
    rewrite HB. apply boundary_run; [assumption|]. rewrite <- HB.
    replace (addv ((num, len v, off2) :: views num (off2 + length v) os) R)
      with (addv [] (addv [(num, len v, off2)] (addv (views num (off2 + length v) os) R))) by (rewrite !addv_app; reflexivity).
    destruct (opts_bytes num os ++ b :: t) as [|c0 s] eqn:Es; [destruct (opts_bytes num os); discriminate|].
    apply (mrun_app _ _ _ _ _ Q4); [assumption|]. apply (Z2 _ c0 s eq_refl). apply W4.
    cbn [opts_bytes] in HR. fold hb in HR. rewrite !app_length in HR.
    unfold off2. replace (off + length hb + length v + length (opts_bytes num os))%nat
      with (off + (length hb + (length v + length (opts_bytes num os))))%nat by lia. exact HR.
Qed.

(** * Iterations at the end of the message, inside a header *)

Definition headst (s : ostate) : Prop :=
  match s with
  | OptionDelta | OptionDeltaDone | OptionLength | OptionLengthDone => True
  | _ => False
  end.

(** zero bytes are fed until the value would start, or until an assertion trips *)
Inductive gpath : nat -> odec -> odec -> Prop :=
| gp_last : forall d o p, od_step 0 d = Ok (o, p) -> d_st o = ValueStart -> gpath 1 d o
| gp_more : forall n d o p o2, od_step 0 d = Ok (o, p) -> headst (d_st o) -> gpath n o o2 -> gpath (S n) d o2.

Inductive gfault : nat -> odec -> Prop :=
| gf_now : forall d, od_step 0 d = Fault -> gfault 0 d
| gf_more : forall n d o p, od_step 0 d = Ok (o, p) -> headst (d_st o) -> gfault n o -> gfault (S n) d.

Lemma notify_head : forall chunk d o p, k_st d = ROptions -> od_step 0 (k_od d) = Ok (o, p) -> headst (d_st o) ->
  dec_notify chunk true d (length chunk) = Ok ([], opt_dec d o (k_hold d), length chunk, true).
Proof.
  intros chunk d o p Hs E Hh.
  assert (Hv : d_st o <> ValueStart) by (intro X; rewrite X in Hh; exact Hh).
  assert (N1 := notify_eof chunk d o p Hs E ltac:(intro X; congruence)).
  assert (Ef : fin_state chunk true o (length chunk) = ROptions).
  { unfold fin_state. destruct (d_st o); try (cbn; rewrite andb_false_r; reflexivity); destruct Hh. }
  unfold opt_out, fin_events, eof_events in N1. rewrite Ef in N1. rewrite N1.
  destruct (d_st o); try destruct Hh; reflexivity.
Qed.

Lemma gfault_run : forall chunk n d, k_st d = ROptions -> gfault n (k_od d) ->
  exists dm, nsteps chunk true stop_done n d (length chunk) [] dm (length chunk) /\
    dec_notify chunk true dm (length chunk) = Fault.
Proof.
  intros chunk n d Hs H. remember (k_od d) as o eqn:Eo. revert d Hs Eo.
  induction H as [o E|n o o1 p E Hh H IH]; intros d Hs Eo; rewrite Eo in E.
  - exists d. split; [constructor|]. unfold dec_notify, dec_iterate, dec_step. rewrite Hs. unfold remainder. rewrite skipn_end.
    unfold od_chunk_last. rewrite E. reflexivity.
  - destruct (IH (opt_dec d o1 (k_hold d)) eq_refl eq_refl) as (dm & A & B). exists dm. split; [|exact B].
    eapply (nsS chunk true stop_done n d (length chunk) [] _ _ true []); [eapply notify_head; eassumption|reflexivity|exact A].
Qed.

(** from the start of the value that is not there *)
Lemma gvalue_run : forall chunk d l, k_st d = ROptions -> d_st (k_od d) = ValueStart -> od_length (k_od d) = Ok l ->
  od_bytes (k_od d) ->
  exists m o, (m <= N.to_nat 65540)%nat /\ d_st o = OptionValueDone /\ od_bytes o /\
    nsteps chunk true stop_done m d (length chunk) [EOptDone] (k_goto OptionsDone (opt_dec d o (k_hold d))) (length chunk).
Proof.
  intros chunk d2 l Hs S2 L2 B2.
  assert (HL : l < 65536) by (destruct B2 as (_ & B2 & _); exact (get_value_bound _ _ _ _ B2 L2)).
  set (o3 := od_goto (if l =? 0 then OptionValueDone else OptionValue) (od_set_vlen l (k_od d2))).
  assert (E3 : od_step 0 (k_od d2) = Ok (o3, false)).
  { unfold od_step. rewrite S2, L2. reflexivity. }
  assert (B3 := od_bytes_step 0 _ _ _ (B2 : od_bytes (k_od d2)) ltac:(unfold byte_ok; lia) E3).
  destruct (N.eqb_spec l 0) as [Z|NZ].
  - assert (S3 : d_st o3 = OptionValueDone) by reflexivity.
    assert (N3 := notify_eof chunk d2 o3 false Hs E3 ltac:(rewrite S3; discriminate)).
    unfold opt_out, fin_events, eof_events in N3. rewrite fin_vd, S3 in N3 by assumption.
    exists 1%nat, o3. split; [lia|]. split; [assumption|]. split; [exact B3|].
    eapply nsteps_one; [exact N3|reflexivity].
  - assert (S3 : d_st o3 = OptionValue) by reflexivity.
    assert (N3 := notify_eof chunk d2 o3 false Hs E3 ltac:(rewrite S3; discriminate)).
    assert (Ef3 : fin_state chunk true o3 (length chunk) = ROptions) by (unfold fin_state; rewrite S3; cbn; now rewrite andb_false_r).
    unfold opt_out, fin_events, eof_events in N3. rewrite Ef3, S3 in N3.
    change (k_goto ROptions ?x) with x in N3.
    destruct (ghost_value chunk (N.to_nat l - 1) (opt_dec d2 o3 (k_hold d2)) eq_refl S3) as (o4 & S4 & B4 & C4).
    { cbn [k_od opt_dec]. unfold o3. rewrite vlen_set. lia. }
    { lia. }
    { exact B3. }
    exists (S (S (N.to_nat l - 1))), o4. split; [lia|]. split; [assumption|]. split; [assumption|].
    eapply (nsS chunk true stop_done _ d2 (length chunk) [] (opt_dec d2 o3 (k_hold d2)) (length chunk) true [EOptDone]);
      [exact N3|reflexivity|exact C4].
Qed.

Lemma gpath_run : forall chunk n d o l, k_st d = ROptions -> gpath n (k_od d) o -> od_length o = Ok l ->
  od_bytes (k_od d) -> (0 < hd_len (k_hold d) -> l <> 0) ->
  exists m o3, (m <= n + N.to_nat 65540)%nat /\ d_st o3 = OptionValueDone /\ od_bytes o3 /\
    nsteps chunk true stop_done m d (length chunk) [EOption (hd_num (k_hold d)) [] (hd_len (k_hold d) =? 0); EOptDone]
      (k_goto OptionsDone (opt_dec d o3 (k_hold d))) (length chunk).
Proof.
  intros chunk n d o l Hs H L Hb Hl. remember (k_od d) as o0 eqn:Eo. revert d Hs Eo Hl.
  induction H as [o0 o p E Hv|n o0 o1 p o E Hh H IH]; intros d Hs Eo Hl; rewrite Eo in E.
  - assert (N2 := notify_eof chunk d o p Hs E ltac:(intros _; eauto)).
    unfold opt_out, fin_events, eof_events in N2. rewrite fin_state_vs, Hv, L, app_nil_r in N2 by assumption.
    change (k_goto ROptions ?x) with x in N2.
    assert (EV : (if 0 <? hd_len (k_hold d) then [EOption (hd_num (k_hold d)) [] (l =? 0)] else [EOption (hd_num (k_hold d)) [] true])
       = [EOption (hd_num (k_hold d)) [] (hd_len (k_hold d) =? 0)]).
    { destruct (N.ltb_spec 0 (hd_len (k_hold d))) as [X|X].
      - replace (l =? 0) with false by (symmetry; now apply N.eqb_neq, Hl).
        replace (hd_len (k_hold d) =? 0) with false by (symmetry; apply N.eqb_neq; lia). reflexivity.
      - replace (hd_len (k_hold d)) with 0 by lia. reflexivity. }
    rewrite EV in N2.
    assert (B2 := od_bytes_step 0 _ _ _ Hb ltac:(unfold byte_ok; lia) ltac:(rewrite Eo; exact E)).
    destruct (gvalue_run chunk (opt_dec d o (k_hold d)) l eq_refl Hv L B2) as (m & o3 & M1 & M2 & M3 & M4).
    exists (S m), o3. split; [lia|]. split; [assumption|]. split; [assumption|].
    eapply (nsS chunk true stop_done m d (length chunk) [_] _ _ true [EOptDone]); [exact N2|reflexivity|exact M4].
  - assert (B2 := od_bytes_step 0 _ _ _ Hb ltac:(unfold byte_ok; lia) ltac:(rewrite Eo; exact E)).
    destruct (IH L B2 (opt_dec d o1 (k_hold d)) eq_refl eq_refl Hl) as (m & o3 & M1 & M2 & M3 & M4).
    exists (S m), o3. split; [lia|]. split; [assumption|]. split; [assumption|].
    eapply (nsS chunk true stop_done m d (length chunk) [] _ _ true); [eapply notify_head; eassumption|reflexivity|exact M4].
Qed.

(** * A header that is cut *)

Ltac gstep := first
  [ eapply gp_last; [solve [odstep]|reflexivity]
  | eapply gp_more; [odstep|exact I|cbn [d_st d_b0 d_b1 d_b2 d_b3 d_pos]; gstep] ].
Ltac gfstep := first
  [ eapply gf_now; solve [odstep]
  | eapply gf_more; [odstep|exact I|cbn [d_st d_b0 d_b1 d_b2 d_b3 d_pos]; gfstep] ].

Lemma head_cut_exact : forall d h off b r,
  d_st d = FirstByte -> b <> 255 -> bytes_ok (b :: r) -> hd_num h < 65536 ->
  b / 16 <> 15 -> b mod 16 <> 15 -> (length r < ext_count (b / 16) + ext_count (b mod 16))%nat ->
  exists d2 n o l,
    mrun d h off (b :: r) (Ok ([], d2, Holder (cut_num (hd_num h) b r) (cut_len (hd_len h) b), off + length (b :: r))%nat) /\
    midhead d2 /\
    gpath n d2 o /\ (n <= 8)%nat /\ od_length o = Ok l /\ (0 < cut_len (hd_len h) b -> l <> 0).
Proof.
  intros [st b0 b1 b2 b3 pos] [hn hl] off b r Hst Hb Hok Hn H15 L15 Hlen. cbn in Hst. subst st. cbn [hd_num hd_len] in *.
  assert (Hlo : b mod 16 < 16) by (apply N.mod_lt; discriminate).
  assert (Hbb : b < 256) by (inversion Hok; assumption).
  assert (Hhi : b / 16 < 16) by lia.
  unfold cut_num, cut_len.
  assert (Ehi : b / 16 < 13 \/ b / 16 = 13 \/ b / 16 = 14) by lia.
  assert (Elo : b mod 16 < 13 \/ b mod 16 = 13 \/ b mod 16 = 14) by lia.
  clear H15 L15. unfold ext_count in Hlen. unfold take_ext.
  destruct Ehi as [Eh|[Eh|Eh]]; destruct Elo as [El|[El|El]];
    revert Hlen; kill_if; intros Hlen;
    (destruct r as [|r1 [|r2 [|r3 [|r4 r]]]]; cbn [length] in Hlen; try lia);
    unfold bytes_ok in Hok; repeat match goal with H : Forall _ (_ :: _) |- _ => inversion H; clear H; subst end; unfold byte_ok in *.
  all: cbn [length]; rewrite ?Nat.add_succ_r, ?Nat.add_0_r.
  all: do 4 eexists; (split; [repeat go; rewrite ?ext16 by assumption; constructor|]).
  all: (split; [exact I|split; [gstep|split; [lia|split; [odstep|]]]]).
  all: intros Hpos; rewrite ?N.lor_0_r, ?N.shiftl_mul_pow2; change (2 ^ 8) with 256; lia.
Qed.

Lemma head_cut_fault : forall d h off b r,
  d_st d = FirstByte -> b <> 255 -> bytes_ok (b :: r) -> b / 16 = 15 \/ b mod 16 = 15 ->
  (take_ext (b / 16) r = Short \/
   exists delta r1, take_ext (b / 16) r = OptDecSpec.Got delta r1 /\ take_ext (b mod 16) r1 = Short) ->
  exists d2 h2 n, mrun d h off (b :: r) (Ok ([], d2, h2, off + length (b :: r))%nat) /\
    midhead d2 /\ gfault n d2 /\ (n <= 8)%nat.
Proof.
  intros [st b0 b1 b2 b3 pos] [hn hl] off b r Hst Hb Hok H15 H. cbn in Hst. subst st.
  assert (Hlo : b mod 16 < 16) by (apply N.mod_lt; discriminate).
  assert (Hbb : b < 256) by (inversion Hok; assumption).
  assert (Hhi : b / 16 < 16) by lia.
  assert (Hlen : (length r < 3)%nat /\ (b / 16 < 13 -> length r = 0%nat) /\ (b / 16 = 13 -> (length r < 2)%nat) /\ (b / 16 = 15 -> length r = 0%nat)).
  { unfold take_ext in H. destruct (N.ltb_spec (b / 16) 13); destruct (N.ltb_spec (b mod 16) 13);
    destruct r as [|r1 [|r2 [|r3 r]]]; cbn [length]; try lia;
    destruct (N.eqb_spec (b / 16) 13); destruct (N.eqb_spec (b / 16) 14); destruct (N.eqb_spec (b mod 16) 13); destruct (N.eqb_spec (b mod 16) 14);
    try lia;
    (destruct H as [H|(dl & x & Hg & H)]; [discriminate|try discriminate; injection Hg as <- <-; try discriminate H]). }
  assert (Cs : (b / 16 = 15 /\ b mod 16 < 13) \/ (b / 16 = 15 /\ 13 <= b mod 16 < 15) \/
     (b mod 16 = 15 /\ b / 16 < 13) \/ (b mod 16 = 15 /\ b / 16 = 13) \/ (b mod 16 = 15 /\ b / 16 = 14)) by lia.
  clear H H15.
  destruct Cs as [(A & B)|[(A & B)|[(A & B)|[(A & B)|(A & B)]]]];
    (destruct r as [|r1 [|r2 [|r3 r]]]; cbn [length] in Hlen; try lia);
    unfold bytes_ok in Hok; repeat match goal with H : Forall _ (_ :: _) |- _ => inversion H; clear H; subst end; unfold byte_ok in *.
  all: cbn [length]; rewrite ?Nat.add_succ_r, ?Nat.add_0_r.
  all: do 3 eexists; (split; [repeat go; constructor|]).
  all: (split; [exact I|split; [gfstep|lia]]).
Qed.

(** the bytes of the chunk, up to where they run out *)
Lemma drained : forall chunk d pos vs o1 h1, bytes_ok chunk -> k_st d = OptionsStart -> dec_mem d -> (pos < length chunk)%nat ->
  mrun (od_goto FirstByte (k_od d)) holder_reset pos (skipn pos chunk) (Ok (vs, o1, h1, length chunk)) -> midhead o1 ->
  exists n, (n < 3 * length (skipn pos chunk) + 4)%nat /\
    nsteps chunk true stop_done n (opt_fresh d) pos (map (vev 0 chunk) vs) (opt_dec d o1 h1) (length chunk) /\ linv o1 h1.
Proof.
  intros chunk d pos vs o1 h1 Hok Hs (M1 & M2 & M3) Hp Hm Hb.
  assert (Hlinv : linv (k_od (opt_fresh d)) (k_hold (opt_fresh d))) by (apply linv_fresh; [reflexivity|exact M3]).
  assert (Hnp : d_st (k_od (opt_fresh d)) <> OPayload) by discriminate.
  apply mrun_drive in Hm; [|discriminate]. unfold od_drive in Hm.
  destruct (drain chunk true stop_done 0 Hok (stop_done_options chunk) _ (opt_fresh d) pos vs o1 h1 (length chunk) eq_refl Hp Hnp Hlinv Hm)
    as (n & es & dm & pm & fs & pos1 & fin & A1 & A2 & A3 & A4 & A5 & A6 & A7 & A8 & A9 & A10).
  cbn in A6. subst pos1. exists (n + 1)%nat. split; [lia|]. split; [|exact A8].
  assert (Ef : fin_state chunk true o1 (length chunk) = ROptions).
  { unfold fin_state. unfold midhead in Hb. destruct (d_st o1); try contradiction; cbn; rewrite andb_false_r; reflexivity. }
  unfold opt_out, fin_events in A5, A10. rewrite Ef in A5, A10. rewrite app_nil_r in A10. rewrite <- A10.
  eapply nsteps_snoc; [exact A2|exact A5|reflexivity].
Qed.

Lemma last_number_bound : forall os prev, prev < 65536 -> opts_ok prev os -> last_number prev os < 65536.
Proof.
  induction os as [|[num v] os IH]; intros prev Hp Ho; [exact Hp|]. rewrite last_number_cons. cbn in Ho.
  destruct Ho as (_ & A & _ & _ & B). now apply IH.
Qed.

Lemma cut_run : forall chunk d pos os b r, bytes_ok chunk -> k_st d = OptionsStart -> dec_mem d ->
  skipn pos chunk = opts_bytes 0 os ++ b :: r -> (pos < length chunk)%nat -> opts_ok 0 os -> b <> 255 ->
  forall fuel, (opt_fuel (length chunk - pos) <= fuel)%nat ->
  (b / 16 <> 15 -> b mod 16 <> 15 -> (length r < ext_count (b / 16) + ext_count (b mod 16))%nat ->
   exists d1, dec_run fuel chunk d pos = Ok (map (vev 0 chunk) (views 0 pos os) ++
      [EOption (cut_num (last_number 0 os) b r) [] (cut_len (last_len 0 os) b =? 0); EOptDone; ECompleted], d1, length chunk) /\
     k_st d1 = RDone /\ dec_mem d1) /\
  (b / 16 = 15 \/ b mod 16 = 15 ->
   (take_ext (b / 16) r = Short \/
    exists delta r1, take_ext (b / 16) r = OptDecSpec.Got delta r1 /\ take_ext (b mod 16) r1 = Short) ->
   dec_run fuel chunk d pos = Fault).
Proof.
  intros chunk d pos os b r Hok Hs Hmem Hsk Hp Ho Hb fuel Hf.
  rewrite run_start_fresh by assumption.
  assert (Hbs : bytes_ok (opts_bytes 0 os ++ b :: r)) by (rewrite <- Hsk; now apply bytes_ok_skipn).
  apply bytes_ok_app in Hbs. destruct Hbs as (_ & Hbr).
  assert (HLEN : (3 * length (skipn pos chunk) + 3 + N.to_nat 65567 <= fuel)%nat)
    by (rewrite skipn_length; unfold opt_fuel in Hf; lia).
  assert (Hend : (pos + length (opts_bytes 0 os) + length (b :: r))%nat = length chunk).
  { pose proof (f_equal (@length N) Hsk) as X. rewrite skipn_length, app_length in X. lia. }
  destruct (opts_mrun os 0 (od_goto FirstByte (k_od d)) holder_reset pos b r (or_introl eq_refl) eq_refl Ho Hbr)
    as (d1 & h1 & W1 & W2 & W3 & W4).
  assert (Hn1 : hd_num h1 < 65536) by (rewrite W2; clear - Ho; apply last_number_bound; [lia|assumption]).
  cbn [hd_len holder_reset] in W3. rewrite <- Hsk in W4.
  split.
  - intros H15 L15 Hcut.
    destruct (head_cut_exact (od_goto FirstByte d1) h1 (pos + length (opts_bytes 0 os)) b r eq_refl Hb Hbr Hn1 H15 L15 Hcut)
      as (d2 & n & o & l & Q1 & Q2 & Q3 & Q4 & Q5 & Q6).
    apply (boundary_run d1 h1) in Q1; [|assumption]. apply W4 in Q1. cbn [addv] in Q1. rewrite app_nil_r, Hend in Q1.
    rewrite W2, W3 in Q1. rewrite W3 in Q6.
    destruct (drained chunk d pos _ _ _ Hok Hs Hmem Hp Q1 Q2) as (m & A1 & A2 & (A3 & A3b & A3c)).
    destruct (gpath_run chunk n (opt_dec d d2 (Holder (cut_num (last_number 0 os) b r) (cut_len (last_len 0 os) b))) o l eq_refl Q3 Q5 A3b Q6) as (m2 & o3 & M1 & M2 & M3 & M4).
    cbn [k_hold opt_dec hd_num hd_len] in M4. fold (opt_dec d d2 (Holder (cut_num (last_number 0 os) b r) (cut_len (last_len 0 os) b))) in M4.
    match type of M4 with nsteps _ _ _ _ _ _ _ ?dd _ => exists (k_goto RDone dd) end. split.
    + match goal with |- context [?x ++ [?e; EOptDone; ECompleted]] =>
        change [e; EOptDone; ECompleted] with ([e; EOptDone] ++ [ECompleted]) end. rewrite app_assoc.
      eapply run_pieces; [eapply nsteps_app; [exact A2|exact M4]| |].
      * intros k. apply run_done_end; [reflexivity|]. cbn. rewrite M2. discriminate.
      * lia.
    + split; [reflexivity|]. unfold dec_mem in *. cbn. destruct Hmem as (M5 & M6 & M7). auto.
  - intros H15 Hsh.
    destruct (head_cut_fault (od_goto FirstByte d1) h1 (pos + length (opts_bytes 0 os)) b r eq_refl Hb Hbr H15 Hsh)
      as (d2 & h2 & n & Q1 & Q2 & Q3 & Q4).
    apply (boundary_run d1 h1) in Q1; [|assumption]. apply W4 in Q1. cbn [addv] in Q1. rewrite app_nil_r, Hend in Q1.
    destruct (drained chunk d pos _ _ _ Hok Hs Hmem Hp Q1 Q2) as (m & A1 & A2 & _).
    destruct (gfault_run chunk n (opt_dec d d2 h2) eq_refl Q3) as (dm & M1 & M2).
    eapply run_fault; [eapply nsteps_app; [exact A2|exact M1]|exact M2|]. lia.
Qed.

Lemma take_ext_reserved : forall b r, b < 256 -> b <> 255 -> b / 16 = 15 \/ b mod 16 = 15 ->
  (take_ext (b / 16) r = Short \/
   exists delta r1, take_ext (b / 16) r = OptDecSpec.Got delta r1 /\ take_ext (b mod 16) r1 = Short) \/
  (forall n prev off, snd (oparse (S n) prev off (b :: r)) = EndReserved /\ fst (oparse (S n) prev off (b :: r)) = []).
Proof.
  intros b r Hb H255 H. cbn [oparse]. replace (b =? 255) with false by (symmetry; now apply N.eqb_neq).
  assert (Hlo : b mod 16 < 16) by (apply N.mod_lt; discriminate).
  destruct (take_ext_cases (b / 16) r) as
    [(N1 & E1)|[(N1 & -> & E1)|[(N1 & a & s & -> & E1)|[(N1 & a & -> & E1)|[(N1 & a & c & s & -> & E1)|(N1 & a & s & -> & E1)]]]]];
    rewrite E1; auto.
  all: assert (L15 : b mod 16 = 15) by (destruct H; lia);
    match goal with |- context [OptDecSpec.Got ?x ?t] => destruct (take_ext_cases (b mod 16) t) as
    [(N2 & E2)|[(N2 & -> & E2)|[(N2 & a' & s' & -> & E2)|[(N2 & a' & -> & E2)|[(N2 & a' & c' & s' & -> & E2)|(N2 & a' & s' & -> & E2)]]]]] end;
    try lia; rewrite E2; [left; right; eauto|right; auto].
Qed.

Lemma cut_header_message : forall h tok os b r d fuel,
  msg_ok (Msg h tok os None) -> bytes_ok (b :: r) -> b <> 255 -> idle d ->
  let bs := hdr_bytes h ++ tok ++ opts_bytes 0 os ++ b :: r in
  (dec_fuel bs <= fuel)%nat ->
  (b / 16 = 15 \/ b mod 16 = 15 -> dec_run fuel bs d 0 = Fault) /\
  (b / 16 <> 15 -> b mod 16 <> 15 -> (length r < ext_count (b / 16) + ext_count (b mod 16))%nat ->
   exists d1, dec_run fuel bs d 0 = Ok ([EHeader h; EToken tok; EOptStart] ++ opt_events os ++
      [EOption (cut_num (last_number 0 os) b r) [] (cut_len (last_len 0 os) b =? 0); EOptDone; ECompleted], d1, length bs) /\ idle d1).
Proof.
  intros h tok os b r d fuel Hm Hbr Hb Hd bs Hf.
  destruct Hm as (A & B & C & D & E & _). cbn [m_hdr m_tok m_opts] in *.
  assert (Hok : bytes_ok bs).
  { unfold bs. apply bytes_ok_app. split; [exact A|]. apply bytes_ok_app. split; [exact D|].
    apply bytes_ok_app. split; [now apply opts_bytes_ok|exact Hbr]. }
  assert (Ht : hdr_tkl h = N.of_nat (length tok)) by (rewrite tkl_mod; exact B).
  assert (Hr : opts_bytes 0 os ++ b :: r <> []) by (destruct (opts_bytes 0 os); discriminate).
  assert (HM := message_run d h tok _ (length tok) fuel Hd Hok Ht eq_refl C Hr Hf). cbn zeta in HM. fold bs in HM.
  rewrite parse_opts in HM; [|assumption|exact Hbr|left; discriminate]. cbn zeta in HM.
  unfold dec_fuel in Hf.
  destruct (message_start d h tok _ (length tok) fuel Hd Hok Ht eq_refl C ltac:(lia)) as (d1 & k & Hk & (P1 & P2 & P3 & P4 & P5) & ER).
  fold bs in ER.
  assert (Hlen := prefix_length h tok (opts_bytes 0 os ++ b :: r) (length tok) eq_refl). fold bs in Hlen, Hf.
  assert (Hrl : (0 < length (opts_bytes 0 os ++ b :: r))%nat) by (rewrite app_length; cbn; lia).
  assert (Hsk : skipn (4 + length tok) bs = opts_bytes 0 os ++ b :: r) by (now apply skipn_prefix).
  assert (HO := cut_run bs d1 (4 + length tok) os b r Hok P1 P3 Hsk ltac:(lia) E Hb k ltac:(unfold opt_fuel; lia)).
  destruct HO as (HO1 & HO2). split.
  - intros H15. assert (Hbb : b < 256) by (inversion Hbr; assumption).
    destruct (take_ext_reserved b r Hbb Hb H15) as [Hsh|Hres].
    + rewrite ER, (HO2 H15 Hsh). reflexivity.
    + unfold parse in HM at 2. cbn [length] in HM. destruct (Hres (length r) (last_number 0 os) (4 + length tok + length (opts_bytes 0 os))%nat) as (X & _).
      rewrite X in HM. exact HM.
  - intros X1 X2 X3. destruct (HO1 X1 X2 X3) as (d2 & Y1 & Y2 & Y3). exists d2. rewrite ER, Y1.
    assert (EV : map (vev 0 bs) (views 0 (4 + length tok) os) = opt_events os).
    { unfold bs. replace (hdr_bytes h ++ tok ++ opts_bytes 0 os ++ b :: r)
        with ((hdr_bytes h ++ tok) ++ opts_bytes 0 os ++ b :: r) by (rewrite <- app_assoc; reflexivity).
      replace (4 + length tok)%nat with (length (hdr_bytes h ++ tok)) by (rewrite app_length; reflexivity). apply views_events. }
    rewrite EV. split; [reflexivity|]. split; [right; assumption|assumption].
Qed.
