(** Proofs about chunked delivery. *)
From Verif Require Import Base HeaderModel HeaderProofs OptEncModel OptSpec OptDecModel OptDecSpec OptDecProofs
  DecoderModel DecoderSpec DecoderProofs ChunkSpec.
Local Open Scope N_scope.

(** * Offsets of views *)

Lemma value_start_keeps : forall b d h d1 h1 p, mstep b d h = Ok (d1, h1, p) -> d_st d1 = ValueStart -> p = false.
Proof.
  intros b d h d1 h1 p H Hv. unfold mstep in H.
  destruct (od_step b d) as [[d2 q]| |] eqn:E; cbn [bind fst snd] in H; try discriminate.
  destruct (hold_upd d2 h) as [h2| |]; cbn [bind] in H; try discriminate.
  injection H as <- <- <-. unfold od_step in E. destruct (d_st d) eqn:Ed.
  - break_step; inversion E; subst; cbn in *; discriminate.
  - break_step; inversion E; subst; cbn in *; discriminate.
  - destruct (od_put_cases (d_pos d) b d) as [(d3 & E2 & E3)|E2]; rewrite E2 in E; cbn [bind] in E; [|discriminate].
    destruct (process_option_size _ _) as [[|]| |]; cbn [bind] in E; try discriminate;
      inversion E; subst; cbn in *; congruence.
  - break_step; inversion E; reflexivity.
  - destruct (od_put_cases (d_pos d) b d) as [(d3 & E2 & E3)|E2]; rewrite E2 in E; cbn [bind] in E; [|discriminate].
    destruct (process_option_size _ _) as [[|]| |]; cbn [bind] in E; try discriminate;
      inversion E; subst; cbn in *; congruence.
  - break_step; inversion E; reflexivity.
  - inversion E; reflexivity.
  - destruct (od_length d); cbn [bind] in E; inversion E; reflexivity.
  - cbn zeta in E. destruct (_ =? 0); inversion E; subst; cbn in *; discriminate.
  - inversion E; reflexivity.
  - inversion E; subst. congruence.
  - discriminate.
Qed.

Lemma mrun_views : forall d h off bs R, mrun d h off bs R ->
  match R with
  | Ok (vs, _, _, _) => Forall (fun v => (off <= snd v < off + length bs)%nat) vs
  | _ => True
  end.
Proof.
  induction 1; try constructor; try exact I.
  destruct R as [[[[vs d2] h2] o2]| |]; cbn [addv]; auto.
  apply Forall_app. split.
  - unfold emit. destruct (d_st d1) eqn:E; constructor; [|constructor].
    rewrite (value_start_keeps _ _ _ _ _ _ H0 E). cbn. lia.
  - eapply Forall_impl; [|exact IHmrun]. intros v Hv. cbn beta in *. destruct p; cbn [adv rest length] in *; lia.
Qed.

(** * The chunk driver without fuel *)

Inductive crun : list (list N) -> dec -> nat -> list event -> dec -> Prop :=
| cr_final : forall c d pos n es d1 p1, (forall k, dec_run (n + k) c d pos = Ok (es, d1, p1)) -> crun [c] d pos es d1
| cr_chunk : forall c r d pos n es d1 fs d2, r <> [] ->
    (forall k, dec_drain (n + k) c false d pos = Ok (es, d1, length c)) ->
    crun r d1 0 fs d2 -> crun (c :: r) d pos (es ++ fs) d2.

Definition isnil (r : list (list N)) : bool := match r with [] => true | _ => false end.
Definition stop_of (c : list N) (r : list (list N)) : dec -> nat -> bool :=
  match r with [] => stop_done | _ => stop_end c end.

Lemma crun_steps : forall c r n d pos es d1 p1, nsteps c (isnil r) (stop_of c r) n d pos es d1 p1 ->
  forall fs d2, crun (c :: r) d1 p1 fs d2 -> crun (c :: r) d pos (es ++ fs) d2.
Proof.
  intros c r n d pos es d1 p1 H fs d2 HC. inversion HC; subst; cbn [isnil stop_of] in H.
  - eapply (cr_final _ _ _ (n + n0)). intros k. match goal with X : forall k, dec_run _ _ _ _ = _ |- _ => rewrite <- Nat.add_assoc, (run_steps _ _ _ _ _ _ _ H), X end. reflexivity.
  - rewrite app_assoc. eapply (cr_chunk _ _ _ _ (n + n0)); [assumption| |eassumption].
    intros k. destruct r as [|x y]; [congruence|]. match goal with X : forall k, dec_drain _ _ _ _ _ = _ |- _ => rewrite <- Nat.add_assoc, (drain_steps _ _ _ _ _ _ _ _ H), X end. reflexivity.
Qed.

Lemma crun_end : forall c r d pos es d1 fin, r <> [] -> dec_notify c false d pos = Ok (es, d1, length c, fin) ->
  forall fs d2, crun r d1 0 fs d2 -> crun (c :: r) d pos (es ++ fs) d2.
Proof.
  intros c r d pos es d1 fin Hr H fs d2 HC. eapply (cr_chunk _ _ _ _ 1); [assumption| |exact HC].
  intros k. eapply drain_last. exact H.
Qed.

Lemma crun_chunks : forall cs final d es d1, crun (cs ++ [final]) d 0 es d1 ->
  exists F, forall fuel, (F <= fuel)%nat -> dec_chunks fuel cs final d = Ok (es, d1).
Proof.
  induction cs as [|c cs IH]; intros final d es d1 H; cbn [app] in H.
  - inversion H; subst; [|congruence]. exists n. intros fuel Hf. cbn [dec_chunks].
    replace fuel with (n + (fuel - n))%nat by lia. match goal with X : forall k, dec_run _ _ _ _ = _ |- _ => rewrite X end. reflexivity.
  - inversion H; subst.
    + destruct cs; discriminate.
    + match goal with X : crun (cs ++ _) _ _ _ _ |- _ => destruct (IH _ _ _ _ X) as (F & HF) end. exists (n + F)%nat. intros fuel Hf. cbn [dec_chunks].
      replace fuel with (n + (fuel - n))%nat at 1 by lia. match goal with X : forall k, dec_drain _ _ _ _ _ = _ |- _ => rewrite X end. cbn [bind]. rewrite HF by lia. reflexivity.
Qed.

(** a run that ends with the decoder between messages *)
Definition CR (L : list (list N)) (d : dec) (pos : nat) (es : list event) : Prop :=
  exists d2, crun L d pos es d2 /\ k_st d2 = RDone.

Lemma CR_steps : forall c r n d pos es d1 p1, nsteps c (isnil r) (stop_of c r) n d pos es d1 p1 ->
  forall fs, CR (c :: r) d1 p1 fs -> CR (c :: r) d pos (es ++ fs).
Proof. intros c r n d pos es d1 p1 H fs (d2 & A & B). exists d2. split; [eapply crun_steps; eassumption|assumption]. Qed.

Lemma CR_end : forall c r d pos es d1 fin, r <> [] -> dec_notify c false d pos = Ok (es, d1, length c, fin) ->
  forall fs, CR r d1 0 fs -> CR (c :: r) d pos (es ++ fs).
Proof. intros c r d pos es d1 fin Hr H fs (d2 & A & B). exists d2. split; [eapply crun_end; eassumption|assumption]. Qed.

Lemma CR_step : forall c r d pos es d1 p1 fin, dec_notify c (isnil r) d pos = Ok (es, d1, p1, fin) ->
  stop_of c r d1 p1 = false -> forall fs, CR (c :: r) d1 p1 fs -> CR (c :: r) d pos (es ++ fs).
Proof. intros. eapply CR_steps; [eapply nsteps_one; eassumption|assumption]. Qed.

Lemma stop_of_false : forall c r d p, k_st d <> RDone -> (p < length c)%nat -> stop_of c r d p = false.
Proof.
  intros c r d p Hd Hp. unfold stop_of, stop_done, stop_end. destruct r.
  - destruct (rstate_eqb (k_st d) RDone) eqn:E; [|reflexivity]. apply rstate_eqb_eq in E. congruence.
  - apply Nat.eqb_neq. lia.
Qed.

(** * Payload *)

Definition filled (L : list (list N)) : Prop := Forall (fun c : list N => c <> []) L.

Lemma notify_payload : forall c last d pos, k_st d = RPayload ->
  dec_notify c last d pos =
  Ok (if last then [] else [EPayload [] false], k_goto (if last then PayloadDone else RPayload) d, length c, true).
Proof.
  intros c last d pos Hs. unfold dec_notify, dec_iterate, dec_step. rewrite Hs. cbn [bind].
  rewrite Nat.leb_refl, Nat.eqb_refl. cbn [bind]. destruct last; cbn [dec_events k_st k_goto bind]; [reflexivity|].
  unfold remainder. rewrite skipn_end. reflexivity.
Qed.

Lemma payload_last : forall c d pos, k_st d = RPayload -> CR [c] d pos [ECompleted].
Proof.
  intros c d pos Hs. exists (k_goto RDone (k_goto PayloadDone d)). split; [|reflexivity].
  eapply (cr_final _ _ _ 2). intros k. cbn [Nat.add dec_run].
  rewrite notify_payload by assumption. cbn [bind k_st k_goto rstate_eqb app].
  unfold dec_notify, dec_iterate, dec_step. cbn [k_st k_goto bind]. rewrite Nat.leb_refl. reflexivity.
Qed.

Lemma payload_more : forall L d, L <> [] -> k_st d = RPayload ->
  CR L d 0 (map (fun _ => EPayload [] false) (removelast L) ++ [ECompleted]).
Proof.
  induction L as [|c r IH]; intros d HL Hs; [congruence|].
  destruct r as [|c2 r]; [cbn [removelast map app]; now apply payload_last|].
  cbn [removelast]. cbn [map app].
  eapply (CR_end c (c2 :: r) d 0 [EPayload [] false]); [discriminate|apply (notify_payload c false); assumption|].
  apply (IH (k_goto RPayload d)); [discriminate|reflexivity].
Qed.

Lemma notify_marker : forall c last d pos, k_st d = OptionsDone -> d_st (k_od d) = OPayload -> (pos <= length c)%nat ->
  dec_notify c last d pos = Ok ([EPayload (skipn pos c) last], k_goto RPayload d, pos, Nat.eqb pos (length c)).
Proof.
  intros c last d pos Hs Ho Hp. unfold dec_notify, dec_iterate, dec_step. rewrite Hs, Ho. cbn [ostate_eqb bind].
  replace (pos <=? length c)%nat with true by (symmetry; now apply Nat.leb_le). reflexivity.
Qed.

Lemma payload_first : forall c r d pos, k_st d = OptionsDone -> d_st (k_od d) = OPayload -> (pos < length c)%nat ->
  CR (c :: r) d pos (pay_from (c :: r) pos ++ [ECompleted]).
Proof.
  intros c r d pos Hs Ho Hp. cbn [pay_from]. replace (pos <? length c)%nat with true by (symmetry; now apply Nat.ltb_lt).
  destruct r as [|c2 r].
  - eapply (CR_step c [] d pos [EPayload (skipn pos c) true]); [apply notify_marker; (assumption || lia)|reflexivity|].
    now apply payload_last.
  - change ((EPayload (skipn pos c) false :: EPayload [] false :: map (fun _ => EPayload [] false) (removelast (c2 :: r))) ++ [ECompleted])
      with ([EPayload (skipn pos c) false] ++ [EPayload [] false] ++ map (fun _ => EPayload [] false) (removelast (c2 :: r)) ++ [ECompleted]).
    eapply (CR_step c (c2 :: r)); [apply notify_marker; (assumption || lia)|apply stop_of_false; [discriminate|assumption]|].
    eapply CR_end; [discriminate|apply (notify_payload c false); reflexivity|].
    apply payload_more; [discriminate|reflexivity].
Qed.

(** marker seen at [pos] of the current chunk, possibly its end *)
Lemma payload_here : forall c r d pos, filled r -> k_st d = OptionsDone -> d_st (k_od d) = OPayload -> (pos < length c \/ r = [] /\ pos = length c)%nat ->
  CR (c :: r) d pos (pay_from (c :: r) pos ++ [ECompleted]).
Proof.
  intros c r d pos Hf Hs Ho [Hp|(-> & ->)]; [now apply payload_first|].
  cbn [pay_from]. replace (length c <? length c)%nat with false by (symmetry; apply Nat.ltb_irrefl).
  pose proof (notify_marker c true d (length c) Hs Ho (le_n _)) as N1. rewrite skipn_end in N1.
  eapply (CR_step c [] d (length c) [EPayload [] true]); [exact N1|reflexivity|apply payload_last; reflexivity].
Qed.

(** * Options *)

Definition plain (e : oend) : Prop := match e with EndReserved | EndInHead => False | _ => True end.

Lemma opt_view_here : forall c r q v, (q <= snd v < q + length c)%nat -> opt_view (c :: r) q v = vev q c v.
Proof.
  intros c r q [[num l] o] H. cbn [snd] in H. unfold opt_view, vev. cbn [opt_at].
  replace (o - q <? length c)%nat with true by (symmetry; apply Nat.ltb_lt; lia).
  rewrite skipn_length. reflexivity.
Qed.

Lemma opt_view_later : forall c r q v, (q + length c <= snd v)%nat -> opt_view (c :: r) q v = opt_view r (q + length c) v.
Proof.
  intros c r q [[num l] o] H. cbn [snd] in H. unfold opt_view. cbn [opt_at].
  replace (o - q <? length c)%nat with false by (symmetry; apply Nat.ltb_ge; lia).
  f_equal. lia.
Qed.

Lemma chunk_tail_later : forall c r q e, (forall p, e = EndMarker p -> (q + length c <= p)%nat) ->
  chunk_tail (c :: r) q e = chunk_tail r (q + length c) e.
Proof.
  intros c r q e H. destruct e; try reflexivity. cbn [chunk_tail pay_from].
  specialize (H _ eq_refl). replace (at_ - q <? length c)%nat with false by (symmetry; apply Nat.ltb_ge; lia).
  do 2 f_equal. lia.
Qed.

(** the final chunk, from any point of the options *)
Lemma options_finish : forall chunk c0 d pos vs o1 h1 e1 e, bytes_ok chunk -> k_st d = ROptions ->
  (pos < length chunk)%nat -> d_st (k_od d) <> OPayload -> linv (k_od d) (k_hold d) ->
  mrun (k_od d) (k_hold d) (c0 + pos) (skipn pos chunk) (Ok (vs, o1, h1, e1)) ->
  at_end e o1 h1 (c0 + length chunk) e1 -> plain e ->
  CR [chunk] d pos (map (vev c0 chunk) vs ++ chunk_tail [chunk] c0 e ++ [ECompleted]).
Proof.
  intros chunk c0 d pos vs o1 h1 e1 e Hok Hs Hp Hnp Hlinv Hm He Hpl.
  assert (Hm' := Hm). apply mrun_drive in Hm; [|assumption]. unfold od_drive in Hm.
  destruct (drain chunk true stop_done c0 Hok (stop_done_options chunk) _ d pos vs o1 h1 e1 Hs Hp Hnp Hlinv Hm)
    as (n & es & dm & pm & fs & pos1 & fin & A1 & A2 & A3 & A4 & A5 & A6 & A7 & A8 & A9 & A10). clear Hm.
  assert (HD : nsteps chunk true stop_done (n + 1) d pos (map (vev c0 chunk) vs ++ fin_events chunk true o1 pos1)
        (opt_out chunk true d o1 h1 pos1) pos1).
  { rewrite <- A10. eapply nsteps_snoc; [exact A2|exact A5|].
    unfold stop_done, opt_out. cbn [k_st k_goto opt_dec].
    destruct (fin_state_cases chunk true o1 pos1) as [-> | ->]; reflexivity. }
  destruct A8 as (A8 & A8b & A8c).
  clear A1 A2 A3 A4 A5 A10 es fs fin dm pm.
  assert (Hstep : forall dd p fs, CR [chunk] dd p fs -> forall es0 m, nsteps chunk true stop_done m d pos es0 dd p -> CR [chunk] d pos (es0 ++ fs)).
  { intros dd p fs HC es0 m HN. eapply (CR_steps chunk []); [exact HN|exact HC]. }
  assert (HEND : forall dd, k_st dd = OptionsDone -> d_st (k_od dd) <> OPayload -> CR [chunk] dd (length chunk) [ECompleted]).
  { intros dd H1 H2. exists (k_goto RDone dd). split; [|reflexivity]. eapply (cr_final _ _ _ 1). intros k. now apply run_done_end. }
  destruct e; cbn [at_end] in He; try destruct Hpl.
  - (* EndClean *)
    destruct He as (Hb & He). assert (pos1 = length chunk) by lia. subst pos1.
    assert (Hv : d_st o1 = OptionValueDone).
    { destruct Hb as [Hb|Hb]; [|exact Hb]. exfalso. apply (mrun_not_first _ _ _ _ _ Hm'); [lia|exact Hb]. }
    unfold opt_out, fin_events in HD. rewrite fin_vd in HD by assumption. cbn [chunk_tail]. rewrite app_assoc.
    eapply Hstep; [|exact HD]. apply HEND; [reflexivity|]. cbn. rewrite Hv. discriminate.
  - (* EndMarker *)
    destruct He as (Hb & <-). subst e1.
    assert (Ef : fin_state chunk true o1 pos1 = OptionsDone) by (unfold fin_state; rewrite Hb; reflexivity).
    unfold opt_out, fin_events in HD. rewrite Ef in HD. cbn [chunk_tail].
    replace (c0 + pos1 - c0)%nat with pos1 by lia.
    change (EOptDone :: pay_from [chunk] pos1) with ([EOptDone] ++ pay_from [chunk] pos1). rewrite <- (app_assoc [EOptDone]), app_assoc.
    eapply Hstep; [|exact HD]. apply payload_here; [constructor|reflexivity|exact Hb|].
    destruct (Nat.eq_dec pos1 (length chunk)); [right; auto|left; lia].
  - (* EndAfterHead *)
    destruct He as (Hb & Hh & He). assert (pos1 = length chunk) by lia. subst pos1 h1. clear He.
    destruct Hb as (Np & _ & Nv & _ & _ & _ & Hst). destruct (Hst 0) as (o2 & E2 & S2 & L2).
    assert (Ef : fin_state chunk true o1 (length chunk) = ROptions).
    { unfold fin_state. destruct (d_st o1); try congruence; cbn; rewrite andb_false_r; reflexivity. }
    unfold opt_out, fin_events in HD. rewrite Ef, app_nil_r in HD.
    change (k_goto ROptions (opt_dec d o1 (Holder num l))) with (opt_dec d o1 (Holder num l)) in HD.
    assert (N2 := notify_eof chunk (opt_dec d o1 (Holder num l)) o2 false eq_refl E2 ltac:(intros _; eauto)).
    unfold opt_out, fin_events, eof_events in N2. rewrite fin_state_vs, S2, L2, app_nil_r in N2 by assumption.
    cbn [k_hold opt_dec hd_len hd_num] in N2.
    change (k_goto ROptions ?x) with x in N2.
    assert (EV : (if 0 <? l then [EOption num [] (l =? 0)] else [EOption num [] true]) = [EOption num [] (l =? 0)]).
    { destruct (N.ltb_spec 0 l); [reflexivity|]. replace l with 0 by lia. reflexivity. }
    rewrite EV in N2. clear EV.
    assert (B2 := od_bytes_step 0 _ _ _ A8b ltac:(unfold byte_ok; lia) E2).
    assert (HL : l < 65536) by (destruct B2 as (_ & B2 & _); exact (get_value_bound _ _ _ _ B2 L2)).
    set (d2 := opt_dec (opt_dec d o1 (Holder num l)) o2 (Holder num l)) in *.
    assert (HE : exists m o3, d_st o3 = OptionValueDone /\
      nsteps chunk true stop_done m d2 (length chunk) [EOptDone] (k_goto OptionsDone (opt_dec d2 o3 (k_hold d2))) (length chunk)).
    { set (o3 := od_goto (if l =? 0 then OptionValueDone else OptionValue) (od_set_vlen l o2)).
      assert (E3 : od_step 0 (k_od d2) = Ok (o3, false)).
      { cbn [k_od d2 opt_dec]. unfold od_step. rewrite S2, L2. reflexivity. }
      assert (B3 := od_bytes_step 0 _ _ _ (B2 : od_bytes (k_od d2)) ltac:(unfold byte_ok; lia) E3).
      destruct (N.eqb_spec l 0) as [Z|NZ].
      - assert (S3 : d_st o3 = OptionValueDone) by reflexivity.
        assert (N3 := notify_eof chunk d2 o3 false eq_refl E3 ltac:(rewrite S3; discriminate)).
        unfold opt_out, fin_events, eof_events in N3. rewrite fin_vd, S3 in N3 by assumption.
        exists 1%nat, o3. split; [assumption|].
        eapply nsteps_one; [exact N3|reflexivity].
      - assert (S3 : d_st o3 = OptionValue) by reflexivity.
        assert (N3 := notify_eof chunk d2 o3 false eq_refl E3 ltac:(rewrite S3; discriminate)).
        assert (Ef3 : fin_state chunk true o3 (length chunk) = ROptions) by (unfold fin_state; rewrite S3; cbn; now rewrite andb_false_r).
        unfold opt_out, fin_events, eof_events in N3. rewrite Ef3, S3 in N3.
        change (k_goto ROptions ?x) with x in N3.
        destruct (ghost_value chunk (N.to_nat l - 1) (opt_dec d2 o3 (k_hold d2)) eq_refl S3) as (o4 & S4 & B4 & C4).
        { cbn [k_od opt_dec]. unfold o3. rewrite vlen_set. lia. }
        { lia. }
        { exact B3. }
        exists (S (S (N.to_nat l - 1))), o4. split; [assumption|].
        eapply (nsS chunk true stop_done _ d2 (length chunk) [] (opt_dec d2 o3 (k_hold d2)) (length chunk) true [EOptDone]);
          [exact N3|reflexivity|exact C4]. }
    destruct HE as (m & o3 & C2 & C4). cbn [chunk_tail].
    replace (map (vev c0 chunk) vs ++ [EOption num [] (l =? 0); EOptDone] ++ [ECompleted])
      with (((map (vev c0 chunk) vs ++ [EOption num [] (l =? 0)]) ++ [EOptDone]) ++ [ECompleted]) by (rewrite <- !app_assoc; reflexivity).
    eapply Hstep; [|eapply nsteps_app; [eapply nsteps_snoc; [exact HD|exact N2|reflexivity]|exact C4]].
    apply HEND; [reflexivity|]. cbn. rewrite C2. discriminate.
  - (* EndInValue *)
    destruct He as (Hb & Hv & Hk & He). assert (pos1 = length chunk) by lia. subst pos1. clear He.
    assert (Ef : fin_state chunk true o1 (length chunk) = ROptions).
    { unfold fin_state. rewrite Hb. cbn. now rewrite andb_false_r. }
    unfold opt_out, fin_events in HD. rewrite Ef, app_nil_r in HD.
    change (k_goto ROptions (opt_dec d o1 h1)) with (opt_dec d o1 h1) in HD.
    destruct (ghost_value chunk (N.to_nat missing - 1) (opt_dec d o1 h1) eq_refl Hb) as (o4 & S4 & B4 & C4).
    { cbn [k_od opt_dec]. rewrite Hv. lia. }
    { lia. }
    { exact A8b. }
    cbn [chunk_tail]. rewrite app_assoc.
    eapply Hstep; [|eapply nsteps_app; [exact HD|exact C4]].
    apply HEND; [reflexivity|]. cbn. rewrite S4. discriminate.
Qed.

Lemma options_chunks : forall r c c0 d pos vs o1 h1 e1 e, filled r -> bytes_ok (c ++ concat r) -> k_st d = ROptions ->
  (pos < length c)%nat -> d_st (k_od d) <> OPayload -> linv (k_od d) (k_hold d) ->
  mrun (k_od d) (k_hold d) (c0 + pos) (skipn pos c ++ concat r) (Ok (vs, o1, h1, e1)) ->
  at_end e o1 h1 (c0 + length c + length (concat r)) e1 -> plain e ->
  CR (c :: r) d pos (map (opt_view (c :: r) c0) vs ++ chunk_tail (c :: r) c0 e ++ [ECompleted]).
Proof.
  induction r as [|c2 r IH]; intros c c0 d pos vs o1 h1 e1 e Hf Hok Hs Hp Hnp Hl Hm He Hpl.
  - cbn [concat] in *. rewrite app_nil_r in Hm. rewrite app_nil_r in Hok. cbn [length] in He. rewrite Nat.add_0_r in He.
    assert (HV := mrun_views _ _ _ _ _ Hm). cbn beta iota in HV.
    replace (map (opt_view [c] c0) vs) with (map (vev c0 c) vs).
    2:{ apply map_ext_Forall. eapply Forall_impl; [|exact HV]. intros v Hv. cbn beta in Hv. rewrite skipn_length in Hv.
        symmetry. apply opt_view_here. lia. }
    eapply options_finish; eassumption.
  - apply bytes_ok_app in Hok. destruct Hok as (Hokc & Hokr).
    assert (H1 := od_drive_run (k_od d) (k_hold d) (c0 + pos) (skipn pos c) Hnp).
    destruct (od_drive (k_od d) (k_hold d) (c0 + pos) (skipn pos c)) as [[[[vs1 oa] ha] ea]| |] eqn:E1.
    2:{ pose proof (mrun_app _ _ _ _ _ H1 (concat (c2 :: r))) as X. cbn beta iota in X. pose proof (mrun_det _ _ _ _ _ Hm _ X). discriminate. }
    2:{ exfalso. exact (mrun_nofuel _ _ _ _ _ H1 eq_refl). }
    assert (HV1 := mrun_views _ _ _ _ _ H1). cbn beta iota in HV1. rewrite skipn_length in HV1.
    replace (c0 + pos + (length c - pos))%nat with (c0 + length c)%nat in HV1 by lia.
    unfold od_drive in E1.
    destruct (drain c false (stop_end c) c0 Hokc (stop_end_options c) _ d pos vs1 oa ha ea Hs Hp Hnp Hl E1)
      as (n & es & dm & pm & fs & pos1 & fin & A1 & A2 & A3 & A4 & A5 & A6 & A7 & A8 & A9 & A10).
    assert (EV1 : map (opt_view (c :: c2 :: r) c0) vs1 = map (vev c0 c) vs1).
    { apply map_ext_Forall. eapply Forall_impl; [|exact HV1]. intros v Hv. apply opt_view_here. cbn beta in Hv. lia. }
    destruct (ostate_eqb (d_st oa) OPayload) eqn:Eo.
    + (* marker in this chunk *)
      apply ostate_eqb_eq in Eo.
      pose proof (mrun_det _ _ _ _ _ Hm _ (mrun_app_pay _ _ _ _ _ _ _ _ H1 Eo _)) as X. injection X as -> -> -> ->.
      assert (Hpe : e = EndMarker ea).
      { destruct e; cbn [at_end] in He; try destruct Hpl; try tauto.
        - destruct He as ([He|He] & _); congruence.
        - destruct He as (_ & ->). reflexivity.
        - destruct He as ((He & _) & _). congruence.
        - destruct He as (He & _). congruence. }
      subst e ea. cbn [chunk_tail]. replace (c0 + pos1 - c0)%nat with pos1 by lia.
      assert (Ef : fin_state c false oa pos1 = OptionsDone) by (unfold fin_state; rewrite Eo; reflexivity).
      unfold opt_out, fin_events in A5, A10. rewrite Ef in A5, A10. rewrite EV1.
      replace (map (vev c0 c) vs1 ++ (EOptDone :: pay_from (c :: c2 :: r) pos1) ++ [ECompleted])
        with ((map (vev c0 c) vs1 ++ [EOptDone]) ++ pay_from (c :: c2 :: r) pos1 ++ [ECompleted]) by (rewrite <- !app_assoc; reflexivity).
      rewrite <- A10, <- app_assoc. eapply (CR_steps c (c2 :: r)); [exact A2|].
      destruct (Nat.eq_dec pos1 (length c)) as [->|Ne].
      * eapply CR_end; [discriminate|exact A5|].
        cbn [pay_from]. replace (length c <? length c)%nat with false by (symmetry; apply Nat.ltb_irrefl). rewrite Nat.sub_diag.
        inversion Hf as [|? ? Hc2 Hf2]; subst.
        apply (payload_here c2 r); [assumption|reflexivity|exact Eo|]. left. destruct c2; [congruence|cbn; lia].
      * eapply (CR_step c (c2 :: r)); [exact A5|apply stop_of_false; [discriminate|lia]|].
        apply payload_here; [assumption|reflexivity|exact Eo|left; lia].
    + (* options go on in the next chunk *)
      assert (Nq : d_st oa <> OPayload) by (intro X; rewrite X in Eo; discriminate).
      assert (pos1 = length c) by (destruct A9; [congruence|assumption]). subst pos1 ea.
      assert (H2 := od_drive_run oa ha (c0 + length c) (concat (c2 :: r)) Nq).
      pose proof (mrun_app _ _ _ _ _ H1 (concat (c2 :: r))) as X. cbn beta iota in X.
      pose proof (mrun_det _ _ _ _ _ Hm _ (X Nq _ H2)) as Y. clear X.
      destruct (od_drive oa ha (c0 + length c) (concat (c2 :: r))) as [[[[vs2 ob] hb] eb]| |]; cbn [addv] in Y; try discriminate.
      injection Y as -> -> -> ->.
      assert (HV2 := mrun_views _ _ _ _ _ H2). cbn beta iota in HV2.
      assert (Ef : fin_state c false oa (length c) = ROptions).
      { unfold fin_state. rewrite Eo. rewrite andb_false_r. reflexivity. }
      unfold opt_out, fin_events in A5, A10. rewrite Ef in A5, A10. rewrite app_nil_r in A10.
      change (k_goto ROptions (opt_dec d oa ha)) with (opt_dec d oa ha) in A5.
      unfold pview, oview in *. rewrite map_app, EV1, <- A10.
      assert (EV2 : map (opt_view (c :: c2 :: r) c0) vs2 = map (opt_view (c2 :: r) (c0 + length c)) vs2).
      { apply map_ext_Forall. eapply Forall_impl; [|exact HV2]. intros v Hv. apply opt_view_later. cbn beta in Hv. lia. }
      unfold pview, oview in *. rewrite EV2.
      rewrite chunk_tail_later.
      2:{ intros p ->. cbn [at_end] in He. destruct He as (_ & <-).
          pose proof (mrun_end _ _ _ _ _ H2) as Z. cbn beta iota in Z. lia. }
      rewrite <- !app_assoc. eapply (CR_steps c (c2 :: r)); [exact A2|].
      eapply CR_end; [discriminate|exact A5|].
      inversion Hf as [|? ? Hc2 Hf2]; subst.
      eapply (IH c2 (c0 + length c)%nat (opt_dec d oa ha) 0%nat vs2 ob hb eb e); try assumption; try reflexivity.
      * destruct c2; [congruence|cbn; lia].
      * cbn [k_od k_hold opt_dec skipn]. rewrite Nat.add_0_r. exact H2.
      * cbn [concat] in He. rewrite app_length in He. rewrite Nat.add_assoc in He. exact He.
Qed.

(** * Header and token in pieces *)

(** the report [F L q] of chunks [L] that start at stream offset [q] does not
    mention anything before [lim] *)
Definition shiftable (F : list (list N) -> nat -> list event) (lim : nat) : Prop :=
  forall c r q, r <> [] -> (q + length c <= lim)%nat -> F (c :: r) q = F r (q + length c)%nat.

Lemma CR_move : forall F lim c r d pos q es d1 p1 fin, shiftable F lim -> filled r -> bytes_ok (c ++ concat r) ->
  dec_notify c (isnil r) d pos = Ok (es, d1, p1, fin) -> (p1 <= length c)%nat -> k_st d1 <> RDone ->
  (q + p1 <= lim)%nat -> skipn p1 c ++ concat r <> [] ->
  (forall c' r' p' q', (p' < length c')%nat -> filled r' -> bytes_ok (c' ++ concat r') ->
     skipn p' c' ++ concat r' = skipn p1 c ++ concat r -> (q' + p' = q + p1)%nat ->
     CR (c' :: r') d1 p' (F (c' :: r') q')) ->
  CR (c :: r) d pos (es ++ F (c :: r) q).
Proof.
  intros F lim c r d pos q es d1 p1 fin HS Hf Hok HN Hp Hd Hq Hne HK.
  destruct (Nat.eq_dec p1 (length c)) as [->|Ne].
  - rewrite skipn_end in *. cbn [app] in *. destruct r as [|c2 r]; [cbn in Hne; congruence|].
    inversion Hf as [|? ? Hc2 Hf2]; subst. cbn [isnil] in HN.
    eapply CR_end; [discriminate|exact HN|]. rewrite HS; [|discriminate|lia].
    apply HK; [destruct c2; [congruence|cbn; lia]|assumption| |reflexivity|lia].
    apply bytes_ok_app in Hok. apply Hok.
  - eapply CR_step; [exact HN|apply stop_of_false; [assumption|lia]|].
    apply HK; auto. lia.
Qed.

Lemma CR_fresh : forall c r d pos es, k_st d = OptionsStart -> (pos < length c)%nat ->
  CR (c :: r) (opt_fresh d) pos es -> CR (c :: r) d pos es.
Proof.
  intros c r d pos es Hs Hp (d2 & A & B). exists d2. split; [|assumption]. inversion A; subst.
  - eapply (cr_final _ _ _ n). intros k. rewrite run_start_fresh by assumption. auto.
  - eapply (cr_chunk _ _ _ _ n); [assumption| |eassumption]. intros k. rewrite drain_start_fresh by assumption. auto.
Qed.

Definition opt_report (vs : list pview) (e : oend) (L : list (list N)) (q : nat) : list event :=
  map (opt_view L q) vs ++ chunk_tail L q e ++ [ECompleted].

Lemma start_chunks : forall c r d pos q vs e, filled r -> bytes_ok (c ++ concat r) -> k_st d = TokenDone -> dec_mem d ->
  (pos < length c)%nat -> parse 0 (q + pos) (skipn pos c ++ concat r) = (vs, e) -> plain e ->
  CR (c :: r) d pos (EOptStart :: opt_report vs e (c :: r) q).
Proof.
  intros c r d pos q vs e Hf Hok Hs Hmem Hp HP Hpl. destruct Hmem as (M1 & M2 & M3).
  assert (N1 : dec_notify c (isnil r) d pos = Ok ([EOptStart], k_goto OptionsStart d, pos, Nat.eqb pos (length c))).
  { unfold dec_notify, dec_iterate, dec_step. rewrite Hs. cbn [bind].
    replace (pos <=? length c)%nat with true by (symmetry; apply Nat.leb_le; lia). reflexivity. }
  change (EOptStart :: opt_report vs e (c :: r) q) with ([EOptStart] ++ opt_report vs e (c :: r) q).
  eapply CR_step; [exact N1|apply stop_of_false; [discriminate|assumption]|].
  apply CR_fresh; [reflexivity|assumption|].
  set (d1 := opt_fresh (k_goto OptionsStart d)).
  assert (Hbs : bytes_ok (skipn pos c ++ concat r)).
  { apply bytes_ok_app in Hok. apply bytes_ok_app. split; [apply bytes_ok_skipn|]; tauto. }
  assert (HR := drive_parse (length (skipn pos c ++ concat r)) _ (k_od d1) (k_hold d1) (q + pos)%nat (le_n _)
    (or_introl eq_refl) ltac:(cbn; lia) Hbs).
  change (hd_num (k_hold d1)) with 0 in HR. fold (parse 0 (q + pos) (skipn pos c ++ concat r)) in HR. rewrite HP in HR.
  unfold refines in HR. cbn [fst snd] in HR.
  assert (HE : exists o1 h1 e1, mrun (k_od d1) (k_hold d1) (q + pos) (skipn pos c ++ concat r) (Ok (vs, o1, h1, e1)) /\
    at_end e o1 h1 (q + pos + length (skipn pos c ++ concat r)) e1).
  { destruct e; try destruct Hpl; exact HR. }
  destruct HE as (o1 & h1 & e1 & Hm & He).
  eapply (options_chunks r c q d1 pos vs o1 h1 e1 e); try assumption; try reflexivity.
  - discriminate.
  - apply linv_fresh; [reflexivity|exact M3].
  - rewrite app_length, skipn_length in He.
    replace (q + pos + (length c - pos + length (concat r)))%nat with (q + length c + length (concat r))%nat in He by lia. exact He.
Qed.

Lemma token_done_step : forall c last d pos tok i, hdr_tkl (k_h d) = N.of_nat (length tok) -> (length tok <= 8)%nat ->
  bytes_ok c -> k_st d = RToken -> k_tpos d = N.of_nat i -> dec_mem d -> (i < length tok)%nat ->
  firstn i (k_tok d) = firstn i tok -> (length tok - i <= length (skipn pos c))%nat ->
  firstn (length tok - i) (skipn pos c) = skipn i tok ->
  exists d', dec_notify c last d pos = Ok ([EToken tok], d', pos + (length tok - i), Nat.eqb (pos + (length tok - i)) (length c))%nat /\
    k_st d' = TokenDone /\ k_h d' = k_h d /\ dec_mem d'.
Proof.
  intros c last d pos tok i Ht H8 Hok Hs Htp (M1 & M2 & M3) Hi Hft Hk Hfs.
  set (t1 := tok ++ skipn (length tok) (k_tok d)).
  assert (X := tok_loop_all (length tok - i) (skipn pos c) (k_tok d) i 0 ltac:(lia) ltac:(lia) M1 Hk).
  rewrite Hft, Hfs, app_assoc, firstn_skipn in X. replace (i + (length tok - i))%nat with (length tok) in X by lia. fold t1 in X.
  assert (Htok : bytes_ok tok).
  { rewrite <- (firstn_skipn i tok), <- Hft, <- Hfs. apply bytes_ok_app. split; apply bytes_ok_firstn; [assumption|now apply bytes_ok_skipn]. }
  assert (T1 : bytes_ok t1) by (unfold t1; apply bytes_ok_app; split; [assumption|now apply bytes_ok_skipn]).
  assert (L1 : length t1 = 8%nat) by (unfold t1; rewrite app_length, skipn_length; lia).
  exists (Dec TokenDone (k_h d) (k_hpos d) t1 (N.of_nat (length tok)) (tok_alias t1 (N.of_nat (length tok))) (k_hold d)).
  split; [|split; [reflexivity|split; [reflexivity|]]].
  - unfold dec_notify, dec_iterate, dec_step. rewrite Hs. unfold remainder, dec_tkl. rewrite Ht, Htp, X. cbn [bind Nat.add].
    rewrite skipn_length in Hk.
    replace (pos + (length tok - i) <=? length c)%nat with true by (symmetry; apply Nat.leb_le; lia). cbn [bind].
    unfold dec_events, dec_tkl. cbn [k_st k_h k_tok]. rewrite Ht, Nat2N.id. unfold t1 at 1.
    rewrite firstn_app, Nat.sub_diag, firstn_all. cbn [firstn]. rewrite app_nil_r.
    replace (Nat.eqb (length tok - i) 0) with false by (symmetry; apply Nat.eqb_neq; lia). reflexivity.
  - unfold dec_mem. cbn [k_tok k_od]. split; [assumption|]. split; [assumption|]. apply tok_alias_od; [assumption|unfold byte_ok; lia].
Qed.

Lemma token_part_step : forall c last d pos tok i, hdr_tkl (k_h d) = N.of_nat (length tok) -> (length tok <= 8)%nat ->
  bytes_ok c -> k_st d = RToken -> k_tpos d = N.of_nat i -> dec_mem d -> (i < length tok)%nat -> (pos < length c)%nat ->
  firstn i (k_tok d) = firstn i tok -> (i + length (skipn pos c) < length tok)%nat ->
  firstn (length (skipn pos c)) (skipn i tok) = skipn pos c ->
  exists d' fin, dec_notify c last d pos = Ok ([], d', length c, fin) /\
    k_st d' = RToken /\ k_h d' = k_h d /\ k_tpos d' = N.of_nat (i + length (skipn pos c)) /\ dec_mem d' /\
    firstn (i + length (skipn pos c)) (k_tok d') = firstn (i + length (skipn pos c)) tok.
Proof.
  intros c last d pos tok i Ht H8 Hok Hs Htp (M1 & M2 & M3) Hi Hp Hft Hk Hfs.
  set (rem := skipn pos c) in *. set (n := length rem) in *.
  assert (Hn : n = (length c - pos)%nat) by (unfold n, rem; apply skipn_length).
  set (t1 := firstn i (k_tok d) ++ rem ++ skipn (i + n) (k_tok d)).
  assert (X := tok_loop_some rem (k_tok d) i (length tok) 0 Hk ltac:(fold n; lia) M1).
  fold n in X. fold t1 in X.
  assert (T1 : bytes_ok t1).
  { unfold t1. apply bytes_ok_app. split; [now apply bytes_ok_firstn|]. apply bytes_ok_app. split; now apply bytes_ok_skipn. }
  assert (Li : length (firstn i (k_tok d)) = i) by (rewrite firstn_length; lia).
  assert (L1 : length t1 = 8%nat).
  { unfold t1. rewrite !app_length, Li. fold n. rewrite skipn_length. lia. }
  eexists. eexists. split.
  - unfold dec_notify, dec_iterate, dec_step. rewrite Hs. unfold remainder, dec_tkl. fold rem. rewrite Ht, Htp, X. cbn [bind Nat.add].
    replace (pos + n)%nat with (length c) by lia. rewrite Nat.leb_refl. cbn [bind dec_events k_st]. reflexivity.
  - cbn [k_st k_h k_tpos k_tok]. split; [reflexivity|]. split; [reflexivity|]. split; [reflexivity|]. split.
    + unfold dec_mem. cbn [k_tok k_od]. split; [assumption|]. split; [assumption|].
      destruct (Nat.eqb n 0); [assumption|]. apply tok_alias_od; [assumption|unfold byte_ok; lia].
    + unfold t1. rewrite app_assoc, firstn_app, app_length, Li. fold n. rewrite Nat.sub_diag. cbn [firstn]. rewrite app_nil_r.
      rewrite firstn_all2 by (rewrite app_length, Li; fold n; lia).
      rewrite Hft, <- Hfs. fold n.
      rewrite <- (firstn_skipn i tok) at 3. rewrite firstn_app, firstn_length. 
      replace (Nat.min i (length tok)) with i by lia. replace (i + n - i)%nat with n by lia.
      rewrite firstn_firstn. replace (Nat.min (i + n) i) with i by lia. reflexivity.
Qed.

Lemma app_split_le : forall (a b x y : list N), a ++ b = x ++ y -> (length x <= length a)%nat ->
  firstn (length x) a = x /\ skipn (length x) a ++ b = y.
Proof.
  intros a b x y H Hl. assert (H1 := f_equal (firstn (length x)) H). assert (H2 := f_equal (skipn (length x)) H).
  rewrite !firstn_app, Nat.sub_diag, firstn_all, app_nil_r in H1. rewrite !skipn_app, Nat.sub_diag, skipn_all in H2.
  replace (length x - length a)%nat with 0%nat in * by lia. cbn in *. rewrite app_nil_r in H1. auto.
Qed.

Lemma app_split_gt : forall (a b x y : list N), a ++ b = x ++ y -> (length a < length x)%nat ->
  firstn (length a) x = a /\ b = skipn (length a) x ++ y.
Proof.
  intros a b x y H Hl. destruct (app_split_le x y a b (eq_sym H)) as (A & B); [lia|]. auto.
Qed.

Lemma token_chunks : forall F lim tok h, shiftable F lim -> hdr_tkl h = N.of_nat (length tok) -> (length tok <= 8)%nat ->
  (lim = 4 + length tok)%nat ->
  forall s, s <> [] ->
  (forall c' r' p' q' d', (p' < length c')%nat -> filled r' -> bytes_ok (c' ++ concat r') ->
     skipn p' c' ++ concat r' = s -> (q' + p' = lim)%nat -> k_st d' = TokenDone -> dec_mem d' ->
     CR (c' :: r') d' p' (F (c' :: r') q')) ->
  forall r c d pos q i, filled r -> bytes_ok (c ++ concat r) ->
  k_st d = RToken -> k_h d = h -> k_tpos d = N.of_nat i -> dec_mem d -> (i < length tok)%nat ->
  firstn i (k_tok d) = firstn i tok -> (pos < length c)%nat -> (q + pos = 4 + i)%nat ->
  skipn pos c ++ concat r = skipn i tok ++ s ->
  CR (c :: r) d pos (EToken tok :: F (c :: r) q).
Proof.
  intros F lim tok h HS Ht H8 HL s Hsne HK.
  induction r as [r IH] using (induction_ltof1 _ (@length (list N))). unfold ltof in IH.
  intros c d pos q i Hf Hok Hs Hh Htp Hmem Hi Hft Hp Hq Hstr.
  assert (Hokc : bytes_ok c) by (apply bytes_ok_app in Hok; tauto).
  assert (Hsk : length (skipn i tok) = (length tok - i)%nat) by apply skipn_length.
  destruct (Nat.le_gt_cases (length tok - i) (length (skipn pos c))) as [Hle|Hgt].
  - destruct (app_split_le _ _ _ _ Hstr) as (S1 & S2); [lia|]. rewrite Hsk in S1, S2.
    destruct (token_done_step c (isnil r) d pos tok i) as (d' & N1 & D1 & D2 & D3); try assumption; [congruence|].
    rewrite skipn_skipn' in S2. rewrite skipn_length in Hle.
    change (EToken tok :: F (c :: r) q) with ([EToken tok] ++ F (c :: r) q).
    eapply CR_move; [exact HS|exact Hf|exact Hok|exact N1|lia|rewrite D1; discriminate|lia|rewrite S2; exact Hsne|].
    intros c' r' p' q' A1 A2 A3 A4 A5. apply HK; auto; [congruence|lia].
  - destruct (app_split_gt _ _ _ _ Hstr) as (S1 & S2); [lia|]. rewrite skipn_skipn' in S2.
    destruct (token_part_step c (isnil r) d pos tok i) as (d' & fin & N1 & D1 & D2 & D3 & D4 & D5); try assumption; [congruence|lia|].
    destruct r as [|c2 r].
    { cbn [concat] in S2. exfalso. symmetry in S2. apply app_eq_nil in S2. tauto. }
    inversion Hf as [|? ? Hc2 Hf2]; subst. cbn [isnil] in N1.
    change (EToken tok :: F (c :: c2 :: r) q) with ([] ++ EToken tok :: F (c :: c2 :: r) q).
    eapply CR_end; [discriminate|exact N1|]. rewrite skipn_length in *.
    rewrite HS; [|discriminate|lia].
    eapply (IH r ltac:(cbn; lia) c2 d' 0%nat (q + length c)%nat (i + (length c - pos))%nat); try assumption; try congruence.
    + apply bytes_ok_app in Hok. apply Hok.
    + lia.
    + destruct c2; [congruence|cbn; lia].
    + lia.
Qed.

Lemma hdr_loop_done : forall i b h0' h, (i < 4)%nat -> (4 - i <= length b)%nat ->
  firstn i (hdr_bytes h0') = firstn i (hdr_bytes h) -> firstn (4 - i) b = skipn i (hdr_bytes h) ->
  hdr_loop b h0' (N.of_nat i) 0 = Ok (h, 4, (4 - i)%nat, true).
Proof.
  intros i b [x0 x1 x2 x3] [y0 y1 y2 y3] Hi Hb H1 H2.
  destruct i as [|[|[|[|i]]]]; [| | | |lia]; cbn [hdr_bytes h0 h1 h2 h3 firstn skipn Nat.sub] in *.
  - destruct b as [|b1 [|b2 [|b3 [|b4 b]]]]; try (cbn in Hb; lia). cbn [firstn] in H2. inversion H2; subst. reflexivity.
  - destruct b as [|b1 [|b2 [|b3 b]]]; try (cbn in Hb; lia). cbn [firstn] in H2. inversion H1; inversion H2; subst. reflexivity.
  - destruct b as [|b1 [|b2 b]]; try (cbn in Hb; lia). cbn [firstn] in H2. inversion H1; inversion H2; subst. reflexivity.
  - destruct b as [|b1 b]; try (cbn in Hb; lia). cbn [firstn] in H2. inversion H1; inversion H2; subst. reflexivity.
Qed.

Lemma hdr_loop_part : forall i b h0' h, (i + length b < 4)%nat ->
  firstn i (hdr_bytes h0') = firstn i (hdr_bytes h) -> firstn (length b) (skipn i (hdr_bytes h)) = b ->
  exists h1', hdr_loop b h0' (N.of_nat i) 0 = Ok (h1', N.of_nat (i + length b), length b, false) /\
    firstn (i + length b) (hdr_bytes h1') = firstn (i + length b) (hdr_bytes h).
Proof.
  intros i b [x0 x1 x2 x3] [y0 y1 y2 y3] Hb H1 H2.
  destruct i as [|[|[|[|i]]]]; [| | | |lia]; cbn [hdr_bytes h0 h1 h2 h3 firstn skipn Nat.sub] in *;
  destruct b as [|b1 [|b2 [|b3 [|b4 b]]]]; try (cbn in Hb; lia); cbn [firstn length] in H2; inversion H1; inversion H2; subst;
    (eexists; split; [reflexivity|reflexivity]).
Qed.

Lemma header_chunks : forall F lim h, shiftable F lim -> (4 <= lim)%nat ->
  forall s, s <> [] ->
  (forall c' r' p' q' d', (p' < length c')%nat -> filled r' -> bytes_ok (c' ++ concat r') ->
     skipn p' c' ++ concat r' = s -> (q' + p' = 4)%nat -> k_st d' = HeaderDone -> k_h d' = h -> dec_mem d' ->
     CR (c' :: r') d' p' (F (c' :: r') q')) ->
  forall r c d pos q i, filled r -> bytes_ok (c ++ concat r) ->
  k_st d = RHeader -> k_hpos d = N.of_nat i -> dec_mem d -> (i < 4)%nat ->
  firstn i (hdr_bytes (k_h d)) = firstn i (hdr_bytes h) -> (pos < length c)%nat -> (q + pos = i)%nat ->
  skipn pos c ++ concat r = skipn i (hdr_bytes h) ++ s ->
  CR (c :: r) d pos (EHeader h :: F (c :: r) q).
Proof.
  intros F lim h HS HL s Hsne HK.
  induction r as [r IH] using (induction_ltof1 _ (@length (list N))). unfold ltof in IH.
  intros c d pos q i Hf Hok Hs Hhp Hmem Hi Hft Hp Hq Hstr.
  assert (Hsk : length (skipn i (hdr_bytes h)) = (4 - i)%nat) by (rewrite skipn_length; reflexivity).
  destruct (Nat.le_gt_cases (4 - i) (length (skipn pos c))) as [Hle|Hgt].
  - destruct (app_split_le _ _ _ _ Hstr) as (S1 & S2); [lia|]. rewrite Hsk in S1, S2.
    assert (X := hdr_loop_done i (skipn pos c) (k_h d) h Hi Hle Hft S1).
    rewrite skipn_skipn' in S2. rewrite skipn_length in Hle.
    assert (N1 : dec_notify c (isnil r) d pos = Ok ([EHeader h], Dec HeaderDone h 4 (k_tok d) (k_tpos d) (k_od d) (k_hold d),
       pos + (4 - i), Nat.eqb (pos + (4 - i)) (length c))%nat).
    { unfold dec_notify, dec_iterate, dec_step. rewrite Hs. unfold remainder. rewrite Hhp, X. cbn [bind].
      replace (pos + (4 - i) <=? length c)%nat with true by (symmetry; apply Nat.leb_le; lia). reflexivity. }
    change (EHeader h :: F (c :: r) q) with ([EHeader h] ++ F (c :: r) q).
    eapply CR_move; [exact HS|exact Hf|exact Hok|exact N1|lia|discriminate|lia|rewrite S2; exact Hsne|].
    intros c' r' p' q' A1 A2 A3 A4 A5. apply HK; auto; [congruence|lia].
  - destruct (app_split_gt _ _ _ _ Hstr) as (S1 & S2); [lia|]. rewrite skipn_skipn' in S2.
    destruct (hdr_loop_part i (skipn pos c) (k_h d) h ltac:(lia) Hft S1) as (h1' & X & Y).
    assert (Hn : length (skipn pos c) = (length c - pos)%nat) by apply skipn_length.
    assert (N1 : dec_notify c (isnil r) d pos = Ok ([], Dec RHeader h1' (N.of_nat (i + length (skipn pos c))) (k_tok d) (k_tpos d) (k_od d) (k_hold d),
       length c, Nat.eqb (length c) (length c))%nat).
    { unfold dec_notify, dec_iterate, dec_step. rewrite Hs. unfold remainder. rewrite Hhp, X. cbn [bind].
      replace (pos + length (skipn pos c))%nat with (length c) by lia. rewrite Nat.leb_refl. reflexivity. }
    destruct r as [|c2 r].
    { cbn [concat] in S2. exfalso. symmetry in S2. apply app_eq_nil in S2. tauto. }
    inversion Hf as [|? ? Hc2 Hf2]; subst. cbn [isnil] in N1.
    change (EHeader h :: F (c :: c2 :: r) (?x)) with ([] ++ EHeader h :: F (c :: c2 :: r) x).
    eapply CR_end; [discriminate|exact N1|]. rewrite Hn in *.
    rewrite HS; [|discriminate|lia].
    eapply (IH r ltac:(cbn; lia) c2 _ 0%nat (q + length c)%nat (q + pos + (length c - pos))%nat); try assumption; try reflexivity.
    + apply bytes_ok_app in Hok. apply Hok.
    + lia.
    + destruct c2; [congruence|cbn; lia].
    + lia.
Qed.

Lemma shift_report : forall vs e lim, Forall (fun v : pview => (lim <= snd v)%nat) vs ->
  (forall p, e = EndMarker p -> (lim <= p)%nat) -> shiftable (opt_report vs e) lim.
Proof.
  intros vs e lim Hv He c r q _ Hq. unfold opt_report. f_equal; [|f_equal].
  - apply map_ext_Forall. eapply Forall_impl; [|exact Hv]. intros v H. apply opt_view_later. cbn beta in H. lia.
  - apply chunk_tail_later. intros p E. specialize (He p E). lia.
Qed.

Lemma shift_cons : forall F lim e, shiftable F lim -> shiftable (fun L q => e :: F L q) lim.
Proof. intros F lim e H c r q Hr Hq. f_equal. now apply H. Qed.

Lemma parse_offsets : forall off bs vs e, bytes_ok bs -> parse 0 off bs = (vs, e) -> plain e ->
  Forall (fun v : pview => (off <= snd v)%nat) vs /\ (forall p, e = EndMarker p -> (off <= p)%nat).
Proof.
  intros off bs vs e Hok HP Hpl.
  set (o0 := ODec FirstByte 0 0 0 0 0).
  assert (HR := drive_parse (length bs) bs o0 holder_reset off (le_n _) (or_introl eq_refl) ltac:(cbn; lia) Hok).
  change (hd_num holder_reset) with 0 in HR. fold (parse 0 off bs) in HR. rewrite HP in HR. unfold refines in HR. cbn [fst snd] in HR.
  assert (HE : exists o1 h1 e1, mrun o0 holder_reset off bs (Ok (vs, o1, h1, e1)) /\ at_end e o1 h1 (off + length bs) e1).
  { destruct e; try destruct Hpl; exact HR. }
  destruct HE as (o1 & h1 & e1 & Hm & He). split.
  - assert (X := mrun_views _ _ _ _ _ Hm). cbn beta iota in X. eapply Forall_impl; [|exact X]. intros v Hv. cbn beta in Hv. lia.
  - intros p ->. cbn [at_end] in He. destruct He as (_ & <-). pose proof (mrun_end _ _ _ _ _ Hm) as Z. cbn beta iota in Z. lia.
Qed.

(** * The whole message *)

Lemma message_CR : forall c r d h tok rest vs e, filled (c :: r) -> bytes_ok (c ++ concat r) -> idle d ->
  hdr_tkl h = N.of_nat (length tok) -> (length tok <= 8)%nat -> rest <> [] ->
  c ++ concat r = hdr_bytes h ++ tok ++ rest -> parse 0 (4 + length tok) rest = (vs, e) -> plain e ->
  CR (c :: r) d 0 ([EHeader h; EToken tok; EOptStart] ++ opt_report vs e (c :: r) 0).
Proof.
  intros c r d h tok rest vs e Hf Hok (Hst & Hmem) Ht H8 Hr Hstr HP Hpl.
  inversion Hf as [|? ? Hc Hfr]; subst.
  assert (Hlc : (0 < length c)%nat) by (destruct c; [congruence|cbn; lia]).
  assert (Hokr : bytes_ok rest).
  { rewrite Hstr in Hok. apply bytes_ok_app in Hok. destruct Hok as (_ & Hok). apply bytes_ok_app in Hok. tauto. }
  destruct (parse_offsets _ _ _ _ Hokr HP Hpl) as (O1 & O2).
  assert (S0 := shift_report vs e (4 + length tok) O1 O2).
  assert (S1 := shift_cons _ _ EOptStart S0).
  assert (S2 := shift_cons _ _ (EToken tok) S1).
  (* from TokenDone *)
  assert (KT : forall c' r' p' q' d', (p' < length c')%nat -> filled r' -> bytes_ok (c' ++ concat r') ->
     skipn p' c' ++ concat r' = rest -> (q' + p' = 4 + length tok)%nat -> k_st d' = TokenDone -> dec_mem d' ->
     CR (c' :: r') d' p' (EOptStart :: opt_report vs e (c' :: r') q')).
  { intros c' r' p' q' d' A1 A2 A3 A4 A5 A6 A7. apply start_chunks; auto. rewrite A5, A4. exact HP. }
  assert (UN : forall d0, k_st d0 = Uninitialized -> dec_mem d0 ->
    CR (c :: r) d0 0 ([EHeader h; EToken tok; EOptStart] ++ opt_report vs e (c :: r) 0)).
  { intros d0 D1 D2.
    assert (N1 : dec_notify c (isnil r) d0 0 = Ok ([], Dec RHeader (k_h d0) 0 (k_tok d0) (k_tpos d0) (k_od d0) (k_hold d0), 0%nat, Nat.eqb 0 (length c))).
    { unfold dec_notify, dec_iterate, dec_step. rewrite D1. cbn [bind Nat.leb]. reflexivity. }
    change ([EHeader h; EToken tok; EOptStart] ++ opt_report vs e (c :: r) 0)
      with ([] ++ EHeader h :: (fun L q => EToken tok :: EOptStart :: opt_report vs e L q) (c :: r) 0%nat).
    eapply CR_step; [exact N1|apply stop_of_false; [discriminate|assumption]|].
    eapply (header_chunks _ _ h S2 ltac:(lia) (tok ++ rest)) with (i := 0%nat).
    - intro X. apply app_eq_nil in X. tauto.
    - clear d0 D1 D2 N1. intros c' r' p' q' d' A1 A2 A3 A4 A5 A6 A7 A8.
      destruct (Nat.eq_dec (length tok) 0) as [Z|NZ].
      + destruct tok; [|discriminate]. cbn [app] in A4.
        assert (N1 : dec_notify c' (isnil r') d' p' = Ok ([EToken []], k_goto TokenDone d', p', Nat.eqb p' (length c'))).
        { unfold dec_notify, dec_iterate, dec_step. rewrite A6. unfold dec_tkl. rewrite A7, Ht. change (0 <? N.of_nat (length [])) with false.
          cbn [bind]. replace (p' <=? length c')%nat with true by (symmetry; apply Nat.leb_le; lia). cbn [bind].
          unfold dec_events, dec_tkl. cbn [k_st k_goto k_h]. rewrite A7, Ht. reflexivity. }
        change (EToken [] :: EOptStart :: opt_report vs e (c' :: r') q') with ([EToken []] ++ EOptStart :: opt_report vs e (c' :: r') q').
        eapply CR_step; [exact N1|apply stop_of_false; [discriminate|assumption]|].
        apply KT; auto.
      + assert (N1 : dec_notify c' (isnil r') d' p' = Ok ([], k_goto TokenStart d', p', Nat.eqb p' (length c'))).
        { unfold dec_notify, dec_iterate, dec_step. rewrite A6. unfold dec_tkl. rewrite A7, Ht.
          replace (0 <? N.of_nat (length tok)) with true by (symmetry; apply N.ltb_lt; lia).
          cbn [bind]. replace (p' <=? length c')%nat with true by (symmetry; apply Nat.leb_le; lia). reflexivity. }
        set (d3 := Dec RToken h (k_hpos d') (k_tok d') 0 (k_od d') (k_hold d')).
        assert (N2 : dec_notify c' (isnil r') (k_goto TokenStart d') p' = Ok ([], d3, p', Nat.eqb p' (length c'))).
        { unfold dec_notify, dec_iterate, dec_step. cbn [k_st k_goto bind]. 
          replace (p' <=? length c')%nat with true by (symmetry; apply Nat.leb_le; lia).
          cbn [bind dec_events k_st k_h k_hpos k_tok k_od k_hold k_goto]. rewrite A7. reflexivity. }
        change (EToken tok :: EOptStart :: opt_report vs e (c' :: r') q')
          with ([] ++ [] ++ EToken tok :: (fun L q => EOptStart :: opt_report vs e L q) (c' :: r') q').
        eapply CR_step; [exact N1|apply stop_of_false; [discriminate|assumption]|].
        eapply CR_step; [exact N2|apply stop_of_false; [discriminate|assumption]|].
        eapply (token_chunks _ _ tok h S1 Ht H8 eq_refl rest Hr KT r' c' d3 p' q' 0%nat); try assumption; try reflexivity; try lia.
    - assumption.
    - assumption.
    - reflexivity.
    - reflexivity.
    - exact D2.
    - lia.
    - reflexivity.
    - assumption.
    - reflexivity.
    - exact Hstr. }
  destruct Hst as [Hst|Hst]; [now apply UN|].
  assert (N1 : dec_notify c (isnil r) d 0 = Ok ([], k_goto Uninitialized d, 0%nat, Nat.eqb 0 (length c))).
  { unfold dec_notify, dec_iterate, dec_step. rewrite Hst. cbn [bind Nat.leb]. reflexivity. }
  rewrite <- (app_nil_l (_ ++ opt_report _ _ _ _)).
  eapply CR_step; [exact N1|apply stop_of_false; [discriminate|assumption]|]. apply UN; [reflexivity|exact Hmem].
Qed.

Lemma drain_mem : forall fuel chunk last d pos es d1 pos1, bytes_ok chunk -> dec_mem' d ->
  dec_drain fuel chunk last d pos = Ok (es, d1, pos1) -> dec_mem' d1.
Proof.
  induction fuel as [|k IH]; intros chunk last d pos es d1 pos1 Hc Hm H; [discriminate|].
  cbn [dec_drain] in H. destruct (dec_notify chunk last d pos) as [[[[es1 d2] pos2] fin]| |] eqn:E; cbn [bind] in H; try discriminate.
  apply notify_step in E. destruct E as (E & _).
  pose proof (dec_step_mem _ _ _ _ _ _ Hc Hm E) as Hm2. destruct fin.
  - injection H as <- <- <-. exact Hm2.
  - destruct (dec_drain k chunk last d2 pos2) as [[[fs d3] pos3]| |] eqn:E2; cbn [bind] in H; try discriminate.
    injection H as <- <- <-. eapply IH; eassumption.
Qed.

Lemma chunks_idle : forall fuel cs final d es d1, bytes_ok (concat (cs ++ [final])) -> dec_mem' d ->
  dec_chunks fuel cs final d = Ok (es, d1) -> idle d1.
Proof.
  intros fuel. induction cs as [|c cs IH]; intros final d es d1 Hok Hm H; cbn [app concat dec_chunks] in *.
  - rewrite app_nil_r in Hok. destruct (dec_run fuel final d 0) as [[[fs d2] p2]| |] eqn:E; cbn [bind] in H; try discriminate.
    injection H as <- <-. destruct (run_mem _ _ _ _ _ _ _ Hok Hm E) as (A & B). split; auto.
  - apply bytes_ok_app in Hok. destruct Hok as (H1 & H2).
    destruct (dec_drain fuel c false d 0) as [[[es1 d2] p2]| |] eqn:E; cbn [bind] in H; try discriminate.
    pose proof (drain_mem _ _ _ _ _ _ _ _ H1 Hm E) as Hm2.
    destruct (dec_chunks fuel cs final d2) as [[fs d3]| |] eqn:E2; cbn [bind] in H; try discriminate.
    injection H as <- <-. eapply IH; eassumption.
Qed.

Lemma message_chunks : forall cs final d h tok rest vs e, filled (cs ++ [final]) -> bytes_ok (concat (cs ++ [final])) -> idle d ->
  hdr_tkl h = N.of_nat (length tok) -> (length tok <= 8)%nat -> rest <> [] ->
  concat (cs ++ [final]) = hdr_bytes h ++ tok ++ rest -> parse 0 (4 + length tok) rest = (vs, e) -> plain e ->
  exists F d1, idle d1 /\ forall fuel, (F <= fuel)%nat ->
    dec_chunks fuel cs final d = Ok ([EHeader h; EToken tok; EOptStart] ++ opt_report vs e (cs ++ [final]) 0, d1).
Proof.
  intros cs final d h tok rest vs e Hf Hok Hd Ht H8 Hr Hstr HP Hpl.
  assert (HC : CR (cs ++ [final]) d 0 ([EHeader h; EToken tok; EOptStart] ++ opt_report vs e (cs ++ [final]) 0)).
  { destruct (cs ++ [final]) as [|c r] eqn:E; [destruct cs; discriminate|]. eapply message_CR; eassumption. }
  destruct HC as (d1 & A & B). destruct (crun_chunks _ _ _ _ _ A) as (F & HF).
  exists F, d1. split; [|exact HF]. eapply chunks_idle; [exact Hok| |exact (HF F (le_n _))].
  destruct Hd as (Hs & Hm). split; [assumption|]. destruct Hs as [Hs|Hs]; rewrite Hs; discriminate.
Qed.
