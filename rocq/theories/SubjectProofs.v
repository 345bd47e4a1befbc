(** Proofs about DecoderSubjectBase. *)
From Verif Require Import Base HeaderModel OptEncModel OptSpec OptDecModel OptDecSpec OptDecProofs.
From Verif Require Import DecoderModel DecoderSpec DecoderProofs ChunkProofs DispatchModel SubjectModel SubjectSpec.
Local Open Scope N_scope.

(** * Termination *)

Definition rank (d : dec) : nat :=
  match k_st d with
  | Uninitialized => 9 | RHeader => 8 | HeaderDone => 7 | TokenStart => 6 | RToken => 5 | TokenDone => 4
  | OptionsStart => 3 | ROptions => dr (d_st (k_od d)) | OptionsDone => 2 | RPayload => 1 | PayloadDone => 0 | RDone => 0
  end.
Definition mu (chunk : list N) (d : dec) (pos : nat) : nat := (4 * (length chunk - pos) + rank d)%nat.

Lemma hdr_loop_progress : forall bs h p n h1 p1 n1 dn, bs <> [] -> hdr_loop bs h p n = Ok (h1, p1, n1, dn) -> (n < n1)%nat.
Proof.
  induction bs as [|b r IH]; intros h p n h1 p1 n1 dn Hb H; [congruence|]. cbn [hdr_loop] in H.
  destruct (hdr_put p b h) as [h2| |]; cbn [bind] in H; try discriminate.
  destruct (4 <=? (p + 1) mod 256); [injection H as <- <- <- <-; lia|]. destruct r as [|c r]; [cbn in H; injection H as <- <- <- <-; lia|].
  apply IH in H; [lia|discriminate].
Qed.
Lemma hdr_loop_fuel : forall bs h p n, hdr_loop bs h p n <> NoFuel.
Proof.
  induction bs as [|b r IH]; intros h p n; [discriminate|]. cbn [hdr_loop].
  assert (hdr_put p b h <> NoFuel) by (unfold hdr_put; destruct p as [|[[?|?|]|[?|?|]|]]; discriminate).
  destruct (hdr_put p b h); cbn [bind]; try congruence. destruct (4 <=? _); [discriminate|apply IH].
Qed.
Lemma tok_loop_progress : forall tkl bs t p n t1 p1 n1 dn, bs <> [] -> tok_loop tkl bs t p n = Ok (t1, p1, n1, dn) -> (n < n1)%nat.
Proof.
  induction bs as [|b r IH]; intros t p n t1 p1 n1 dn Hb H; [congruence|]. cbn [tok_loop] in H.
  destruct (tok_put p b t) as [t2| |]; cbn [bind] in H; try discriminate.
  destruct (tkl <=? (p + 1) mod 256); [injection H as <- <- <- <-; lia|]. destruct r as [|c r]; [cbn in H; injection H as <- <- <- <-; lia|].
  apply IH in H; [lia|discriminate].
Qed.
Lemma tok_loop_fuel : forall tkl bs t p n, tok_loop tkl bs t p n <> NoFuel.
Proof.
  induction bs as [|b r IH]; intros t p n; [discriminate|]. cbn [tok_loop]. unfold tok_put. destruct (p <? 8); [|discriminate].
  cbn [bind]. destruct (tkl <=? _); [discriminate|apply IH].
Qed.
Lemma od_step_fuel : forall b d, od_step b d <> NoFuel.
Proof. intros b d. destruct (od_step_cases b d) as [E|(d1 & p & E & _)]; rewrite E; discriminate. Qed.
Lemma od_chunk_fuel : forall d h bs, od_chunk d h bs <> NoFuel.
Proof.
  intros d h bs. destruct bs as [|b r]; [discriminate|].
  assert (K : d_st d = OPayload \/ d_st d <> OPayload) by (destruct (d_st d); auto; right; discriminate). destruct K as [K|K].
  - unfold od_chunk. replace (4 * length (b :: r) + 4)%nat with (S (4 * length (b :: r) + 3)) by lia. cbn [od_chunk_loop].
    unfold od_step. rewrite K. discriminate.
  - assert (B : b :: r <> [] \/ d_st d <> ValueStart) by (left; discriminate). pose proof (od_chunk_post d h (b :: r) K B) as P. destruct (od_chunk d h (b :: r)); try discriminate. contradiction.
Qed.
Lemma od_last_fuel : forall d h bs last, od_chunk_last d h bs last <> NoFuel.
Proof.
  intros d h bs last. unfold od_chunk_last. destruct bs as [|b r]; [|apply od_chunk_fuel]. destruct last; [|discriminate].
  pose proof (od_step_fuel 0 d). destruct (od_step 0 d); cbn [bind]; congruence.
Qed.

Lemma dec_step_fuel : forall chunk last d pos, dec_step chunk last d pos <> NoFuel.
Proof.
  intros chunk last d pos. unfold dec_step. destruct (k_st d); try discriminate.
  - pose proof (hdr_loop_fuel (remainder chunk pos) (k_h d) (k_hpos d) 0). destruct (hdr_loop _ _ _ _) as [[[[? ?] ?] ?]| |]; cbn [bind]; congruence.
  - pose proof (tok_loop_fuel (dec_tkl d) (remainder chunk pos) (k_tok d) (k_tpos d) 0). destruct (tok_loop _ _ _ _ _) as [[[[? ?] ?] ?]| |]; cbn [bind]; congruence.
  - destruct (_ && last); [discriminate|]. pose proof (od_last_fuel (od_goto FirstByte (k_od d)) holder_reset (remainder chunk pos) last).
    destruct (od_chunk_last _ _ _ _) as [[[? ?] ?]| |]; cbn [bind]; congruence.
  - pose proof (od_last_fuel (k_od d) (k_hold d) (remainder chunk pos) last). destruct (od_chunk_last _ _ _ _) as [[[? ?] ?]| |]; cbn [bind]; congruence.
  - destruct (ostate_eqb _ _); [discriminate|]. destruct (_ && last); [discriminate|]. destruct (remainder chunk pos) as [|b r]; [discriminate|]. destruct (b =? 255); discriminate.
Qed.

Lemma od_last_progress : forall d h bs last d1 h1 n1, bs <> [] -> od_chunk_last d h bs last = Ok (d1, h1, n1) ->
  (0 < n1 \/ (n1 = 0 /\ dr (d_st d1) < dr (d_st d)))%nat /\ (d_st d1 = OPayload -> (0 < n1)%nat).
Proof.
  intros d h bs last d1 h1 n1 Hb H. destruct bs as [|b r]; [congruence|]. rewrite chunk_last_nonempty in H.
  assert (K : d_st d = OPayload \/ d_st d <> OPayload) by (destruct (d_st d); auto; right; discriminate). destruct K as [K|K].
  - exfalso. unfold od_chunk in H. replace (4 * length (b :: r) + 4)%nat with (S (4 * length (b :: r) + 3)) in H by lia. cbn [od_chunk_loop] in H.
    unfold od_step in H. rewrite K in H. discriminate.
  - split.
    + unfold od_chunk in H. apply od_chunk_loop_progress in H; [|exact K]. lia.
    + assert (B : b :: r <> [] \/ d_st d <> ValueStart) by (left; discriminate). pose proof (od_chunk_post d h (b :: r) K B) as P. rewrite H in P. apply P.
Qed.

Lemma dec_step_progress : forall chunk last d pos d1 pos1, (pos < length chunk)%nat -> dec_step chunk last d pos = Ok (d1, pos1) ->
  (pos1 < length chunk)%nat -> k_st d1 <> RDone -> k_st d <> RDone -> (mu chunk d1 pos1 < mu chunk d pos)%nat.
Proof.
  intros chunk last d pos d1 pos1 Hp H Hp1 Hd Hd0.
  assert (R : remainder chunk pos <> []) by (unfold remainder; intro Q; apply (f_equal (@length N)) in Q; rewrite skipn_length in Q; cbn in Q; lia).
  unfold dec_step in H. unfold mu, rank. destruct (k_st d) eqn:S; try congruence.
  - injection H as <- <-. cbn [k_st]. lia.
  - destruct (hdr_loop _ _ _ _) as [[[[h hp] n] dn]| |] eqn:E; cbn [bind] in H; try discriminate. injection H as <- <-. cbn [k_st].
    apply hdr_loop_progress in E; [|exact R]. destruct dn; lia.
  - destruct (0 <? dec_tkl d); injection H as <- <-; cbn [k_st k_goto]; lia.
  - injection H as <- <-. cbn [k_st]. lia.
  - destruct (tok_loop _ _ _ _ _) as [[[[t tp] n] dn]| |] eqn:E; cbn [bind] in H; try discriminate. injection H as <- <-. cbn [k_st].
    apply tok_loop_progress in E; [|exact R]. destruct dn; lia.
  - injection H as <- <-. cbn [k_st k_goto]. lia.
  - destruct (_ && last) eqn:EE.
    { exfalso. apply andb_true_iff in EE. destruct EE as [EE _]. apply Nat.eqb_eq in EE. destruct (remainder chunk pos); [congruence|cbn in EE; lia]. }
    destruct (od_chunk_last _ _ _ _) as [[[o h] n]| |] eqn:E; cbn [bind] in H; try discriminate. injection H as <- <-. cbn [k_st k_od].
    apply od_last_progress in E; [|exact R]. cbn [d_st od_goto dr] in E. destruct E as [[E|E] _]; [|lia].
    pose proof (dr_le2 (d_st o)). destruct (ostate_eqb (d_st o) OPayload); lia.
  - destruct (od_chunk_last _ _ _ _) as [[[o h] n]| |] eqn:E; cbn [bind] in H; try discriminate. injection H as <- <-. cbn [k_st k_od].
    apply od_last_progress in E; [|exact R]. destruct E as [E E'].
    pose proof (dr_le2 (d_st o)). destruct (ostate_eqb (d_st o) OPayload) eqn:EO.
    + apply ostate_eqb_eq in EO. specialize (E' EO). lia.
    + replace (Nat.eqb (pos + n) (length chunk)) with false by (symmetry; apply Nat.eqb_neq; lia). cbn [andb]. lia.
  - destruct (ostate_eqb _ _); [injection H as <- <-; cbn [k_st k_goto]; lia|]. destruct (_ && last); [injection H as <- <-; cbn [k_st k_goto] in *; congruence|].
    destruct (remainder chunk pos) as [|b r]; [discriminate|]. destruct (b =? 255); injection H as <- <-; cbn [k_st k_goto] in *; [lia|congruence].
  - injection H as <- <-. lia.
  - injection H as <- <-. cbn [k_st k_goto] in *. congruence.
Qed.

Lemma sub_calls_same : forall chunk last d pos cs d1, sub_calls chunk last d pos = (cs, d1) -> k_st d1 = k_st d /\ k_od d1 = k_od d.
Proof.
  intros chunk last d pos cs d1 H. unfold sub_calls, sub_option, sub_value in H.
  destruct (k_st d) eqn:S; try (injection H as <- <-; auto); try (destruct (dec_tkl d =? 0); injection H as <- <-; auto).
  destruct (d_st (k_od d)); try (injection H as <- <-; auto).
  - destruct (hd_len (k_hold d) =? 0); [injection H as <- <-; auto|]. destruct (_ <? _); injection H as <- <-; auto.
  - destruct (_ <? _); injection H as <- <-; auto.
Qed.

Lemma rank_eq : forall d d1, k_st d1 = k_st d -> k_od d1 = k_od d -> rank d1 = rank d.
Proof. intros d d1 A B. unfold rank. rewrite A, B. reflexivity. Qed.

Lemma sub_loop_fuel : forall fuel chunk last d pos, (pos < length chunk)%nat -> k_st d <> RDone -> (mu chunk d pos < fuel)%nat ->
  sub_loop fuel chunk last d pos <> NoFuel.
Proof.
  induction fuel as [|f IH]; intros chunk last d pos Hp Hd Hf; [lia|]. cbn [sub_loop].
  unfold sub_iterate. destruct (sub_calls chunk last d pos) as [cs d0] eqn:SC. destruct (sub_calls_same _ _ _ _ _ _ SC) as [S1 S2].
  unfold dec_iterate. pose proof (dec_step_fuel chunk last d0 pos) as NF. destruct (dec_step chunk last d0 pos) as [[d1 pos1]| |] eqn:E; cbn [bind]; try congruence.
  destruct (pos1 <=? length chunk)%nat eqn:L; cbn [bind]; [|discriminate]. apply Nat.leb_le in L.
  destruct (Nat.eqb pos1 (length chunk)) eqn:Q; cbn [orb]; [discriminate|]. apply Nat.eqb_neq in Q.
  destruct (rstate_eqb (k_st d1) RDone) eqn:QD; [discriminate|].
  assert (ND : k_st d1 <> RDone) by (intro X; rewrite X in QD; discriminate).
  assert (ND0 : k_st d0 <> RDone) by congruence. assert (P1 : (pos1 < length chunk)%nat) by lia.
  pose proof (dec_step_progress _ _ _ _ _ _ Hp E P1 ND ND0) as M. unfold mu in M, Hf. rewrite (rank_eq d d0 S1 S2) in M.
  specialize (IH chunk last d1 pos1 P1 ND). assert (F : (mu chunk d1 pos1 < f)%nat) by (unfold mu; lia). specialize (IH F).
  destruct (sub_loop f chunk last d1 pos1) as [[[? ?] ?]| |]; cbn [bind]; congruence.
Qed.

Lemma rank_le : forall d, (rank d <= 9)%nat.
Proof. intro d. unfold rank. pose proof (dr_le2 (d_st (k_od d))). destruct (k_st d); lia. Qed.

Lemma sub_dispatch_fuel : forall chunk last d, sub_dispatch chunk last d <> NoFuel.
Proof.
  intros chunk last d. unfold sub_dispatch. pose proof (rank_le d) as RL.
  assert (K : k_st d = RDone \/ k_st d <> RDone) by (destruct (k_st d); auto; right; discriminate).
  destruct chunk as [|b r].
  - cbn [length Nat.mul Nat.add]. cbn [sub_loop]. unfold sub_iterate. destruct (sub_calls [] last d 0) as [cs d0]. unfold dec_iterate.
    pose proof (dec_step_fuel [] last d0 0) as NF. destruct (dec_step [] last d0 0) as [[d1 pos1]| |]; cbn [bind]; try congruence.
    cbn [length]. destruct pos1; cbn [Nat.leb Nat.eqb bind orb]; discriminate.
  - destruct K as [K|K].
    + replace (4 * length (b :: r) + 12)%nat with (S (4 * length (b :: r) + 11)) by lia. cbn [sub_loop]. unfold sub_iterate, sub_calls. rewrite K.
      unfold dec_iterate, dec_step. rewrite K. cbn [bind]. change (0 <=? length (b :: r))%nat with true. cbn [bind k_goto k_st]. change (Nat.eqb 0 (length (b :: r))) with false. cbn [orb rstate_eqb].
      match goal with |- context [sub_loop ?f ?c ?l ?d0 ?p] => assert (F : sub_loop f c l d0 p <> NoFuel) end.
      { apply sub_loop_fuel; [cbn; lia|discriminate|]. unfold mu, rank. cbn [k_st k_goto]. lia. }
      destruct (sub_loop _ _ _ _ _) as [[[? ?] ?]| |]; cbn [bind]; congruence.
    + apply sub_loop_fuel; [cbn; lia|exact K|]. unfold mu. lia.
Qed.

(** * Option headers in pieces *)

Inductive heads : odec -> holder -> list N -> odec -> holder -> Prop :=
| hs_nil : forall d h, heads d h [] d h
| hs_step : forall d h b r d1 h1 p d2 h2, mstep b d h = Ok (d1, h1, p) -> od_stops (d_st d1) = false ->
    heads d1 h1 (rest p b r) d2 h2 -> heads d h (b :: r) d2 h2.

Lemma mrun_heads : forall d h off q R, mrun d h off q R -> forall d2 h2 o, R = Ok ([], d2, h2, o) -> outside (d_st d) ->
  d_st d <> OPayload -> d_st d2 <> OPayload -> heads d h q d2 h2.
Proof.
  induction 1 as [d h off|d h off bs E|d h off b r Hp Hm|d h off b r d1 h1 p R Hp Hm Hr IH]; intros d2 h2 o HR Ho Hp0 Hp2.
  - injection HR as <- <- <-. constructor.
  - congruence.
  - discriminate.
  - destruct R as [[[[vs d3] h3] o3]| |]; cbn [addv] in HR; try discriminate. injection HR as HV -> -> ->.
    apply app_eq_nil in HV. destruct HV as [HE ->].
    assert (NV : d_st d1 <> ValueStart) by (intro Q; unfold emit in HE; rewrite Q in HE; discriminate).
    unfold mstep in Hm. destruct (od_step b d) as [[d1' p']| |] eqn:ES; cbn [bind fst snd] in Hm; try discriminate.
    destruct (hold_upd d1' h) as [h1'| |] eqn:EH; cbn [bind] in Hm; try discriminate. injection Hm as -> -> ->.
    destruct (outside_step _ _ _ _ Ho ES) as [N1 N2].
    assert (NP : d_st d1 <> OPayload).
    { intro Q. inversion Hr; subst; try congruence. }
    apply (hs_step d h b r d1 h1 p).
    + unfold mstep. rewrite ES. cbn [bind fst snd]. rewrite EH. reflexivity.
    + destruct (d_st d1); try reflexivity; congruence.
    + eapply IH; [reflexivity|repeat split; assumption|exact NP|exact Hp2].
Qed.

(** all of [a] is eaten *)
Lemma heads_eat : forall d h q d2 h2, heads d h q d2 h2 -> forall a b n fuel, q = a ++ b ->
  od_chunk_loop fuel d h a n = NoFuel \/
  exists d1 h1, od_chunk_loop fuel d h a n = Ok (d1, h1, n + length a)%nat /\ heads d1 h1 b d2 h2 /\
    (a <> [] -> outside (d_st d) \/ d_st d = OptionValueDone -> outside (d_st d1) /\ d_st d1 <> OPayload).
Proof.
  induction 1 as [d h|d h b0 r d1 h1 p d2 h2 Hm Hs Hh IH]; intros a b n fuel HQ.
  - symmetry in HQ. apply app_eq_nil in HQ. destruct HQ as [-> ->]. right. exists d, h.
    destruct fuel; cbn; rewrite Nat.add_0_r; (split; [reflexivity|split; [constructor|congruence]]).
  - destruct a as [|a0 a].
    { cbn [app] in HQ. subst b. right. exists d, h. destruct fuel; cbn [od_chunk_loop length]; rewrite Nat.add_0_r; (split; [reflexivity|split; [|congruence]]); eapply hs_step; eauto. }
    cbn [app] in HQ. injection HQ as <- ->. destruct fuel as [|fuel]; [left; reflexivity|]. cbn [od_chunk_loop].
    unfold mstep in Hm. destruct (od_step b0 d) as [[d1' p']| |] eqn:ES; cbn [bind fst snd] in Hm |- *; try discriminate.
    destruct (hold_upd d1' h) as [h1'| |] eqn:EH; cbn [bind] in Hm |- *; try discriminate. injection Hm as -> -> ->. rewrite Hs.
    assert (O1 : outside (d_st d) \/ d_st d = OptionValueDone -> outside (d_st d1) /\ d_st d1 <> OPayload).
    { intros [O|O]; [|unfold od_step in ES; rewrite O in ES; injection ES as <- <-; repeat split; discriminate]. destruct (outside_step _ _ _ _ O ES) as [N1 N2]. repeat split; try assumption; intro Q; rewrite Q in Hs; discriminate. }
    destruct p; cbn [rest] in *.
    + destruct (IH a b (S n) fuel eq_refl) as [E|(d3 & h3 & E & E2 & E3)]; [left; exact E|]. right. exists d3, h3.
      split; [rewrite E; do 2 f_equal; cbn [length]; lia|]. split; [exact E2|]. intros _ O. destruct (O1 O) as [O2 O3].
      destruct a as [|a1 a]; [|apply E3; [discriminate|left; exact O2]].
      assert (d3 = d1) by (destruct fuel; cbn in E; injection E as -> -> _; reflexivity). subst d3. auto.
    + destruct (IH (b0 :: a) b n fuel eq_refl) as [E|(d3 & h3 & E & E2 & E3)]; [left; exact E|]. right. exists d3, h3.
      split; [exact E|]. split; [exact E2|]. intros Hn O. apply E3; [exact Hn|]. left. apply O1, O.
Qed.

(** the whole header and one byte more *)
Lemma heads_start : forall d h q d2 h2, heads d h q d2 h2 -> forall l, ready d2 l -> forall c s n fuel,
  od_chunk_loop fuel d h (q ++ c :: s) n = NoFuel \/
  exists d3, od_chunk_loop fuel d h (q ++ c :: s) n = Ok (d3, h2, n + length q)%nat /\ d_st d3 = ValueStart /\ od_length d3 = Ok l.
Proof.
  induction 1 as [d h|d h b0 r d1 h1 p d2 h2 Hm Hs Hh IH]; intros l R c s n fuel.
  - destruct fuel as [|fuel]; [left; reflexivity|]. destruct R as (_ & _ & _ & _ & _ & _ & R). destruct (R c) as (d3 & A & B & C).
    right. exists d3. cbn [od_chunk_loop app]. rewrite A. cbn [bind fst snd].
    assert (HU : hold_upd d3 h = Ok h) by (unfold hold_upd; rewrite B; reflexivity). rewrite HU. cbn [bind]. rewrite B. cbn [od_stops].
    cbn [length]. rewrite Nat.add_0_r. auto.
  - destruct fuel as [|fuel]; [left; reflexivity|]. cbn [od_chunk_loop app].
    unfold mstep in Hm. destruct (od_step b0 d) as [[d1' p']| |] eqn:ES; cbn [bind fst snd] in Hm |- *; try discriminate.
    destruct (hold_upd d1' h) as [h1'| |] eqn:EH; cbn [bind] in Hm |- *; try discriminate. injection Hm as -> -> ->. rewrite Hs.
    destruct p; cbn [rest] in *.
    + destruct (IH l R c s (S n) fuel) as [E|(d3 & E & E2)]; [left; exact E|]. right. exists d3. split; [|exact E2].
      rewrite E. do 2 f_equal. cbn [length]. lia.
    + destruct (IH l R c s n fuel) as [E|(d3 & E & E2)]; [left; exact E|]. right. exists d3. split; [|exact E2]. exact E.
Qed.

(** a value: all of it *)
Lemma value_eat : forall v d h s n fuel, d_st d = OptionValue -> od_vlen d = len v -> len v < 65536 -> v <> [] ->
  od_chunk_loop fuel d h (v ++ s) n = NoFuel \/
  exists d1, od_chunk_loop fuel d h (v ++ s) n = Ok (d1, h, n + length v)%nat /\ d_st d1 = OptionValueDone.
Proof.
  induction v as [|b v IH]; intros d h s n fuel Hs Hl Hb Hn; [congruence|]. unfold len in *. cbn [length] in *.
  destruct fuel as [|fuel]; [left; reflexivity|]. cbn [od_chunk_loop app]. unfold od_step. rewrite Hs. cbn zeta.
  destruct v as [|b2 v].
  - right. eexists. cbn [length] in *. rewrite Hl. replace ((N.of_nat 1 + 65535) mod 65536 =? 0) with true by reflexivity.
    cbn [bind fst snd od_goto hold_upd d_st od_stops]. split; [do 2 f_equal; lia|reflexivity].
  - cbn [length] in *. set (l := (od_vlen d + 65535) mod 65536). assert (El : l = N.of_nat (S (length v))) by (unfold l; lia).
    replace (l =? 0) with false by (symmetry; apply N.eqb_neq; lia). cbn [bind fst snd hold_upd od_goto d_st od_stops].
    destruct (IH (od_goto OptionValue (od_set_vlen l d)) h s (S n) fuel) as [E|(d1 & E & E1)]; [reflexivity|rewrite vlen_set; lia|lia|discriminate| |].
    + left. exact E.
    + right. exists d1. split; [|exact E1]. etransitivity; [exact E|]. do 2 f_equal. lia.
Qed.

(** a part of it *)
Lemma value_part : forall v d h n fuel, d_st d = OptionValue -> len v < od_vlen d -> od_vlen d < 65536 ->
  od_chunk_loop fuel d h v n = NoFuel \/
  exists d1, od_chunk_loop fuel d h v n = Ok (d1, h, n + length v)%nat /\ d_st d1 = OptionValue /\ od_vlen d1 = od_vlen d - len v.
Proof.
  induction v as [|b v IH]; intros d h n fuel Hs Hl Hb; unfold len in *; cbn [length] in *.
  - right. exists d. destruct fuel; cbn; rewrite Nat.add_0_r, N.sub_0_r; auto.
  - destruct fuel as [|fuel]; [left; reflexivity|]. cbn [od_chunk_loop]. unfold od_step. rewrite Hs. cbn zeta.
    set (l := (od_vlen d + 65535) mod 65536). assert (El : l = od_vlen d - 1) by (unfold l; lia).
    replace (l =? 0) with false by (symmetry; apply N.eqb_neq; lia). cbn [bind fst snd hold_upd od_goto d_st od_stops].
    destruct (IH (od_goto OptionValue (od_set_vlen l d)) h (S n) fuel) as [E|(d1 & E & E1 & E2)]; [reflexivity|rewrite vlen_set; lia|rewrite vlen_set; lia| |].
    + left. exact E.
    + right. exists d1. rewrite vlen_set in E2. split; [etransitivity; [exact E|]; do 2 f_equal; lia|]. split; [exact E1|lia].
Qed.

(** * What is still to be told *)

Definition ob (m : msg) : list N := opts_bytes 0 (m_opts m) ++ pay_bytes (m_pay m).
Definition pa (m : msg) : list atom := pay_atoms (m_pay m) ++ [AComplete].
Definition oa (m : msg) : list atom := flat_map opt_atoms (m_opts m) ++ pa m.
Definition value_atoms (n : N) (v : list N) : list atom := map (AByte n) v ++ [AEnd n].

Inductive oexp (m : msg) : odec -> holder -> list N -> list atom -> Prop :=
| o_bound : forall od h prev pre os, boundary od -> hd_num h = prev -> m_opts m = pre ++ os -> opts_ok prev os ->
    opts_bytes prev os ++ pay_bytes (m_pay m) <> [] ->
    oexp m od h (opts_bytes prev os ++ pay_bytes (m_pay m)) (flat_map opt_atoms os ++ pa m)
| o_head : forall od h q d2 pre num v os, heads od h q d2 (Holder num (len v)) -> ready d2 (len v) -> outside (d_st od) -> d_st od <> OPayload ->
    m_opts m = pre ++ (num, v) :: os -> len v < 65536 -> opts_ok num os ->
    oexp m od h (q ++ v ++ opts_bytes num os ++ pay_bytes (m_pay m)) (opt_atoms (num, v) ++ flat_map opt_atoms os ++ pa m)
| o_start : forall od pre num v os, d_st od = ValueStart -> od_length od = Ok (len v) ->
    m_opts m = pre ++ (num, v) :: os -> len v < 65536 -> opts_ok num os -> v ++ opts_bytes num os ++ pay_bytes (m_pay m) <> [] ->
    oexp m od (Holder num (len v)) (v ++ opts_bytes num os ++ pay_bytes (m_pay m)) (opt_atoms (num, v) ++ flat_map opt_atoms os ++ pa m)
| o_value : forall od pre num w v os, d_st od = OptionValue -> od_vlen od = len v -> v <> [] -> w <> [] ->
    m_opts m = pre ++ (num, w) :: os -> len v < 65536 -> opts_ok num os ->
    oexp m od (Holder num (len v)) (v ++ opts_bytes num os ++ pay_bytes (m_pay m)) (value_atoms num v ++ flat_map opt_atoms os ++ pa m).

Definition expects (m : msg) (d : dec) (rest : list N) (A : list atom) : Prop :=
  match k_st d with
  | Uninitialized => dec_mem d /\ rest = msg_bytes m /\ A = msg_atoms m
  | RHeader => exists i, dec_mem d /\ k_hpos d = N.of_nat i /\ (i < 4)%nat /\ firstn i (hdr_bytes (k_h d)) = firstn i (hdr_bytes (m_hdr m)) /\
      rest = skipn i (hdr_bytes (m_hdr m)) ++ m_tok m ++ ob m /\ A = msg_atoms m
  | HeaderDone => dec_mem d /\ k_h d = m_hdr m /\ rest = m_tok m ++ ob m /\ A = msg_atoms m
  | TokenStart => dec_mem d /\ k_h d = m_hdr m /\ m_tok m <> [] /\ rest = m_tok m ++ ob m /\ A = tok_atoms (m_tok m) ++ oa m
  | RToken => exists i, dec_mem d /\ k_h d = m_hdr m /\ k_tpos d = N.of_nat i /\ (i < length (m_tok m))%nat /\
      firstn i (k_tok d) = firstn i (m_tok m) /\ rest = skipn i (m_tok m) ++ ob m /\ A = tok_atoms (m_tok m) ++ oa m
  | TokenDone => dec_mem d /\ k_h d = m_hdr m /\ firstn (length (m_tok m)) (k_tok d) = m_tok m /\ (m_tok m = [] -> ob m <> []) /\
      rest = ob m /\ A = tok_atoms (m_tok m) ++ oa m
  | OptionsStart => dec_mem d /\ ob m <> [] /\ rest = ob m /\ A = oa m
  | ROptions => oexp m (k_od d) (k_hold d) rest A
  | OptionsDone =>
      (d_st (k_od d) = OPayload /\ exists b, m_pay m = Some b /\ rest = b /\ A = map APay b ++ [APayEnd; AComplete]) \/
      (rest = [] /\ A = [AComplete] /\ m_pay m = None /\ exists pre num v, m_opts m = pre ++ [(num, v)] /\ v <> [])
  | RPayload => rest <> [] /\ (exists b c, m_pay m = Some (b :: c)) /\ A = map APay rest ++ [APayEnd; AComplete]
  | PayloadDone => rest = [] /\ A = [] /\ exists b c, m_pay m = Some (b :: c)
  | RDone => False
  end.

Lemma expects_lost : forall m d A, expects m d [] A -> A = lost m.
Proof.
  intros m d A H. unfold expects in H. destruct (k_st d) eqn:S.
  - destruct H as (_ & H & _). discriminate.
  - destruct H as (i & _ & _ & Hi & _ & H & _). exfalso. apply (f_equal (@length N)) in H. rewrite app_length, skipn_length in H.
    cbn [length hdr_bytes] in H. lia.
  - destruct H as (_ & _ & H & ->). symmetry in H. apply app_eq_nil in H. destruct H as [H1 H2]. unfold ob in H2.
    apply app_eq_nil in H2. destruct H2 as [H2 H3]. unfold msg_atoms, lost. rewrite H1.
    destruct (m_opts m) as [|[num v] os]; [|discriminate]. destruct (m_pay m); [discriminate|]. reflexivity.
  - destruct H as (_ & _ & H1 & H2 & _). symmetry in H2. apply app_eq_nil in H2. destruct H2. congruence.
  - destruct H as (i & _ & _ & _ & Hi & _ & H & _). exfalso. apply (f_equal (@length N)) in H. rewrite app_length, skipn_length in H. cbn in H. lia.
  - destruct H as (_ & _ & _ & Hn & H & ->). unfold oa, pa, ob, lost in *. symmetry in H. pose proof H as H'. apply app_eq_nil in H. destruct H as [H2 H3].
    destruct (m_opts m) as [|[num v] os]; [|discriminate]. destruct (m_pay m); [discriminate|].
    destruct (m_tok m) as [|t ts]; [|reflexivity]. exfalso. apply Hn; reflexivity.
  - destruct H as (_ & H1 & H2 & _). congruence.
  - inversion H as [od h prev pre os B1 B2 B3 B4 B5 E1 E2 E3 E4|od h q d2 pre num v os B1 B2 B3 B4 B5 B6 B7 E1 E2 E3 E4|od pre num v os B1 B2 B3 B4 B5 B6 E1 E2 E3 E4|od pre num w v os B1 B2 B3 B4 B5 B6 B7 E1 E2 E3 E4].
    + congruence.
    + apply app_eq_nil in E3. destruct E3 as [-> E3]. apply app_eq_nil in E3. destruct E3 as [-> E3]. apply app_eq_nil in E3. destruct E3 as [E5 E6].
      destruct os as [|[x y] os]; [|discriminate]. unfold pa, lost. rewrite B5, rev_unit. destruct (m_pay m); [discriminate|]. reflexivity.
    + congruence.
    + rewrite E3 in B3. apply app_eq_nil in E3. destruct E3. congruence.
  - destruct H as [(_ & b & H1 & H2 & ->)|(_ & -> & H1 & pre & num & v & H2 & H3)].
    + subst b. unfold lost. rewrite H1. reflexivity.
    + unfold lost. rewrite H1, H2, rev_unit. destruct v; [congruence|]. reflexivity.
  - destruct H as [H _]. congruence.
  - destruct H as (_ & -> & b & c & H). unfold lost. rewrite H. reflexivity.
  - destruct H.
Qed.

Lemma head_chunk : forall m od h q d2 pre num v os rem later, heads od h q d2 (Holder num (len v)) -> ready d2 (len v) ->
  outside (d_st od) \/ d_st od = OptionValueDone -> m_opts m = pre ++ (num, v) :: os -> len v < 65536 -> opts_ok num os ->
  rem <> [] -> rem ++ later = q ++ v ++ opts_bytes num os ++ pay_bytes (m_pay m) ->
  exists o h1 n, od_chunk od h rem = Ok (o, h1, n) /\ (n <= length rem)%nat /\ d_st o <> OptionValueDone /\ d_st o <> OPayload /\
    oexp m o h1 (skipn n rem ++ later) (opt_atoms (num, v) ++ flat_map opt_atoms os ++ pa m).
Proof.
  intros m od h q d2 pre num v os rem later Hh Hr Ho Hm Hl Hos Hne Hs.
  destruct (Nat.le_gt_cases (length rem) (length q)) as [L|L].
  - destruct (app_split_le q _ rem later (eq_sym Hs) L) as [A B].
    assert (Q : q = rem ++ skipn (length rem) q) by (rewrite <- A at 1; symmetry; apply firstn_skipn).
    destruct (heads_eat _ _ _ _ _ Hh rem (skipn (length rem) q) 0 (4 * length rem + 4) Q) as [E|(d1 & h1 & E & E2 & E3)].
    { exfalso. exact (od_chunk_fuel _ _ _ E). }
    exists d1, h1, (length rem). destruct (E3 Hne Ho) as [(O1 & O2 & O3) O4]. split; [exact E|]. split; [lia|]. split; [exact O3|]. split; [exact O4|].
    rewrite skipn_all. cbn [app]. rewrite <- B. eapply o_head; eauto. repeat split; assumption.
  - destruct (app_split_le rem later q _ Hs) as [A B]; [lia|].
    assert (Q : rem = q ++ skipn (length q) rem) by (rewrite <- A at 1; symmetry; apply firstn_skipn).
    destruct (skipn (length q) rem) as [|c s] eqn:ES.
    { exfalso. apply (f_equal (@length N)) in ES. rewrite skipn_length in ES. cbn in ES. lia. }
    destruct (heads_start _ _ _ _ _ Hh _ Hr c s 0 (4 * length rem + 4)) as [E|(d3 & E & E2 & E3)].
    { exfalso. rewrite <- Q in E. exact (od_chunk_fuel _ _ _ E). }
    rewrite <- Q in E. exists d3, (Holder num (len v)), (length q). split; [exact E|]. split; [lia|]. rewrite E2. split; [discriminate|]. split; [discriminate|].
    rewrite ES, B. eapply o_start; eauto. rewrite <- B. discriminate.
Qed.

Lemma bound_chunk : forall m od h prev pre os rem later, msg_ok m -> boundary od -> hd_num h = prev -> m_opts m = pre ++ os -> opts_ok prev os ->
  rem <> [] -> rem ++ later = opts_bytes prev os ++ pay_bytes (m_pay m) ->
  exists o h1 n, od_chunk od h rem = Ok (o, h1, n) /\ (n <= length rem)%nat /\ d_st o <> OptionValueDone /\
    ((d_st o = OPayload /\ exists b, os = [] /\ m_pay m = Some b /\ skipn n rem ++ later = b) \/
     (d_st o <> OPayload /\ oexp m o h1 (skipn n rem ++ later) (flat_map opt_atoms os ++ pa m))).
Proof.
  intros m od h prev pre os rem later Hm Hb Hh Ho Hos Hne Hs. destruct os as [|[num v] os].
  - cbn [opts_bytes app] in Hs. destruct rem as [|b rem]; [congruence|]. destruct (m_pay m) as [b'|] eqn:Ep; [|discriminate].
    cbn [pay_bytes] in Hs. injection Hs as -> Hs.
    exists (od_goto OPayload (match d_st od with FirstByte => od | _ => od_goto FirstByte od end)), h, 1%nat.
    split; [|split; [cbn; lia|split; [discriminate|left; split; [reflexivity|exists b'; auto]]]].
    unfold od_chunk. replace (4 * length (255%N :: rem) + 4)%nat with (S (S (4 * length (255%N :: rem) + 2))) by lia.
    destruct Hb as [Hb|Hb].
    + cbn [od_chunk_loop]. unfold od_step at 1. rewrite Hb. change (255 =? 255) with true. reflexivity.
    + set (k := (4 * length (255%N :: rem) + 2)%nat). cbn [od_chunk_loop]. unfold od_step at 1. rewrite Hb. cbn [bind fst snd hold_upd od_goto d_st od_stops].
      unfold od_step. cbn [od_goto d_st]. change (255 =? 255) with true. reflexivity.
  - cbn [opts_bytes] in Hs. cbn [opts_ok] in Hos. destruct Hos as (P1 & P2 & P3 & P4 & P5). subst prev.
    unfold opt_head in Hs. set (delta := num - hd_num h) in *. cbn [app] in Hs.
    pose proof (nib_lt delta) as Bd. pose proof (nib_lt (len v)) as Bl. assert (Hd : delta < 65536) by (unfold delta; lia).
    set (b := nib delta * 16 + nib (len v)) in *.
    set (r2 := v ++ opts_bytes num os ++ pay_bytes (m_pay m)) in *.
    assert (Hs' : rem ++ later = b :: ext delta ++ ext (len v) ++ r2) by (rewrite Hs; unfold r2; rewrite <- !app_assoc; reflexivity).
    assert (Ok2 : bytes_ok r2).
    { unfold r2. apply bytes_ok_app. split; [exact P4|]. apply bytes_ok_app. split; [apply opts_bytes_ok; exact P5|].
      destruct Hm as (_ & _ & _ & _ & _ & Hp). destruct (m_pay m); [|apply Forall_nil]. cbn [pay_bytes]. apply Forall_cons; [unfold byte_ok; lia|exact Hp]. }
    assert (Ok1 : bytes_ok (b :: ext delta ++ ext (len v) ++ r2)).
    { apply Forall_cons; [unfold byte_ok, b; lia|]. apply bytes_ok_app. split; [apply ext_bytes_ok; exact Hd|]. apply bytes_ok_app. split; [apply ext_bytes_ok; exact P3|exact Ok2]. }
    assert (T1 : take_ext (b / 16) (ext delta ++ ext (len v) ++ r2) = OptDecSpec.Got delta (ext (len v) ++ r2)).
    { replace (b / 16) with (nib delta) by (unfold b; lia). apply take_ext_enc. exact Hd. }
    assert (T2 : take_ext (b mod 16) (ext (len v) ++ r2) = OptDecSpec.Got (len v) r2).
    { replace (b mod 16) with (nib (len v)) by (unfold b; lia). apply take_ext_enc. exact P3. }
    assert (B255 : b <> 255) by (unfold b; lia).
    destruct (head_run (od_goto FirstByte od) h 0 b _ delta _ (len v) r2 eq_refl B255 Ok1 T1 T2) as (hb & d2 & Q1 & Q2 & Q3 & Q4).
    replace ((hd_num h + delta) mod 65536) with num in Q4 by (unfold delta; rewrite N.mod_small; lia).
    assert (O1 : outside (d_st (od_goto FirstByte od))) by (repeat split; discriminate).
    assert (O2 : d_st (od_goto FirstByte od) <> OPayload) by discriminate.
    assert (O3 : d_st d2 <> OPayload) by apply Q3.
    pose proof (mrun_heads _ _ _ _ _ Q4 _ _ _ eq_refl O1 O2 O3) as Hh.
    assert (Hh' : heads od h hb d2 (Holder num (len v)) /\ (outside (d_st od) \/ d_st od = OptionValueDone)).
    { destruct Hb as [Hb|Hb].
      - replace od with (od_goto FirstByte od) by (destruct od; cbn in *; subst; reflexivity). split; [exact Hh|left; exact O1].
      - split; [|right; exact Hb]. destruct hb as [|b0 hb]; [congruence|].
        apply (hs_step od h b0 hb (od_goto FirstByte od) h false); [|reflexivity|exact Hh].
        unfold mstep, od_step. rewrite Hb. reflexivity. }
    destruct Hh' as [Hh1 Hh2].
    assert (Hs2 : rem ++ later = hb ++ r2) by (rewrite Hs', Q1; reflexivity).
    destruct (head_chunk m od h hb d2 pre num v os rem later Hh1 Q3 Hh2 Ho P3 P5 Hne Hs2) as (o & h1 & n & E1 & E2 & E3 & E4 & E5).
    exists o, h1, n. split; [exact E1|]. split; [exact E2|]. split; [exact E3|]. right. split; [exact E4|].
    cbn [flat_map]. rewrite <- app_assoc. exact E5.
Qed.

Lemma value_chunk : forall od h v rem, (d_st od = OptionValue /\ od_vlen od = len v) \/ (d_st od = ValueStart /\ od_length od = Ok (len v)) ->
  v <> [] -> len v < 65536 -> rem <> [] ->
  (len rem < len v -> exists o, od_chunk od h rem = Ok (o, h, length rem) /\ d_st o = OptionValue /\ od_vlen o = len v - len rem) /\
  (forall s, rem = v ++ s -> exists o, od_chunk od h rem = Ok (o, h, length v) /\ d_st o = OptionValueDone).
Proof.
  intros od h v rem Hd Hv Hl Hr. unfold od_chunk.
  assert (K : exists o1 k, d_st o1 = OptionValue /\ od_vlen o1 = len v /\ od_chunk_loop (4 * length rem + 4) od h rem 0 = od_chunk_loop k o1 h rem 0).
  { destruct Hd as [[A B]|[A B]]; [exists od, (4 * length rem + 4)%nat; auto|].
    exists (od_goto OptionValue (od_set_vlen (len v) od)), (4 * length rem + 3)%nat. split; [reflexivity|]. split; [apply vlen_set|].
    destruct rem as [|b r]; [congruence|]. replace (4 * length (b :: r) + 4)%nat with (S (4 * length (b :: r) + 3)) by lia.
    set (k := (4 * length (b :: r) + 3)%nat). cbn [od_chunk_loop]. unfold od_step at 1. rewrite A, B. cbn [bind].
    replace (len v =? 0) with false by (symmetry; apply N.eqb_neq; unfold len; destruct v; [congruence|cbn; lia]). reflexivity. }
  destruct K as (o1 & k & A & B & E). pose proof (od_chunk_fuel od h rem) as NF. unfold od_chunk in NF. rewrite E in *. split.
  - intro L. destruct (value_part rem o1 h 0 k A) as [X|(o & X & Y & Z)]; try lia; [congruence|]. exists o. rewrite B in Z. auto.
  - intros s ->. destruct (value_eat v o1 h s 0 k A B Hl Hv) as [X|(o & X & Y)]; [congruence|]. exists o. auto.
Qed.

Lemma notify_iterate : forall c last d pos es d1 p fin, dec_notify c last d pos = Ok (es, d1, p, fin) ->
  dec_iterate c last d pos = Ok (d1, p, fin) /\ dec_events c last d1 p = Ok es.
Proof.
  intros c last d pos es d1 p fin H. unfold dec_notify in H. destruct (dec_iterate c last d pos) as [[[d2 p2] f2]| |]; cbn [bind] in H; try discriminate.
  destruct (dec_events c last d2 p2) as [es2| |] eqn:E; cbn [bind] in H; try discriminate. injection H as <- <- <- <-. auto.
Qed.

Lemma iterate_intro : forall c last d pos d1 p, dec_step c last d pos = Ok (d1, p) -> (p <= length c)%nat ->
  dec_iterate c last d pos = Ok (d1, p, Nat.eqb p (length c)).
Proof. intros c last d pos d1 p H L. unfold dec_iterate. rewrite H. cbn [bind]. apply Nat.leb_le in L. rewrite L. reflexivity. Qed.

Lemma iterate_options : forall c last d pos o h n, k_st d = ROptions -> (pos < length c)%nat ->
  od_chunk (k_od d) (k_hold d) (remainder c pos) = Ok (o, h, n) -> (n <= length (remainder c pos))%nat ->
  dec_iterate c last d pos = Ok (opt_out c last d o h (pos + n), (pos + n)%nat, Nat.eqb (pos + n) (length c)).
Proof.
  intros c last d pos o h n S Hp E L. unfold remainder in *. rewrite skipn_length in L. apply iterate_intro; [|lia].
  unfold dec_step. rewrite S. unfold remainder. destruct (skipn_nonempty c pos Hp) as (b & r & R). rewrite R in *. rewrite chunk_last_nonempty, E.
  cbn [bind]. reflexivity.
Qed.

Lemma rem_ne : forall (c : list N) pos, (pos < length c)%nat -> skipn pos c <> [].
Proof. intros c pos H Q. apply (f_equal (@length N)) in Q. rewrite skipn_length in Q. cbn in Q. lia. Qed.

Lemma flat_app : forall a b, flat (a ++ b) = flat a ++ flat b.
Proof. intros. unfold flat. apply flat_map_app. Qed.

Definition good (m : msg) (c later : list N) (last : bool) (d : dec) (pos : nat) (A : list atom) : Prop :=
  exists cs d1 pos1 A1, sub_iterate c last d pos = Ok (cs, d1, pos1, Nat.eqb pos1 (length c)) /\ (pos1 <= length c)%nat /\
    A = flat cs ++ A1 /\ expects m d1 (skipn pos1 c ++ later) A1.

Lemma good_intro : forall m c later last d pos A cs d0 d1 pos1 A1, sub_calls c last d pos = (cs, d0) ->
  dec_iterate c last d0 pos = Ok (d1, pos1, Nat.eqb pos1 (length c)) -> (pos1 <= length c)%nat ->
  A = flat cs ++ A1 -> expects m d1 (skipn pos1 c ++ later) A1 -> good m c later last d pos A.
Proof.
  intros m c later last d pos A cs d0 d1 pos1 A1 E1 E2 L EA X. exists cs, d1, pos1, A1. split; [|auto].
  unfold sub_iterate. rewrite E1, E2. reflexivity.
Qed.

Lemma opt_out_st : forall c last d o h p, d_st o <> OPayload -> d_st o <> OptionValueDone -> k_st (opt_out c last d o h p) = ROptions.
Proof.
  intros c last d o h p A B. unfold opt_out, fin_state. cbn [k_st]. destruct (d_st o); try congruence; cbn; rewrite ?andb_false_r; reflexivity.
Qed.

(** the value, or the part of it that is here *)
Lemma value_step : forall m c later last d0 pos num w v pre os, msg_ok m -> k_st d0 = ROptions -> (pos < length c)%nat ->
  (d_st (k_od d0) = OptionValue /\ od_vlen (k_od d0) = len v) \/ (d_st (k_od d0) = ValueStart /\ od_length (k_od d0) = Ok (len v)) ->
  k_hold d0 = Holder num (len v) -> v <> [] -> w <> [] -> m_opts m = pre ++ (num, w) :: os -> len v < 65536 -> opts_ok num os ->
  skipn pos c ++ later = v ++ opts_bytes num os ++ pay_bytes (m_pay m) ->
  last = match later with [] => true | _ => false end ->
  exists cs d1 d2 pos1 A1, sub_value (skipn pos c) d0 = (cs, d1) /\ dec_iterate c last d1 pos = Ok (d2, pos1, Nat.eqb pos1 (length c)) /\
    (pos1 <= length c)%nat /\ value_atoms num v ++ flat_map opt_atoms os ++ pa m = flat cs ++ A1 /\ expects m d2 (skipn pos1 c ++ later) A1.
Proof.
  intros m c later last d0 pos num w v pre os Hm S Hp Hd Hh Hv Hw Ho Hl Hos Hs HL.
  pose proof (rem_ne c pos Hp) as Hne. set (rem := skipn pos c) in *.
  assert (Lr : length rem = (length c - pos)%nat) by (unfold rem; apply skipn_length).
  unfold sub_value. rewrite Hh. cbn [hd_num hd_len]. fold (len rem).
  destruct (value_chunk (k_od d0) (Holder num ((len v - len rem) mod 65536)) v rem Hd Hv Hl Hne) as [VP _].
  destruct (value_chunk (k_od d0) (Holder num (len v)) v rem Hd Hv Hl Hne) as [_ VE].
  destruct (N.ltb_spec (len rem) (len v)) as [L|L].
  - destruct (VP L) as (o & E & E1 & E2). clear VP VE.
    assert (L' : (length rem < length v)%nat) by (unfold len in L; lia).
    destruct (app_split_gt rem later v _ Hs L') as [X1 X2].
    set (d1 := k_set_len ((len v - len rem) mod 65536) d0).
    exists [OnValue num rem false], d1, (opt_out c last d1 o (Holder num (len v - len rem)) (pos + length rem)), (pos + length rem)%nat,
      (value_atoms num (skipn (length rem) v) ++ flat_map opt_atoms os ++ pa m).
    split; [reflexivity|]. split; [|split; [lia|split]].
    + assert (MS : (len v - len rem) mod 65536 = len v - len rem) by (apply N.mod_small; lia).
      apply iterate_options; [exact S|exact Hp| |unfold remainder; fold rem; lia].
      unfold remainder. fold rem. unfold d1, k_set_len. cbn [k_od k_hold]. rewrite Hh. cbn [hd_num]. rewrite MS in E |- *. exact E.
    + unfold flat. cbn [flat_map flat1]. rewrite app_nil_r, app_nil_r. unfold value_atoms.
      rewrite <- (firstn_skipn (length rem) v) at 1. rewrite X1, map_app, <- !app_assoc. reflexivity.
    + replace (pos + length rem)%nat with (length c) by lia. rewrite skipn_end. cbn [app].
      unfold expects. rewrite opt_out_st by (rewrite E1; discriminate). unfold opt_out. cbn [k_od k_hold].
      assert (LL : len v - len rem = len (skipn (length rem) v)) by (unfold len; rewrite skipn_length; lia). rewrite LL in *. rewrite X2.
      eapply (o_value m o pre num w); try eassumption; [|lia]. intro Q. rewrite Q in LL. unfold len in LL, L. cbn in LL. lia.
  - assert (L' : (length v <= length rem)%nat) by (unfold len in L; lia).
    destruct (app_split_le rem later v _ Hs L') as [X1 X2].
    assert (Q : rem = v ++ skipn (length v) rem) by (rewrite <- X1 at 1; symmetry; apply firstn_skipn).
    destruct (VE _ Q) as (o & E & E1). clear VP VE.
    exists [OnValue num v true], d0, (opt_out c last d0 o (Holder num (len v)) (pos + length v)), (pos + length v)%nat, (flat_map opt_atoms os ++ pa m).
    split; [|split; [|split; [lia|split]]].
    + unfold len. rewrite Nat2N.id, X1. reflexivity.
    + apply iterate_options; [exact S|exact Hp| |unfold remainder; fold rem; lia]. unfold remainder. fold rem. rewrite Hh. exact E.
    + unfold flat. cbn [flat_map flat1]. rewrite app_nil_r. reflexivity.
    + assert (R : skipn (pos + length v) c ++ later = opts_bytes num os ++ pay_bytes (m_pay m)) by (rewrite <- X2; unfold rem; rewrite skipn_skipn'; reflexivity).
      rewrite R. unfold expects, opt_out, fin_state. rewrite E1. cbn [ostate_eqb k_st k_od k_hold]. rewrite andb_true_r.
      destruct (opts_bytes num os ++ pay_bytes (m_pay m)) as [|x y] eqn:RN.
      * assert (later = []) by (destruct later; [reflexivity|destruct (skipn (pos + length v) c); discriminate]). subst later last.
        assert (LE : Nat.eqb (pos + length v) (length c) = true).
        { apply Nat.eqb_eq. rewrite app_nil_r in R. apply (f_equal (@length N)) in R. rewrite skipn_length in R. cbn in R. lia. }
        rewrite LE. cbn [andb k_st]. right. apply app_eq_nil in RN. destruct RN as [R1 R2]. destruct os as [|[? ?] ?]; [|discriminate].
        destruct (m_pay m) eqn:EP; [discriminate|]. split; [reflexivity|]. split; [unfold pa; rewrite EP; reflexivity|]. split; [reflexivity|]. exists pre, num, w. auto.
      * assert (LE : Nat.eqb (pos + length v) (length c) && last = false).
        { subst last. destruct later; [|apply andb_false_r]. destruct (Nat.eqb_spec (pos + length v) (length c)) as [Q'|Q']; [|reflexivity].
          rewrite Q', skipn_end in R. discriminate. }
        rewrite LE. cbn [k_st]. rewrite <- RN. eapply (o_bound m o _ num (pre ++ [(num, w)])); [right; exact E1|reflexivity|rewrite <- app_assoc; exact Ho|exact Hos|rewrite RN; discriminate].
Qed.

Lemma options_step : forall m c later last d pos A, msg_ok m -> k_st d = ROptions -> (pos < length c)%nat ->
  last = match later with [] => true | _ => false end ->
  oexp m (k_od d) (k_hold d) (skipn pos c ++ later) A -> good m c later last d pos A.
Proof.
  intros m c later last d pos A Hm S Hp HL H. pose proof (rem_ne c pos Hp) as Hne.
  remember (skipn pos c ++ later) as R eqn:ER. remember (k_od d) as od eqn:EO. remember (k_hold d) as h eqn:EH.
  destruct H as [od h prev pre os B1 B2 B3 B4 B5|od h q d2 pre num v os B1 B2 B3 B4 B5 B6 B7|od pre num v os B1 B2 B3 B4 B5 B6|od pre num w v os B1 B2 B3 B4 B5 B6 B7]; subst od.
  - destruct (bound_chunk m (k_od d) h prev pre os (skipn pos c) later Hm B1 B2 B3 B4 Hne (eq_sym ER)) as (o & h1 & n & E1 & E2 & E3 & E4). subst h.
    pose proof (iterate_options c last d pos o h1 n S Hp E1 E2) as I.
    assert (SC : sub_calls c last d pos = ([], d)) by (unfold sub_calls; rewrite S; unfold sub_option; destruct B1 as [-> | ->]; reflexivity).
    rewrite skipn_length in E2.
    eapply good_intro; [exact SC|exact I|lia|cbn [flat flat_map app]; reflexivity|].
    rewrite skipn_skipn' in E4. destruct E4 as [(E4 & b & -> & E5 & E6)|(E4 & E5)].
    + unfold expects, opt_out, fin_state. rewrite E4. cbn [ostate_eqb k_st k_od]. left. split; [exact E4|]. exists b. split; [exact E5|]. split; [exact E6|].
      cbn [flat_map app]. unfold pa. rewrite E5. cbn [pay_atoms]. rewrite <- app_assoc. reflexivity.
    + unfold expects. rewrite opt_out_st by assumption. exact E5.
  - destruct (head_chunk m (k_od d) h q d2 pre num v os (skipn pos c) later B1 B2 (or_introl B3) B5 B6 B7 Hne (eq_sym ER)) as (o & h1 & n & E1 & E2 & E3 & E4 & E5). subst h.
    pose proof (iterate_options c last d pos o h1 n S Hp E1 E2) as I.
    assert (SC : sub_calls c last d pos = ([], d)) by (unfold sub_calls; rewrite S; unfold sub_option; destruct B3 as (X1 & X2 & X3); destruct (d_st (k_od d)); congruence).
    rewrite skipn_length in E2. rewrite skipn_skipn' in E5.
    eapply good_intro; [exact SC|exact I|lia|cbn [flat flat_map app]; reflexivity|].
    unfold expects. rewrite opt_out_st by assumption. exact E5.
  - destruct v as [|v0 v].
    + assert (SC : sub_calls c last d pos = ([OnOption num 0], d)) by (unfold sub_calls; rewrite S; unfold sub_option; rewrite B1, <- EH; reflexivity).
      set (o := od_goto OptionValueDone (od_set_vlen 0 (k_od d))).
      assert (E : od_chunk (k_od d) (k_hold d) (remainder c pos) = Ok (o, k_hold d, 0%nat)).
      { unfold remainder. destruct (skipn pos c) as [|b r]; [congruence|]. unfold od_chunk. replace (4 * length (b :: r) + 4)%nat with (Datatypes.S (4 * length (b :: r) + 3)) by lia.
        cbn [od_chunk_loop]. unfold od_step. rewrite B1, B2. reflexivity. }
      assert (I := iterate_options c last d pos o _ 0 S Hp E (Nat.le_0_l _)).
      eapply good_intro; [exact SC|exact I|lia| |].
      * unfold opt_atoms. cbn [fst snd len length app]. reflexivity.
      * rewrite Nat.add_0_r. unfold expects, opt_out, fin_state. change (d_st o) with OptionValueDone. cbn [ostate_eqb k_st k_od k_hold].
        replace (Nat.eqb pos (length c)) with false by (symmetry; apply Nat.eqb_neq; lia). cbn [andb k_st]. rewrite <- ER. cbn [app].
        eapply (o_bound m o _ num (pre ++ [(num, [])])); [right; reflexivity|rewrite <- EH; reflexivity|rewrite <- app_assoc; exact B3|exact B5|exact B6].
    + assert (D : (d_st (k_od d) = OptionValue /\ od_vlen (k_od d) = len (v0 :: v)) \/ (d_st (k_od d) = ValueStart /\ od_length (k_od d) = Ok (len (v0 :: v)))) by (right; auto).
      assert (NV : v0 :: v <> []) by discriminate.
      destruct (value_step m c later last d pos num (v0 :: v) (v0 :: v) pre os Hm S Hp D (eq_sym EH) NV NV B3 B4 B5 (eq_sym ER) HL) as (cs & d1 & d2 & pos1 & A1 & V1 & V2 & V3 & V4 & V5).
      assert (SC : sub_calls c last d pos = (OnOption num (len (v0 :: v)) :: cs, d1)).
      { unfold sub_calls. rewrite S. unfold sub_option, remainder. rewrite B1, <- EH. cbn [hd_num hd_len].
        replace (len (v0 :: v) =? 0) with false by (symmetry; apply N.eqb_neq; unfold len; cbn; lia). rewrite V1. reflexivity. }
      eapply good_intro; [exact SC|exact V2|exact V3| |exact V5].
      unfold opt_atoms. cbn [fst snd]. change (flat (OnOption num (len (v0 :: v)) :: cs)) with (AOption num (len (v0 :: v)) :: flat cs).
      cbn [app]. f_equal. exact V4.
  - assert (D : (d_st (k_od d) = OptionValue /\ od_vlen (k_od d) = len v) \/ (d_st (k_od d) = ValueStart /\ od_length (k_od d) = Ok (len v))) by (left; auto).
    destruct (value_step m c later last d pos num w v pre os Hm S Hp D (eq_sym EH) B3 B4 B5 B6 B7 (eq_sym ER) HL) as (cs & d1 & d2 & pos1 & A1 & V1 & V2 & V3 & V4 & V5).
    assert (SC : sub_calls c last d pos = (cs, d1)) by (unfold sub_calls; rewrite S; unfold sub_option, remainder; rewrite B1; exact V1).
    eapply good_intro; eauto.
Qed.

Lemma sub_step : forall m c later last d pos A, msg_ok m -> bytes_ok c -> (pos < length c)%nat ->
  last = match later with [] => true | _ => false end ->
  expects m d (skipn pos c ++ later) A -> good m c later last d pos A.
Proof.
  intros m c later last d pos A Hm Hok Hp HL H. pose proof (rem_ne c pos Hp) as Hne.
  assert (RN : skipn pos c ++ later <> []) by (intro Q; apply app_eq_nil in Q; tauto).
  assert (Htk : hdr_tkl (m_hdr m) = N.of_nat (length (m_tok m))) by (rewrite tkl_mod; apply Hm).
  assert (H8 : (length (m_tok m) <= 8)%nat) by apply Hm.
  destruct (k_st d) eqn:S; unfold expects in H; rewrite S in H.
  - destruct H as (M & R & ->). eapply good_intro; [unfold sub_calls; rewrite S; reflexivity| | |reflexivity|].
    + apply iterate_intro; [unfold dec_step; rewrite S; reflexivity|lia].
    + lia.
    + unfold expects. cbn [k_st k_hpos k_h]. exists 0%nat. split; [exact M|]. split; [reflexivity|]. split; [lia|]. split; [reflexivity|]. split; [exact R|reflexivity].
  - destruct H as (i & M & Hi & Hi4 & Hf & R & ->).
    assert (Hsk : length (skipn i (hdr_bytes (m_hdr m))) = (4 - i)%nat) by (rewrite skipn_length; reflexivity).
    assert (SC : sub_calls c last d pos = ([], d)) by (unfold sub_calls; rewrite S; reflexivity).
    destruct (Nat.le_gt_cases (4 - i) (length (skipn pos c))) as [L|L].
    + destruct (app_split_le _ _ _ _ R) as (S1 & S2); [lia|]. rewrite Hsk in S1, S2.
      pose proof (hdr_loop_done i (skipn pos c) (k_h d) (m_hdr m) Hi4 L Hf S1) as X. rewrite skipn_skipn' in S2. rewrite skipn_length in L.
      eapply good_intro; [exact SC| | |reflexivity|].
      * apply iterate_intro; [unfold dec_step; rewrite S, Hi; unfold remainder; rewrite X; reflexivity|lia].
      * lia.
      * unfold expects. cbn [k_st k_h]. split; [exact M|]. split; [reflexivity|]. split; [exact S2|reflexivity].
    + destruct (app_split_gt _ _ _ _ R) as (S1 & S2); [lia|]. rewrite skipn_skipn' in S2.
      assert (Hn : length (skipn pos c) = (length c - pos)%nat) by apply skipn_length.
      assert (Hlt : (i + length (skipn pos c) < 4)%nat) by lia.
      destruct (hdr_loop_part i (skipn pos c) (k_h d) (m_hdr m) Hlt Hf S1) as (h1' & X & Y).
      eapply good_intro; [exact SC| | |reflexivity|].
      * apply iterate_intro; [unfold dec_step; rewrite S, Hi; unfold remainder; rewrite X; reflexivity|lia].
      * lia.
      * unfold expects. cbn [k_st k_h k_hpos]. exists (i + length (skipn pos c))%nat. split; [exact M|]. split; [reflexivity|]. split; [lia|]. split; [exact Y|].
        split; [|reflexivity]. replace (pos + length (skipn pos c))%nat with (length c) by lia. rewrite skipn_end. exact S2.
  - destruct H as (M & Hh & R & ->). assert (SC : sub_calls c last d pos = ([OnHeader (m_hdr m)], d)) by (unfold sub_calls; rewrite S, Hh; reflexivity).
    eapply good_intro; [exact SC| | | |].
    + apply iterate_intro; [unfold dec_step; rewrite S; reflexivity|lia].
    + lia.
    + unfold msg_atoms. cbn [flat flat_map flat1 app]. reflexivity.
    + unfold dec_tkl. rewrite Hh, Htk. destruct (m_tok m) as [|t ts] eqn:ET.
      * change (0 <? N.of_nat (length [])) with false. unfold expects. cbn [k_goto k_st k_h k_tok]. rewrite ET.
        split; [exact M|]. split; [exact Hh|]. split; [reflexivity|]. split; [intros _; rewrite R in RN; exact RN|]. split; [exact R|reflexivity].
      * replace (0 <? N.of_nat (length (t :: ts))) with true by (symmetry; apply N.ltb_lt; cbn [length]; lia). unfold expects. cbn [k_goto k_st k_h k_tok]. rewrite ET.
        split; [exact M|]. split; [exact Hh|]. split; [discriminate|]. split; [exact R|reflexivity].
  - destruct H as (M & Hh & Ht & R & ->). eapply good_intro; [unfold sub_calls; rewrite S; reflexivity| | |reflexivity|].
    + apply iterate_intro; [unfold dec_step; rewrite S; reflexivity|lia].
    + lia.
    + unfold expects. cbn [k_st k_h k_tpos k_tok]. exists 0%nat. split; [exact M|]. split; [exact Hh|]. split; [reflexivity|].
      split; [destruct (m_tok m); [congruence|cbn; lia]|]. split; [reflexivity|]. split; [exact R|reflexivity].
  - destruct H as (i & M & Hh & Hi & Hil & Hf & R & ->). rewrite <- Hh in Htk.
    assert (SC : sub_calls c last d pos = ([], d)) by (unfold sub_calls; rewrite S; reflexivity).
    assert (Hsk : length (skipn i (m_tok m)) = (length (m_tok m) - i)%nat) by apply skipn_length.
    destruct (Nat.le_gt_cases (length (m_tok m) - i) (length (skipn pos c))) as [L|L].
    + destruct (app_split_le _ _ _ _ R) as (S1 & S2); [lia|]. rewrite Hsk in S1, S2.
      destruct (token_done_step c last d pos (m_tok m) i Htk H8 Hok S Hi M Hil Hf L S1) as (d' & N1 & D1 & D2 & D3).
      apply notify_iterate in N1. destruct N1 as [N1 N2]. rewrite skipn_skipn' in S2. rewrite skipn_length in L.
      eapply good_intro; [exact SC|exact N1|lia|reflexivity|]. unfold expects. rewrite D1. split; [exact D3|]. split; [congruence|].
      split. { unfold dec_events in N2. rewrite D1 in N2. injection N2 as N2. unfold dec_tkl in N2. rewrite D2, Htk, Nat2N.id in N2. exact N2. }
      split; [intro Q; rewrite Q in Hil; cbn in Hil; lia|]. split; [exact S2|reflexivity].
    + destruct (app_split_gt _ _ _ _ R) as (S1 & S2); [lia|]. rewrite skipn_skipn' in S2.
      assert (Hn : length (skipn pos c) = (length c - pos)%nat) by apply skipn_length.
      assert (Hlt : (i + length (skipn pos c) < length (m_tok m))%nat) by lia.
      destruct (token_part_step c last d pos (m_tok m) i Htk H8 Hok S Hi M Hil Hp Hf Hlt S1) as (d' & fin & N1 & D1 & D2 & D3 & D4 & D5).
      apply notify_iterate in N1. destruct N1 as [N1 N2].
      assert (fin = Nat.eqb (length c) (length c)).
      { unfold dec_iterate in N1. destruct (dec_step c last d pos) as [[? ?]| |]; cbn [bind] in N1; try discriminate. destruct (_ <=? _)%nat; [|discriminate]. injection N1 as <- <- <-. reflexivity. }
      subst fin. eapply good_intro; [exact SC|exact N1|lia|reflexivity|]. unfold expects. rewrite D1. exists (i + length (skipn pos c))%nat.
      split; [exact D4|]. split; [congruence|]. split; [exact D3|]. split; [lia|]. split; [exact D5|]. split; [|reflexivity].
      rewrite skipn_end. exact S2.
  - destruct H as (M & Hh & Hf & Hn & R & ->). 
    assert (SC : sub_calls c last d pos = (match m_tok m with [] => [] | t => [OnToken t true] end, d)).
    { unfold sub_calls. rewrite S. unfold dec_tkl. rewrite Hh, Htk, Nat2N.id, Hf. destruct (m_tok m); [reflexivity|].
      replace (N.of_nat (length (n :: l)) =? 0) with false by (symmetry; apply N.eqb_neq; cbn [length]; lia). reflexivity. }
    eapply good_intro; [exact SC| | | |].
    + apply iterate_intro; [unfold dec_step; rewrite S; reflexivity|lia].
    + lia.
    + destruct (m_tok m); reflexivity.
    + unfold expects. cbn [k_goto k_st]. split; [exact M|]. split; [rewrite <- R; exact RN|]. auto.
  - destruct H as (M & Hn & R & ->). assert (SC : sub_calls c last d pos = ([], d)) by (unfold sub_calls; rewrite S; reflexivity).
    destruct (bound_chunk m (od_goto FirstByte (k_od d)) holder_reset 0 [] (m_opts m) (skipn pos c) later Hm) as (o & h1 & n & E1 & E2 & E3 & E4); [left; reflexivity|reflexivity|reflexivity|apply Hm|exact Hne|exact R|].
    rewrite skipn_length in E2. eapply good_intro; [exact SC| | |reflexivity|].
    + apply iterate_intro.
      * unfold dec_step. rewrite S. unfold remainder. destruct (skipn_nonempty c pos Hp) as (b & r & RR). rewrite RR in *. cbn [length Nat.eqb andb]. rewrite chunk_last_nonempty, E1. reflexivity.
      * lia.
    + lia.
    + rewrite skipn_skipn' in E4. destruct E4 as [(E4 & b & Hob & E5 & E6)|(E4 & E5)].
      * unfold expects. rewrite E4. cbn [ostate_eqb k_st k_od]. left. split; [exact E4|]. exists b. split; [exact E5|]. split; [exact E6|].
        unfold oa, pa. rewrite Hob, E5. cbn [flat_map app pay_atoms]. rewrite <- app_assoc. reflexivity.
      * unfold expects. replace (ostate_eqb (d_st o) OPayload) with false by (destruct (d_st o); try reflexivity; congruence). cbn [k_st k_od k_hold]. exact E5.
  - apply options_step; assumption.
  - destruct H as [(E & b & E1 & E2 & ->)|(E & _)]; [|congruence].
    eapply good_intro; [unfold sub_calls; rewrite S; reflexivity| | |reflexivity|].
    + apply iterate_intro; [unfold dec_step; rewrite S, E; reflexivity|lia].
    + lia.
    + unfold expects. cbn [k_goto k_st]. split; [exact RN|]. split; [|rewrite E2; reflexivity].
      destruct b as [|b0 b]; [congruence|]. eauto.
  - destruct H as (_ & HP & ->).
    destruct later as [|l0 later]; subst last.
    + eapply (good_intro m c [] true d pos _ [OnPayload (skipn pos c) true; OnComplete]); [unfold sub_calls; rewrite S; reflexivity| | | |].
      * apply iterate_intro; [unfold dec_step; rewrite S; reflexivity|lia].
      * lia.
      * instantiate (1 := []). rewrite app_nil_r. unfold flat. cbn [flat_map flat1 app]. rewrite !app_nil_r, <- app_assoc. reflexivity.
      * rewrite skipn_end. unfold expects. cbn [k_goto k_st app]. auto.
    + eapply (good_intro m c (l0 :: later) false d pos _ [OnPayload (skipn pos c) false]); [unfold sub_calls; rewrite S; reflexivity| | | |].
      * apply iterate_intro; [unfold dec_step; rewrite S; reflexivity|lia].
      * lia.
      * instantiate (1 := map APay (l0 :: later) ++ [APayEnd; AComplete]). unfold flat. cbn [flat_map flat1]. rewrite !app_nil_r, map_app, <- app_assoc. reflexivity.
      * rewrite skipn_end. unfold expects. cbn [k_goto k_st app]. split; [discriminate|]. auto.
  - destruct H as (H & _). congruence.
  - destruct H.
Qed.

(** * Chunks *)

Lemma expects_rdone : forall m d R A, expects m d R A -> k_st d <> RDone.
Proof. intros m d R A H Q. unfold expects in H. rewrite Q in H. exact H. Qed.

Lemma sub_loop_expects : forall fuel m c later last d pos A, msg_ok m -> bytes_ok c -> (pos < length c)%nat ->
  last = match later with [] => true | _ => false end -> expects m d (skipn pos c ++ later) A ->
  sub_loop fuel c last d pos = NoFuel \/
  exists cs d1 A1, sub_loop fuel c last d pos = Ok (cs, d1, length c) /\ A = flat cs ++ A1 /\ expects m d1 later A1.
Proof.
  induction fuel as [|f IH]; intros m c later last d pos A Hm Hok Hp HL H; [left; reflexivity|].
  destruct (sub_step m c later last d pos A Hm Hok Hp HL H) as (cs & d1 & pos1 & A1 & E1 & E2 & E3 & E4).
  cbn [sub_loop]. rewrite E1. cbn [bind].
  assert (ND : rstate_eqb (k_st d1) RDone = false) by (pose proof (expects_rdone _ _ _ _ E4); destruct (k_st d1); try reflexivity; congruence).
  rewrite ND, orb_false_r. destruct (Nat.eqb_spec pos1 (length c)) as [Q|Q].
  - right. exists cs, d1, A1. subst pos1. rewrite skipn_end in E4. auto.
  - assert (L : (pos1 < length c)%nat) by lia.
    destruct (IH m c later last d1 pos1 A1 Hm Hok L HL E4) as [F|(ds & d2 & A2 & F & F2 & F3)]; rewrite F; cbn [bind]; [left; reflexivity|].
    right. exists (cs ++ ds), d2, A2. split; [reflexivity|]. split; [|exact F3]. rewrite flat_app, <- app_assoc, <- F2. exact E3.
Qed.

Lemma sub_dispatch_expects : forall m c later last d A, msg_ok m -> bytes_ok c -> c <> [] ->
  last = match later with [] => true | _ => false end -> expects m d (c ++ later) A ->
  exists cs d1 A1, sub_dispatch c last d = Ok (cs, d1, length c) /\ A = flat cs ++ A1 /\ expects m d1 later A1.
Proof.
  intros m c later last d A Hm Hok Hc HL H. assert (L : (0 < length c)%nat) by (destruct c; [congruence|cbn; lia]).
  destruct (sub_loop_expects (4 * length c + 12) m c later last d 0 A Hm Hok L HL H) as [F|F]; [|exact F].
  exfalso. exact (sub_dispatch_fuel c last d F).
Qed.

Lemma sub_chunks_expects : forall m cs d A, msg_ok m -> bytes_ok (concat cs) -> filled cs -> cs <> [] -> expects m d (concat cs) A ->
  exists es d1, sub_chunks cs d = Ok (es, d1, map (@length N) cs) /\ A = flat es ++ lost m /\ expects m d1 [] (lost m).
Proof.
  induction cs as [|c r IH]; intros d A Hm Hok Hf Hne H; [congruence|]. inversion Hf as [|? ? Hc Hr]; subst.
  cbn [concat] in *. apply bytes_ok_app in Hok. destruct Hok as [O1 O2]. cbn [sub_chunks].
  assert (HL : match r with [] => true | _ => false end = match concat r with [] => true | _ => false end).
  { destruct r as [|c2 r]; [reflexivity|]. inversion Hr as [|? ? Hc2 _]; subst. cbn [concat]. destruct c2; [congruence|reflexivity]. }
  destruct (sub_dispatch_expects m c (concat r) _ d A Hm O1 Hc HL H) as (es & d1 & A1 & E1 & E2 & E3). rewrite E1. cbn [bind].
  destruct r as [|c2 r].
  - cbn [concat] in E3. exists es, d1. pose proof (expects_lost _ _ _ E3) as ->. cbn [sub_chunks bind]. rewrite app_nil_r. auto.
  - assert (NR : c2 :: r <> []) by discriminate. destruct (IH d1 A1 Hm O2 Hr NR E3) as (fs & d2 & F1 & F2 & F3). rewrite F1. cbn [bind].
    exists (es ++ fs), d2. split; [reflexivity|]. split; [|exact F3]. rewrite flat_app, <- app_assoc, <- F2. exact E2.
Qed.

Lemma sub_chunks_message : forall m cs d, msg_ok m -> filled cs -> concat cs = msg_bytes m -> fresh d ->
  exists es d1, sub_chunks cs d = Ok (es, d1, map (@length N) cs) /\ flat es ++ lost m = msg_atoms m /\ expects m d1 [] (lost m).
Proof.
  intros m cs d Hm Hf Hc [S M].
  assert (NE : cs <> []) by (intro Q; subst cs; cbn in Hc; discriminate).
  assert (Hok : bytes_ok (concat cs)) by (rewrite Hc; apply msg_bytes_ok; exact Hm).
  destruct (sub_chunks_expects m cs d (msg_atoms m) Hm Hok Hf NE) as (es & d1 & E1 & E2 & E3).
  - unfold expects. rewrite S. auto.
  - exists es, d1. auto.
Qed.

(** * One piece *)

Definition whole (c : call) : Prop :=
  match c with
  | OnValue _ p l => p <> [] /\ l = true
  | OnPayload _ l => l = true
  | _ => True
  end.

Lemma value_whole : forall m c d num v os cs d0 pos, skipn pos c = v ++ opts_bytes num os ++ pay_bytes (m_pay m) -> v <> [] ->
  k_hold d = Holder num (len v) -> sub_value (skipn pos c) d = (cs, d0) -> Forall whole cs.
Proof.
  intros m c d num v os cs d0 pos HS HV HH H. unfold sub_value in H. rewrite HH in H. cbn [hd_num hd_len] in H.
  replace (N.of_nat (length (skipn pos c)) <? len v) with false in H by (symmetry; apply N.ltb_ge; unfold len; rewrite HS, app_length; lia).
  injection H as <- <-. constructor; [|constructor]. split; [|reflexivity]. unfold len. rewrite Nat2N.id, HS. destruct v; [congruence|discriminate].
Qed.

Lemma calls_whole : forall m c d pos A cs d0, expects m d (skipn pos c) A -> sub_calls c true d pos = (cs, d0) -> Forall whole cs.
Proof.
  intros m c d pos A cs d0 H E. unfold sub_calls in E. unfold expects in H. destruct (k_st d) eqn:S;
    try (injection E as <- <-; repeat constructor; fail).
  - destruct (dec_tkl d =? 0); injection E as <- <-; repeat constructor.
  - unfold remainder in E. remember (skipn pos c) as R eqn:ER. remember (k_od d) as od eqn:EO. remember (k_hold d) as h eqn:EH.
    destruct H as [od h prev pre os B1 B2 B3 B4 B5|od h q d2 pre num v os B1 B2 B3 B4 B5 B6 B7|od pre num v os B1 B2 B3 B4 B5 B6|od pre num w v os B1 B2 B3 B4 B5 B6 B7]; subst od; unfold sub_option in E.
    + destruct B1 as [B1|B1]; rewrite B1 in E; injection E as <- <-; constructor.
    + destruct B3 as (X1 & X2 & X3). destruct (d_st (k_od d)); try congruence; injection E as <- <-; constructor.
    + rewrite B1, <- EH in E. cbn [hd_num hd_len] in E. destruct (len v =? 0) eqn:Z; [injection E as <- <-; repeat constructor|].
      assert (NV : v <> []) by (intro Q; subst v; discriminate).
      rewrite ER in E. destruct (sub_value (skipn pos c) d) as [cs1 d1] eqn:V. injection E as <- <-. constructor; [exact I|].
      eapply (value_whole m c d num v os); [symmetry; exact ER|exact NV|symmetry; exact EH|exact V].
    + rewrite B1 in E. rewrite ER in E. eapply (value_whole m c d num v os); [symmetry; exact ER|exact B3|symmetry; exact EH|exact E].
Qed.

Lemma sub_loop_whole : forall fuel m c d pos A cs d1 p, msg_ok m -> bytes_ok c -> (pos < length c)%nat ->
  expects m d (skipn pos c) A -> sub_loop fuel c true d pos = Ok (cs, d1, p) -> Forall whole cs.
Proof.
  induction fuel as [|f IH]; intros m c d pos A cs d1 p Hm Hok Hp H E; [discriminate|].
  assert (H' : expects m d (skipn pos c ++ []) A) by (rewrite app_nil_r; exact H).
  destruct (sub_step m c [] true d pos A Hm Hok Hp eq_refl H') as (cs1 & d2 & pos1 & A1 & E1 & E2 & E3 & E4).
  cbn [sub_loop] in E. rewrite E1 in E. cbn [bind] in E.
  assert (W : Forall whole cs1).
  { unfold sub_iterate in E1. destruct (sub_calls c true d pos) as [cs0 d0] eqn:SC. pose proof (calls_whole _ _ _ _ _ _ _ H SC) as W.
    destruct (dec_iterate c true d0 pos) as [[[? ?] ?]| |]; cbn [bind] in E1; try discriminate. injection E1 as <- _ _ _. exact W. }
  rewrite app_nil_r in E4.
  assert (ND : rstate_eqb (k_st d2) RDone = false) by (pose proof (expects_rdone _ _ _ _ E4); destruct (k_st d2); try reflexivity; congruence).
  rewrite ND, orb_false_r in E. destruct (Nat.eqb_spec pos1 (length c)) as [Q|Q]; [injection E as <- <- <-; exact W|].
  destruct (sub_loop f c true d2 pos1) as [[[ds d3] p3]| |] eqn:F; cbn [bind] in E; try discriminate. injection E as <- <- <-.
  apply Forall_app. split; [exact W|]. assert (L : (pos1 < length c)%nat) by lia. eapply IH; eauto.
Qed.

Lemma abyte_end : forall n p q r s, map (AByte n) p ++ [AEnd n] ++ r = map (AByte n) q ++ [AEnd n] ++ s -> p = q /\ r = s.
Proof.
  induction p as [|x p IH]; intros [|y q] r s H; cbn in H; try discriminate; [injection H as H; auto|].
  injection H as -> H. apply IH in H. destruct H as [-> ->]. auto.
Qed.
Lemma apay_end : forall p q r s, map APay p ++ [APayEnd] ++ r = map APay q ++ [APayEnd] ++ s -> p = q /\ r = s.
Proof.
  induction p as [|x p IH]; intros [|y q] r s H; cbn in H; try discriminate; [injection H as H; auto|].
  injection H as -> H. apply IH in H. destruct H as [-> ->]. auto.
Qed.

Lemma flat_inj : forall a b, Forall whole a -> Forall whole b -> flat a = flat b -> a = b.
Proof.
  induction a as [|x a IH]; intros b HA HB H.
  - destruct b as [|y b]; [reflexivity|]. exfalso. inversion HB as [|? ? W _]; subst. unfold flat in H. cbn [flat_map] in H.
    destruct y as [| | |n p l|p l|]; cbn [flat1 app whole] in *; try discriminate.
    + destruct W as [W ->]. destruct p; discriminate.
    + subst l. destruct p; discriminate.
  - inversion HA as [|? ? WA HA']; subst. destruct b as [|y b].
    { exfalso. unfold flat in H. cbn [flat_map] in H. destruct x as [| | |n p l|p l|]; cbn [flat1 app whole] in *; try discriminate.
      - destruct WA as [W ->]. destruct p; discriminate.
      - subst l. destruct p; discriminate. }
    inversion HB as [|? ? WB HB']; subst. unfold flat in H. cbn [flat_map] in H. fold flat in H.
    change (flat1 x ++ flat a = flat1 y ++ flat b) in H.
    destruct x as [x|x xl|xn xl|xn xp xl|xp xl|]; destruct y as [y|y yl|yn yl|yn yp yl|yp yl|]; cbn [flat1 whole app] in *;
      try discriminate;
      repeat match goal with W : _ /\ _ = true |- _ => let E := fresh in destruct W as [W E]; subst end;
      try (destruct xp; [congruence|]); try (destruct yp; [congruence|]); subst; try discriminate;
      try (destruct xp; discriminate); try (destruct yp; discriminate).
    + injection H as -> H. f_equal. auto.
    + injection H as -> -> H. f_equal. auto.
    + injection H as -> -> H. f_equal. auto.
    + assert (yn = xn) by (cbn in H; congruence). subst yn. rewrite <- !app_assoc in H. apply abyte_end in H. destruct H as [-> H]. f_equal. auto.
    + rewrite <- !app_assoc in H. apply apay_end in H. destruct H as [-> H]. f_equal. auto.
    + injection H as H. f_equal. auto.
Qed.

Lemma flat_msg_calls : forall m, flat (msg_calls m) = msg_atoms m.
Proof.
  intro m. unfold msg_calls, msg_atoms. rewrite !flat_app. f_equal. f_equal; [destruct (m_tok m); reflexivity|]. f_equal.
  - induction (m_opts m) as [|[n v] os IH]; [reflexivity|]. cbn [flat_map]. rewrite flat_app, IH. f_equal.
    unfold opt_call, opt_atoms. cbn [fst snd]. destruct v; [reflexivity|]. unfold flat. cbn [flat_map flat1 app]. rewrite app_nil_r. reflexivity.
  - f_equal. destruct (m_pay m); [|reflexivity]. unfold flat. cbn [flat_map flat1 pay_atoms app]. rewrite app_nil_r. reflexivity.
Qed.

Lemma msg_calls_whole : forall m, Forall whole (msg_calls m).
Proof.
  intro m. unfold msg_calls. apply Forall_app. split; [repeat constructor|]. apply Forall_app. split; [destruct (m_tok m); repeat constructor|].
  apply Forall_app. split; [|destruct (m_pay m); repeat constructor].
  induction (m_opts m) as [|[n v] os IH]; [constructor|]. cbn [flat_map]. apply Forall_app. split; [|exact IH].
  unfold opt_call. cbn [fst snd]. destruct v; repeat constructor. discriminate.
Qed.

Lemma sub_message_fuel : forall m d fuel, msg_ok m -> fresh d -> (exists b r, m_pay m = Some (b :: r)) -> sub_loop fuel (msg_bytes m) true d 0 <> NoFuel ->
  exists d1, sub_loop fuel (msg_bytes m) true d 0 = Ok (msg_calls m, d1, length (msg_bytes m)) /\ k_st d1 = PayloadDone.
Proof.
  intros m d fuel Hm [S M] (b & r & HP) NF.
  assert (Hok : bytes_ok (msg_bytes m)) by (apply msg_bytes_ok; exact Hm).
  assert (NE : msg_bytes m <> []) by discriminate. assert (L : (0 < length (msg_bytes m))%nat) by (cbn; lia).
  assert (X : expects m d (msg_bytes m) (msg_atoms m)) by (unfold expects; rewrite S; auto).
  assert (X' : expects m d (msg_bytes m ++ []) (msg_atoms m)) by (rewrite app_nil_r; exact X).
  destruct (sub_loop_expects fuel m (msg_bytes m) [] true d 0 (msg_atoms m) Hm Hok L eq_refl X') as [E1|(cs & d1 & A1 & E1 & E2 & E3)]; [congruence|].
  pose proof (expects_lost _ _ _ E3) as EA. assert (EL : lost m = []) by (unfold lost; rewrite HP; reflexivity). rewrite EL in EA. rewrite EA in E2, E3. clear EA EL.
  rewrite app_nil_r in E2. exists d1. split.
  - rewrite E1. do 3 f_equal. apply flat_inj; [|apply msg_calls_whole|rewrite flat_msg_calls; congruence].
    eapply (sub_loop_whole _ m (msg_bytes m) d 0); [exact Hm|exact Hok|exact L|exact X|exact E1].
  - unfold expects in E3. destruct (k_st d1); try reflexivity; exfalso.
    + destruct E3 as (_ & E & _). discriminate.
    + destruct E3 as (i & _ & _ & _ & _ & _ & E). discriminate.
    + destruct E3 as (_ & _ & _ & E). discriminate.
    + destruct E3 as (_ & _ & E & E' & _). symmetry in E'. apply app_eq_nil in E'. destruct E'. congruence.
    + destruct E3 as (i & _ & _ & _ & E & _ & E' & _). symmetry in E'. apply app_eq_nil in E'. destruct E' as [E' _]. apply (f_equal (@length N)) in E'. rewrite skipn_length in E'. cbn in E'. lia.
    + destruct E3 as (_ & _ & _ & _ & _ & E). unfold oa, pa in E. symmetry in E. repeat (apply app_eq_nil in E; destruct E as [_ E]). discriminate.
    + destruct E3 as (_ & E & E' & _). congruence.
    + remember (@nil atom) as R eqn:HeqR. inversion E3 as [? ? ? ? ? B1 B2 B3 B4 B5 Q1 Q2 Q3 Q4|? ? ? ? ? ? ? ? B1 B2 B3 B4 B5 B6 B7 Q1 Q2 Q3 Q4|? ? ? ? ? B1 B2 B3 B4 B5 B6 Q1 Q2 Q3 Q4|? ? ? ? ? ? B1 B2 B3 B4 B5 B6 B7 Q1 Q2 Q3 Q4];
        unfold pa in Q4; rewrite HeqR in Q4; repeat (apply app_eq_nil in Q4; destruct Q4 as [_ Q4]); discriminate.
    + destruct E3 as [(_ & b' & _ & _ & E)|(_ & E & _)]; [|discriminate]. symmetry in E. apply app_eq_nil in E. destruct E as [_ E]. discriminate.
    + destruct E3 as (E & _). congruence.
    + exact E3.
Qed.

Lemma sub_message : forall m d, msg_ok m -> fresh d -> (exists b r, m_pay m = Some (b :: r)) ->
  exists d1, sub_dispatch (msg_bytes m) true d = Ok (msg_calls m, d1, length (msg_bytes m)) /\ k_st d1 = PayloadDone.
Proof. intros m d Hm Hd HP. apply sub_message_fuel; try assumption. apply sub_dispatch_fuel. Qed.

(** * Another message *)

Lemma sub_again : forall c last d, k_st d = PayloadDone -> sub_dispatch c last d = Ok ([], k_goto RDone d, 0%nat).
Proof.
  intros c last d H. unfold sub_dispatch. replace (4 * length c + 12)%nat with (S (4 * length c + 11)) by lia. cbn [sub_loop].
  unfold sub_iterate, sub_calls. rewrite H. unfold dec_iterate, dec_step. rewrite H. cbn [bind].
  destruct c; cbn [length Nat.leb Nat.eqb bind k_goto k_st rstate_eqb orb]; reflexivity.
Qed.

Lemma sub_again_options : forall b c last d, k_st d = OptionsDone -> d_st (k_od d) <> OPayload -> b <> 255 ->
  sub_dispatch (b :: c) last d = Ok ([], k_goto RDone d, 0%nat).
Proof.
  intros b c last d H HO HB. unfold sub_dispatch. replace (4 * length (b :: c) + 12)%nat with (S (4 * length (b :: c) + 11)) by lia. cbn [sub_loop].
  unfold sub_iterate, sub_calls. rewrite H. unfold dec_iterate, dec_step. rewrite H.
  replace (ostate_eqb (d_st (k_od d)) OPayload) with false by (destruct (d_st (k_od d)); try reflexivity; congruence).
  replace (b =? 255) with false by (symmetry; now apply N.eqb_neq).
  cbn [length Nat.eqb andb remainder skipn bind Nat.leb k_goto k_st rstate_eqb orb].
  replace (b =? 255) with false by (symmetry; now apply N.eqb_neq). reflexivity.
Qed.

Lemma sub_third : forall m d, msg_ok m -> k_st d = RDone -> dec_mem d -> (exists b r, m_pay m = Some (b :: r)) ->
  exists d1, sub_dispatch (msg_bytes m) true d = Ok (OnComplete :: msg_calls m, d1, length (msg_bytes m)) /\ k_st d1 = PayloadDone.
Proof.
  intros m d Hm H M HP. unfold sub_dispatch. replace (4 * length (msg_bytes m) + 12)%nat with (S (4 * length (msg_bytes m) + 11)) by lia. cbn [sub_loop].
  unfold sub_iterate, sub_calls. rewrite H. unfold dec_iterate, dec_step. rewrite H. cbn [bind].
  change (0 <=? length (msg_bytes m))%nat with true. cbn [bind]. change (Nat.eqb 0 (length (msg_bytes m))) with false. cbn [orb k_goto k_st rstate_eqb].
  match goal with |- context [sub_loop ?f ?c ?l ?d0 ?p] => destruct (sub_message_fuel m d0 f Hm) as (d1 & E1 & E2) end.
  - split; [reflexivity|exact M].
  - exact HP.
  - apply sub_loop_fuel; [cbn; lia|discriminate|]. unfold mu, rank. cbn [k_st k_goto]. lia.
  - rewrite E1. cbn [bind]. exists d1. auto.
Qed.

Lemma flat_in_complete : forall es, In OnComplete es -> In AComplete (flat es).
Proof. intros es H. unfold flat. apply in_flat_map. exists OnComplete. split; [exact H|left; reflexivity]. Qed.

Lemma opts_no_complete : forall os, ~ In AComplete (flat_map opt_atoms os).
Proof.
  intros os H. apply in_flat_map in H. destruct H as ([n v] & _ & H). unfold opt_atoms in H. cbn [fst snd] in H. destruct H as [H|H]; [discriminate|].
  destruct v as [|x v]; [destruct H|]. apply in_app_or in H. destruct H as [H|[H|[]]]; [|discriminate]. apply in_map_iff in H. destruct H as (y & H & _). discriminate.
Qed.

Lemma no_complete : forall m es, (m_pay m = None \/ m_pay m = Some []) -> flat es ++ lost m = msg_atoms m -> ~ In OnComplete es.
Proof.
  intros m es HP H Q. apply flat_in_complete in Q.
  assert (X : exists l, lost m = l ++ [AComplete]).
  { unfold lost. destruct HP as [-> | ->]; [|exists [APayEnd]; reflexivity]. destruct (rev (m_opts m)) as [|[n v] r].
    - destruct (m_tok m); [exists [AHeader (m_hdr m)]|eexists [_]]; reflexivity.
    - destruct v; [exists [AOption n 0]|exists []]; reflexivity. }
  destruct X as (l & X). rewrite X, app_assoc in H. unfold msg_atoms in H. rewrite !app_assoc in H. apply app_inj_tail in H. destruct H as [H _].
  assert (Q2 : In AComplete (flat es ++ l)) by (apply in_or_app; left; exact Q). rewrite H in Q2. rewrite <- !app_assoc in Q2.
  apply in_app_or in Q2. destruct Q2 as [[Q2|[]]|Q2]; [discriminate|]. apply in_app_or in Q2. destruct Q2 as [Q2|Q2].
  { destruct (m_tok m); cbn in Q2; [destruct Q2|]. destruct Q2 as [Q2|[]]. discriminate. }
  apply in_app_or in Q2. destruct Q2 as [Q2|Q2]; [exact (opts_no_complete _ Q2)|].
  destruct HP as [HP|HP]; rewrite HP in Q2; cbn in Q2; [exact Q2|]. destruct Q2 as [Q2|[]]. discriminate.
Qed.
