(** Proofs about the streambuf decoder. *)
From Verif Require Import Base HeaderModel HeaderProofs OptEncModel OptSpec OptDecModel OptDecSpec OptDecProofs
  DecoderModel DecoderSpec DecoderProofs ChunkSpec ChunkProofs SbDecModel SbDecSpec.
Local Open Scope N_scope.

(** * Positions in a chain of segments *)

Definition flat (s : sbuf) : list N := s_cur s ++ concat (s_rest s).

Lemma flat_next : forall L, flat (sb_next L) = concat L.
Proof. induction L as [|[|b c] r IH]; [reflexivity|exact IH|reflexivity]. Qed.

Lemma next_cur : forall L, s_cur (sb_next L) = [] -> sb_next L = SBuf [] [].
Proof. induction L as [|[|b c] r IH]; intros H; [reflexivity|apply IH; exact H|discriminate]. Qed.

Lemma flat_fill : forall s, flat (sb_fill s) = flat s.
Proof. intros [[|b c] r]; [apply flat_next|reflexivity]. Qed.

Lemma fill_cur : forall s, s_cur (sb_fill s) = [] -> sb_fill s = SBuf [] [].
Proof. intros [[|b c] r] H; [apply next_cur; exact H|discriminate]. Qed.

Lemma next_fill : forall L, sb_fill (sb_next L) = sb_next L.
Proof.
  intros L. destruct (s_cur (sb_next L)) eqn:E; [rewrite (next_cur L E); reflexivity|].
  unfold sb_fill. rewrite E. reflexivity.
Qed.

Lemma fill_fill : forall s, sb_fill (sb_fill s) = sb_fill s.
Proof. intros [[|b c] r]; [apply next_fill|reflexivity]. Qed.

Lemma flat_nil : forall s, flat s = [] -> sb_fill s = SBuf [] [].
Proof.
  intros s H. apply fill_cur. rewrite <- flat_fill in H. unfold flat in H. now apply app_eq_nil in H.
Qed.

Lemma flat_cons : forall s, flat s <> [] -> exists b c, s_cur (sb_fill s) = b :: c.
Proof.
  intros s H. destruct (s_cur (sb_fill s)) as [|b c] eqn:E; [|eauto].
  apply fill_cur in E. rewrite <- flat_fill, E in H. now destruct H.
Qed.

(** [s] is at offset [q] of [L] *)
Definition at_pos (L : list (list N)) (q : nat) (s : sbuf) : Prop := sb_fill s = sb_next (drop q L).

Lemma concat_drop : forall L q, concat (drop q L) = skipn q (concat L).
Proof.
  induction L as [|c r IH]; intros q; cbn [drop concat]; [now rewrite skipn_nil|].
  rewrite skipn_app. destruct (Nat.ltb_spec q (length c)).
  - replace (q - length c)%nat with 0%nat by lia. reflexivity.
  - rewrite (skipn_all2 c) by lia. apply IH.
Qed.

Lemma at_flat : forall L q s, at_pos L q s -> flat s = skipn q (concat L).
Proof. intros L q s H. rewrite <- flat_fill, H, flat_next. apply concat_drop. Qed.

Lemma at_fill : forall L q s, at_pos L q s -> at_pos L q (sb_fill s).
Proof. intros L q s H. unfold at_pos. now rewrite fill_fill. Qed.

Lemma next_drop0 : forall L, sb_next (drop 0 L) = sb_next L.
Proof. induction L as [|[|b c] r IH]; [reflexivity|exact IH|reflexivity]. Qed.

Lemma at_open : forall L, at_pos L 0 (SBuf [] L).
Proof. intros. unfold at_pos. rewrite next_drop0. reflexivity. Qed.

Lemma at_adv_gen : forall L q cur rest n, sb_next (drop q L) = SBuf cur rest -> (n <= length cur)%nat ->
  sb_fill (SBuf (skipn n cur) rest) = sb_next (drop (q + n) L).
Proof.
  induction L as [|c r IH]; intros q cur rest n H Hn; cbn [drop] in *.
  - injection H as <- <-. rewrite skipn_nil. reflexivity.
  - destruct (Nat.ltb_spec q (length c)) as [Hq|Hq].
    + assert (HC : exists b x, skipn q c = b :: x).
      { destruct (skipn q c) eqn:E; [|eauto]. assert (LL := skipn_length q c). rewrite E in LL. cbn in LL. lia. }
      destruct HC as (b & x & HC). cbn [sb_next] in H. rewrite HC in H. injection H as <- <-. rewrite <- HC in *.
      rewrite skipn_length in Hn. rewrite skipn_skipn'.
      destruct (Nat.ltb_spec (q + n) (length c)) as [Hl|Hl].
      * cbn [sb_next]. destruct (skipn (q + n) c) eqn:E; [|reflexivity].
        assert (LL := skipn_length (q + n) c). rewrite E in LL. cbn in LL. lia.
      * rewrite skipn_all2 by lia. replace (q + n - length c)%nat with 0%nat by lia. rewrite next_drop0. reflexivity.
    + replace (q + n <? length c)%nat with false by (symmetry; apply Nat.ltb_ge; lia).
      replace (q + n - length c)%nat with (q - length c + n)%nat by lia. now apply IH.
Qed.

Lemma at_adv : forall L q s cur rest n, at_pos L q s -> sb_fill s = SBuf cur rest -> (n <= length cur)%nat ->
  at_pos L (q + n) (SBuf (skipn n cur) rest).
Proof. intros L q s cur rest n H E Hn. unfold at_pos in *. rewrite H in E. now apply at_adv_gen. Qed.

Lemma opt_at_next : forall L num l cur rest, sb_next L = SBuf cur rest -> opt_at (cur :: rest) num l 0 = opt_at L num l 0.
Proof.
  induction L as [|[|b c] r IH]; intros num l cur rest H; cbn [sb_next] in H.
  - injection H as <- <-. reflexivity.
  - rewrite (IH num l cur rest H). reflexivity.
  - injection H as <- <-. reflexivity.
Qed.

Lemma opt_at_drop : forall L q num l, opt_at (drop q L) num l 0 = opt_at L num l q.
Proof.
  induction L as [|c r IH]; intros q num l; cbn [drop opt_at]; [reflexivity|].
  destruct (Nat.ltb_spec q (length c)) as [Hq|Hq]; [|apply IH].
  cbn [opt_at]. rewrite skipn_length.
  replace (0 <? length c - q)%nat with true by (symmetry; apply Nat.ltb_lt; lia).
  cbn [skipn]. rewrite Nat.sub_0_r. reflexivity.
Qed.

(** the option event at a position *)
Lemma opt_at_here : forall L q s num l b c, at_pos L q s -> s_cur (sb_fill s) = b :: c ->
  opt_at L num l q = EOption num (firstn (N.to_nat l) (b :: c)) (N.to_nat l <=? length (b :: c))%nat.
Proof.
  intros L q s num l b c H E. unfold at_pos in H. rewrite <- opt_at_drop.
  destruct (sb_fill s) as [cur rest] eqn:ES. cbn [s_cur] in E. subst cur.
  rewrite <- (opt_at_next (drop q L) num l (b :: c) rest (eq_sym H)). reflexivity.
Qed.

(** taking a byte *)
Lemma bump_cons : forall L q s b r, at_pos L q s -> skipn q (concat L) = b :: r ->
  exists s1, sb_bump s = (Some b, s1) /\ at_pos L (S q) s1 /\ skipn (S q) (concat L) = r.
Proof.
  intros L q s b r H E. assert (HF := at_flat L q s H). rewrite E in HF. unfold sb_bump.
  destruct (flat_cons s ltac:(rewrite HF; discriminate)) as (b1 & c & HC).
  destruct (sb_fill s) as [cur rest] eqn:ES. cbn [s_cur s_rest] in *. subst cur.
  rewrite <- flat_fill, ES in HF. unfold flat in HF. cbn in HF. injection HF as -> HF.
  eexists. split; [reflexivity|]. split.
  - replace (S q) with (q + 1)%nat by lia. change c with (skipn 1 (b :: c)). eapply at_adv; [exact H|exact ES|cbn; lia].
  - replace (S q) with (q + 1)%nat by lia. rewrite <- skipn_skipn', E. reflexivity.
Qed.

(** * Runs *)

Inductive ssteps (sg neg eat : bool) : nat -> dec -> sbuf -> list event -> dec -> sbuf -> Prop :=
| ss0 : forall d s, ssteps sg neg eat 0 d s [] d s
| ssS : forall n d s es d1 s1 f fs d2 s2, sbd_notify sg neg eat d s = Ok (es, d1, s1, f) -> k_st d1 <> RDone ->
    ssteps sg neg eat n d1 s1 fs d2 s2 -> ssteps sg neg eat (S n) d s (es ++ fs) d2 s2.

Lemma ssteps_app : forall sg neg eat n d s es d1 s1, ssteps sg neg eat n d s es d1 s1 ->
  forall m fs d2 s2, ssteps sg neg eat m d1 s1 fs d2 s2 -> ssteps sg neg eat (n + m) d s (es ++ fs) d2 s2.
Proof. induction 1; intros m fs' d3 s3 H2; [exact H2|]. cbn [Nat.add]. rewrite <- app_assoc. econstructor; eauto. Qed.

Lemma ssteps_one : forall sg neg eat d s es d1 s1 f, sbd_notify sg neg eat d s = Ok (es, d1, s1, f) -> k_st d1 <> RDone ->
  ssteps sg neg eat 1 d s es d1 s1.
Proof. intros. rewrite <- (app_nil_r es). econstructor; eauto. constructor. Qed.

Definition adds (es : list event) (r : res (list event * dec * sbuf)) : res (list event * dec * sbuf) :=
  match r with Ok (fs, d, p) => Ok (es ++ fs, d, p) | x => x end.

Lemma rstate_ne : forall s, s <> RDone -> rstate_eqb s RDone = false.
Proof. intros []; congruence || reflexivity. Qed.

Lemma srun_steps : forall sg neg eat n d s es d1 s1, ssteps sg neg eat n d s es d1 s1 ->
  forall k, sbd_run (n + k) sg neg eat d s = adds es (sbd_run k sg neg eat d1 s1).
Proof.
  induction 1; intros k; [cbn [Nat.add]; destruct (sbd_run k sg neg eat d s) as [[[? ?] ?]| |]; reflexivity|].
  cbn [Nat.add sbd_run]. rewrite H. cbn [bind]. rewrite (rstate_ne _ H0), IHssteps.
  destruct (sbd_run k sg neg eat d2 s2) as [[[? ?] ?]| |]; cbn; rewrite ?app_assoc; reflexivity.
Qed.

(** the run ends, in whatever state of the storage, with this report *)
Definition SR (sg neg eat : bool) (d : dec) (s : sbuf) (es : list event) : Prop :=
  exists F d1 s1, (k_st d1 = RDone /\ dec_mem d1) /\ flat s1 = [] /\ forall k, sbd_run (F + k) sg neg eat d s = Ok (es, d1, s1).
Definition SF (sg neg eat : bool) (d : dec) (s : sbuf) : Prop :=
  exists F, forall k, sbd_run (F + k) sg neg eat d s = Fault.

Lemma SR_steps : forall sg neg eat n d s es d1 s1 fs, ssteps sg neg eat n d s es d1 s1 ->
  SR sg neg eat d1 s1 fs -> SR sg neg eat d s (es ++ fs).
Proof.
  intros sg neg eat n d s es d1 s1 fs H (F & d2 & s2 & A & B & C). exists (n + F)%nat, d2, s2. split; [exact A|]. split; [exact B|].
  intros k. rewrite <- Nat.add_assoc, (srun_steps _ _ _ _ _ _ _ _ _ H), C. reflexivity.
Qed.

Lemma SF_steps : forall sg neg eat n d s es d1 s1, ssteps sg neg eat n d s es d1 s1 ->
  SF sg neg eat d1 s1 -> SF sg neg eat d s.
Proof.
  intros sg neg eat n d s es d1 s1 H (F & C). exists (n + F)%nat.
  intros k. rewrite <- Nat.add_assoc, (srun_steps _ _ _ _ _ _ _ _ _ H), C. reflexivity.
Qed.

Lemma SR_step : forall sg neg eat d s es d1 s1 f fs, sbd_notify sg neg eat d s = Ok (es, d1, s1, f) -> k_st d1 <> RDone ->
  SR sg neg eat d1 s1 fs -> SR sg neg eat d s (es ++ fs).
Proof. intros. eapply SR_steps; [eapply ssteps_one; eassumption|assumption]. Qed.

Lemma SR_last : forall sg neg eat d s es d1 s1 f, sbd_notify sg neg eat d s = Ok (es, d1, s1, f) -> k_st d1 = RDone /\ dec_mem d1 -> flat s1 = [] ->
  SR sg neg eat d s es.
Proof. intros. exists 1%nat, d1, s1. split; [assumption|]. split; [assumption|]. intros k. cbn [Nat.add sbd_run]. rewrite H. cbn [bind]. destruct H0 as (-> & _). reflexivity. Qed.

Lemma SF_now : forall sg neg eat d s, sbd_notify sg neg eat d s = Fault -> SF sg neg eat d s.
Proof. intros. exists 1%nat. intros k. cbn [Nat.add sbd_run]. rewrite H. reflexivity. Qed.

(** * Header and token *)

Lemma skims_nil : forall sg raw, skims sg raw [] -> raw = [].
Proof. intros sg raw H. inversion H; congruence. Qed.

Lemma skims_raw_nil : forall sg clean, skims sg [] clean -> clean = [].
Proof. intros sg clean H. inversion H. reflexivity. Qed.

Lemma sb_char_keep : forall sg b, (sg = true -> b <> 255) -> sb_char sg (Some b) = Some b.
Proof.
  intros sg b H. unfold sb_char. destruct sg; [|reflexivity]. cbn [andb].
  replace (b =? 255) with false by (symmetry; apply N.eqb_neq; auto). reflexivity.
Qed.

Lemma hdr_put_ok : forall i g h b, (i < 4)%nat -> firstn i (hdr_bytes g) = firstn i (hdr_bytes h) ->
  nth i (hdr_bytes h) 0 = b ->
  exists g1, hdr_put (N.of_nat i) b g = Ok g1 /\ firstn (S i) (hdr_bytes g1) = firstn (S i) (hdr_bytes h).
Proof.
  intros i [x0 x1 x2 x3] [y0 y1 y2 y3] b Hi H1 H2.
  destruct i as [|[|[|[|i]]]]; [| | | |lia]; cbn [hdr_bytes h0 h1 h2 h3 nth] in *; subst b;
  cbn [firstn] in H1; try (injection H1; intros; subst); eexists; split; reflexivity.
Qed.

Lemma hdr_bytes_full : forall g h, firstn 4 (hdr_bytes g) = firstn 4 (hdr_bytes h) -> g = h.
Proof. intros [x0 x1 x2 x3] [y0 y1 y2 y3] H. cbn in H. injection H. intros. subst. reflexivity. Qed.

Lemma skipn_nth : forall (l : list N) i b r, skipn i l = b :: r -> nth i l 0 = b /\ skipn (S i) l = r.
Proof.
  induction l as [|a l IH]; intros i b r H; [rewrite skipn_nil in H; discriminate|].
  destruct i; cbn in H; [injection H; intros; subst; split; reflexivity|]. cbn [nth]. rewrite !skipn_cons. now apply IH.
Qed.

Lemma hdr_len : forall h, length (hdr_bytes h) = 4%nat.
Proof. reflexivity. Qed.

(** one call in the header: it is complete, or a byte 0xFF stopped it *)
Lemma hdr_inner : forall L sg h tk raw clean, skims sg raw clean -> forall n i s g q x, (i < 4)%nat -> (5 <= n + i)%nat ->
  clean = skipn i (hdr_bytes h) ++ tk ->
  firstn i (hdr_bytes g) = firstn i (hdr_bytes h) -> at_pos L q s -> skipn q (concat L) = raw ++ x ->
  (exists s1 raw1 q1, sb_hdr_loop n sg s g (N.of_nat i) = Ok (h, 4, s1, true) /\ at_pos L q1 s1 /\
     skipn q1 (concat L) = raw1 ++ x /\ skims sg raw1 tk /\ (q1 + length raw1 = q + length raw)%nat) \/
  (exists s1 g1 i1 raw1 q1, sb_hdr_loop n sg s g (N.of_nat i) = Ok (g1, N.of_nat i1, s1, false) /\ (i1 < 4)%nat /\
     at_pos L q1 s1 /\ skipn q1 (concat L) = raw1 ++ x /\ skims sg raw1 (skipn i1 (hdr_bytes h) ++ tk) /\
     firstn i1 (hdr_bytes g1) = firstn i1 (hdr_bytes h) /\ (length raw1 < length raw)%nat /\ (q1 + length raw1 = q + length raw)%nat).
Proof.
  intros L sg h tk raw clean HS. induction HS as [|b raw clean Hb HS IH|raw clean Hsg Hne HS IH]; intros n i s g q x Hi Hn Hc Hg Hat Hq.
  - exfalso. assert (LL := skipn_length i (hdr_bytes h)). rewrite hdr_len in LL.
    apply (f_equal (@length N)) in Hc. rewrite app_length in Hc. cbn [length] in Hc. lia.
  - destruct n as [|n]; [lia|]. cbn [sb_hdr_loop].
    cbn [app] in Hq. destruct (bump_cons L q s b _ Hat Hq) as (s1 & -> & A1 & Q1). rewrite (sb_char_keep sg b Hb).
    destruct (skipn i (hdr_bytes h)) as [|b' r'] eqn:ES.
    { assert (LL := skipn_length i (hdr_bytes h)). rewrite ES, hdr_len in LL. cbn [length] in LL. lia. }
    cbn [app] in Hc. injection Hc as -> ->. destruct (skipn_nth _ _ _ _ ES) as (E1 & E2).
    destruct (hdr_put_ok i g h b' Hi Hg E1) as (g1 & -> & Hg1). cbn [bind].
    replace ((N.of_nat i + 1) mod 256) with (N.of_nat (S i)) by (rewrite N.mod_small; lia).
    destruct (Nat.eq_dec i 3) as [->|Hi3].
    + left. change (4 <=? N.of_nat 4) with true. cbn iota. apply hdr_bytes_full in Hg1. subst g1.
      exists s1, raw, (S q). repeat split; try assumption.
      * cbn in E2. subst r'. exact HS.
      * cbn [length]. lia.
    + replace (4 <=? N.of_nat (S i)) with false by (symmetry; apply N.leb_gt; lia).
      destruct (IH n (S i) s1 g1 (S q) x) as [(s2 & raw1 & q1 & B)|(s2 & g2 & i1 & raw1 & q1 & B1 & B2 & B3 & B4 & B5 & B6 & B7 & B8)];
        [lia|lia|rewrite E2; reflexivity|exact Hg1|exact A1|exact Q1| |].
      * left. exists s2, raw1, q1. cbn [length]. replace (q + S (length raw))%nat with (S q + length raw)%nat by lia. exact B.
      * right. exists s2, g2, i1, raw1, q1. cbn [length]. repeat split; try assumption; lia.
  - destruct n as [|n]; [lia|]. cbn [sb_hdr_loop]. right.
    cbn [app] in Hq. destruct (bump_cons L q s 255 _ Hat Hq) as (s1 & -> & A1 & Q1).
    subst sg. unfold sb_char. cbn [andb]. change (255 =? 255) with true. cbn iota.
    exists s1, g, i, raw, (S q). subst clean. cbn [length]. repeat split; try assumption; lia.
Qed.

(** the whole header *)
Lemma hdr_phase : forall L sg neg eat h tk m raw d s q i x, (length raw <= m)%nat ->
  k_st d = RHeader -> k_hpos d = N.of_nat i -> (i < 4)%nat -> firstn i (hdr_bytes (k_h d)) = firstn i (hdr_bytes h) -> dec_mem d ->
  skims sg raw (skipn i (hdr_bytes h) ++ tk) -> at_pos L q s -> skipn q (concat L) = raw ++ x ->
  exists n d1 s1 raw1 q1, ssteps sg neg eat n d s [EHeader h] d1 s1 /\ k_st d1 = HeaderDone /\ k_h d1 = h /\ dec_mem d1 /\ k_od d1 = k_od d /\
    at_pos L q1 s1 /\ skipn q1 (concat L) = raw1 ++ x /\ skims sg raw1 tk /\ (q1 + length raw1 = q + length raw)%nat.
Proof.
  intros L sg neg eat h tk. induction m as [|m IH]; intros raw d s q i x Hm Hst Hhp Hi Hf Hmem HS Hat Hq.
  - destruct raw; [|cbn in Hm; lia]. exfalso. apply skims_raw_nil in HS.
    apply (f_equal (@length N)) in HS. rewrite app_length, skipn_length, hdr_len in HS. cbn [length] in HS. lia.
  - destruct (hdr_inner L sg h tk raw _ HS 5 i (sb_fill s) (k_h d) q x Hi ltac:(lia) eq_refl Hf (at_fill _ _ _ Hat) Hq)
      as [(s1 & raw1 & q1 & B1 & B2 & B3 & B4 & B5)|(s1 & g1 & i1 & raw1 & q1 & B1 & B2 & B3 & B4 & B5 & B6 & B7 & B8)].
    + assert (N1 : sbd_notify sg neg eat d s = Ok ([EHeader h], Dec HeaderDone h 4 (k_tok d) (k_tpos d) (k_od d) (k_hold d), s1, is_nil (s_cur (sb_fill s)))).
      { unfold sbd_notify, sbd_step, sb_eof. rewrite Hst, Hhp, B1. reflexivity. }
      exists 1%nat. eexists. exists s1, raw1, q1. split; [eapply ssteps_one; [exact N1|discriminate]|]. repeat split; try assumption; apply Hmem.
    + set (d1 := Dec RHeader g1 (N.of_nat i1) (k_tok d) (k_tpos d) (k_od d) (k_hold d)).
      assert (N1 : sbd_notify sg neg eat d s = Ok ([], d1, s1, is_nil (s_cur (sb_fill s)))).
      { unfold sbd_notify, sbd_step, sb_eof. rewrite Hst, Hhp, B1. reflexivity. }
      destruct (IH raw1 d1 s1 q1 i1 x) as (n & d2 & s2 & raw2 & q2 & A1 & A2 & A3 & A4 & A5 & A6 & A7 & A8 & A9); try assumption; try reflexivity; [lia|].
      exists (S n), d2, s2, raw2, q2. split.
      { change [EHeader h] with ([] ++ [EHeader h]). econstructor; [exact N1|discriminate|exact A1]. }
      repeat split; try assumption; try apply A4. lia.
Qed.

Lemma firstn_app_nth : forall (l : list N) i, (i < length l)%nat -> firstn (S i) l = firstn i l ++ [nth i l 0].
Proof.
  induction l as [|a l IH]; intros i H; [cbn in H; lia|]. destruct i; [reflexivity|].
  cbn [length] in H. cbn [nth]. rewrite (firstn_cons (S i)), (firstn_cons i), IH by lia. reflexivity.
Qed.

Lemma put_bytes : forall i v (t : list N), byte_ok v -> bytes_ok t -> bytes_ok (firstn i t ++ v :: skipn (S i) t).
Proof.
  intros i v t Hv Ht. apply bytes_ok_app. split; [now apply bytes_ok_firstn|]. constructor; [assumption|now apply bytes_ok_skipn].
Qed.

Lemma tok_inner : forall L sg tok raw clean, skims sg raw clean -> forall n i s t q x, (i < length tok)%nat -> (length tok <= 8)%nat -> (9 <= n + i)%nat ->
  clean = skipn i tok -> bytes_ok raw ->
  firstn i t = firstn i tok -> length t = 8%nat -> bytes_ok t -> at_pos L q s -> skipn q (concat L) = raw ++ x ->
  exists s1 t1 i1 raw1 q1 done, sb_tok_loop n sg (N.of_nat (length tok)) s t (N.of_nat i) = Ok (t1, N.of_nat i1, s1, done) /\ length t1 = 8%nat /\ bytes_ok t1 /\
     at_pos L q1 s1 /\ skipn q1 (concat L) = raw1 ++ x /\ (q1 + length raw1 = q + length raw)%nat /\ firstn i1 t1 = firstn i1 tok /\
     (i <= i1)%nat /\ (i = i1 -> t1 = t) /\ skims sg raw1 (skipn i1 tok) /\
     (if done then i1 = length tok else (i1 < length tok)%nat /\ (length raw1 < length raw)%nat).
Proof.
  intros L sg tok raw clean HS. induction HS as [|b raw clean Hb HS IH|raw clean Hsg Hne HS IH]; intros n i s t q x Hi H8 Hn Hc Hok Hg Hl Ht Hat Hq.
  - exfalso. apply (f_equal (@length N)) in Hc. rewrite skipn_length in Hc. cbn [length] in Hc. lia.
  - destruct n as [|n]; [lia|]. cbn [sb_tok_loop]. inversion Hok as [|? ? Hb1 Hok1]; subst.
    cbn [app] in Hq. destruct (bump_cons L q s b _ Hat Hq) as (s1 & -> & A1 & Q1). rewrite (sb_char_keep sg b Hb).
    destruct (skipn i tok) as [|b' r'] eqn:ES; [discriminate|]. injection Hc as -> ->. destruct (skipn_nth _ _ _ _ ES) as (E1 & E2).
    rewrite tok_put_ok by lia. cbn [bind].
    replace ((N.of_nat i + 1) mod 256) with (N.of_nat (S i)) by (rewrite N.mod_small; lia).
    set (t1 := firstn i t ++ b' :: skipn (S i) t).
    assert (G1 : firstn (S i) t1 = firstn (S i) tok).
    { unfold t1. rewrite firstn_put by lia. rewrite Hg, <- E1. symmetry. now apply firstn_app_nth. }
    assert (L1 : length t1 = 8%nat) by (unfold t1; rewrite tok_put_length; lia).
    assert (B1 : bytes_ok t1) by (apply put_bytes; assumption).
    destruct (N.leb_spec (N.of_nat (length tok)) (N.of_nat (S i))) as [Hle|Hlt].
    + exists s1, t1, (S i), raw, (S q), true. cbn [length]. repeat split; try assumption; try lia. rewrite E2. exact HS.
    + destruct (IH n (S i) s1 t1 (S q) x) as (s2 & t2 & i1 & raw1 & q1 & done & C1 & C2 & C3 & C4 & C5 & C6 & C7 & C8 & C9 & C10 & C11);
        try assumption; try lia; [symmetry; exact E2|].
      exists s2, t2, i1, raw1, q1, done. cbn [length]. repeat split; try assumption; try lia.
      destruct done; [assumption|lia].
  - destruct n as [|n]; [lia|]. cbn [sb_tok_loop]. inversion Hok as [|? ? Hb1 Hok1]; subst.
    cbn [app] in Hq. destruct (bump_cons L q s 255 _ Hat Hq) as (s1 & -> & A1 & Q1).
    unfold sb_char. cbn [andb]. change (255 =? 255) with true. cbn iota.
    exists s1, t, i, raw, (S q), false. cbn [length]. repeat split; try assumption; lia.
Qed.

Lemma tok_phase : forall L sg neg eat tok m raw d s q i x, (length raw <= m)%nat ->
  k_st d = RToken -> k_tpos d = N.of_nat i -> (i < length tok)%nat -> (length tok <= 8)%nat -> hdr_tkl (k_h d) = N.of_nat (length tok) ->
  firstn i (k_tok d) = firstn i tok -> dec_mem d -> bytes_ok raw ->
  skims sg raw (skipn i tok) -> at_pos L q s -> skipn q (concat L) = raw ++ x ->
  exists n d1 s1, ssteps sg neg eat n d s [EToken tok] d1 s1 /\ k_st d1 = TokenDone /\ dec_mem d1 /\ k_h d1 = k_h d /\
    (d_st (k_od d1) = OptionDone \/ k_od d1 = k_od d /\ 0 < k_tpos d) /\
    at_pos L (q + length raw) s1.
Proof.
  intros L sg neg eat tok. induction m as [|m IH]; intros raw d s q i x Hm Hst Htp Hi H8 Htk Hf Hmem Hok HS Hat Hq.
  - destruct raw; [|cbn in Hm; lia]. exfalso. apply skims_raw_nil in HS.
    apply (f_equal (@length N)) in HS. rewrite skipn_length in HS. cbn [length] in HS. lia.
  - destruct Hmem as (M1 & M2 & M3).
    destruct (tok_inner L sg tok raw _ HS 9 i (sb_fill s) (k_tok d) q x Hi H8 ltac:(lia) eq_refl Hok Hf M1 M2 (at_fill _ _ _ Hat) Hq)
      as (s1 & t1 & i1 & raw1 & q1 & done & B1 & B2 & B3 & B4 & B5 & B6 & B7 & B8 & B8' & B9 & B10).
    set (o1 := if N.of_nat i1 =? k_tpos d then k_od d else tok_alias t1 (N.of_nat i1)).
    set (d1 := Dec (if done then TokenDone else RToken) (k_h d) (k_hpos d) t1 (N.of_nat i1) o1 (k_hold d)).
    assert (Hbi : byte_ok (N.of_nat i1)) by (unfold byte_ok; destruct done; lia).
    assert (Mem1 : dec_mem d1).
    { unfold dec_mem, d1, o1. cbn [k_tok k_od]. split; [assumption|]. split; [assumption|].
      destruct (_ =? _); [assumption|]. now apply tok_alias_od. }
    destruct done.
    + subst i1. rewrite skipn_all in B9. apply skims_nil in B9. subst raw1. cbn [length] in B6. rewrite Nat.add_0_r in B6. subst q1.
      assert (N1 : sbd_notify sg neg eat d s = Ok ([EToken tok], d1, s1, is_nil (s_cur (sb_fill s)))).
      { unfold sbd_notify, sbd_step, sb_eof, dec_tkl. rewrite Hst, Htp, Htk, B1. cbn [bind]. rewrite <- Htp. fold o1.
        unfold sbd_events, dec_tkl. cbn [k_st k_h k_tok]. rewrite Htk, Nat2N.id, B7, firstn_all. reflexivity. }
      exists 1%nat, d1, s1. split; [eapply ssteps_one; [exact N1|discriminate]|]. repeat split; try assumption; try apply Mem1.
      left. cbn [k_od d1]. unfold o1. replace (_ =? _) with false by (symmetry; apply N.eqb_neq; lia).
      apply tok_alias_st; [assumption|lia|lia].
    + assert (N1 : sbd_notify sg neg eat d s = Ok ([], d1, s1, is_nil (s_cur (sb_fill s)))).
      { unfold sbd_notify, sbd_step, sb_eof, dec_tkl. rewrite Hst, Htp, Htk, B1. cbn [bind]. rewrite <- Htp. reflexivity. }
      assert (Hok1 : bytes_ok raw1).
      { assert (Hx : raw1 ++ x = skipn (q1 - q) (raw ++ x)).
        { rewrite <- Hq, <- B5, skipn_skipn'. f_equal. lia. }
        rewrite skipn_app in Hx. replace (q1 - q - length raw)%nat with 0%nat in Hx by lia. cbn [skipn] in Hx.
        apply app_inv_tail in Hx. rewrite Hx. now apply bytes_ok_skipn. }
      destruct (IH raw1 d1 s1 q1 i1 x) as (n & d2 & s2 & A1 & A2 & A3 & A4 & A5 & A6); try assumption; try reflexivity; try lia.
      exists (S n), d2, s2. split.
      { change [EToken tok] with ([] ++ [EToken tok]). econstructor; [exact N1|discriminate|exact A1]. }
      repeat split; try assumption; try apply A3.
      * destruct A5 as [A5|(A5 & A5')]; [left; exact A5|].
        rewrite A5. cbn [k_od d1]. unfold o1. destruct (N.eqb_spec (N.of_nat i1) (k_tpos d)) as [E|E].
        -- right. split; [reflexivity|]. cbn [k_tpos d1] in A5'. lia.
        -- left. apply tok_alias_st; [assumption|cbn [k_tpos d1] in A5'; lia|lia].
      * rewrite <- B6. exact A6.
Qed.

(** header and token up to the start of the options *)
Lemma prefix_phase : forall L sg neg eat h tok raw d s x, idle d -> bytes_ok raw ->
  hdr_tkl h = N.of_nat (length tok) -> (length tok <= 8)%nat -> skims sg raw (hdr_bytes h ++ tok) ->
  at_pos L 0 s -> concat L = raw ++ x ->
  exists n d1 s1, ssteps sg neg eat n d s [EHeader h; EToken tok; EOptStart] d1 s1 /\ k_st d1 = OptionsStart /\ dec_mem d1 /\
    (tok = [] -> k_od d1 = k_od d) /\ (tok <> [] -> d_st (k_od d1) = OptionDone) /\
    at_pos L (length raw) s1.
Proof.
  intros L sg neg eat h tok raw d s x (Hst & Hmem) Hok Ht H8 HS Hat Hx.
  assert (UN : forall d0 s0, k_st d0 = Uninitialized -> dec_mem d0 -> at_pos L 0 s0 ->
    exists n d1 s1, ssteps sg neg eat n d0 s0 [EHeader h; EToken tok; EOptStart] d1 s1 /\ k_st d1 = OptionsStart /\ dec_mem d1 /\
    (tok = [] -> k_od d1 = k_od d0) /\ (tok <> [] -> d_st (k_od d1) = OptionDone) /\ at_pos L (length raw) s1).
  { intros d0 s0 D1 D2 D3.
    set (d1 := Dec RHeader (k_h d0) 0 (k_tok d0) (k_tpos d0) (k_od d0) (k_hold d0)).
    assert (N1 : sbd_notify sg neg eat d0 s0 = Ok ([], d1, sb_fill s0, is_nil (s_cur (sb_fill s0)))).
    { unfold sbd_notify, sbd_step, sb_eof. rewrite D1. reflexivity. }
    destruct (hdr_phase L sg neg eat h tok _ raw d1 (sb_fill s0) 0 0 x (le_n _) eq_refl eq_refl ltac:(lia) eq_refl D2 HS (at_fill _ _ _ D3) Hx)
      as (n & d2 & s2 & raw2 & q2 & A1 & A2 & A3 & A4 & A5 & A6 & A7 & A8 & A9).
    cbn [Nat.add] in A9.
    assert (HR : exists n2 d3 s3, ssteps sg neg eat n2 d2 s2 [EToken tok] d3 s3 /\ k_st d3 = TokenDone /\ dec_mem d3 /\
      (tok = [] -> k_od d3 = k_od d2) /\ (tok <> [] -> d_st (k_od d3) = OptionDone) /\ at_pos L (length raw) s3).
    { destruct tok as [|t0 tok'].
      - apply skims_nil in A8. subst raw2. cbn [length] in A9. rewrite Nat.add_0_r in A9. subst q2.
        exists 1%nat, (k_goto TokenDone d2), (sb_fill s2). split.
        + eapply (ssteps_one _ _ _ _ _ _ _ _ (is_nil (s_cur (sb_fill s2)))); [|discriminate].
          unfold sbd_notify, sbd_step, sb_eof, dec_tkl. rewrite A2, A3, Ht. change (0 <? N.of_nat (length (@nil N))) with false. cbn [bind].
          unfold sbd_events, dec_tkl. cbn [k_st k_goto k_h]. rewrite A3, Ht. reflexivity.
        + repeat split; try apply A4. congruence. now apply at_fill.
      - set (tok := t0 :: tok') in *.
        assert (HL : (0 < length tok)%nat) by (unfold tok; cbn; lia).
        set (d3 := Dec RToken h (k_hpos d2) (k_tok d2) 0 (k_od d2) (k_hold d2)).
        assert (N2 : sbd_notify sg neg eat d2 s2 = Ok ([], k_goto TokenStart d2, sb_fill s2, is_nil (s_cur (sb_fill s2)))).
        { unfold sbd_notify, sbd_step, sb_eof, dec_tkl. rewrite A2, A3, Ht.
          replace (0 <? N.of_nat (length tok)) with true by (symmetry; apply N.ltb_lt; lia). reflexivity. }
        assert (N3 : sbd_notify sg neg eat (k_goto TokenStart d2) (sb_fill s2) = Ok ([], d3, sb_fill (sb_fill s2), is_nil (s_cur (sb_fill (sb_fill s2))))).
        { unfold sbd_notify, sbd_step, sb_eof. cbn [k_st k_goto bind sbd_events k_h k_hpos k_tok k_od k_hold]. rewrite A3. reflexivity. }
        assert (Hok2 : bytes_ok raw2).
        { assert (Hy : raw2 ++ x = skipn q2 (raw ++ x)) by (rewrite <- Hx; symmetry; exact A7).
          rewrite skipn_app in Hy. replace (q2 - length raw)%nat with 0%nat in Hy by lia. cbn [skipn] in Hy.
          apply app_inv_tail in Hy. rewrite Hy. now apply bytes_ok_skipn. }
        destruct (tok_phase L sg neg eat tok _ raw2 d3 (sb_fill (sb_fill s2)) q2 0 x (le_n _)) as (n2 & d4 & s4 & B1 & B2 & B3 & B4 & B5 & B6);
          try assumption; try reflexivity.
        { apply at_fill, at_fill. exact A6. }
        exists (S (S n2)), d4, s4. split.
        { change [EToken tok] with ([] ++ [] ++ [EToken tok]). econstructor; [exact N2|discriminate|]. econstructor; [exact N3|discriminate|exact B1]. }
        repeat split; try assumption; try apply B3.
        + unfold tok. discriminate.
        + intros _. destruct B5 as [B5|(_ & B5)]; [exact B5|]. cbn [k_tpos d3] in B5. lia.
        + rewrite <- A9. exact B6. }
    destruct HR as (n2 & d3 & s3 & B1 & B2 & B3 & B4 & B4' & B5).
    exists (S n + (n2 + 1))%nat, (k_goto OptionsStart d3), (sb_fill s3). split.
    { change [EHeader h; EToken tok; EOptStart] with (([] ++ [EHeader h]) ++ [EToken tok] ++ [EOptStart]).
      eapply ssteps_app; [econstructor; [exact N1|discriminate|exact A1]|].
      eapply ssteps_app; [exact B1|]. eapply (ssteps_one _ _ _ _ _ _ _ _ (is_nil (s_cur (sb_fill s3)))); [|discriminate].
      unfold sbd_notify, sbd_step, sb_eof. rewrite B2. reflexivity. }
    repeat split; try apply B3.
    - intros E. cbn [k_od k_goto]. rewrite (B4 E), A5. reflexivity.
    - intros E. cbn [k_od k_goto]. auto.
    - now apply at_fill. }
  destruct Hst as [Hst|Hst]; [now apply UN|].
  assert (N0 : sbd_notify sg neg eat d s = Ok ([], k_goto Uninitialized d, sb_fill s, is_nil (s_cur (sb_fill s)))).
  { unfold sbd_notify, sbd_step, sb_eof. rewrite Hst. reflexivity. }
  destruct (UN (k_goto Uninitialized d) (sb_fill s) eq_refl Hmem (at_fill _ _ _ Hat)) as (n & d1 & s1 & A1 & A2).
  exists (S n), d1, s1. split; [|exact A2].
  change [EHeader h; EToken tok; EOptStart] with ([] ++ [EHeader h; EToken tok; EOptStart]).
  econstructor; [exact N0|discriminate|exact A1].
Qed.

(** * Options *)

Lemma chunk_vs : forall fuel d h bs n d1 h1 n1, od_chunk_loop fuel d h bs n = Ok (d1, h1, n1) -> d_st d1 = ValueStart ->
  d_st d <> ValueStart \/ bs <> [] -> (n1 < n + length bs)%nat.
Proof.
  induction fuel as [|k IH]; intros d h bs n d1 h1 n1 H Hv Hd.
  - destruct bs; [|discriminate]. cbn in H. injection H as <- <- <-. destruct Hd; congruence.
  - destruct bs as [|b r]; [cbn in H; injection H as <- <- <-; destruct Hd; congruence|].
    cbn [od_chunk_loop] in H. pose proof (value_start_keeps b d h) as HS. unfold mstep in HS.
    destruct (od_step b d) as [[d2 q]| |] eqn:E; cbn [bind fst snd] in H, HS; try discriminate.
    destruct (hold_upd d2 h) as [h2| |]; cbn [bind] in H, HS; try discriminate.
    destruct (od_stops (d_st d2)) eqn:Es.
    + injection H as <- <- <-. rewrite (HS d2 h2 q eq_refl Hv). cbn [length]. lia.
    + apply IH in H; [|exact Hv|left; intro X; rewrite X in Es; discriminate]. cbn [length]. destruct q; cbn [length] in H; lia.
Qed.

Lemma chunk_fwd : forall o h cur x off o1 h1 n R, d_st o <> OPayload -> cur <> [] -> od_chunk o h cur = Ok (o1, h1, n) ->
  d_st o1 <> OPayload ->
  mrun o1 h1 (off + n) (skipn n cur ++ x) R -> mrun o h off (cur ++ x) (addv (emit o1 h1 (off + n)) R).
Proof.
  intros o h cur x off o1 h1 n R Hp Hc EC Hp1 HR.
  assert (HP := od_chunk_post o h cur Hp (or_introl Hc)). rewrite EC in HP. destruct HP as (_ & Hn & _ & HP).
  rewrite Nat.sub_0_r in HP.
  assert (H1 := od_drive_run o1 h1 (off + n) (skipn n cur) Hp1).
  destruct (od_drive o1 h1 (off + n) (skipn n cur)) as [[[[vs o2] h2] e2]| |] eqn:ED.
  - assert (H2 := HP off _ H1). cbn [addv] in H2.
    destruct (ostate_eqb (d_st o2) OPayload) eqn:Eo.
    + apply ostate_eqb_eq in Eo. rewrite (mrun_det _ _ _ _ _ HR _ (mrun_app_pay _ _ _ _ _ _ _ _ H1 Eo x)).
      cbn [addv]. now apply mrun_app_pay.
    + assert (Eo' : d_st o2 <> OPayload) by (intro X; rewrite X in Eo; discriminate).
      assert (H3 := od_drive_run o2 h2 e2 x Eo').
      pose proof (mrun_app _ _ _ _ _ H1 x) as X. cbn beta iota in X. rewrite (mrun_det _ _ _ _ _ HR _ (X Eo' _ H3)).
      pose proof (mrun_app _ _ _ _ _ H2 x) as Y. cbn beta iota in Y. rewrite addv_app. apply Y; assumption.
  - assert (H2 := HP off _ H1). cbn [addv] in H2.
    pose proof (mrun_app _ _ _ _ _ H1 x) as X. cbn beta iota in X. rewrite (mrun_det _ _ _ _ _ HR _ X). cbn [addv].
    pose proof (mrun_app _ _ _ _ _ H2 x) as Y. exact Y.
  - destruct (mrun_nofuel _ _ _ _ _ H1 eq_refl).
Qed.

(** the option decoder and holder the next call works with *)
Definition cur_opt (d : dec) (o : odec) (h : holder) : Prop :=
  (k_st d = ROptions /\ o = k_od d /\ h = k_hold d) \/
  (k_st d = OptionsStart /\ o = od_goto FirstByte (k_od d) /\ h = holder_reset).

Definition ost (o : odec) (ex : bool) : rstate :=
  if ostate_eqb (d_st o) OPayload then OptionsDone
  else if ex && ostate_eqb (d_st o) OptionValueDone then OptionsDone else ROptions.
Definition oev (st : rstate) : list event := match st with OptionsDone => [EOptDone] | _ => [] end.

Lemma sb_eta : forall s c r, s_cur s = c -> s_rest s = r -> s = SBuf c r.
Proof. intros [c0 r0] c r <- <-. reflexivity. Qed.

Lemma sb_options_cons : forall neg o h b c rest, sb_options neg o h (SBuf (b :: c) rest) =
  bind (od_chunk o h (b :: c)) (fun x => let '(o1, h1, n) := x in Ok (o1, h1, SBuf (skipn n (b :: c)) rest)).
Proof. reflexivity. Qed.

Lemma opt_notify : forall sg neg eat d s o h cur rest o1 h1 n, cur_opt d o h -> sb_fill s = SBuf cur rest -> cur <> [] ->
  od_chunk o h cur = Ok (o1, h1, n) ->
  (d_st o1 = ValueStart -> od_length o1 = Ok (hd_len h1) /\ (n < length cur)%nat) ->
  exists s1 f, sbd_notify sg neg eat d s =
    Ok ((match d_st o1 with
         | ValueStart => [EOption (hd_num h1) (firstn (N.to_nat (hd_len h1)) (skipn n cur)) (N.to_nat (hd_len h1) <=? length (skipn n cur))%nat]
         | _ => [] end) ++ oev (ost o1 (is_nil (s_cur (sb_fill (SBuf (skipn n cur) rest))))),
        k_goto (ost o1 (is_nil (s_cur (sb_fill (SBuf (skipn n cur) rest))))) (opt_dec d o1 h1), s1, f) /\
    sb_fill s1 = sb_fill (SBuf (skipn n cur) rest).
Proof.
  intros sg neg eat d s o h cur rest o1 h1 n Hc Hf Hne EC HV.
  destruct cur as [|b c]; [congruence|]. set (cur := b :: c) in *.
  set (s2 := SBuf (skipn n cur) rest). set (ex := is_nil (s_cur (sb_fill s2))).
  assert (HE : forall s3 dd, s_cur s3 = skipn n cur \/ d_st o1 <> ValueStart ->
     dd = k_goto (ost o1 ex) (opt_dec d o1 h1) ->
     sbd_events neg eat dd s3 =
      Ok ((match d_st o1 with
         | ValueStart => [EOption (hd_num h1) (firstn (N.to_nat (hd_len h1)) (skipn n cur)) (N.to_nat (hd_len h1) <=? length (skipn n cur))%nat]
         | _ => [] end) ++ oev (ost o1 ex), s3)).
  { intros s3 dd H3 ->. destruct (ostate_eqb (d_st o1) ValueStart) eqn:Ev.
    - apply ostate_eqb_eq in Ev. destruct (HV Ev) as (HL & Hn). destruct H3 as [H3|H3]; [|congruence].
      unfold ost. rewrite Ev. cbn [ostate_eqb]. rewrite andb_false_r.
      unfold sbd_events. cbn [k_st k_goto opt_dec k_od k_hold oev]. rewrite Ev, app_nil_r.
      destruct (N.ltb_spec 0 (hd_len h1)).
      + unfold sbd_option. cbn [k_od k_goto opt_dec]. rewrite HL. cbn [bind]. rewrite H3.
        destruct (skipn n cur) eqn:E; [|reflexivity].
        assert (LL := skipn_length n cur). rewrite E in LL. cbn [length] in LL. lia.
      + replace (hd_len h1) with 0 by lia. reflexivity.
    - unfold sbd_events. cbn [k_st k_goto]. unfold ost.
      destruct (ostate_eqb (d_st o1) OPayload) eqn:Ep; [apply ostate_eqb_eq in Ep; rewrite Ep; reflexivity|].
      destruct (ex && ostate_eqb (d_st o1) OptionValueDone) eqn:Ex.
      + apply andb_prop in Ex. destruct Ex as (_ & Ex). apply ostate_eqb_eq in Ex. rewrite Ex. reflexivity.
      + cbn [k_od k_goto opt_dec oev]. destruct (d_st o1); try reflexivity. discriminate. }
  assert (HF : s_cur (sb_fill s2) = skipn n cur \/ d_st o1 <> ValueStart).
  { destruct (ostate_eqb (d_st o1) ValueStart) eqn:Ev; [|right; intro X; rewrite X in Ev; discriminate].
    apply ostate_eqb_eq in Ev. destruct (HV Ev) as (HL & Hn). left. unfold sb_fill, s2. cbn [s_cur].
    destruct (skipn n cur) eqn:E; [|reflexivity]. assert (LL := skipn_length n cur). rewrite E in LL. cbn [length] in LL. lia. }
  destruct Hc as [(H1 & -> & ->)|(H1 & -> & ->)].
  - exists (sb_fill s2), ex. split; [|apply fill_fill].
    unfold sbd_notify, sbd_step, sb_eof. rewrite H1, Hf. rewrite (sb_options_cons neg _ _ b c rest : sb_options neg _ _ (SBuf cur rest) = _). fold cur. rewrite EC. cbn [bind]. fold s2. fold ex.
    rewrite (HE (sb_fill s2)); [reflexivity|exact HF|reflexivity].
  - exists s2, false. split; [|reflexivity].
    unfold sbd_notify, sbd_step, sb_eof. rewrite H1, Hf. cbn [s_cur]. change (is_nil cur) with false. cbn iota. rewrite (sb_options_cons neg _ _ b c rest : sb_options neg _ _ (SBuf cur rest) = _). fold cur. rewrite EC. cbn [bind]. fold s2.
    assert (HO : d_st o1 <> OptionValueDone).
    { eapply outside_chunk; [|exact EC]. unfold outside. cbn. repeat split; discriminate. }
    rewrite (HE s2); [|left; reflexivity|].
    + unfold ost. replace (ostate_eqb (d_st o1) OptionValueDone) with false by (destruct (d_st o1); congruence || reflexivity).
      rewrite andb_false_r. reflexivity.
    + unfold ost. replace (ostate_eqb (d_st o1) OptionValueDone) with false by (destruct (d_st o1); congruence || reflexivity).
      rewrite andb_false_r. reflexivity.
Qed.

Lemma opt_notify_fault : forall sg neg eat d s o h cur rest, cur_opt d o h -> sb_fill s = SBuf cur rest -> cur <> [] ->
  od_chunk o h cur = Fault -> sbd_notify sg neg eat d s = Fault.
Proof.
  intros sg neg eat d s o h cur rest Hc Hf Hne EC. destruct cur as [|b c]; [congruence|].
  unfold sbd_notify, sbd_step, sb_eof. destruct Hc as [(H1 & -> & ->)|(H1 & -> & ->)]; rewrite H1, Hf; cbn [s_cur is_nil];
    unfold sb_options; cbn [s_cur]; rewrite EC; reflexivity.
Qed.

Lemma at_same : forall L q s s', sb_fill s = sb_fill s' -> at_pos L q s' -> at_pos L q s.
Proof. intros L q s s' H H1. unfold at_pos in *. congruence. Qed.

Lemma flat_same : forall s s', sb_fill s = sb_fill s' -> flat s = flat s'.
Proof. intros s s' H. rewrite <- (flat_fill s), H, flat_fill. reflexivity. Qed.

Lemma opts_phase : forall L sg neg eat, bytes_ok (concat L) -> forall m d s q o h R,
  (3 * length (flat s) + dr (d_st o) <= m)%nat -> cur_opt d o h -> flat s <> [] -> d_st o <> OPayload -> linv o h ->
  at_pos L q s -> mrun o h q (flat s) R ->
  match R with
  | Ok (vs, o1, h1, e1) => linv o1 h1 /\ exists n s1,
      ssteps sg neg eat (S n) d s (map (opt_view L 0) vs ++ oev (ost o1 true)) (k_goto (ost o1 true) (opt_dec d o1 h1)) s1 /\
      at_pos L e1 s1 /\ (d_st o1 <> OPayload -> flat s1 = [])
  | Fault => SF sg neg eat d s
  | NoFuel => False
  end.
Proof.
  intros L sg neg eat Hok. induction m as [|m IH]; intros d s q o h R Hm Hc Hne Hp Hl Hat HR.
  { destruct (flat s); [congruence|cbn in Hm; lia]. }
  destruct (flat_cons s Hne) as (b & c & Ecur). destruct (sb_fill s) as [cur rest] eqn:Ef. cbn [s_cur] in Ecur. subst cur.
  set (cur := b :: c) in *. assert (Hcne : cur <> []) by discriminate.
  assert (Efl : flat s = cur ++ concat rest) by (rewrite <- flat_fill, Ef; reflexivity).
  assert (Hokc : bytes_ok cur).
  { rewrite (at_flat _ _ _ Hat) in Efl. assert (X := bytes_ok_skipn q _ Hok). rewrite Efl in X. apply bytes_ok_app in X. tauto. }
  rewrite Efl in HR.
  assert (HP := od_chunk_post o h cur Hp (or_introl Hcne)).
  pose proof (linv_chunk_loop (4 * length cur + 4) o h cur 0) as HL. fold (od_chunk o h cur) in HL.
  pose proof (chunk_vs (4 * length cur + 4) o h cur 0) as HVs. fold (od_chunk o h cur) in HVs.
  pose proof (od_chunk_loop_progress (4 * length cur + 4) o h b c 0) as HPr. fold cur in HPr. fold (od_chunk o h cur) in HPr.
  destruct (od_chunk o h cur) as [[[o1 h1] n]| |] eqn:EC; unfold chunk_post in HP.
  2:{ pose proof (mrun_app _ _ _ _ _ (HP q) (concat rest)) as X. cbn beta iota in X. rewrite (mrun_det _ _ _ _ _ HR _ X).
      apply SF_now. eapply opt_notify_fault; eassumption. }
  2:{ destruct HP. }
  specialize (HL o1 h1 n Hl Hokc eq_refl). specialize (HPr o1 h1 n Hp eq_refl).
  destruct HP as (_ & Hn & _ & HP). cbn [Nat.add] in Hn. rewrite Nat.sub_0_r in HP.
  assert (HV : d_st o1 = ValueStart -> od_length o1 = Ok (hd_len h1) /\ (n < length cur)%nat).
  { intros E. split.
    - destruct HL as (_ & _ & HL). rewrite E in HL. exact HL.
    - specialize (HVs o1 h1 n eq_refl E (or_intror Hcne)). cbn [Nat.add] in HVs. exact HVs. }
  set (s2 := SBuf (skipn n cur) rest).
  assert (Hat2 : at_pos L (q + n) s2) by (eapply at_adv; eassumption).
  destruct (opt_notify sg neg eat d s o h cur rest o1 h1 n Hc Ef Hcne EC HV) as (s1 & f & HN & Hs1). fold s2 in HN, Hs1.
  assert (Hat1 : at_pos L (q + n) s1) by (eapply at_same; eassumption).
  assert (Hf1 : flat s1 = flat s2) by (now apply flat_same).
  assert (HEV : (match d_st o1 with
         | ValueStart => [EOption (hd_num h1) (firstn (N.to_nat (hd_len h1)) (skipn n cur)) (N.to_nat (hd_len h1) <=? length (skipn n cur))%nat]
         | _ => [] end) = map (opt_view L 0) (emit o1 h1 (q + n))).
  { unfold emit. destruct (d_st o1) eqn:Ev; try reflexivity. destruct (HV eq_refl) as (_ & Hlt).
    cbn [map opt_view]. rewrite Nat.sub_0_r.
    destruct (skipn n cur) as [|b2 c2] eqn:ES; [assert (LL := skipn_length n cur); rewrite ES in LL; cbn [length] in LL; lia|].
    rewrite (opt_at_here L (q + n) s2 (hd_num h1) (hd_len h1) b2 c2); [reflexivity|exact Hat2|reflexivity]. }
  rewrite HEV in HN. clear HEV.
  destruct (ostate_eqb (d_st o1) OPayload) eqn:Eo.
  - apply ostate_eqb_eq in Eo.
    assert (X : mrun o h q cur (addv (emit o1 h1 (q + n)) (Ok ([], o1, h1, (q + n)%nat)))) by (apply HP; now apply mr_pay).
    assert (Ee : emit o1 h1 (q + n) = []) by (unfold emit; rewrite Eo; reflexivity). rewrite Ee in *. cbn [addv app map] in *.
    rewrite (mrun_det _ _ _ _ _ HR _ (mrun_app_pay _ _ _ _ _ _ _ _ X Eo _)). split; [exact HL|].
    exists 0%nat, s1. split.
    + unfold ost in *. rewrite Eo in *. cbn [ostate_eqb] in *. eapply ssteps_one; [exact HN|discriminate].
    + split; [exact Hat1|congruence].
  - assert (Eo' : d_st o1 <> OPayload) by (intro X; rewrite X in Eo; discriminate).
    assert (HR1 := od_drive_run o1 h1 (q + n) (skipn n cur ++ concat rest) Eo').
    assert (HR2 := chunk_fwd o h cur (concat rest) q o1 h1 n _ Hp Hcne EC Eo' HR1).
    rewrite (mrun_det _ _ _ _ _ HR _ HR2). clear HR2.
    destruct (list_eq_dec N.eq_dec (flat s2) []) as [E2|E2].
    + assert (E2' := E2). unfold flat, s2 in E2'. cbn [s_cur s_rest] in E2'.
      rewrite E2' in HR1 |- *. rewrite (mrun_det _ _ _ _ _ HR1 _ (mr_nil _ _ _)). cbn [addv]. rewrite app_nil_r.
      split; [exact HL|]. exists 0%nat, s1.
      rewrite (flat_nil s2 E2) in HN. cbn [s_cur is_nil] in HN. split.
      * eapply ssteps_one; [exact HN|]. cbn [k_st k_goto]. unfold ost. rewrite Eo. destruct (_ && _); discriminate.
      * split; [exact Hat1|]. intros _. congruence.
    + assert (Eex : is_nil (s_cur (sb_fill s2)) = false) by (destruct (flat_cons s2 E2) as (b3 & c3 & ->); reflexivity).
      rewrite Eex in HN. assert (Es : ost o1 false = ROptions) by (unfold ost; rewrite Eo; reflexivity).
      rewrite Es in HN. cbn [oev] in HN. rewrite app_nil_r in HN. change (k_goto ROptions (opt_dec d o1 h1)) with (opt_dec d o1 h1) in HN.
      assert (Hmm : (3 * length (flat s1) + dr (d_st o1) <= m)%nat).
      { rewrite Hf1. unfold flat, s2 in *. cbn [s_cur s_rest] in *. rewrite Efl in Hm. rewrite app_length in *. rewrite skipn_length in *.
        pose proof (dr_le2 (d_st o1)). lia. }
      specialize (IH (opt_dec d o1 h1) s1 (q + n)%nat o1 h1 _ Hmm (or_introl (conj eq_refl (conj eq_refl eq_refl)))
        ltac:(rewrite Hf1; exact E2) Eo' HL Hat1 ltac:(rewrite Hf1; exact HR1)).
      destruct (od_drive o1 h1 (q + n) (skipn n cur ++ concat rest)) as [[[[ws o2] h2] e2]| |]; cbn [addv].
      * destruct IH as (A1 & n2 & s3 & A2 & A3). split; [exact A1|]. exists (S n2), s3. split; [|exact A3].
        rewrite map_app, <- app_assoc. econstructor; [exact HN|discriminate|exact A2].
      * eapply SF_steps; [eapply ssteps_one; [exact HN|discriminate]|exact IH].
      * exact IH.
Qed.

(** * The end of the data *)

Definition late (s : rstate) : Prop := match s with TokenDone | OptionsStart | ROptions | OptionsDone | RPayload | PayloadDone => True | _ => False end.

Lemma eof_agree : forall sg eat d s, late (k_st d) -> flat s = [] ->
  sbd_notify sg false eat d s =
  match dec_notify [] true d 0 with Ok (es, d1, _, _) => Ok (es, d1, SBuf [] [], true) | Fault => Fault | NoFuel => NoFuel end.
Proof.
  intros sg eat d s Hs Hf. unfold sbd_notify, sbd_step, sb_eof. rewrite (flat_nil s Hf). cbn [s_cur is_nil].
  unfold dec_notify, dec_iterate, dec_step.
  destruct (k_st d) eqn:Ek; try (destruct Hs).
  - reflexivity.
  - reflexivity.
  - unfold sb_options, remainder, od_chunk_last. cbn [s_cur skipn sb_fill sb_next s_rest].
    destruct (od_step 0 (k_od d)) as [[o p]| |]; cbn [bind fst]; try reflexivity.
    cbn [sb_eof sb_fill s_cur sb_next s_rest is_nil Nat.add Nat.leb length Nat.eqb andb].
    destruct (ostate_eqb (d_st o) OPayload) eqn:Ep; [reflexivity|].
    destruct (ostate_eqb (d_st o) OptionValueDone) eqn:Ev; [reflexivity|].
    cbn [bind]. unfold sbd_events, dec_events. cbn [k_st k_od k_hold].
    destruct (d_st o); try reflexivity. unfold sbd_option, dec_option, remainder. cbn [k_od s_cur s_rest skipn].
    destruct (0 <? hd_len (k_hold d)); [|reflexivity].
    destruct (od_length o) as [l| |]; cbn [bind andb fst snd length]; try reflexivity.
    destruct (N.eqb_spec l 0) as [->|Hn]; [reflexivity|].
    replace (N.to_nat l <=? 0)%nat with false by (symmetry; apply Nat.leb_gt; lia). reflexivity.
  - destruct (ostate_eqb (d_st (k_od d)) OPayload); cbn; [destruct eat; reflexivity|reflexivity].
  - reflexivity.
  - reflexivity.
Qed.

Lemma late_step : forall d es d1 p1 f, dec_notify [] true d 0 = Ok (es, d1, p1, f) -> late (k_st d) -> k_st d1 <> RDone ->
  late (k_st d1) /\ p1 = 0%nat.
Proof.
  intros d es d1 p1 f H Hl Hd. destruct (notify_fin _ _ _ _ _ _ _ _ H) as (_ & Hp). cbn [length] in Hp.
  split; [|lia]. clear Hp. unfold dec_notify, dec_iterate, dec_step in H.
  destruct (k_st d) eqn:Ek; try (destruct Hl).
  - cbn in H. injection H as _ <- _ _. exact I.
  - cbn in H. injection H as _ <- _ _. exact I.
  - unfold remainder, od_chunk_last in H. cbn [skipn] in H.
    destruct (od_step 0 (k_od d)) as [[o p]| |]; cbn [bind fst Nat.add Nat.leb length] in H; try discriminate.
    match type of H with bind ?x _ = _ => destruct x as [ev| |]; cbn [bind] in H; try discriminate end.
    injection H as _ <- _ _. cbn [k_st]. destruct (ostate_eqb _ OPayload); [exact I|]. cbn. destruct (ostate_eqb _ _); exact I.
  - destruct (ostate_eqb (d_st (k_od d)) OPayload); cbn in H; injection H as _ <- _ _; [exact I|]. cbn in Hd. congruence.
  - cbn in H. injection H as _ <- _ _. exact I.
  - cbn in H. injection H as _ <- _ _. cbn in Hd. congruence.
Qed.

Lemma late_steps : forall sg eat n d p es d1 p1, nsteps [] true stop_done n d p es d1 p1 -> p = 0%nat -> late (k_st d) ->
  forall s, flat s = [] -> exists s1, ssteps sg false eat n d s es d1 s1 /\ flat s1 = [].
Proof.
  intros sg eat n d p es d1 p1 H. induction H; intros Hp Hl s Hs; [exists s; split; [constructor|exact Hs]|]. subst pos.
  assert (Hd : k_st d1 <> RDone) by (unfold stop_done in H0; intro X; rewrite X in H0; discriminate).
  destruct (late_step _ _ _ _ _ H Hl Hd) as (Hl1 & ->).
  assert (HA := eof_agree sg eat d s Hl Hs). rewrite H in HA.
  destruct (IHnsteps eq_refl Hl1 (SBuf [] []) eq_refl) as (s1 & A1 & A2).
  exists s1. split; [|exact A2]. econstructor; eassumption.
Qed.

(** the end of the data between an option header and its value *)
Lemma eof_after_head : forall d num l, k_st d = ROptions -> ready (k_od d) l -> k_hold d = Holder num l -> od_bytes (k_od d) ->
  exists n o, d_st o = OptionValueDone /\ od_bytes o /\
    nsteps [] true stop_done n d 0 [EOption num [] (l =? 0); EOptDone] (k_goto OptionsDone (opt_dec d o (k_hold d))) 0.
Proof.
  intros d num l Hs Hb Hh A8b. destruct Hb as (Np & _ & Nv & _ & _ & _ & Hst). destruct (Hst 0) as (o2 & E2 & S2 & L2).
  assert (N2 := notify_eof [] d o2 false Hs E2 ltac:(intros _; eauto)).
  unfold opt_out, fin_events, eof_events in N2. rewrite fin_state_vs, S2, L2, app_nil_r, Hh in N2 by assumption.
  cbn [hd_len hd_num length] in N2. change (k_goto ROptions ?x) with x in N2.
  assert (EV : (if 0 <? l then [EOption num [] (l =? 0)] else [EOption num [] true]) = [EOption num [] (l =? 0)]).
  { destruct (N.ltb_spec 0 l); [reflexivity|]. replace l with 0 by lia. reflexivity. }
  rewrite EV in N2. clear EV.
  assert (B2 := od_bytes_step 0 _ _ _ A8b ltac:(unfold byte_ok; lia) E2).
  assert (HL : l < 65536) by (destruct B2 as (_ & B2 & _); exact (get_value_bound _ _ _ _ B2 L2)).
  set (d2 := opt_dec d o2 (Holder num l)) in *.
  assert (HE : exists m o3, d_st o3 = OptionValueDone /\ od_bytes o3 /\
    nsteps [] true stop_done m d2 0 [EOptDone] (k_goto OptionsDone (opt_dec d2 o3 (k_hold d2))) 0).
  { set (o3 := od_goto (if l =? 0 then OptionValueDone else OptionValue) (od_set_vlen l o2)).
    assert (E3 : od_step 0 (k_od d2) = Ok (o3, false)).
    { cbn [k_od d2 opt_dec]. unfold od_step. rewrite S2, L2. reflexivity. }
    assert (B3 := od_bytes_step 0 _ _ _ (B2 : od_bytes (k_od d2)) ltac:(unfold byte_ok; lia) E3).
    destruct (N.eqb_spec l 0) as [Z|NZ].
    - assert (S3 : d_st o3 = OptionValueDone) by reflexivity.
      assert (N3 := notify_eof [] d2 o3 false eq_refl E3 ltac:(rewrite S3; discriminate)).
      unfold opt_out, fin_events, eof_events in N3. rewrite fin_vd, S3 in N3 by assumption.
      exists 1%nat, o3. split; [assumption|]. split; [assumption|].
      eapply nsteps_one; [exact N3|reflexivity].
    - assert (S3 : d_st o3 = OptionValue) by reflexivity.
      assert (N3 := notify_eof [] d2 o3 false eq_refl E3 ltac:(rewrite S3; discriminate)).
      assert (Ef3 : fin_state [] true o3 (length (@nil N)) = ROptions) by (unfold fin_state; rewrite S3; reflexivity).
      unfold opt_out, fin_events, eof_events in N3. rewrite Ef3, S3 in N3.
      change (k_goto ROptions ?x) with x in N3.
      destruct (ghost_value [] (N.to_nat l - 1) (opt_dec d2 o3 (k_hold d2)) eq_refl S3) as (o4 & S4 & B4 & C4).
      { cbn [k_od opt_dec]. unfold o3. rewrite vlen_set. lia. }
      { lia. }
      { exact B3. }
      exists (S (S (N.to_nat l - 1))), o4. split; [assumption|]. split; [assumption|].
      eapply (nsS [] true stop_done _ d2 0 [] (opt_dec d2 o3 (k_hold d2)) 0 true [EOptDone]);
        [exact N3|reflexivity|exact C4]. }
  destruct HE as (m & o3 & C2 & C3 & C4). exists (S m), o3. split; [assumption|]. split; [assumption|].
  change [EOption num [] (l =? 0); EOptDone] with ([EOption num [] (l =? 0)] ++ [EOptDone]). rewrite Hh.
  eapply nsS; [exact N2|reflexivity|exact C4].
Qed.

(** at the end of the data with the options not done, [in_avail] of -1 is fatal *)
Lemma neg_fault : forall sg eat d s, k_st d = ROptions -> flat s = [] -> SF sg true eat d s.
Proof.
  intros sg eat d s Hs Hf. apply SF_now. unfold sbd_notify, sbd_step, sb_eof. rewrite (flat_nil s Hf), Hs. reflexivity.
Qed.

(** the options are done and nothing follows *)
Lemma finish_plain : forall sg neg eat d s, k_st d = OptionsDone -> d_st (k_od d) <> OPayload -> dec_mem d -> flat s = [] ->
  SR sg neg eat d s [ECompleted].
Proof.
  intros sg neg eat d s Hs Ho Hm Hf. eapply (SR_last _ _ _ _ _ _ (k_goto RDone d) (SBuf [] []) true).
  - unfold sbd_notify, sbd_step, sb_eof. rewrite (flat_nil s Hf), Hs.
    replace (ostate_eqb (d_st (k_od d)) OPayload) with false by (destruct (d_st (k_od d)); congruence || reflexivity). reflexivity.
  - split; [reflexivity|exact Hm].
  - reflexivity.
Qed.

(** * Payload *)

Lemma notify_fill : forall sg neg eat d s s', sb_fill s = sb_fill s' -> sbd_notify sg neg eat d s = sbd_notify sg neg eat d s'.
Proof. intros sg neg eat d s s' H. unfold sbd_notify, sbd_step, sb_eof. rewrite H. reflexivity. Qed.

Lemma SR_fill : forall sg neg eat d s s' es, sb_fill s = sb_fill s' -> SR sg neg eat d s' es -> SR sg neg eat d s es.
Proof.
  intros sg neg eat d s s' es H (F & d1 & s1 & A & B & C). exists F, d1, s1. split; [exact A|]. split; [exact B|].
  intros k. specialize (C k). destruct (F + k)%nat; [discriminate|]. cbn [sbd_run] in *. rewrite (notify_fill _ _ _ _ _ _ H). exact C.
Qed.

Lemma pay_over : forall sg neg eat d s, k_st d = RPayload -> dec_mem d -> flat s = [] -> SR sg neg eat d s [ECompleted].
Proof.
  intros sg neg eat d s Hs Hm Hf. change [ECompleted] with ([] ++ [ECompleted]).
  eapply (SR_step _ _ _ _ _ [] (k_goto PayloadDone d) (SBuf [] []) true); [|discriminate|].
  - unfold sbd_notify, sbd_step, sb_eof. rewrite (flat_nil s Hf), Hs. reflexivity.
  - eapply (SR_last _ _ _ _ _ _ (k_goto RDone d) (SBuf [] []) true); [reflexivity|split; [reflexivity|exact Hm]|reflexivity].
Qed.

Lemma pays : forall sg neg rest d, k_st d = RPayload -> dec_mem d -> SR sg neg false d (SBuf [] rest) (seg_pays rest ++ [ECompleted]).
Proof.
  intros sg neg. induction rest as [|[|b c] r IH]; intros d Hs Hm.
  - now apply pay_over.
  - cbn [seg_pays]. eapply SR_fill; [|exact (IH d Hs Hm)]. reflexivity.
  - cbn [seg_pays]. 
    match goal with |- SR _ _ _ _ _ ((?e :: ?x) ++ ?y) => change ((e :: x) ++ y) with ([e] ++ (x ++ y)) end.
    eapply (SR_step _ _ _ _ _ _ (k_goto RPayload d) (SBuf [] r) false); [|discriminate|apply IH; [reflexivity|exact Hm]].
    unfold sbd_notify, sbd_step, sb_eof. cbn [sb_fill s_cur sb_next s_rest is_nil]. rewrite Hs. cbn [bind sbd_events k_st k_goto s_cur s_rest].
    unfold is_nil. destruct (concat r); reflexivity.
Qed.

Lemma payload_phase : forall L sg neg eat d s p, k_st d = OptionsDone -> d_st (k_od d) = OPayload -> dec_mem d -> at_pos L p s ->
  SR sg neg eat d s (payload_report eat L p ++ [ECompleted]).
Proof.
  intros L sg neg eat d s p Hs Ho Hm Hat. unfold payload_report.
  assert (EF : concat (drop p L) = flat s) by (rewrite concat_drop; symmetry; now apply at_flat).
  assert (HF := flat_fill s). unfold at_pos in Hat.
  destruct (sb_fill s) as [cur rest] eqn:Ef.
  assert (N1 : sbd_notify sg neg eat d s =
    (if eat then Ok ([EPayload (cur ++ concat rest) true], k_goto RPayload d, SBuf [] [], is_nil cur)
     else Ok ([EPayload cur (is_nil (concat rest))], k_goto RPayload d, SBuf [] rest, is_nil cur))).
  { unfold sbd_notify, sbd_step, sb_eof. rewrite Hs, Ef, Ho. cbn [ostate_eqb bind sbd_events k_st k_goto]. destruct eat; reflexivity. }
  unfold flat at 1 in HF. cbn [s_cur s_rest] in HF. rewrite <- HF in EF. clear HF.
  destruct eat.
  - rewrite EF. destruct (cur ++ concat rest) as [|b x].
    + eapply SR_step; [exact N1|discriminate|]. now apply pay_over.
    + eapply SR_step; [exact N1|discriminate|]. now apply pay_over.
  - rewrite EF. destruct (cur ++ concat rest) as [|b x] eqn:EX.
    + apply app_eq_nil in EX. destruct EX as (-> & EX). rewrite EX in N1. eapply SR_step; [exact N1|discriminate|].
      apply pay_over; [reflexivity|exact Hm|exact EX].
    + assert (HC : cur <> []).
      { intros ->. assert (X := fill_cur s). rewrite Ef in X. specialize (X eq_refl). injection X as ->. discriminate. }
      assert (HS : seg_pays (drop p L) = EPayload cur (is_nil (concat rest)) :: seg_pays rest).
      { clear - Hat HC. induction (drop p L) as [|[|b c] r IH]; cbn [sb_next] in Hat; [injection Hat as -> ->; congruence|exact (IH Hat)|].
        injection Hat as -> ->. cbn [seg_pays]. unfold is_nil. destruct (concat r); reflexivity. }
      rewrite HS. match goal with |- SR _ _ _ _ _ ((?e :: ?x) ++ ?y) => change ((e :: x) ++ y) with ([e] ++ (x ++ y)) end.
      eapply SR_step; [exact N1|discriminate|]. now apply pays.
Qed.

(** * Whole streams *)

Lemma opt_mem : forall d o h, dec_mem d -> od_bytes o -> dec_mem (opt_dec d o h).
Proof. intros d o h (A & B & C) H. repeat split; try assumption; apply H. Qed.

Definition late_tail (eat : bool) (L : list (list N)) (e : oend) : list event :=
  match e with
  | EndMarker p => EOptDone :: payload_report eat L p
  | EndAfterHead num l => [EOption num [] (l =? 0); EOptDone]
  | _ => [EOptDone]
  end.

Lemma stream_run : forall L sg neg eat h tok raw rest d vs e, bytes_ok (concat L) -> idle d ->
  hdr_tkl h = N.of_nat (length tok) -> (length tok <= 8)%nat -> skims sg raw (hdr_bytes h ++ tok) -> rest <> [] ->
  concat L = raw ++ rest -> parse 0 (length raw) rest = (vs, e) ->
  match e with
  | EndReserved => SF sg neg eat d (SBuf [] L)
  | EndInHead => if neg then SF sg neg eat d (SBuf [] L) else
      SF sg neg eat d (SBuf [] L) \/ exists es, Forall hollow es /\
      SR sg neg eat d (SBuf [] L) ([EHeader h; EToken tok; EOptStart] ++ map (opt_view L 0) vs ++ es ++ [EOptDone; ECompleted])
  | EndAfterHead _ _ | EndInValue _ =>
      if neg then SF sg neg eat d (SBuf [] L) else
      SR sg neg eat d (SBuf [] L) ([EHeader h; EToken tok; EOptStart] ++ map (opt_view L 0) vs ++ late_tail eat L e ++ [ECompleted])
  | _ => SR sg neg eat d (SBuf [] L) ([EHeader h; EToken tok; EOptStart] ++ map (opt_view L 0) vs ++ late_tail eat L e ++ [ECompleted])
  end.
Proof.
  intros L sg neg eat h tok raw rest d vs e Hok Hd Ht H8 HS Hr HL HP.
  assert (Hokr : bytes_ok raw /\ bytes_ok rest) by (apply bytes_ok_app; rewrite <- HL; exact Hok). destruct Hokr as (Hok1 & Hok2).
  destruct (prefix_phase L sg neg eat h tok raw d (SBuf [] L) rest Hd Hok1 Ht H8 HS (at_open L) HL)
    as (n & d1 & s1 & A1 & A2 & A3 & A4 & A5 & A6).
  assert (Hfl : flat s1 = rest).
  { rewrite (at_flat _ _ _ A6), HL, skipn_app, skipn_all, Nat.sub_diag. reflexivity. }
  set (o0 := od_goto FirstByte (k_od d1)).
  assert (Hbo : od_bytes o0) by (destruct A3 as (_ & _ & A3); exact A3).
  assert (HR := drive_parse (length rest) rest o0 holder_reset (length raw) (le_n _) (or_introl eq_refl) ltac:(cbn; lia) Hok2).
  change (hd_num holder_reset) with 0 in HR. fold (parse 0 (length raw) rest) in HR. rewrite HP in HR.
  unfold refines in HR. cbn [fst snd] in HR.
  assert (HO := fun m => opts_phase L sg neg eat Hok m d1 s1 (length raw) o0 holder_reset).
  assert (Go : forall R, mrun o0 holder_reset (length raw) rest R -> 
    match R with
    | Ok (vs, o1, h1, e1) => linv o1 h1 /\ exists n s1',
      ssteps sg neg eat (S n) d1 s1 (map (opt_view L 0) vs ++ oev (ost o1 true)) (k_goto (ost o1 true) (opt_dec d1 o1 h1)) s1' /\
      at_pos L e1 s1' /\ (d_st o1 <> OPayload -> flat s1' = [])
    | Fault => SF sg neg eat d1 s1
    | NoFuel => False
    end).
  { intros R HM. eapply HO; [apply le_n|right; auto|rewrite Hfl; exact Hr|discriminate|apply linv_fresh; [reflexivity|exact Hbo]|exact A6|rewrite Hfl; exact HM]. }
  clear HO.
  assert (NF : forall o1 h1 e1, mrun o0 holder_reset (length raw) rest (Ok (vs, o1, h1, e1)) -> e1 = (length raw + length rest)%nat -> d_st o1 <> FirstByte).
  { intros o1 h1 e1 HM He X. apply (mrun_not_first _ _ _ _ _ HM); [|exact X]. destruct rest; [congruence|cbn [length] in He; lia]. }
  destruct e.
  - (* EndClean *)
    destruct HR as (o1 & h1 & e1 & HM & (Hb & He)). destruct (Go _ HM) as (HLi & n2 & s2 & B1 & B2 & B3).
    destruct Hb as [Hb|Hb]; [destruct (NF _ _ _ HM He Hb)|].
    eapply SR_steps; [exact A1|]. rewrite app_assoc. cbn [late_tail].
    unfold ost in B1. rewrite Hb in B1. eapply SR_steps; [exact B1|].
    apply finish_plain; [reflexivity|cbn; rewrite Hb; discriminate|apply opt_mem; [exact A3|apply HLi]|apply B3; rewrite Hb; discriminate].
  - (* EndMarker *)
    destruct HR as (o1 & h1 & e1 & HM & (Hb & He)). destruct (Go _ HM) as (HLi & n2 & s2 & B1 & B2 & B3). subst e1.
    eapply SR_steps; [exact A1|]. cbn [late_tail].
    match goal with |- SR _ _ _ _ _ (?a ++ (EOptDone :: ?x) ++ ?y) => change (a ++ (EOptDone :: x) ++ y) with (a ++ [EOptDone] ++ (x ++ y)) end.
    rewrite app_assoc. unfold ost in B1. rewrite Hb in B1. eapply SR_steps; [exact B1|].
    apply payload_phase; [reflexivity|exact Hb|apply opt_mem; [exact A3|apply HLi]|exact B2].
  - (* EndReserved *)
    destruct HR as (pre & c & post & o1 & h1 & e1 & E & _ & HM & Hnp & HF).
    assert (HM2 : mrun o0 holder_reset (length raw) rest Fault).
    { rewrite E. pose proof (mrun_app _ _ _ _ _ HM (c :: post)) as X. cbn beta iota in X. specialize (X Hnp _ (HF post)). exact X. }
    eapply SF_steps; [exact A1|]. exact (Go _ HM2).
  - (* EndInHead *)
    destruct HR as (o1 & h1 & e1 & HM & (Hb & He)). destruct (Go _ HM) as (HLi & n2 & s2 & B1 & B2 & B3).
    assert (Hnp : d_st o1 <> OPayload) by (unfold midhead in Hb; destruct (d_st o1); (discriminate || destruct Hb)).
    assert (Hnv : d_st o1 <> OptionValueDone) by (unfold midhead in Hb; destruct (d_st o1); (discriminate || destruct Hb)).
    assert (Es : ost o1 true = ROptions) by (unfold ost; destruct (d_st o1); congruence || reflexivity).
    rewrite Es in B1. cbn [oev] in B1. rewrite app_nil_r in B1. change (k_goto ROptions ?x) with x in B1. specialize (B3 Hnp).
    destruct neg.
    { eapply SF_steps; [exact A1|]. eapply SF_steps; [exact B1|]. now apply neg_fault. }
    destruct HLi as (Hi & Hby & _).
    destruct (ghost [] _ (opt_dec d1 o1 h1) eq_refl Hi Hby Hnp Hnv (le_n _)) as [(m & es & dm & C1 & C2 & C3 & C4 & _)|(m & es & o2 & C1 & C2 & C3 & C4 & C5)].
    + left. destruct (late_steps sg eat _ _ _ _ _ _ C2 eq_refl I s2 B3) as (s3 & D1 & D2).
      eapply SF_steps; [exact A1|]. eapply SF_steps; [exact B1|]. eapply SF_steps; [exact D1|]. apply SF_now.
      rewrite (eof_agree sg eat dm s3); [|rewrite C3; exact I|exact D2]. cbn [length] in C4. rewrite C4. reflexivity.
    + right. exists es. split; [exact C3|].
      destruct (late_steps sg eat _ _ _ _ _ _ C2 eq_refl I s2 B3) as (s3 & D1 & D2).
      eapply SR_steps; [exact A1|]. eapply SR_steps; [exact B1|].
      change (es ++ [EOptDone; ECompleted]) with (es ++ [EOptDone] ++ [ECompleted]). rewrite app_assoc.
      eapply SR_steps; [exact D1|]. apply finish_plain; [reflexivity|cbn; rewrite C4; discriminate|exact (opt_mem d1 _ _ A3 C5)|exact D2].
  - (* EndAfterHead *)
    destruct HR as (o1 & h1 & e1 & HM & (Hb & Hh & He)). destruct (Go _ HM) as (HLi & n2 & s2 & B1 & B2 & B3).
    assert (Hb' := Hb). destruct Hb' as (Hnp & _ & Hnv & _).
    assert (Es : ost o1 true = ROptions) by (unfold ost; destruct (d_st o1); congruence || reflexivity).
    rewrite Es in B1. cbn [oev] in B1. rewrite app_nil_r in B1. change (k_goto ROptions ?x) with x in B1. specialize (B3 Hnp).
    destruct neg.
    { eapply SF_steps; [exact A1|]. eapply SF_steps; [exact B1|]. now apply neg_fault. }
    destruct HLi as (Hi & Hby & _).
    destruct (eof_after_head (opt_dec d1 o1 h1) num l eq_refl Hb Hh Hby) as (m & o2 & C1 & C2 & C3).
    destruct (late_steps sg eat _ _ _ _ _ _ C3 eq_refl I s2 B3) as (s3 & D1 & D2).
    eapply SR_steps; [exact A1|]. eapply SR_steps; [exact B1|]. cbn [late_tail].
    eapply SR_steps; [exact D1|]. apply finish_plain; [reflexivity|cbn; rewrite C1; discriminate|exact (opt_mem d1 _ _ A3 C2)|exact D2].
  - (* EndInValue *)
    destruct HR as (o1 & h1 & e1 & HM & (Hb & Hv & Hk & He)). destruct (Go _ HM) as (HLi & n2 & s2 & B1 & B2 & B3).
    assert (Es : ost o1 true = ROptions) by (unfold ost; rewrite Hb; reflexivity).
    rewrite Es in B1. cbn [oev] in B1. rewrite app_nil_r in B1. change (k_goto ROptions ?x) with x in B1.
    specialize (B3 ltac:(rewrite Hb; discriminate)).
    destruct neg.
    { eapply SF_steps; [exact A1|]. eapply SF_steps; [exact B1|]. now apply neg_fault. }
    destruct HLi as (Hi & Hby & _).
    destruct (ghost_value [] (N.to_nat missing - 1) (opt_dec d1 o1 h1) eq_refl Hb) as (o4 & S4 & B4 & C4).
    { cbn [k_od opt_dec]. rewrite Hv. lia. }
    { lia. }
    { exact Hby. }
    destruct (late_steps sg eat _ _ _ _ _ _ C4 eq_refl I s2 B3) as (s3 & D1 & D2).
    eapply SR_steps; [exact A1|]. eapply SR_steps; [exact B1|]. cbn [late_tail].
    eapply SR_steps; [exact D1|]. apply finish_plain; [reflexivity|cbn; rewrite S4; discriminate|exact (opt_mem d1 _ _ A3 B4)|exact D2].
Qed.

(** nothing after the token *)
Lemma bare_run : forall L sg neg eat h tok raw d, bytes_ok (concat L) -> idle d ->
  hdr_tkl h = N.of_nat (length tok) -> (length tok <= 8)%nat -> skims sg raw (hdr_bytes h ++ tok) -> concat L = raw ->
  SR sg neg eat d (SBuf [] L) ([EHeader h; EToken tok; EOptStart] ++
    [EOptDone] ++ (match tok with [] => if ostate_eqb (d_st (k_od d)) OPayload then [EPayload [] true] else [] | _ => [] end) ++ [ECompleted]).
Proof.
  intros L sg neg eat h tok raw d Hok Hd Ht H8 HS HL.
  destruct (prefix_phase L sg neg eat h tok raw d (SBuf [] L) [] Hd ltac:(rewrite <- HL; exact Hok) Ht H8 HS (at_open L) ltac:(rewrite app_nil_r; exact HL))
    as (n & d1 & s1 & A1 & A2 & A3 & A4 & A5 & A6).
  assert (Hfl : flat s1 = []) by (rewrite (at_flat _ _ _ A6), HL, skipn_all; reflexivity).
  eapply SR_steps; [exact A1|].
  eapply (SR_step _ _ _ _ _ _ (k_goto OptionsDone d1) (SBuf [] []) true); [|discriminate|].
  { unfold sbd_notify, sbd_step, sb_eof. rewrite (flat_nil s1 Hfl), A2. reflexivity. }
  destruct tok as [|t0 tok'].
  - rewrite <- (A4 eq_refl). destruct (ostate_eqb (d_st (k_od d1)) OPayload) eqn:E.
    + apply ostate_eqb_eq in E.
      eapply (SR_step _ _ _ _ _ _ (k_goto RPayload d1) (SBuf [] []) true); [|discriminate|apply pay_over; [reflexivity|exact A3|reflexivity]].
      unfold sbd_notify, sbd_step, sb_eof. cbn [sb_fill s_cur sb_next s_rest is_nil k_st k_goto k_od]. rewrite E. cbn. destruct eat; reflexivity.
    + apply finish_plain; [reflexivity|cbn; intro X; rewrite X in E; discriminate|exact A3|reflexivity].
  - apply finish_plain; [reflexivity|cbn; rewrite A5 by discriminate; discriminate|exact A3|reflexivity].
Qed.

(** * Header or token cut short *)

Definition okbytes (bs : list N) : nat := length (filter (fun b => negb (b =? 255)) bs).

Lemma bump_flat : forall s, match flat s with
  | [] => sb_bump s = (None, SBuf [] [])
  | b :: r => exists s1, sb_bump s = (Some b, s1) /\ flat s1 = r
  end.
Proof.
  intros s. destruct (flat s) as [|b r] eqn:E.
  - unfold sb_bump. rewrite (flat_nil s E). reflexivity.
  - destruct (flat_cons s ltac:(rewrite E; discriminate)) as (b1 & c & HC). unfold sb_bump. rewrite HC.
    rewrite <- flat_fill in E. unfold flat in E. rewrite HC in E. cbn [app] in E. injection E as -> <-.
    eexists. split; [reflexivity|]. reflexivity.
Qed.

(** signed char: too few bytes other than 0xFF never complete the header *)
Lemma hdr_loop_stuck : forall n s h i, (i + okbytes (flat s) < 4)%nat -> (5 <= n + i)%nat ->
  exists s1 h1 i1, sb_hdr_loop n true s h (N.of_nat i) = Ok (h1, N.of_nat i1, s1, false) /\ (i1 + okbytes (flat s1) < 4)%nat.
Proof.
  induction n as [|n IH]; intros s h i Hi Hn; [lia|]. cbn [sb_hdr_loop].
  assert (HB := bump_flat s). destruct (flat s) as [|b r] eqn:E.
  - rewrite HB. cbn [sb_char]. exists (SBuf [] []), h, i. split; [reflexivity|]. cbn. unfold okbytes in Hi. cbn in Hi. lia.
  - destruct HB as (s1 & -> & Hs1). unfold sb_char. cbn [andb]. unfold okbytes in Hi. cbn [filter] in Hi.
    destruct (N.eqb_spec b 255) as [->|Hb]; cbn [negb] in Hi.
    + exists s1, h, i. split; [reflexivity|]. unfold okbytes. rewrite Hs1. lia.
    + cbn [length] in Hi.
      assert (HP : exists h1, hdr_put (N.of_nat i) b h = Ok h1).
      { destruct h as [x0 x1 x2 x3]. destruct i as [|[|[|[|i]]]]; [eexists; reflexivity..|lia]. }
      destruct HP as (h1 & ->). cbn [bind].
      replace ((N.of_nat i + 1) mod 256) with (N.of_nat (S i)) by (rewrite N.mod_small; lia).
      replace (4 <=? N.of_nat (S i)) with false by (symmetry; apply N.leb_gt; lia).
      apply IH; [unfold okbytes; rewrite Hs1; lia|lia].
Qed.

Lemma header_stuck : forall neg eat fuel d s i, k_st d = RHeader -> k_hpos d = N.of_nat i -> (i + okbytes (flat s) < 4)%nat ->
  sbd_run fuel true neg eat d s = NoFuel.
Proof.
  intros neg eat. induction fuel as [|k IH]; intros d s i Hs Hp Hi; [reflexivity|].
  destruct (hdr_loop_stuck 5 (sb_fill s) (k_h d) i ltac:(rewrite flat_fill; exact Hi) ltac:(lia)) as (s1 & h1 & i1 & A & B).
  cbn [sbd_run]. unfold sbd_notify, sbd_step, sb_eof. rewrite Hs, Hp, A. cbn [bind sbd_events k_st fst snd rstate_eqb].
  rewrite (IH _ s1 i1); [reflexivity|reflexivity|reflexivity|exact B].
Qed.

Lemma stuck : forall neg eat fuel d L, idle d -> (okbytes (concat L) < 4)%nat -> sbd_run fuel true neg eat d (SBuf [] L) = NoFuel.
Proof.
  intros neg eat fuel d L (Hst & _) HL.
  assert (UN : forall f d0 s, k_st d0 = Uninitialized -> (okbytes (flat s) < 4)%nat -> sbd_run f true neg eat d0 s = NoFuel).
  { intros f d0 s H0 Hf. destruct f as [|f]; [reflexivity|]. cbn [sbd_run]. unfold sbd_notify, sbd_step, sb_eof. rewrite H0.
    cbn [bind sbd_events k_st fst snd rstate_eqb]. rewrite (header_stuck neg eat f _ (sb_fill s) 0); [reflexivity|reflexivity|reflexivity|].
    rewrite flat_fill. exact Hf. }
  destruct Hst as [Hst|Hst]; [now apply UN|].
  destruct fuel as [|f]; [reflexivity|]. cbn [sbd_run]. unfold sbd_notify, sbd_step, sb_eof. rewrite Hst.
  cbn [bind sbd_events k_st k_goto fst snd rstate_eqb]. rewrite UN; [reflexivity|reflexivity|]. rewrite flat_fill. exact HL.
Qed.

(** unsigned char: what is missing is read as 0xFF *)
Definition padded (s : sbuf) (p : list N) : Prop := exists k, p = flat s ++ repeat 255 k.

Lemma bump_pad : forall s b p, padded s (b :: p) -> exists x s1, sb_bump s = (x, s1) /\ sb_char false x = Some b /\ padded s1 p.
Proof.
  intros s b p (k & Hk). assert (HB := bump_flat s). destruct (flat s) as [|b1 r] eqn:E.
  - exists None, (SBuf [] []). split; [exact HB|]. destruct k; [discriminate|]. cbn in Hk. injection Hk as -> ->.
    split; [reflexivity|]. exists k. reflexivity.
  - destruct HB as (s1 & HB & Hs1). exists (Some b1), s1. split; [exact HB|]. cbn in Hk. injection Hk as -> ->.
    split; [reflexivity|]. exists k. rewrite Hs1. reflexivity.
Qed.

Lemma pad_fill : forall s p, padded s p -> padded (sb_fill s) p.
Proof. intros s p (k & H). exists k. rewrite flat_fill. exact H. Qed.

Lemma hdr_loop_pad : forall s g h p, padded s (hdr_bytes h ++ p) ->
  exists s1, sb_hdr_loop 5 false s g 0 = Ok (h, 4, s1, true) /\ padded s1 p.
Proof.
  intros s g [b0 b1 b2 b3] p H. cbn [hdr_bytes h0 h1 h2 h3 app] in H.
  destruct (bump_pad _ _ _ H) as (x0 & s0 & E0 & C0 & H0). destruct (bump_pad _ _ _ H0) as (x1 & s1 & E1 & C1 & H1).
  destruct (bump_pad _ _ _ H1) as (x2 & s2 & E2 & C2 & H2). destruct (bump_pad _ _ _ H2) as (x3 & s3 & E3 & C3 & H3).
  exists s3. split; [|exact H3]. cbn [sb_hdr_loop]. rewrite E0, C0. cbn [hdr_put bind].
  change (4 <=? (0 + 1) mod 256) with false. cbn iota. rewrite E1, C1. cbn [hdr_put bind].
  change ((0 + 1) mod 256) with 1. change (4 <=? (1 + 1) mod 256) with false. cbn iota. rewrite E2, C2. cbn [hdr_put bind].
  change ((1 + 1) mod 256) with 2. change (4 <=? (2 + 1) mod 256) with false. cbn iota. rewrite E3, C3. reflexivity.
Qed.

Lemma tok_loop_pad : forall n i s t tok p, (i < length tok)%nat -> (length tok <= 8)%nat -> (9 <= n + i)%nat ->
  padded s (skipn i tok ++ p) -> length t = 8%nat -> bytes_ok t -> bytes_ok tok -> firstn i t = firstn i tok ->
  exists s1 t1, sb_tok_loop n false (N.of_nat (length tok)) s t (N.of_nat i) = Ok (t1, N.of_nat (length tok), s1, true) /\
    padded s1 p /\ length t1 = 8%nat /\ bytes_ok t1 /\ firstn (length tok) t1 = tok.
Proof.
  induction n as [|n IH]; intros i s t tok p Hi H8 Hn HP Hl Hb Hbt Hf; [lia|]. cbn [sb_tok_loop].
  destruct (skipn i tok) as [|b r] eqn:ES.
  { assert (LL := skipn_length i tok). rewrite ES in LL. cbn [length] in LL. lia. }
  destruct (skipn_nth _ _ _ _ ES) as (E1 & E2). cbn [app] in HP.
  destruct (bump_pad _ _ _ HP) as (x & s1 & -> & -> & HP1). rewrite tok_put_ok by lia. cbn [bind].
  replace ((N.of_nat i + 1) mod 256) with (N.of_nat (S i)) by (rewrite N.mod_small; lia).
  set (t1 := firstn i t ++ b :: skipn (S i) t).
  assert (Hbb : byte_ok b).
  { unfold bytes_ok in Hbt. rewrite Forall_forall in Hbt. apply Hbt. rewrite <- E1. now apply nth_In. }
  assert (G1 : firstn (S i) t1 = firstn (S i) tok).
  { unfold t1. rewrite firstn_put by lia. rewrite Hf, <- E1. symmetry. now apply firstn_app_nth. }
  assert (L1 : length t1 = 8%nat) by (unfold t1; rewrite tok_put_length; lia).
  assert (B1 : bytes_ok t1) by (now apply put_bytes).
  destruct (N.leb_spec (N.of_nat (length tok)) (N.of_nat (S i))) as [Hle|Hlt].
  - assert (EL : S i = length tok) by lia. exists s1, t1. rewrite <- EL. split; [reflexivity|]. 
    rewrite <- E2, EL, skipn_all in HP1. cbn [app] in HP1.
    split; [exact HP1|]. split; [exact L1|]. split; [exact B1|]. rewrite G1, EL. apply firstn_all.
  - apply IH; try assumption; try lia. rewrite E2. exact HP1.
Qed.

Lemma padded_nil : forall s, padded s [] -> flat s = [].
Proof. intros s (k & H). symmetry in H. now apply app_eq_nil in H. Qed.

Lemma padded_run : forall L neg eat h tok k d, idle d -> bytes_ok tok ->
  hdr_tkl h = N.of_nat (length tok) -> (0 < length tok <= 8)%nat -> hdr_bytes h ++ tok = concat L ++ repeat 255 k ->
  SR false neg eat d (SBuf [] L) [EHeader h; EToken tok; EOptStart; EOptDone; ECompleted].
Proof.
  intros L neg eat h tok k d (Hst & Hmem) Hbt Ht H8 HL.
  assert (HP : padded (SBuf [] L) (hdr_bytes h ++ tok)) by (exists k; exact HL).
  assert (UN : forall d0 s0, k_st d0 = Uninitialized -> dec_mem d0 -> padded s0 (hdr_bytes h ++ tok) ->
     SR false neg eat d0 s0 [EHeader h; EToken tok; EOptStart; EOptDone; ECompleted]).
  { intros d0 s0 D1 D2 D3.
    set (d1 := Dec RHeader (k_h d0) 0 (k_tok d0) (k_tpos d0) (k_od d0) (k_hold d0)).
    change [EHeader h; EToken tok; EOptStart; EOptDone; ECompleted] with ([] ++ [EHeader h] ++ [] ++ [] ++ [EToken tok] ++ [EOptStart] ++ [EOptDone] ++ [ECompleted]).
    eapply (SR_step _ _ _ _ _ [] d1 (sb_fill s0) (is_nil (s_cur (sb_fill s0)))); [|discriminate|].
    { unfold sbd_notify, sbd_step, sb_eof. rewrite D1. reflexivity. }
    destruct (hdr_loop_pad (sb_fill (sb_fill s0)) (k_h d0) h tok ltac:(now apply pad_fill, pad_fill)) as (s2 & E2 & P2).
    set (d2 := Dec HeaderDone h 4 (k_tok d0) (k_tpos d0) (k_od d0) (k_hold d0)).
    eapply (SR_step _ _ _ _ _ [EHeader h] d2 s2 (is_nil (s_cur (sb_fill (sb_fill s0))))); [|discriminate|].
    { unfold sbd_notify, sbd_step, sb_eof. cbn [k_st d1 k_h k_hpos]. rewrite E2. reflexivity. }
    eapply (SR_step _ _ _ _ _ [] (k_goto TokenStart d2) (sb_fill s2) (is_nil (s_cur (sb_fill s2)))); [|discriminate|].
    { unfold sbd_notify, sbd_step, sb_eof, dec_tkl. cbn [k_st d2 k_h]. rewrite Ht.
      replace (0 <? N.of_nat (length tok)) with true by (symmetry; apply N.ltb_lt; lia). reflexivity. }
    set (d3 := Dec RToken h 4 (k_tok d0) 0 (k_od d0) (k_hold d0)).
    eapply (SR_step _ _ _ _ _ [] d3 (sb_fill (sb_fill s2)) (is_nil (s_cur (sb_fill (sb_fill s2))))); [reflexivity|discriminate|].
    destruct D2 as (M1 & M2 & M3).
    destruct (tok_loop_pad 9 0 (sb_fill (sb_fill (sb_fill s2))) (k_tok d0) tok []) as (s4 & t4 & E4 & P4 & L4 & B4 & F4);
      try assumption; try lia; try reflexivity.
    { rewrite app_nil_r. cbn [skipn]. now apply pad_fill, pad_fill, pad_fill. }
    assert (S4 : d_st (tok_alias t4 (N.of_nat (length tok))) = OptionDone) by (apply tok_alias_st; [assumption|lia|lia]).
    set (d4 := Dec TokenDone h 4 t4 (N.of_nat (length tok)) (tok_alias t4 (N.of_nat (length tok))) (k_hold d0)).
    assert (Mem4 : dec_mem d4).
    { split; [exact L4|]. split; [exact B4|]. apply tok_alias_od; [exact B4|unfold byte_ok; lia]. }
    apply padded_nil in P4.
    eapply (SR_step _ _ _ _ _ [EToken tok] d4 s4 (is_nil (s_cur (sb_fill (sb_fill (sb_fill s2)))))); [|discriminate|].
    { unfold sbd_notify, sbd_step, sb_eof, dec_tkl. cbn [k_st d3 k_h k_tok k_tpos k_od k_hpos k_hold]. rewrite Ht.
      change (sb_tok_loop 9 false (N.of_nat (length tok)) (sb_fill (sb_fill (sb_fill s2))) (k_tok d0) 0)
        with (sb_tok_loop 9 false (N.of_nat (length tok)) (sb_fill (sb_fill (sb_fill s2))) (k_tok d0) (N.of_nat 0)).
      rewrite E4. cbn [bind]. replace (N.of_nat (length tok) =? 0) with false by (symmetry; apply N.eqb_neq; lia).
      unfold sbd_events, dec_tkl. cbn [k_st k_h k_tok]. rewrite Ht, Nat2N.id, F4. reflexivity. }
    eapply (SR_step _ _ _ _ _ [EOptStart] (k_goto OptionsStart d4) (SBuf [] []) true); [|discriminate|].
    { unfold sbd_notify, sbd_step, sb_eof. rewrite (flat_nil s4 P4). reflexivity. }
    eapply (SR_step _ _ _ _ _ [EOptDone] (k_goto OptionsDone d4) (SBuf [] []) true); [reflexivity|discriminate|].
    apply finish_plain; [reflexivity|cbn [k_od k_goto d4]; rewrite S4; discriminate|exact Mem4|reflexivity]. }
  destruct Hst as [Hst|Hst]; [now apply UN|].
  change [EHeader h; EToken tok; EOptStart; EOptDone; ECompleted] with ([] ++ [EHeader h; EToken tok; EOptStart; EOptDone; ECompleted]).
  eapply (SR_step _ _ _ _ _ [] (k_goto Uninitialized d) (sb_fill (SBuf [] L)) (is_nil (s_cur (sb_fill (SBuf [] L))))); [|discriminate|].
  { unfold sbd_notify, sbd_step, sb_eof. rewrite Hst. reflexivity. }
  apply UN; [reflexivity|exact Hmem|now apply pad_fill].
Qed.

Lemma skims_clean : forall sg bs, (sg = true -> ~ In 255 bs) -> skims sg bs bs.
Proof.
  intros sg. induction bs as [|b bs IH]; intros H; constructor.
  - intros E X. apply (H E). left. exact X.
  - apply IH. intros E X. apply (H E). right. exact X.
Qed.

Lemma skims_filter : forall raw clean, filter (fun b => negb (b =? 255)) raw = clean -> last raw 0 <> 255 -> skims true raw clean.
Proof.
  induction raw as [|b raw IH]; intros clean Hf Hl; [subst; constructor|].
  assert (Hl' : last raw 0 <> 255) by (destruct raw; [discriminate|exact Hl]).
  cbn [filter] in Hf. destruct (N.eqb_spec b 255) as [->|Hb]; cbn [negb] in Hf.
  - constructor; [reflexivity| |now apply IH].
    destruct raw as [|b2 raw]; [cbn in Hl; congruence|]. subst clean. clear IH Hl.
    revert b2 Hl'. induction raw as [|b3 raw IH]; intros b2 Hl'.
    + cbn in Hl'. cbn [filter]. replace (b2 =? 255) with false by (symmetry; now apply N.eqb_neq). discriminate.
    + cbn [filter]. destruct (negb (b2 =? 255)); [discriminate|]. apply (IH b3 Hl').
  - subst clean. constructor; [intros _; exact Hb|]. now apply IH.
Qed.

(** unsigned char: a token length above 8 overruns the token buffer *)
Lemma bump_any : forall s, exists x s1 b, sb_bump s = (x, s1) /\ sb_char false x = Some b.
Proof. intros s. unfold sb_bump. destruct (s_cur (sb_fill s)) as [|b r]; do 3 eexists; split; reflexivity. Qed.

Lemma tok_loop_over : forall n i s t tkl, (i <= 8)%nat -> (9 <= n + i)%nat -> 8 < tkl ->
  sb_tok_loop n false tkl s t (N.of_nat i) = Fault.
Proof.
  induction n as [|n IH]; intros i s t tkl Hi Hn Ht; [lia|]. cbn [sb_tok_loop].
  destruct (bump_any s) as (x & s1 & b & -> & ->). unfold tok_put. destruct (N.ltb_spec (N.of_nat i) 8) as [H|H]; [|reflexivity]. cbn [bind].
  replace ((N.of_nat i + 1) mod 256) with (N.of_nat (S i)) by (rewrite N.mod_small; lia).
  replace (tkl <=? N.of_nat (S i)) with false by (symmetry; apply N.leb_gt; lia). apply IH; lia.
Qed.

Lemma overrun : forall L neg eat h p k d, idle d -> 8 < hdr_tkl h -> hdr_bytes h ++ p = concat L ++ repeat 255 k ->
  SF false neg eat d (SBuf [] L).
Proof.
  intros L neg eat h p k d (Hst & _) Ht HL.
  assert (HP : padded (SBuf [] L) (hdr_bytes h ++ p)) by (exists k; exact HL).
  assert (UN : forall d0 s0, k_st d0 = Uninitialized -> padded s0 (hdr_bytes h ++ p) ->
     exists n es d1 s1, ssteps false neg eat n d0 s0 es d1 s1 /\ k_st d1 = RToken /\ k_h d1 = h /\ k_tpos d1 = 0).
  { intros d0 s0 D1 D3.
    set (d1 := Dec RHeader (k_h d0) 0 (k_tok d0) (k_tpos d0) (k_od d0) (k_hold d0)).
    destruct (hdr_loop_pad (sb_fill (sb_fill s0)) (k_h d0) h p ltac:(now apply pad_fill, pad_fill)) as (s2 & E2 & P2).
    set (d2 := Dec HeaderDone h 4 (k_tok d0) (k_tpos d0) (k_od d0) (k_hold d0)).
    set (d3 := Dec RToken h 4 (k_tok d0) 0 (k_od d0) (k_hold d0)).
    do 2 eexists. exists d3, (sb_fill (sb_fill s2)). split; [|repeat split].
    eapply ssteps_app; [eapply (ssteps_one _ _ _ _ _ _ d1 (sb_fill s0) (is_nil (s_cur (sb_fill s0)))); [|discriminate]|].
    { unfold sbd_notify, sbd_step, sb_eof. rewrite D1. reflexivity. }
    eapply ssteps_app; [eapply (ssteps_one _ _ _ _ _ _ d2 s2 (is_nil (s_cur (sb_fill (sb_fill s0))))); [|discriminate]|].
    { unfold sbd_notify, sbd_step, sb_eof. cbn [k_st d1 k_h k_hpos]. rewrite E2. reflexivity. }
    eapply ssteps_app; [eapply (ssteps_one _ _ _ _ _ _ (k_goto TokenStart d2) (sb_fill s2) (is_nil (s_cur (sb_fill s2)))); [|discriminate]|].
    { unfold sbd_notify, sbd_step, sb_eof, dec_tkl. cbn [k_st d2 k_h].
      replace (0 <? hdr_tkl h) with true by (symmetry; apply N.ltb_lt; lia). reflexivity. }
    eapply (ssteps_one _ _ _ _ _ _ d3 (sb_fill (sb_fill s2)) (is_nil (s_cur (sb_fill (sb_fill s2))))); [reflexivity|discriminate]. }
  assert (FA : forall d1 s1, k_st d1 = RToken -> k_h d1 = h -> k_tpos d1 = 0 -> SF false neg eat d1 s1).
  { intros d1 s1 A B C. apply SF_now. unfold sbd_notify, sbd_step, sb_eof, dec_tkl. rewrite A, B, C.
    change (sb_tok_loop 9 false (hdr_tkl h) (sb_fill s1) (k_tok d1) 0) with (sb_tok_loop 9 false (hdr_tkl h) (sb_fill s1) (k_tok d1) (N.of_nat 0)).
    rewrite tok_loop_over by lia. reflexivity. }
  destruct Hst as [Hst|Hst].
  - destruct (UN d _ Hst HP) as (n & es & d1 & s1 & A & B & C & D). eapply SF_steps; [exact A|]. now apply FA.
  - eapply SF_steps.
    + eapply (ssteps_one _ _ _ _ _ [] (k_goto Uninitialized d) (sb_fill (SBuf [] L)) (is_nil (s_cur (sb_fill (SBuf [] L))))); [|discriminate].
      unfold sbd_notify, sbd_step, sb_eof. rewrite Hst. reflexivity.
    + destruct (UN (k_goto Uninitialized d) (sb_fill (SBuf [] L)) eq_refl (pad_fill _ _ HP)) as (n & es & d1 & s1 & A & B & C & D).
      eapply SF_steps; [exact A|]. now apply FA.
Qed.
