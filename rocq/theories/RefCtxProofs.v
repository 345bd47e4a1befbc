(** The token of a context without copy. *)
From Verif Require Import Base HeaderModel HeaderSpec HeaderProofs OptEncModel OptSpec StreambufModel OptDecModel OptDecSpec
  DecoderModel DecoderSpec DecoderProofs RefCtxModel RefCtxSpec.
Local Open Scope N_scope.

Lemma sights_events : forall es mem c, map event_of (fst (sights mem es c)) = es.
Proof.
  induction es as [|e es IH]; intros mem c; [reflexivity|]. cbn [sights].
  specialize (IH mem (rctx_notify e c)). destruct (sights mem es (rctx_notify e c)) as [l c2]. cbn in *. now rewrite IH.
Qed.

Definition erased (r : res (list sight * dec * nat)) : res (list event * dec * nat) :=
  match r with Ok (l, d, p) => Ok (map event_of l, d, p) | Fault => Fault | NoFuel => NoFuel end.

Lemma ref_erased : forall fuel chunk d pos mem c, erased (ref_run fuel chunk d pos mem c) = dec_run fuel chunk d pos.
Proof.
  induction fuel as [|k IH]; intros chunk d pos mem c; [reflexivity|]. cbn [ref_run dec_run].
  destruct (dec_notify chunk true d pos) as [[[[es d1] p1] fin]| |]; cbn [bind]; try reflexivity.
  assert (E := sights_events es (mem_after chunk true d pos d1 mem) c).
  destruct (sights _ es c) as [l c1]. cbn [fst] in E. destruct (rstate_eqb (k_st d1) RDone); [cbn; now rewrite E|].
  rewrite <- (IH chunk d1 p1 (mem_after chunk true d pos d1 mem) c1).
  destruct (ref_run k chunk d1 p1 _ c1) as [[[l2 d2] p2]| |]; cbn; [rewrite map_app, E; reflexivity|reflexivity..].
Qed.

(** states from the options on *)
Definition late (s : rstate) : Prop := s = ROptions \/ s = OptionsDone \/ s = RPayload \/ s = PayloadDone.
Definition later_event (e : event) : Prop := match e with EHeader _ | EToken _ => False | _ => True end.

Lemma late_step : forall chunk d pos es d1 pos1 fin, late (k_st d) -> dec_notify chunk true d pos = Ok (es, d1, pos1, fin) ->
  (late (k_st d1) \/ k_st d1 = RDone) /\ Forall later_event es.
Proof.
  intros chunk d pos es d1 pos1 fin L H. unfold dec_notify, dec_iterate in H.
  destruct (dec_step chunk true d pos) as [[d2 p2]| |] eqn:E; cbn [bind] in H; try discriminate.
  destruct (p2 <=? length chunk)%nat; cbn [bind] in H; [|discriminate].
  destruct (dec_events chunk true d2 p2) as [fs| |] eqn:V; cbn [bind] in H; try discriminate. injection H as <- <- <- <-.
  assert (K : late (k_st d2) \/ k_st d2 = RDone).
  { unfold dec_step in E. destruct L as [L|[L|[L|L]]]; rewrite L in E.
    - destruct (od_chunk_last (k_od d) (k_hold d) (remainder chunk pos) true) as [[[o h] n]| |]; cbn [bind] in E; try discriminate.
      injection E as <- <-. cbn [k_st]. unfold late. destruct (ostate_eqb (d_st o) OPayload); [tauto|].
      destruct (_ && _); tauto.
    - destruct (ostate_eqb (d_st (k_od d)) OPayload); [injection E as <- <-; cbn; unfold late; tauto|].
      destruct (_ && true); [injection E as <- <-; cbn; tauto|].
      destruct (remainder chunk pos) as [|b r]; [discriminate|]. destruct (b =? 255); injection E as <- <-; cbn; unfold late; tauto.
    - injection E as <- <-. cbn. unfold late; tauto.
    - injection E as <- <-. cbn. tauto. }
  split; [exact K|]. unfold dec_events in V. unfold late in K.
  destruct (k_st d2); try (destruct K as [[K|[K|[K|K]]]|K]; discriminate); try (injection V as <-; repeat constructor).
  destruct (d_st (k_od d2)); try (injection V as <-; constructor).
  destruct (0 <? hd_len (k_hold d2)); [|injection V as <-; repeat constructor].
  destruct (dec_option chunk d2 p2) as [[v b]| |]; cbn [bind] in V; try discriminate. injection V as <-. repeat constructor.
Qed.

Lemma late_sights : forall es mem c, Forall later_event es -> snd (sights mem es c) = c /\ Forall (fun s => snd (fst s) = c /\ snd s = mem) (fst (sights mem es c)).
Proof.
  induction es as [|e es IH]; intros mem c H; [cbn; auto|]. inversion H as [|e' es' H1 H2 E]. subst.
  cbn [sights]. replace (rctx_notify e c) with c by (destruct e; cbn in *; tauto).
  destruct (IH mem c H2) as [A B]. destruct (sights mem es c) as [l c2]. cbn in *. split; [assumption|]. constructor; auto.
Qed.

Definition blank (mem : list N) : Prop := length mem = 8%nat /\ firstn 3 mem = [0; 0; 0].
Lemma blank_od : forall o, blank (od_over o).
Proof. intros o. split; reflexivity. Qed.

(** once the option decoder has written, the first three bytes stay zero *)
Lemma late_blank : forall fuel chunk d pos mem c l d1 p1, late (k_st d) -> blank mem -> ref_run fuel chunk d pos mem c = Ok (l, d1, p1) ->
  Forall (fun s => snd (fst s) = c /\ blank (snd s)) l.
Proof.
  induction fuel as [|k IH]; intros chunk d pos mem c l d1 p1 L B H; [discriminate|]. cbn [ref_run] in H.
  destruct (dec_notify chunk true d pos) as [[[[es d2] p2] fin]| |] eqn:E; cbn [bind] in H; try discriminate.
  destruct (late_step _ _ _ _ _ _ _ L E) as [K V].
  assert (B1 : blank (mem_after chunk true d pos d2 mem)).
  { unfold mem_after. destruct L as [L|[L|[L|L]]]; rewrite L; auto using blank_od. }
  set (mem1 := mem_after chunk true d pos d2 mem) in *.
  destruct (late_sights es mem1 c V) as [C F]. destruct (sights mem1 es c) as [l1 c1]. cbn [fst snd] in C, F. subst c1.
  assert (F1 : Forall (fun s : sight => snd (fst s) = c /\ blank (snd s)) l1).
  { eapply Forall_impl; [|exact F]. cbn. intros s [-> ->]. auto. }
  destruct (rstate_eqb (k_st d2) RDone) eqn:R; [injection H as <- <- <-; exact F1|].
  destruct (ref_run k chunk d2 p2 mem1 c) as [[[l2 d3] p3]| |] eqn:Q; cbn [bind] in H; try discriminate. injection H as <- <- <-.
  apply Forall_app. split; [exact F1|]. apply (IH chunk d2 p2 mem1 c l2 d3 p3); [|exact B1|exact Q].
  destruct K as [K|K]; [exact K|]. rewrite K in R. discriminate.
Qed.

(** without options the memory is left alone *)
Definition after (s : rstate) : Prop := s = OptionsDone \/ s = RPayload \/ s = PayloadDone.
Lemma after_kept : forall fuel chunk d pos mem c l d1 p1, after (k_st d) -> ref_run fuel chunk d pos mem c = Ok (l, d1, p1) ->
  Forall (fun s => snd (fst s) = c /\ snd s = mem) l.
Proof.
  induction fuel as [|k IH]; intros chunk d pos mem c l d1 p1 A H; [discriminate|]. cbn [ref_run] in H.
  destruct (dec_notify chunk true d pos) as [[[[es d2] p2] fin]| |] eqn:E; cbn [bind] in H; try discriminate.
  assert (L : late (k_st d)) by (unfold after in A; unfold late; tauto).
  destruct (late_step _ _ _ _ _ _ _ L E) as [_ V].
  assert (M : mem_after chunk true d pos d2 mem = mem) by (unfold mem_after; destruct A as [A|[A|A]]; rewrite A; reflexivity).
  rewrite M in H. destruct (late_sights es mem c V) as [C F]. destruct (sights mem es c) as [l1 c1]. cbn [fst snd] in C, F. subst c1.
  destruct (rstate_eqb (k_st d2) RDone) eqn:R; [injection H as <- <- <-; exact F|].
  destruct (ref_run k chunk d2 p2 mem c) as [[[l2 d3] p3]| |] eqn:Q; cbn [bind] in H; try discriminate. injection H as <- <- <-.
  apply Forall_app. split; [exact F|]. apply (IH chunk d2 p2 mem c l2 d3 p3); [|exact Q].
  unfold dec_notify, dec_iterate, dec_step in E. destruct A as [A|[A|A]]; rewrite A in E; unfold after.
  - destruct (ostate_eqb (d_st (k_od d)) OPayload).
    { cbn [bind] in E. destruct (_ <=? _)%nat; cbn [bind] in E; [|discriminate]. cbn in E. injection E as <- <- <- <-. cbn. tauto. }
    destruct (_ && true).
    { cbn [bind] in E. destruct (_ <=? _)%nat; cbn [bind] in E; [|discriminate]. cbn in E. injection E as <- <- <- <-. discriminate R. }
    destruct (remainder chunk pos) as [|b r] eqn:Z; [discriminate|].
    destruct (b =? 255); cbn [bind] in E; destruct (_ <=? _)%nat; cbn [bind] in E; try discriminate; cbn in E; injection E as <- <- <- <-; [cbn; tauto|discriminate R].
  - cbn [bind] in E. destruct (_ <=? _)%nat; cbn [bind] in E; [|discriminate]. cbn in E. injection E as <- <- <- <-. cbn. tauto.
  - cbn [bind] in E. destruct (_ <=? _)%nat; cbn [bind] in E; [|discriminate]. cbn in E. injection E as <- <- <- <-. discriminate R.
Qed.

(** the options phase *)
Lemma start_run : forall fuel chunk d pos mem c l d1 p1, k_st d = OptionsStart -> length mem = 8%nat -> (pos <= length chunk)%nat ->
  ref_run fuel chunk d pos mem c = Ok (l, d1, p1) ->
  Forall (fun s => snd (fst s) = c) l /\
  (pos = length chunk -> Forall (fun s => snd s = mem) l) /\ (pos <> length chunk -> Forall (fun s => blank (snd s)) l).
Proof.
  intros [|k] chunk d pos mem c l d1 p1 S0 M P H; [discriminate|]. cbn [ref_run] in H.
  destruct (dec_notify chunk true d pos) as [[[[es d2] p2] fin]| |] eqn:E; cbn [bind] in H; try discriminate.
  assert (R0 : length (remainder chunk pos) = (length chunk - pos)%nat) by (unfold remainder; apply skipn_length).
  unfold dec_notify, dec_iterate, dec_step in E. rewrite S0 in E. unfold mem_after in H. rewrite S0 in H. rewrite R0 in H, E.
  destruct (Nat.eqb_spec (length chunk - pos) 0) as [Z|Z]; cbn [andb] in H, E.
  - cbn [bind] in E. destruct (_ <=? _)%nat; cbn [bind] in E; [|discriminate]. cbn in E. injection E as <- <- <- <-.
    cbn [sights rctx_notify k_goto k_st rstate_eqb] in H.
    destruct (ref_run k chunk _ pos mem c) as [[[l2 d3] p3]| |] eqn:Q; cbn [bind] in H; try discriminate. injection H as <- <- <-.
    apply after_kept in Q; [|left; reflexivity].
    assert (F : Forall (fun s : sight => snd (fst s) = c /\ snd s = mem) ([(EOptDone, c, mem)] ++ l2)).
    { cbn. constructor; [cbn; auto|exact Q]. }
    split; [eapply Forall_impl; [|exact F]; cbn; tauto|]. split; [intros _; eapply Forall_impl; [|exact F]; cbn; tauto|]. intros X. lia.
  - destruct (od_chunk_last (od_goto FirstByte (k_od d)) holder_reset (remainder chunk pos) true) as [[[o h] n]| |]; cbn [bind] in E; try discriminate.
    destruct (_ <=? _)%nat; cbn [bind] in E; [|discriminate].
    set (d3 := Dec _ _ _ _ _ o h) in E. destruct (dec_events chunk true d3 (pos + n)) as [fs| |] eqn:V; cbn [bind] in E; try discriminate. injection E as <- <- <- <-.
    assert (K : late (k_st d3)) by (unfold late, d3; cbn; destruct (ostate_eqb _ _); tauto).
    assert (V2 : Forall later_event fs).
    { unfold dec_events in V. unfold late in K. destruct (k_st d3); try (destruct K as [K|[K|[K|K]]]; discriminate); try (injection V as <-; repeat constructor).
      destruct (d_st (k_od d3)); try (injection V as <-; constructor).
      destruct (0 <? hd_len (k_hold d3)); [|injection V as <-; repeat constructor].
      destruct (dec_option chunk d3 _) as [[v b]| |]; cbn [bind] in V; try discriminate. injection V as <-. repeat constructor. }
    destruct (late_sights fs (od_over (k_od d3)) c V2) as [C F]. destruct (sights (od_over (k_od d3)) fs c) as [l1 c1]. cbn [fst snd] in C, F. subst c1.
    destruct (rstate_eqb (k_st d3) RDone) eqn:R; [exfalso; unfold late in K; destruct K as [K|[K|[K|K]]]; rewrite K in R; discriminate|].
    destruct (ref_run k chunk d3 _ (od_over (k_od d3)) c) as [[[l2 d4] p4]| |] eqn:Q; cbn [bind] in H; try discriminate. injection H as <- <- <-.
    apply late_blank in Q; [|exact K|apply blank_od].
    assert (G : Forall (fun s : sight => snd (fst s) = c /\ blank (snd s)) (l1 ++ l2)).
    { apply Forall_app. split; [|exact Q]. eapply Forall_impl; [|exact F]. cbn. intros s [-> ->]. split; [reflexivity|apply blank_od]. }
    split; [eapply Forall_impl; [|exact G]; cbn; tauto|]. split; [intros X; lia|]. intros _. eapply Forall_impl; [|exact G]; cbn; tauto.
Qed.

(** one step of the loop *)
Lemma ref_S : forall k chunk d pos mem c es d1 p1 fin, dec_notify chunk true d pos = Ok (es, d1, p1, fin) -> k_st d1 <> RDone ->
  ref_run (S k) chunk d pos mem c =
    bind (ref_run k chunk d1 p1 (mem_after chunk true d pos d1 mem) (snd (sights (mem_after chunk true d pos d1 mem) es c)))
      (fun y => let '(l2, d2, p2) := y in Ok (fst (sights (mem_after chunk true d pos d1 mem) es c) ++ l2, d2, p2)).
Proof.
  intros k chunk d pos mem c es d1 p1 fin H R. cbn [ref_run]. rewrite H. cbn [bind].
  destruct (sights (mem_after chunk true d pos d1 mem) es c) as [l c1]. cbn [fst snd].
  replace (rstate_eqb (k_st d1) RDone) with false by (destruct (k_st d1); try reflexivity; congruence). reflexivity.
Qed.

(** header and token; what follows starts at the options with the token in memory *)
Lemma head_run : forall fuel d h tok rest mem c l d1 p1,
  k_st d = Uninitialized -> dec_mem d -> bytes_ok (hdr_bytes h ++ tok ++ rest) ->
  hdr_tkl h = N.of_nat (length tok) -> (length tok <= 8)%nat -> length mem = 8%nat ->
  ref_run fuel (hdr_bytes h ++ tok ++ rest) d 0 mem c = Ok (l, d1, p1) ->
  exists k ds mem1 l1, k_st ds = OptionsStart /\ length mem1 = 8%nat /\ firstn (length tok) mem1 = tok /\
    l = (EHeader h, RCtx h (r_set c), mem) :: (EToken tok, RCtx h true, mem1) :: (EOptStart, RCtx h true, mem1) :: l1 /\
    ref_run k (hdr_bytes h ++ tok ++ rest) ds (4 + length tok) mem1 (RCtx h true) = Ok (l1, d1, p1).
Proof.
  intros fuel d h tok rest mem c l dz pz Hs (M1 & M2 & M3) Hok Ht H8 Hm H.
  set (chunk := hdr_bytes h ++ tok ++ rest) in *. set (tkl := length tok) in *.
  assert (Hlen : length chunk = (4 + (tkl + length rest))%nat) by (unfold chunk; rewrite !app_length; reflexivity).
  set (d1 := Dec RHeader (k_h d) 0 (k_tok d) (k_tpos d) (k_od d) (k_hold d)).
  assert (N1 : dec_notify chunk true d 0 = Ok ([], d1, 0%nat, Nat.eqb 0 (length chunk))).
  { unfold dec_notify, dec_iterate, dec_step. rewrite Hs. cbn [bind]. cbn [Nat.leb bind]. reflexivity. }
  set (d2 := Dec HeaderDone h 4 (k_tok d) (k_tpos d) (k_od d) (k_hold d)).
  assert (N2 : dec_notify chunk true d1 0 = Ok ([EHeader h], d2, 4%nat, Nat.eqb 4 (length chunk))).
  { unfold dec_notify, dec_iterate, dec_step. cbn [k_st d1]. unfold remainder. cbn [skipn].
    unfold chunk at 1. destruct h as [a b e f]. cbn [hdr_bytes app h0 h1 h2 h3 k_h k_hpos d1].
    replace (hdr_loop (a :: b :: e :: f :: tok ++ rest) (k_h d) 0 0) with (Ok (Hdr a b e f, 4, 4%nat, true)) by reflexivity.
    cbn [bind Nat.add]. replace (4 <=? length chunk)%nat with true by (symmetry; apply Nat.leb_le; lia). reflexivity. }
  assert (NL : forall x y, (x <= length chunk)%nat -> (if (x <=? length chunk)%nat then y else Fault) = y :> res (dec * nat * bool)).
  { intros x y Hx. replace (x <=? length chunk)%nat with true by (symmetry; now apply Nat.leb_le). reflexivity. }
  assert (HT : forall tp t od, dec_notify chunk true (Dec TokenDone h 4 t tp od (k_hold d)) (4 + tkl) =
      Ok ([EOptStart], Dec OptionsStart h 4 t tp od (k_hold d), (4 + tkl)%nat, Nat.eqb (4 + tkl) (length chunk))).
  { intros tp t od. unfold dec_notify, dec_iterate, dec_step. cbn [k_st bind k_goto]. rewrite NL by lia. reflexivity. }
  destruct fuel as [|fuel]; [discriminate|]. rewrite (ref_S _ _ _ _ _ _ _ _ _ _ N1) in H by discriminate.
  unfold mem_after in H. rewrite Hs in H. cbn [sights fst snd] in H.
  destruct fuel as [|fuel]; [discriminate|]. rewrite (ref_S _ _ _ _ _ _ _ _ _ _ N2) in H by discriminate.
  unfold mem_after in H. cbn [k_st d1 sights rctx_notify fst snd] in H.
  destruct (Nat.eq_dec tkl 0) as [Z|NZ].
  - assert (N3 : dec_notify chunk true d2 4 =
      Ok ([EToken []], Dec TokenDone h 4 (k_tok d) (k_tpos d) (k_od d) (k_hold d), 4%nat, Nat.eqb 4 (length chunk))).
    { unfold dec_notify, dec_iterate, dec_step. cbn [k_st d2]. unfold dec_tkl. cbn [k_h d2]. rewrite Ht, Z.
      change (0 <? N.of_nat 0) with false. cbn [bind]. rewrite NL by lia. cbn [bind].
      unfold dec_events, dec_tkl. cbn [k_st k_goto d2 k_h]. rewrite Ht, Z. reflexivity. }
    assert (N4 := HT (k_tpos d) (k_tok d) (k_od d)). rewrite Z in N4. cbn [Nat.add] in N4.
    destruct fuel as [|fuel]; [discriminate|]. rewrite (ref_S _ _ _ _ _ _ _ _ _ _ N3) in H by discriminate.
    destruct fuel as [|fuel]; [discriminate|]. rewrite (ref_S _ _ _ _ _ _ _ _ _ _ N4) in H by discriminate.
    unfold mem_after in H. cbn [k_st d2 sights rctx_notify fst snd r_set r_hdr] in H.
    destruct (ref_run fuel chunk _ 4 mem (RCtx h true)) as [[[l1 dy] py]| |] eqn:Q; cbn [bind] in H; try discriminate.
    cbn [app] in H. injection H as <- <- <-. exists fuel. eexists. exists mem, l1. rewrite Z. 
    assert (tok = []) as -> by (destruct tok; [reflexivity|discriminate]).
    split; [|split; [|split; [|split]]]; try eassumption; reflexivity.
  - set (d3 := Dec TokenStart h 4 (k_tok d) (k_tpos d) (k_od d) (k_hold d)).
    set (d4 := Dec RToken h 4 (k_tok d) 0 (k_od d) (k_hold d)).
    set (t5 := tok ++ skipn tkl (k_tok d)).
    set (d5 := Dec TokenDone h 4 t5 (N.of_nat tkl) (tok_alias t5 (N.of_nat tkl)) (k_hold d)).
    assert (F5 : firstn tkl t5 = tok) by (unfold t5, tkl; rewrite firstn_app, Nat.sub_diag, firstn_all; cbn; apply app_nil_r).
    assert (N3 : dec_notify chunk true d2 4 = Ok ([], d3, 4%nat, Nat.eqb 4 (length chunk))).
    { unfold dec_notify, dec_iterate, dec_step. cbn [k_st d2]. unfold dec_tkl. cbn [k_h d2]. rewrite Ht.
      replace (0 <? N.of_nat tkl) with true by (symmetry; apply N.ltb_lt; lia). cbn [bind]. rewrite NL by lia. reflexivity. }
    assert (N4 : dec_notify chunk true d3 4 = Ok ([], d4, 4%nat, Nat.eqb 4 (length chunk))).
    { unfold dec_notify, dec_iterate, dec_step. cbn [k_st d3 bind]. rewrite NL by lia. reflexivity. }
    assert (N5 : dec_notify chunk true d4 4 = Ok ([EToken tok], d5, (4 + tkl)%nat, Nat.eqb (4 + tkl) (length chunk))).
    { unfold dec_notify, dec_iterate, dec_step. cbn [k_st d4]. unfold remainder, dec_tkl. cbn [k_h k_tok k_tpos d4].
      replace (skipn 4 chunk) with (tok ++ rest) by (unfold chunk; destruct h; reflexivity).
      rewrite Ht. replace (tok_loop (N.of_nat tkl) (tok ++ rest) (k_tok d) 0 0)
        with (tok_loop (N.of_nat (0 + tkl)) (tok ++ rest) (k_tok d) (N.of_nat 0) 0) by reflexivity.
      rewrite tok_loop_all; [|lia|lia|assumption|rewrite app_length; unfold tkl; lia].
      cbn [bind firstn app Nat.add].
      replace (firstn tkl (tok ++ rest)) with tok.
      2:{ unfold tkl. rewrite firstn_app, Nat.sub_diag, firstn_all. cbn. now rewrite app_nil_r. }
      fold t5. rewrite NL by lia. cbn [bind].
      replace (Nat.eqb tkl 0) with false by (symmetry; now apply Nat.eqb_neq).
      unfold dec_events, dec_tkl. cbn [k_st k_h k_tok k_od]. rewrite Ht, Nat2N.id, F5. reflexivity. }
    assert (N6 := HT (N.of_nat tkl) t5 (tok_alias t5 (N.of_nat tkl))). fold d5 in N6.
    destruct fuel as [|fuel]; [discriminate|]. rewrite (ref_S _ _ _ _ _ _ _ _ _ _ N3) in H by discriminate.
    destruct fuel as [|fuel]; [discriminate|]. rewrite (ref_S _ _ _ _ _ _ _ _ _ _ N4) in H by discriminate.
    destruct fuel as [|fuel]; [discriminate|]. rewrite (ref_S _ _ _ _ _ _ _ _ _ _ N5) in H by discriminate.
    destruct fuel as [|fuel]; [discriminate|]. rewrite (ref_S _ _ _ _ _ _ _ _ _ _ N6) in H by discriminate.
    unfold mem_after in H. cbn [k_st d2 d3 d4 d5 k_tpos k_tok sights rctx_notify fst snd r_set r_hdr] in H. rewrite Nat2N.id, F5 in H.
    destruct (ref_run fuel chunk _ (4 + tkl) (tok ++ skipn tkl mem) (RCtx h true)) as [[[l1 dy] py]| |] eqn:Q; cbn [bind] in H; try discriminate.
    cbn [app] in H. injection H as <- <- <-. exists fuel. eexists. exists (tok ++ skipn tkl mem), l1.
    split; [|split; [|split; [|split]]]; try eassumption; try reflexivity.
    + rewrite app_length, skipn_length. unfold tkl in *. lia.
    + unfold tkl. rewrite firstn_app, Nat.sub_diag, firstn_all. cbn. apply app_nil_r.
Qed.

Lemma idle_run : forall fuel chunk d mem c l d1 p1, k_st d = RDone -> ref_run fuel chunk d 0 mem c = Ok (l, d1, p1) ->
  exists k, ref_run k chunk (k_goto Uninitialized d) 0 mem c = Ok (l, d1, p1).
Proof.
  intros [|k] chunk d mem c l d1 p1 Hs H; [discriminate|].
  assert (N0 : dec_notify chunk true d 0 = Ok ([], k_goto Uninitialized d, 0%nat, Nat.eqb 0 (length chunk))).
  { unfold dec_notify, dec_iterate, dec_step. rewrite Hs. reflexivity. }
  rewrite (ref_S _ _ _ _ _ _ _ _ _ _ N0) in H by discriminate. unfold mem_after in H. rewrite Hs in H. cbn [sights fst snd] in H.
  exists k. destruct (ref_run k chunk _ 0 mem c) as [[[l1 dy] py]| |]; cbn in H; try discriminate. exact H.
Qed.

Lemma whole_run : forall fuel d h tok rest mem c l d1 p1,
  idle d -> bytes_ok (hdr_bytes h ++ tok ++ rest) -> hdr_tkl h = N.of_nat (length tok) -> (length tok <= 8)%nat -> length mem = 8%nat ->
  ref_run fuel (hdr_bytes h ++ tok ++ rest) d 0 mem c = Ok (l, d1, p1) ->
  exists mem1 l1, length mem1 = 8%nat /\ firstn (length tok) mem1 = tok /\
    l = (EHeader h, RCtx h (r_set c), mem) :: (EToken tok, RCtx h true, mem1) :: (EOptStart, RCtx h true, mem1) :: l1 /\
    Forall (fun s => snd (fst s) = RCtx h true) l1 /\
    (rest = [] -> Forall (fun s => snd s = mem1) l1) /\ (rest <> [] -> Forall (fun s => blank (snd s)) l1).
Proof.
  intros fuel d h tok rest mem c l d1 p1 (Hs & Hd) Hok Ht H8 Hm H.
  assert (G : exists k du, k_st du = Uninitialized /\ dec_mem du /\ ref_run k (hdr_bytes h ++ tok ++ rest) du 0 mem c = Ok (l, d1, p1)).
  { destruct Hs as [Hs|Hs]; [exists fuel, d; auto|]. destruct (idle_run _ _ _ _ _ _ _ _ Hs H) as (k & Q).
    exists k. eexists. split; [|split; [|exact Q]]; [reflexivity|exact Hd]. }
  destruct G as (k & du & U & D & Q). destruct (head_run _ _ _ _ _ _ _ _ _ _ U D Hok Ht H8 Hm Q) as (j & ds & mem1 & l1 & S1 & L1 & F1 & -> & Q1).
  exists mem1, l1. split; [exact L1|]. split; [exact F1|]. split; [reflexivity|].
  assert (P : (4 + length tok <= length (hdr_bytes h ++ tok ++ rest))%nat) by (rewrite !app_length; cbn [hdr_bytes length]; lia).
  destruct (start_run _ _ _ _ _ _ _ _ _ S1 L1 P Q1) as (A & B & C).
  split; [exact A|]. split; intros R.
  - apply B. subst rest. rewrite !app_length. cbn [hdr_bytes length]. lia.
  - apply C. destruct rest; [congruence|]. rewrite !app_length. cbn [hdr_bytes length]. lia.
Qed.
