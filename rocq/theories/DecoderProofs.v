(** Proofs about the message decoder. *)
From Verif Require Import Base HeaderModel OptEncModel OptSpec OptDecModel OptDecSpec OptDecProofs.
From Verif Require Import DecoderModel DecoderSpec.
Local Open Scope N_scope.

(** * The holder agrees with the decoder where it is read *)

Definition linv (d : odec) (h : holder) : Prop :=
  od_inv d /\ od_bytes d /\
  match d_st d with
  | OptionDelta | OptionDeltaDone => raw_length d < 13 -> hd_len h = raw_length d
  | OptionLengthDone | OptionDeltaAndLengthDone | ValueStart => od_length d = Ok (hd_len h)
  | _ => True
  end.

Lemma get_value_small : forall n a b, n < 13 -> get_value n a b = Ok n.
Proof. intros n a b H. unfold get_value. replace (n <? 13) with true by (symmetry; now apply N.ltb_lt). reflexivity. Qed.

Lemma od_length_small : forall d, raw_length d < 13 -> od_length d = Ok (raw_length d).
Proof. intros. now apply get_value_small. Qed.

Lemma get_value_bound : forall n a b v, byte_ok a -> get_value n a b = Ok v -> v < 65536.
Proof.
  intros n a b v Ha H. unfold get_value, byte_ok in *.
  destruct (N.ltb_spec n 13); [injection H as <-; lia|].
  destruct (n =? 13); [injection H as <-; lia|].
  destruct (n =? 14); [|discriminate]. injection H as <-. apply N.mod_lt. discriminate.
Qed.

Lemma set_vlen_bytes : forall v d s, v < 65536 -> od_bytes d -> od_bytes (od_goto s (od_set_vlen v d)).
Proof. intros v d s Hv (A & B & C & D & E). unfold od_bytes, od_goto, od_set_vlen, byte_ok in *. cbn. lia. Qed.

Lemma od_bytes_step : forall b d d1 p, od_bytes d -> byte_ok b -> od_step b d = Ok (d1, p) -> od_bytes d1.
Proof.
  intros b d d1 p H Hb E. pose proof H as (B0 & B1 & B2 & B3 & B4). unfold od_step in E.
  assert (HP : forall i d2, od_put i b d = Ok d2 -> od_bytes d2).
  { intros i d2 E2. unfold od_put in E2. destruct i as [|[[?|?|]|[?|?|]|]]; try discriminate;
      injection E2 as <-; unfold od_bytes; cbn; auto. }
  assert (HT : forall x, x mod 256 < 256) by (intros; apply N.mod_lt; discriminate).
  destruct (d_st d) eqn:Ed.
  - break_step; inversion E; subst; unfold od_bytes, byte_ok in *; cbn; repeat split; auto; lia.
  - break_step; inversion E; subst; exact H.
  - destruct (od_put (d_pos d) b d) as [d2| |] eqn:E2; cbn [bind] in E; try discriminate. specialize (HP _ _ E2).
    destruct (process_option_size _ _) as [[|]| |]; cbn [bind] in E; try discriminate; inversion E; subst;
      unfold od_bytes in *; cbn; repeat split; try apply HP. apply HT.
  - break_step; inversion E; subst; unfold od_bytes, byte_ok in *; cbn; repeat split; auto; lia.
  - destruct (od_put (d_pos d) b d) as [d2| |] eqn:E2; cbn [bind] in E; try discriminate. specialize (HP _ _ E2).
    destruct (process_option_size _ _) as [[|]| |]; cbn [bind] in E; try discriminate; inversion E; subst;
      unfold od_bytes in *; cbn; repeat split; try apply HP. apply HT.
  - break_step; inversion E; subst; exact H.
  - inversion E; subst; exact H.
  - destruct (od_length d) as [l| |] eqn:El; cbn [bind] in E; try discriminate. injection E as <- _.
    apply set_vlen_bytes; [|exact H]. unfold od_length in El. eapply get_value_bound; [|exact El]. exact B1.
  - cbn zeta in E. injection E as <- _. apply set_vlen_bytes; [apply N.mod_lt; discriminate|exact H].
  - inversion E; subst; exact H.
  - inversion E; subst; exact H.
  - discriminate.
Qed.

Lemma linv_step : forall b d h d1 h1 p, linv d h -> byte_ok b -> mstep b d h = Ok (d1, h1, p) -> linv d1 h1.
Proof.
  intros b d h d1 h1 p (Hi & Hby & Hl) Hb H. unfold mstep in H.
  destruct (od_step b d) as [[d2 q]| |] eqn:E; cbn [bind fst snd] in H; try discriminate.
  destruct (hold_upd d2 h) as [h2| |] eqn:EH; cbn [bind] in H; try discriminate.
  injection H as <- <- <-.
  destruct (od_step_inv b d Hi Hb) as [(d3 & q3 & E3 & Hi3)|(E3 & _)]; rewrite E in E3; [|discriminate].
  injection E3 as <- <-. split; [exact Hi3|]. split; [eapply od_bytes_step; eassumption|]. unfold od_inv in Hi.
  unfold od_step in E. destruct (d_st d) eqn:Ed.
  - destruct (b =? 255); inversion E; subst; cbn; exact I.
  - destruct (N.leb_spec 13 (raw_delta d)); destruct (N.leb_spec 13 (raw_length d)); inversion E; subst; cbn in *.
    + unfold od_goto, raw_length in *. cbn. lia.
    + unfold od_length, raw_length, od_goto in *. cbn in *. rewrite get_value_small in * by assumption.
      cbn in EH. injection EH as <-. reflexivity.
    + unfold od_goto, raw_length in *. cbn. lia.
    + unfold od_length, od_delta, raw_delta, raw_length, od_goto in *. cbn in *.
      rewrite !get_value_small in * by assumption. cbn in EH. injection EH as <-. reflexivity.
  - destruct Hi as (H1 & H2 & H3).
    destruct (process_option_size (raw_delta d) (d_pos d)) as [m| |] eqn:EP; cbn [bind] in E.
    2,3: destruct (od_put (d_pos d) b d); discriminate.
    destruct H3 as [H3|(H3 & _)]; rewrite H3 in E; cbn [od_put bind] in E;
    destruct m; injection E as <- _; unfold od_setpos, od_goto, raw_length in *; cbn in *; try rewrite Ed in *.
    + intros; injection EH as <-; auto.
    + intros; destruct (od_delta _) in EH; cbn in EH; try discriminate; injection EH as <-; cbn; auto.
    + intros; injection EH as <-; auto.
    + intros; destruct (od_delta _) in EH; cbn in EH; try discriminate; injection EH as <-; cbn; auto.
  - destruct (N.leb_spec 13 (raw_length d)); injection E as <- _; cbn in *.
    + exact I.
    + injection EH as <-. specialize (Hl H). rewrite Hl. unfold od_length, raw_length, od_goto in *. cbn.
      now apply get_value_small.
  - destruct Hi as (H1 & H2 & H3).
    destruct (process_option_size (raw_length d) (d_pos d)) as [m| |] eqn:EP; cbn [bind] in E.
    2,3: destruct (od_put (d_pos d) b d); discriminate.
    destruct H3 as [H3|(H3 & _)]; rewrite H3 in E; cbn [od_put bind] in E;
    destruct m; injection E as <- _; unfold od_setpos, od_goto in *; cbn [d_st] in *; try rewrite Ed in *; try exact I.
    + unfold hold_upd in EH. cbn [d_st] in EH. destruct (od_length _) as [l| |] eqn:EL in EH; cbn in EH; try discriminate.
      injection EH as <-. exact EL.
    + unfold hold_upd in EH. cbn [d_st] in EH. destruct (od_length _) as [l| |] eqn:EL in EH; cbn in EH; try discriminate.
      injection EH as <-. exact EL.
  - destruct (N.leb_spec 13 (raw_length d)); injection E as <- _; cbn in *; injection EH as <-.
    + exact Hl.
    + intros _. rewrite od_length_small in Hl by assumption. injection Hl as Hl. symmetry. exact Hl.
  - injection E as <- _. cbn in *. injection EH as <-. exact Hl.
  - destruct (od_length d); cbn [bind] in E; try discriminate. injection E as <- _. cbn.
    destruct (a =? 0); exact I.
  - cbn zeta in E. injection E as <- _. cbn [d_st od_goto]. destruct (_ =? 0); exact I.
  - injection E as <- _. exact I.
  - destruct Hi.
  - discriminate.
Qed.

Lemma linv_chunk_loop : forall fuel d h bs n d1 h1 n1, linv d h -> bytes_ok bs ->
  od_chunk_loop fuel d h bs n = Ok (d1, h1, n1) -> linv d1 h1.
Proof.
  induction fuel as [|k IH]; intros d h bs n d1 h1 n1 Hl Hb H.
  - destruct bs; [|discriminate]. cbn in H. injection H as <- <- <-. exact Hl.
  - destruct bs as [|b r]; [cbn in H; injection H as <- <- <-; exact Hl|].
    cbn [od_chunk_loop] in H.
    pose proof (linv_step b d h) as HS. unfold mstep in HS.
    inversion Hb as [|? ? Hb1 Hb2]; subst.
    destruct (od_step b d) as [[d2 q]| |]; cbn [bind fst snd] in H, HS; try discriminate.
    destruct (hold_upd d2 h) as [h2| |]; cbn [bind] in H, HS; try discriminate.
    specialize (HS d2 h2 q Hl Hb1 eq_refl).
    destruct (od_stops (d_st d2)).
    + injection H as <- <- _. exact HS.
    + eapply IH; [exact HS| |exact H]. destruct q; assumption.
Qed.

Lemma linv_fresh : forall d h, d_st d = FirstByte -> od_bytes d -> linv d h.
Proof. intros d h H Hb. unfold linv, od_inv. rewrite H. auto. Qed.

(** from a state outside an option value a call cannot end at OptionValueDone *)
Definition outside (s : ostate) : Prop := s <> ValueStart /\ s <> OptionValue /\ s <> OptionValueDone.

Lemma outside_step : forall b d d1 p, outside (d_st d) -> od_step b d = Ok (d1, p) ->
  d_st d1 <> OptionValue /\ d_st d1 <> OptionValueDone.
Proof.
  intros b d d1 p (H1 & H2 & H3) E. unfold od_step in E. destruct (d_st d) eqn:Ed; try congruence.
  - break_step; inversion E; subst; cbn; split; discriminate.
  - break_step; inversion E; subst; cbn; split; discriminate.
  - destruct (od_put_cases (d_pos d) b d) as [(d3 & E2 & E3)|E2]; rewrite E2 in E; cbn [bind] in E; [|discriminate].
    destruct (process_option_size _ _) as [[|]| |]; cbn [bind] in E; try discriminate;
      inversion E; subst; cbn; split; congruence.
  - break_step; inversion E; subst; cbn; split; discriminate.
  - destruct (od_put_cases (d_pos d) b d) as [(d3 & E2 & E3)|E2]; rewrite E2 in E; cbn [bind] in E; [|discriminate].
    destruct (process_option_size _ _) as [[|]| |]; cbn [bind] in E; try discriminate;
      inversion E; subst; cbn; split; congruence.
  - break_step; inversion E; subst; cbn; split; discriminate.
  - inversion E; subst; cbn; split; discriminate.
  - inversion E; subst; cbn; split; congruence.
Qed.

Lemma outside_chunk : forall fuel d h bs n d1 h1 n1, outside (d_st d) ->
  od_chunk_loop fuel d h bs n = Ok (d1, h1, n1) -> d_st d1 <> OptionValueDone.
Proof.
  induction fuel as [|k IH]; intros d h bs n d1 h1 n1 Ho H.
  - destruct bs; [|discriminate]. cbn in H. injection H as <- <- <-. apply Ho.
  - destruct bs as [|b r]; [cbn in H; injection H as <- <- <-; apply Ho|].
    cbn [od_chunk_loop] in H.
    destruct (od_step b d) as [[d2 q]| |] eqn:E; cbn [bind fst snd] in H; try discriminate.
    destruct (outside_step _ _ _ _ Ho E) as (A & B).
    destruct (hold_upd d2 h) as [h2| |]; cbn [bind] in H; try discriminate.
    destruct (od_stops (d_st d2)) eqn:Es.
    + injection H as <- <- _. exact B.
    + eapply IH; [|exact H]. repeat split; try assumption. intro C. rewrite C in Es. discriminate.
Qed.

(** * Steps of a caller's loop *)

Inductive nsteps (chunk : list N) (last : bool) (stop : dec -> nat -> bool) :
  nat -> dec -> nat -> list event -> dec -> nat -> Prop :=
| ns0 : forall d pos, nsteps chunk last stop 0 d pos [] d pos
| nsS : forall n d pos es d1 pos1 fin fs d2 pos2,
    dec_notify chunk last d pos = Ok (es, d1, pos1, fin) -> stop d1 pos1 = false ->
    nsteps chunk last stop n d1 pos1 fs d2 pos2 ->
    nsteps chunk last stop (S n) d pos (es ++ fs) d2 pos2.

Definition stop_done (d : dec) (pos : nat) : bool := rstate_eqb (k_st d) RDone.
Definition stop_end (chunk : list N) (d : dec) (pos : nat) : bool := Nat.eqb pos (length chunk).

Lemma nsteps_app : forall chunk last stop n d pos es d1 pos1, nsteps chunk last stop n d pos es d1 pos1 ->
  forall m fs d2 pos2, nsteps chunk last stop m d1 pos1 fs d2 pos2 ->
  nsteps chunk last stop (n + m) d pos (es ++ fs) d2 pos2.
Proof.
  induction 1; intros m fs' d3 pos3 H2; [exact H2|].
  cbn [Nat.add]. rewrite <- app_assoc. eapply nsS; eauto.
Qed.

Lemma nsteps_one : forall chunk last stop d pos es d1 pos1 fin,
  dec_notify chunk last d pos = Ok (es, d1, pos1, fin) -> stop d1 pos1 = false ->
  nsteps chunk last stop 1 d pos es d1 pos1.
Proof. intros. rewrite <- (app_nil_r es). eapply nsS; eauto. constructor. Qed.

Lemma nsteps_snoc : forall chunk last stop n d pos es d1 pos1 fs d2 pos2 fin,
  nsteps chunk last stop n d pos es d1 pos1 ->
  dec_notify chunk last d1 pos1 = Ok (fs, d2, pos2, fin) -> stop d2 pos2 = false ->
  nsteps chunk last stop (n + 1) d pos (es ++ fs) d2 pos2.
Proof. intros. eapply nsteps_app; [eassumption|]. eapply nsteps_one; eassumption. Qed.

Definition addev (es : list event) (r : res (list event * dec * nat)) : res (list event * dec * nat) :=
  match r with Ok (fs, d, p) => Ok (es ++ fs, d, p) | x => x end.

Lemma addev_app : forall a b r, addev a (addev b r) = addev (a ++ b) r.
Proof. intros a b [[[? ?] ?]| |]; cbn; rewrite ?app_assoc; reflexivity. Qed.
Lemma addev_nil : forall r, addev [] r = r.
Proof. intros [[[? ?] ?]| |]; reflexivity. Qed.

Lemma run_steps : forall chunk n d pos es d1 pos1, nsteps chunk true stop_done n d pos es d1 pos1 ->
  forall k, dec_run (n + k) chunk d pos = addev es (dec_run k chunk d1 pos1).
Proof.
  induction 1; intros k; [now rewrite addev_nil|].
  cbn [Nat.add dec_run]. rewrite H. cbn [bind]. unfold stop_done in H0. rewrite H0.
  rewrite IHnsteps. destruct (dec_run k chunk d2 pos2) as [[[? ?] ?]| |]; cbn; rewrite ?app_assoc; reflexivity.
Qed.

Lemma notify_fin : forall chunk last d pos es d1 pos1 fin,
  dec_notify chunk last d pos = Ok (es, d1, pos1, fin) -> fin = Nat.eqb pos1 (length chunk) /\ (pos1 <= length chunk)%nat.
Proof.
  intros chunk last d pos es d1 pos1 fin H. unfold dec_notify, dec_iterate in H.
  destruct (dec_step chunk last d pos) as [[d2 p2]| |]; cbn [bind] in H; try discriminate.
  destruct (Nat.leb_spec p2 (length chunk)); cbn [bind] in H; [|discriminate].
  destruct (dec_events chunk last d2 p2); cbn [bind] in H; try discriminate.
  injection H as <- <- <- <-. auto.
Qed.

Lemma drain_steps : forall chunk last n d pos es d1 pos1, nsteps chunk last (stop_end chunk) n d pos es d1 pos1 ->
  forall k, dec_drain (n + k) chunk last d pos = addev es (dec_drain k chunk last d1 pos1).
Proof.
  induction 1; intros k; [now rewrite addev_nil|].
  cbn [Nat.add dec_drain]. rewrite H. cbn [bind].
  destruct (notify_fin _ _ _ _ _ _ _ _ H) as (Hf & _). unfold stop_end in H0. rewrite Hf, H0.
  rewrite IHnsteps. destruct (dec_drain k chunk last d2 pos2) as [[[? ?] ?]| |]; cbn; rewrite ?app_assoc; reflexivity.
Qed.

(** the last step of either loop *)
Lemma run_last : forall chunk d pos es d1 pos1 fin k,
  dec_notify chunk true d pos = Ok (es, d1, pos1, fin) -> k_st d1 = RDone ->
  dec_run (S k) chunk d pos = Ok (es, d1, pos1).
Proof. intros. cbn [dec_run]. rewrite H. cbn [bind]. rewrite H0. reflexivity. Qed.

Lemma drain_last : forall chunk last d pos es d1 fin k,
  dec_notify chunk last d pos = Ok (es, d1, length chunk, fin) ->
  dec_drain (S k) chunk last d pos = Ok (es, d1, length chunk).
Proof.
  intros. cbn [dec_drain]. rewrite H. cbn [bind].
  destruct (notify_fin _ _ _ _ _ _ _ _ H) as (-> & _). rewrite Nat.eqb_refl. reflexivity.
Qed.

(** * The options phase *)

Definition opt_dec (d : dec) (o : odec) (h : holder) : dec :=
  Dec ROptions (k_h d) (k_hpos d) (k_tok d) (k_tpos d) o h.

(** where the options phase stands after a call that consumed up to [pos] *)
Definition fin_state (chunk : list N) (last : bool) (o : odec) (pos : nat) : rstate :=
  if ostate_eqb (d_st o) OPayload then OptionsDone
  else if (Nat.eqb pos (length chunk) && last) && ostate_eqb (d_st o) OptionValueDone then OptionsDone
  else ROptions.

Definition fin_events (chunk : list N) (last : bool) (o : odec) (pos : nat) : list event :=
  match fin_state chunk last o pos with OptionsDone => [EOptDone] | _ => [] end.

Lemma skipn_nonempty : forall (chunk : list N) pos, (pos < length chunk)%nat ->
  exists b r, skipn pos chunk = b :: r.
Proof.
  intros chunk pos H. destruct (skipn pos chunk) as [|b r] eqn:E; [|eauto].
  assert (L := skipn_length pos chunk). rewrite E in L. cbn in L. lia.
Qed.

Lemma chunk_last_nonempty : forall d h b r last, od_chunk_last d h (b :: r) last = od_chunk d h (b :: r).
Proof. intros. destruct last; reflexivity. Qed.

Lemma fin_state_cases : forall chunk last o pos,
  fin_state chunk last o pos = OptionsDone \/ fin_state chunk last o pos = ROptions.
Proof. intros. unfold fin_state. destruct (ostate_eqb _ _); [auto|]. destruct (_ && _); auto. Qed.

Lemma fin_state_vs : forall chunk last o pos, d_st o = ValueStart -> fin_state chunk last o pos = ROptions.
Proof. intros chunk last o pos H. unfold fin_state. rewrite H. cbn. now rewrite andb_false_r. Qed.

(** the events after an option decoder call at state [o],[h] *)
Lemma option_event : forall chunk c0 d o h pos, od_length o = Ok (hd_len h) ->
  dec_events chunk true (opt_dec d o h) pos = 
  Ok (match d_st o with ValueStart => [vev c0 chunk (hd_num h, hd_len h, c0 + pos)%nat] | _ => [] end).
Proof.
  intros chunk c0 d o h pos Hl. unfold dec_events. cbn [k_st opt_dec k_od k_hold].
  destruct (d_st o) eqn:E; try reflexivity.
  unfold dec_option, remainder. cbn [k_od opt_dec k_hold]. rewrite Hl. cbn [bind]. unfold vev.
  replace (c0 + pos - c0)%nat with pos by lia.
  destruct (N.ltb_spec 0 (hd_len h)).
  - destruct (Nat.leb_spec (N.to_nat (hd_len h)) (length (skipn pos chunk))); cbn [bind fst snd].
    + reflexivity.
    + rewrite firstn_all2 by lia. reflexivity.
  - replace (hd_len h) with 0 by lia. reflexivity.
Qed.

Lemma dec_events_last : forall chunk l1 l2 d pos, k_st d <> RPayload -> dec_events chunk l1 d pos = dec_events chunk l2 d pos.
Proof. intros. unfold dec_events. destruct (k_st d); congruence. Qed.

Definition opt_out (chunk : list N) (last : bool) (d : dec) (o : odec) (h : holder) (pos : nat) : dec :=
  k_goto (fin_state chunk last o pos) (opt_dec d o h).

(** one iteration in Options with bytes left *)
Lemma notify_options : forall chunk last c0 d pos o h n,
  k_st d = ROptions -> (pos < length chunk)%nat ->
  od_chunk (k_od d) (k_hold d) (skipn pos chunk) = Ok (o, h, n) -> (pos + n <= length chunk)%nat ->
  (d_st o = ValueStart -> od_length o = Ok (hd_len h)) ->
  dec_notify chunk last d pos =
  Ok ((match d_st o with ValueStart => [vev c0 chunk (hd_num h, hd_len h, c0 + (pos + n))%nat] | _ => [] end)
        ++ fin_events chunk last o (pos + n),
      opt_out chunk last d o h (pos + n), (pos + n)%nat, Nat.eqb (pos + n) (length chunk)).
Proof.
  intros chunk last c0 d pos o h n Hs Hp Hc Hn Hl.
  unfold dec_notify, dec_iterate, dec_step. rewrite Hs. unfold remainder.
  destruct (skipn_nonempty chunk pos Hp) as (b & r & E). rewrite E in *.
  rewrite chunk_last_nonempty, Hc. cbn [bind]. fold (fin_state chunk last o (pos + n)).
  replace (pos + n <=? length chunk)%nat with true by (symmetry; now apply Nat.leb_le). cbn [bind].
  change (Dec (fin_state chunk last o (pos + n)) (k_h d) (k_hpos d) (k_tok d) (k_tpos d) o h)
    with (opt_out chunk last d o h (pos + n)).
  unfold opt_out, fin_events.
  destruct (ostate_eqb (d_st o) ValueStart) eqn:Ev.
  - assert (Ev' : d_st o = ValueStart) by (destruct (d_st o); try discriminate Ev; reflexivity).
    rewrite fin_state_vs by assumption.
    change (k_goto ROptions (opt_dec d o h)) with (opt_dec d o h).
    rewrite (dec_events_last _ last true) by discriminate.
    rewrite (option_event chunk c0) by auto. rewrite Ev'. reflexivity.
  - destruct (fin_state_cases chunk last o (pos + n)) as [Ef|Ef]; rewrite Ef.
    + destruct (d_st o); try discriminate Ev; reflexivity.
    + unfold dec_events. cbn [k_st k_goto opt_dec k_od]. destruct (d_st o); try discriminate Ev; reflexivity.
Qed.

Lemma notify_options_fault : forall chunk last d pos,
  k_st d = ROptions -> (pos < length chunk)%nat ->
  od_chunk (k_od d) (k_hold d) (skipn pos chunk) = Fault ->
  dec_notify chunk last d pos = Fault.
Proof.
  intros chunk last d pos Hs Hp Hc. unfold dec_notify, dec_iterate, dec_step. rewrite Hs. unfold remainder.
  destruct (skipn_nonempty chunk pos Hp) as (b & r & E). rewrite E in *.
  rewrite chunk_last_nonempty, Hc. reflexivity.
Qed.

Lemma skipn_skipn' : forall (l : list N) a b, skipn a (skipn b l) = skipn (b + a) l.
Proof. intros l a b. revert l. induction b as [|b IH]; intros l; [reflexivity|]. destruct l; [now rewrite !skipn_nil|]. cbn. apply IH. Qed.

Lemma bytes_ok_skipn : forall n bs, bytes_ok bs -> bytes_ok (skipn n bs).
Proof.
  induction n as [|n IH]; intros bs H; [exact H|]. destruct bs; [exact H|]. cbn. apply IH.
  inversion H; assumption.
Qed.

Lemma drain : forall chunk last stop c0, bytes_ok chunk ->
  (forall d p, k_st d = ROptions -> (p < length chunk)%nat -> stop d p = false) ->
  forall fuel d pos vs o1 h1 e1, k_st d = ROptions -> (pos < length chunk)%nat ->
  d_st (k_od d) <> OPayload -> linv (k_od d) (k_hold d) ->
  od_drive_loop fuel (k_od d) (k_hold d) (c0 + pos) (skipn pos chunk) = Ok (vs, o1, h1, e1) ->
  exists n es dm pm fs pos1 fin, (n < fuel)%nat /\ nsteps chunk last stop n d pos es dm pm /\
    k_st dm = ROptions /\ (pm < length chunk)%nat /\
    dec_notify chunk last dm pm = Ok (fs, opt_out chunk last d o1 h1 pos1, pos1, fin) /\
    e1 = (c0 + pos1)%nat /\ (pos1 <= length chunk)%nat /\ linv o1 h1 /\
    (d_st o1 = OPayload \/ pos1 = length chunk) /\
    es ++ fs = map (vev c0 chunk) vs ++ fin_events chunk last o1 pos1.
Proof.
  intros chunk last stop c0 Hok Hstop. induction fuel as [|k IH]; intros d pos vs o1 h1 e1 Hs Hp Hnp Hl H.
  - destruct (skipn_nonempty chunk pos Hp) as (b & r & E). rewrite E in H. discriminate.
  - assert (HP := od_chunk_post (k_od d) (k_hold d) (skipn pos chunk) Hnp).
    assert (Hne : skipn pos chunk <> [] \/ d_st (k_od d) <> ValueStart).
    { left. destruct (skipn_nonempty chunk pos Hp) as (b & r & E). rewrite E. discriminate. }
    specialize (HP Hne).
    assert (H' : bind (od_chunk (k_od d) (k_hold d) (skipn pos chunk)) (fun x =>
            let '(d1, h1, n) := x in
            match d_st d1 with
            | OPayload => Ok ([], d1, h1, c0 + pos + n)%nat
            | ValueStart =>
                bind (od_drive_loop k d1 h1 (c0 + pos + n) (skipn n (skipn pos chunk))) (fun y =>
                  let '(vs, d2, h2, o2) := y in
                  Ok ((hd_num h1, hd_len h1, (c0 + pos + n)%nat) :: vs, d2, h2, o2))
            | _ => od_drive_loop k d1 h1 (c0 + pos + n) (skipn n (skipn pos chunk))
            end) = Ok (vs, o1, h1, e1)).
    { cbn [od_drive_loop] in H. destruct (skipn pos chunk) eqn:E; [|exact H].
      destruct Hne as [Hne|]; [congruence|].
      destruct (skipn_nonempty chunk pos Hp) as (b & r & E2). congruence. }
    clear H. rename H' into H.
    pose proof (linv_chunk_loop (4 * length (skipn pos chunk) + 4) (k_od d) (k_hold d) (skipn pos chunk) 0) as HL.
    fold (od_chunk (k_od d) (k_hold d) (skipn pos chunk)) in HL.
    destruct (od_chunk (k_od d) (k_hold d) (skipn pos chunk)) as [[[o h] n]| |] eqn:EC; cbn [bind] in H; try discriminate.
    specialize (HL o h n Hl (bytes_ok_skipn _ _ Hok) eq_refl).
    unfold chunk_post in HP. rewrite skipn_length in HP.
    assert (Hn : (pos + n <= length chunk)%nat) by lia.
    assert (HN := notify_options chunk last c0 d pos o h n Hs Hp EC Hn).
    assert (HV : d_st o = ValueStart -> od_length o = Ok (hd_len h)).
    { intros E. destruct HL as (_ & _ & HL). rewrite E in HL. exact HL. }
    specialize (HN HV).
    destruct (ostate_eqb (d_st o) OPayload) eqn:Epay.
    { assert (Ep : d_st o = OPayload) by (destruct (d_st o); try discriminate Epay; reflexivity).
      rewrite Ep in H. injection H as <- <- <- <-.
      exists 0%nat, [], d, pos. do 2 eexists. exists (Nat.eqb (pos + n) (length chunk)).
      split; [lia|]. split; [constructor|]. split; [assumption|]. split; [assumption|].
      split; [exact HN|]. split; [lia|]. split; [assumption|]. split; [assumption|].
      split; [left; assumption|]. rewrite Ep. reflexivity. }
    assert (Ep : d_st o <> OPayload) by (intro E; rewrite E in Epay; discriminate).
    (* uniform shape of the continuation *)
    assert (exists ws, od_drive_loop k o h (c0 + (pos + n)) (skipn (pos + n) chunk) = Ok (ws, o1, h1, e1) /\
              vs = (match d_st o with ValueStart => [(hd_num h, hd_len h, (c0 + (pos + n))%nat)] | _ => [] end) ++ ws)
      as (ws & HR & ->).
    { rewrite skipn_skipn' in H. rewrite <- Nat.add_assoc in H.
      destruct (d_st o) eqn:Eo; try (exists vs; split; [exact H|reflexivity]); [|congruence].
      destruct (od_drive_loop k o h (c0 + (pos + n)) (skipn (pos + n) chunk)) as [[[[ws o2] h2] e2]| |];
        cbn [bind] in H; try discriminate. injection H as <- <- <- <-. exists ws. split; reflexivity. }
    clear H.
    destruct (Nat.eq_dec (pos + n) (length chunk)) as [Eend|Nend].
    + rewrite (skipn_all2 chunk) in HR by lia. destruct k as [|k]; cbn in HR; injection HR as <- <- <- <-;
      rewrite ?app_nil_r;
      (exists 0%nat, [], d, pos; do 2 eexists; exists (Nat.eqb (pos + n) (length chunk));
       split; [lia|]; split; [constructor|]; split; [assumption|]; split; [assumption|];
       split; [exact HN|]; split; [reflexivity|]; split; [assumption|]; split; [assumption|];
       split; [right; assumption|]; cbn [app]; f_equal; destruct (d_st o); reflexivity).
    + assert (Hlt : (pos + n < length chunk)%nat) by lia.
      assert (Ef : fin_state chunk last o (pos + n) = ROptions).
      { unfold fin_state. rewrite Epay. apply Nat.eqb_neq in Nend. rewrite Nend. reflexivity. }
      assert (Efe : fin_events chunk last o (pos + n) = []) by (unfold fin_events; rewrite Ef; reflexivity).
      rewrite Efe, app_nil_r in HN.
      assert (EO : opt_out chunk last d o h (pos + n) = opt_dec d o h) by (unfold opt_out; rewrite Ef; reflexivity).
      rewrite EO in HN.
      destruct (IH (opt_dec d o h) (pos + n)%nat ws o1 h1 e1 eq_refl Hlt Ep HL HR)
        as (m & es & dm & pm & fs & pos1 & fin & A1 & A2 & A3 & A4 & A5 & A6 & A7 & A8 & A9 & A10).
      exists (S m). do 2 eexists. exists pm, fs, pos1, fin. split; [lia|]. split.
      { eapply nsS; [exact HN| |exact A2]. apply Hstop; [reflexivity|assumption]. }
      split; [assumption|]. split; [assumption|]. split; [exact A5|]. split; [assumption|]. split; [assumption|].
      split; [assumption|]. split; [assumption|].
      rewrite <- app_assoc, A10, map_app, <- app_assoc. f_equal. destruct (d_st o); reflexivity.
Qed.

Lemma drain_fault : forall chunk last stop c0, bytes_ok chunk ->
  (forall d p, k_st d = ROptions -> (p < length chunk)%nat -> stop d p = false) ->
  forall fuel d pos, k_st d = ROptions -> (pos < length chunk)%nat ->
  d_st (k_od d) <> OPayload -> linv (k_od d) (k_hold d) ->
  od_drive_loop fuel (k_od d) (k_hold d) (c0 + pos) (skipn pos chunk) = Fault ->
  exists n es dm pm, (n < fuel)%nat /\ nsteps chunk last stop n d pos es dm pm /\
    k_st dm = ROptions /\ (pm < length chunk)%nat /\ dec_notify chunk last dm pm = Fault.
Proof.
  intros chunk last stop c0 Hok Hstop. induction fuel as [|k IH]; intros d pos Hs Hp Hnp Hl H.
  - destruct (skipn_nonempty chunk pos Hp) as (b & r & E). rewrite E in H. discriminate.
  - assert (HP := od_chunk_post (k_od d) (k_hold d) (skipn pos chunk) Hnp).
    assert (Hne : skipn pos chunk <> []).
    { destruct (skipn_nonempty chunk pos Hp) as (b & r & E). rewrite E. discriminate. }
    specialize (HP (or_introl Hne)).
    assert (H' : bind (od_chunk (k_od d) (k_hold d) (skipn pos chunk)) (fun x =>
            let '(d1, h1, n) := x in
            match d_st d1 with
            | OPayload => Ok ([], d1, h1, c0 + pos + n)%nat
            | ValueStart =>
                bind (od_drive_loop k d1 h1 (c0 + pos + n) (skipn n (skipn pos chunk))) (fun y =>
                  let '(vs, d2, h2, o2) := y in
                  Ok ((hd_num h1, hd_len h1, (c0 + pos + n)%nat) :: vs, d2, h2, o2))
            | _ => od_drive_loop k d1 h1 (c0 + pos + n) (skipn n (skipn pos chunk))
            end) = Fault).
    { cbn [od_drive_loop] in H. destruct (skipn pos chunk) eqn:E; [congruence|exact H]. }
    clear H. rename H' into H.
    pose proof (linv_chunk_loop (4 * length (skipn pos chunk) + 4) (k_od d) (k_hold d) (skipn pos chunk) 0) as HL.
    fold (od_chunk (k_od d) (k_hold d) (skipn pos chunk)) in HL.
    destruct (od_chunk (k_od d) (k_hold d) (skipn pos chunk)) as [[[o h] n]| |] eqn:EC; cbn [bind] in H; try discriminate.
    2:{ exists 0%nat, [], d, pos. split; [lia|]. split; [constructor|]. split; [assumption|]. split; [assumption|].
        now apply notify_options_fault. }
    specialize (HL o h n Hl (bytes_ok_skipn _ _ Hok) eq_refl).
    unfold chunk_post in HP. rewrite skipn_length in HP.
    assert (Hn : (pos + n <= length chunk)%nat) by lia.
    assert (HN := notify_options chunk last c0 d pos o h n Hs Hp EC Hn).
    assert (HV : d_st o = ValueStart -> od_length o = Ok (hd_len h)).
    { intros E. destruct HL as (_ & _ & HL). rewrite E in HL. exact HL. }
    specialize (HN HV).
    destruct (ostate_eqb (d_st o) OPayload) eqn:Epay.
    { assert (Ep : d_st o = OPayload) by (destruct (d_st o); try discriminate Epay; reflexivity).
      rewrite Ep in H. discriminate. }
    assert (Ep : d_st o <> OPayload) by (intro E; rewrite E in Epay; discriminate).
    assert (HR : od_drive_loop k o h (c0 + (pos + n)) (skipn (pos + n) chunk) = Fault).
    { rewrite skipn_skipn' in H. rewrite <- Nat.add_assoc in H.
      destruct (d_st o) eqn:Eo; try exact H; [|congruence].
      destruct (od_drive_loop k o h (c0 + (pos + n)) (skipn (pos + n) chunk)) as [[[[ws o2] h2] e2]| |];
        cbn [bind] in H; try discriminate. reflexivity. }
    clear H.
    destruct (Nat.eq_dec (pos + n) (length chunk)) as [Eend|Nend].
    { rewrite (skipn_all2 chunk) in HR by lia. destruct k; discriminate. }
    assert (Hlt : (pos + n < length chunk)%nat) by lia.
    assert (Ef : fin_state chunk last o (pos + n) = ROptions).
    { unfold fin_state. rewrite Epay. apply Nat.eqb_neq in Nend. rewrite Nend. reflexivity. }
    assert (EO : opt_out chunk last d o h (pos + n) = opt_dec d o h) by (unfold opt_out; rewrite Ef; reflexivity).
    rewrite EO in HN.
    destruct (IH (opt_dec d o h) (pos + n)%nat eq_refl Hlt Ep HL HR) as (m & es & dm & pm & A1 & A2 & A3 & A4 & A5).
    exists (S m). do 2 eexists. exists pm. split; [lia|]. split.
    { eapply nsS; [exact HN| |exact A2]. apply Hstop; [reflexivity|assumption]. }
    auto.
Qed.

(** entering the options phase with bytes left is an iteration in Options with a
    fresh option decoder *)
Definition opt_fresh (d : dec) : dec := opt_dec d (od_goto FirstByte (k_od d)) holder_reset.

Lemma notify_start : forall chunk last d pos, k_st d = OptionsStart -> (pos < length chunk)%nat ->
  dec_notify chunk last d pos = dec_notify chunk last (opt_fresh d) pos.
Proof.
  intros chunk last d pos Hs Hp. unfold dec_notify, dec_iterate. f_equal. f_equal.
  unfold dec_step. rewrite Hs. cbn [k_st opt_fresh opt_dec k_od k_hold k_h k_hpos k_tok k_tpos]. unfold remainder.
  destruct (skipn_nonempty chunk pos Hp) as (b & r & E). rewrite E. cbn [length Nat.eqb andb].
  rewrite chunk_last_nonempty.
  destruct (od_chunk (od_goto FirstByte (k_od d)) holder_reset (b :: r)) as [[[o h] n]| |] eqn:EC; cbn [bind]; try reflexivity.
  assert (HO : d_st o <> OptionValueDone).
  { eapply outside_chunk; [|exact EC]. unfold outside. cbn. repeat split; discriminate. }
  destruct (d_st o); try reflexivity; try (rewrite andb_false_r; reflexivity). congruence.
Qed.

(** * End of the message inside the options phase *)

Definition eof_events (h : holder) (o : odec) : list event :=
  match d_st o with
  | ValueStart =>
      if 0 <? hd_len h then
        match od_length o with Ok l => [EOption (hd_num h) [] (l =? 0)] | _ => [] end
      else [EOption (hd_num h) [] true]
  | _ => []
  end.

Lemma skipn_end : forall (l : list N), skipn (length l) l = [].
Proof. intros. apply skipn_all. Qed.

Lemma notify_eof : forall chunk d o p, k_st d = ROptions -> od_step 0 (k_od d) = Ok (o, p) ->
  (d_st o = ValueStart -> exists l, od_length o = Ok l) ->
  dec_notify chunk true d (length chunk) =
  Ok (eof_events (k_hold d) o ++ fin_events chunk true o (length chunk),
      opt_out chunk true d o (k_hold d) (length chunk), length chunk, true).
Proof.
  intros chunk d o p Hs Ho Hl. unfold dec_notify, dec_iterate, dec_step. rewrite Hs. unfold remainder.
  rewrite skipn_end. unfold od_chunk_last. rewrite Ho. cbn [bind fst].
  rewrite Nat.add_0_r. fold (fin_state chunk true o (length chunk)).
  rewrite Nat.leb_refl. cbn [bind].
  change (Dec (fin_state chunk true o (length chunk)) (k_h d) (k_hpos d) (k_tok d) (k_tpos d) o (k_hold d))
    with (opt_out chunk true d o (k_hold d) (length chunk)).
  rewrite Nat.eqb_refl. unfold opt_out, fin_events, eof_events.
  destruct (ostate_eqb (d_st o) ValueStart) eqn:Ev.
  - assert (Ev' : d_st o = ValueStart) by (destruct (d_st o); try discriminate Ev; reflexivity).
    rewrite fin_state_vs by assumption. destruct (Hl Ev') as (l & El).
    unfold dec_events. cbn [k_st k_goto opt_dec k_od k_hold]. rewrite Ev'.
    unfold dec_option, remainder. cbn [k_od k_goto opt_dec]. rewrite skipn_end. rewrite El. cbn [bind length].
    destruct (0 <? hd_len (k_hold d)); [|reflexivity].
    destruct (N.eqb_spec l 0) as [->|Hn]; [reflexivity|].
    replace (N.to_nat l <=? 0)%nat with false by (symmetry; apply Nat.leb_gt; lia). reflexivity.
  - destruct (fin_state_cases chunk true o (length chunk)) as [Ef|Ef]; rewrite Ef.
    + destruct (d_st o); try discriminate Ev; reflexivity.
    + unfold dec_events. cbn [k_st k_goto opt_dec k_od]. destruct (d_st o); try discriminate Ev; reflexivity.
Qed.

Lemma fin_vd : forall chunk o, d_st o = OptionValueDone -> fin_state chunk true o (length chunk) = OptionsDone.
Proof. intros chunk o H. unfold fin_state. rewrite H, Nat.eqb_refl. reflexivity. Qed.

(** how many end-of-message iterations remain *)
Definition erank (o : odec) : N :=
  let long := 13 <=? raw_length o in
  match d_st o with
  | OptionValue => od_vlen o
  | ValueStart => 65536
  | OptionDeltaAndLengthDone => 65537
  | OptionLengthDone => if long then 65537 else 65540
  | OptionLength => if d_pos o =? 1 then 65539 else 65538
  | OptionDeltaDone => if long then 65540 else 65537
  | OptionDelta => (if d_pos o =? 1 then 2 else 1) + (if long then 65540 else 65537)
  | FirstByteDone => 65544
  | FirstByte => 65545
  | _ => 0
  end.

Lemma erank_step : forall o o1 p, od_inv o -> od_bytes o ->
  d_st o <> OptionValueDone -> od_step 0 o = Ok (o1, p) ->
  d_st o1 <> OPayload /\ (d_st o1 = OptionValueDone \/ erank o1 < erank o).
Proof.
  intros o o1 p Hi Hb Hv E. unfold od_inv in Hi. unfold od_step in E. unfold erank at 2. pose proof (raw_len_lt o) as HR.
  destruct (d_st o) eqn:Ed; try congruence.
  - change (0 =? 255) with false in E. cbn iota in E. injection E as <- _. cbn [d_st]. split; [discriminate|right].
    unfold erank. cbn [d_st]. lia.
  - destruct (N.leb_spec 13 (raw_delta o)); destruct (N.leb_spec 13 (raw_length o)); injection E as <- _; cbn [d_st od_goto];
      (split; [discriminate|right]); unfold erank, od_goto; cbn [d_st d_pos d_b0 d_b1 d_b2 d_b3]; change (raw_length (ODec _ (d_b0 o) _ _ _ _)) with (raw_length o);
      destruct (N.leb_spec 13 (raw_length o)); try lia; destruct (d_pos o =? 1); lia.
  - destruct Hi as (H1 & H2 & H3).
    destruct (process_option_size (raw_delta o) (d_pos o)) as [m| |] eqn:EP; cbn [bind] in E.
    2,3: destruct (od_put (d_pos o) 0 o); discriminate.
    unfold process_option_size in EP.
    destruct H3 as [H3|(H3 & H4)]; rewrite H3 in E, EP |- *; cbn [od_put bind] in E;
    destruct m; injection E as <- _; unfold od_setpos, od_goto, erank; cbn [d_st d_pos d_b0 d_b1 d_b2 d_b3]; rewrite ?Ed;
      change (raw_length (ODec _ (d_b0 o) _ _ _ _)) with (raw_length o); (split; [discriminate|right]).
    + change ((1 + 1) mod 256 =? 1) with false. change (1 =? 1) with true. cbn iota. destruct (13 <=? raw_length o); lia.
    + change (1 =? 1) with true. cbn iota. destruct (13 <=? raw_length o); lia.
    + rewrite H4 in EP. discriminate EP.
    + change (2 =? 1) with false. cbn iota. destruct (13 <=? raw_length o); lia.
  - destruct (N.leb_spec 13 (raw_length o)); injection E as <- _; unfold od_setpos, od_goto, erank; cbn [d_st d_pos d_b0 d_b1 d_b2 d_b3];
      (split; [discriminate|right]); [change (1 =? 1) with true; cbn iota|]; lia.
  - destruct Hi as (H1 & H2 & H3).
    destruct (process_option_size (raw_length o) (d_pos o)) as [m| |] eqn:EP; cbn [bind] in E.
    2,3: destruct (od_put (d_pos o) 0 o); discriminate.
    unfold process_option_size in EP.
    destruct H3 as [H3|(H3 & H4)]; rewrite H3 in E, EP |- *; cbn [od_put bind] in E;
    destruct m; injection E as <- _; unfold od_setpos, od_goto, erank; cbn [d_st d_pos d_b0 d_b1 d_b2 d_b3]; rewrite ?Ed;
      change (raw_length (ODec _ (d_b0 o) _ _ _ _)) with (raw_length o); (split; [discriminate|right]).
    + change ((1 + 1) mod 256 =? 1) with false. change (1 =? 1) with true. cbn iota. lia.
    + change (1 =? 1) with true. cbn iota. destruct (N.leb_spec 13 (raw_length o)); lia.
    + rewrite H4 in EP. discriminate EP.
    + change (2 =? 1) with false. cbn iota. destruct (N.leb_spec 13 (raw_length o)); lia.
  - destruct Hi as (H1 & H2 & H3).
    destruct (N.leb_spec 13 (raw_length o)); injection E as <- _; unfold od_goto, erank; cbn [d_st d_pos d_b0 d_b1 d_b2 d_b3];
      change (raw_length (ODec _ (d_b0 o) _ _ _ _)) with (raw_length o); (split; [discriminate|right]); [lia|].
    destruct (H3 H) as (-> & _). change (1 =? 1) with true. cbn iota. destruct (N.leb_spec 13 (raw_length o)); lia.
  - injection E as <- _. unfold od_goto, erank; cbn [d_st]. split; [discriminate|right]; lia.
  - destruct (od_length o) as [l| |] eqn:El; cbn [bind] in E; try discriminate. injection E as <- _.
    destruct (N.eqb_spec l 0); [split; [discriminate|left; reflexivity]|split; [discriminate|right]].
    unfold erank. cbn [d_st od_goto]. rewrite vlen_set. destruct Hb as (_ & B1 & _).
    pose proof (get_value_bound _ _ _ _ B1 El). lia.
  - cbn zeta in E. injection E as <- _. destruct Hb as (B0 & B1 & _). unfold byte_ok in *.
    assert (od_vlen o < 65536) by (unfold od_vlen; lia).
    destruct (N.eqb_spec ((od_vlen o + 65535) mod 65536) 0); [split; [discriminate|left; reflexivity]|split; [discriminate|right]].
    unfold erank. cbn [d_st od_goto]. rewrite vlen_set. lia.
  - destruct Hi.
Qed.

(** phantom events at the end of the message carry no bytes *)
Lemma eof_events_hollow : forall h o, Forall hollow (eof_events h o).
Proof.
  intros h o. unfold eof_events, hollow. destruct (d_st o); try constructor.
  destruct (0 <? hd_len h); [destruct (od_length o)|]; repeat constructor; eauto.
Qed.

Lemma erank_bound : forall o, od_bytes o -> erank o <= 65545.
Proof.
  intros o (B0 & B1 & _). unfold erank, byte_ok, od_vlen in *. destruct (d_st o); destruct (13 <=? raw_length o); try destruct (d_pos o =? 1); lia.
Qed.

(** the end-of-message iterations: they end in OptionsDone or in the assertion
    about a reserved nibble *)
Lemma ghost : forall chunk k d, k_st d = ROptions -> od_inv (k_od d) -> od_bytes (k_od d) ->
  d_st (k_od d) <> OPayload -> d_st (k_od d) <> OptionValueDone -> (N.to_nat (erank (k_od d)) <= k)%nat ->
  (exists n es dm, (n <= k)%nat /\ nsteps chunk true stop_done n d (length chunk) es dm (length chunk) /\
      k_st dm = ROptions /\ dec_notify chunk true dm (length chunk) = Fault /\
      ((d_st (k_od dm) = OptionDelta /\ raw_delta (k_od dm) = 15) \/
       (d_st (k_od dm) = OptionLength /\ raw_length (k_od dm) = 15))) \/
  (exists n es o, (n <= S k)%nat /\
      nsteps chunk true stop_done n d (length chunk) (es ++ [EOptDone])
        (k_goto OptionsDone (opt_dec d o (k_hold d))) (length chunk) /\
      Forall hollow es /\ d_st o = OptionValueDone /\ od_bytes o).
Proof.
  intros chunk. induction k as [|k IH]; intros d Hs Hi Hb Hp Hv Hk.
  { exfalso. clear - Hp Hv Hk Hi Hb. unfold od_inv in Hi. unfold erank in Hk.
    destruct (d_st (k_od d)); try congruence; try lia;
      destruct (13 <=? raw_length (k_od d)); destruct (d_pos (k_od d) =? 1); lia. }
  destruct (od_step_inv 0 (k_od d) Hi ltac:(unfold byte_ok; lia)) as [(o & p & E & Hio)|(E & HF)].
  - assert (Hbo := od_bytes_step 0 _ _ _ Hb ltac:(unfold byte_ok; lia) E).
    destruct (erank_step _ _ _ Hi Hb Hv E) as (Hop & Hr).
    assert (HN : dec_notify chunk true d (length chunk) =
      Ok (eof_events (k_hold d) o ++ fin_events chunk true o (length chunk),
          opt_out chunk true d o (k_hold d) (length chunk), length chunk, true)).
    { eapply notify_eof; [exact Hs|exact E|]. intros Ev. unfold od_inv in Hio. rewrite Ev in Hio.
      now apply get_value_ok. }
    destruct (ostate_eqb (d_st o) OptionValueDone) eqn:Ev.
    + assert (Ev' : d_st o = OptionValueDone) by (destruct (d_st o); try discriminate Ev; reflexivity).
      right. exists 1%nat, [], o. split; [lia|]. split; [|split; [constructor|split; assumption]].
      unfold opt_out, fin_events, eof_events in HN. rewrite fin_vd, Ev' in HN by assumption.
      eapply nsteps_one; [exact HN|reflexivity].
    + assert (Ev' : d_st o <> OptionValueDone) by (intro X; rewrite X in Ev; discriminate).
      destruct Hr as [Hr|Hr]; [congruence|].
      assert (Ef : fin_state chunk true o (length chunk) = ROptions).
      { unfold fin_state. rewrite Ev, andb_false_r. destruct (d_st o); try reflexivity. congruence. }
      unfold opt_out, fin_events in HN. rewrite Ef, app_nil_r in HN.
      change (k_goto ROptions (opt_dec d o (k_hold d))) with (opt_dec d o (k_hold d)) in HN.
      destruct (IH (opt_dec d o (k_hold d)) eq_refl Hio Hbo Hop Ev' ltac:(cbn; lia))
        as [(n & es & dm & A1 & A2 & A3 & A4 & A5)|(n & es & o2 & A1 & A2 & A3 & A4 & A5)].
      * left. exists (S n). do 2 eexists. split; [lia|]. split; [|eauto].
        eapply nsS; [exact HN|reflexivity|exact A2].
      * right. exists (S n), (eof_events (k_hold d) o ++ es), o2. split; [lia|]. split; [|split; [|split; assumption]].
        -- rewrite <- app_assoc. eapply nsS; [exact HN|reflexivity|exact A2].
        -- apply Forall_app. split; [apply eof_events_hollow|assumption].
  - left. exists 0%nat, [], d. split; [lia|]. split; [constructor|]. split; [assumption|].
    split.
    + unfold dec_notify, dec_iterate, dec_step. rewrite Hs. unfold remainder. rewrite skipn_end.
      unfold od_chunk_last. rewrite E. reflexivity.
    + destruct HF as [HF|HF]; [congruence|exact HF].
Qed.

(** countdown inside a value *)
Lemma ghost_value : forall chunk k d, k_st d = ROptions -> d_st (k_od d) = OptionValue ->
  od_vlen (k_od d) = N.of_nat (S k) -> N.of_nat (S k) < 65536 -> od_bytes (k_od d) ->
  exists o, d_st o = OptionValueDone /\ od_bytes o /\
    nsteps chunk true stop_done (S k) d (length chunk) [EOptDone]
        (k_goto OptionsDone (opt_dec d o (k_hold d))) (length chunk).
Proof.
  intros chunk. induction k as [|k IH]; intros d Hs Hv Hl Hk Hby.
  - set (o := od_goto OptionValueDone (od_set_vlen 0 (k_od d))). exists o. split; [reflexivity|].
    split; [apply set_vlen_bytes; [lia|assumption]|].
    eapply nsteps_one; [|reflexivity].
    assert (E : od_step 0 (k_od d) = Ok (o, true)).
    { unfold od_step. rewrite Hv. cbn zeta. rewrite Hl. reflexivity. }
    assert (HN := notify_eof chunk d o true Hs E ltac:(discriminate)).
    unfold opt_out, fin_events in HN. rewrite fin_vd in HN by reflexivity. exact HN.
  - set (o := od_goto OptionValue (od_set_vlen (N.of_nat (S k)) (k_od d))).
    assert (E : od_step 0 (k_od d) = Ok (o, true)).
    { unfold od_step. rewrite Hv. cbn zeta. rewrite Hl.
      replace ((N.of_nat (S (S k)) + 65535) mod 65536) with (N.of_nat (S k)) by lia.
      replace (N.of_nat (S k) =? 0) with false by (symmetry; apply N.eqb_neq; lia). reflexivity. }
    assert (HN := notify_eof chunk d o true Hs E ltac:(discriminate)).
    assert (Ef : fin_state chunk true o (length chunk) = ROptions)
      by (unfold fin_state; cbn; now rewrite andb_false_r).
    unfold opt_out, fin_events in HN. rewrite Ef in HN.
    change (k_goto ROptions (opt_dec d o (k_hold d))) with (opt_dec d o (k_hold d)) in HN.
    destruct (IH (opt_dec d o (k_hold d))) as (o2 & A & A' & B); try reflexivity.
    + cbn [k_od opt_dec]. unfold o. now rewrite vlen_set.
    + lia.
    + apply set_vlen_bytes; [lia|assumption].
    + exists o2. split; [assumption|]. split; [assumption|].
      eapply (nsS chunk true stop_done (S k) d (length chunk) [] (opt_dec d o (k_hold d)) (length chunk) true [EOptDone]);
        [exact HN|reflexivity|exact B].
Qed.

(** * Header and token *)

Lemma tok_put_ok : forall i v t, (i < 8)%nat ->
  tok_put (N.of_nat i) v t = Ok (firstn i t ++ v :: skipn (S i) t).
Proof.
  intros i v t H. unfold tok_put. replace (N.of_nat i <? 8) with true by (symmetry; apply N.ltb_lt; lia).
  rewrite Nat2N.id. reflexivity.
Qed.

Lemma firstn_put : forall i v (t : list N), (i < length t)%nat ->
  firstn (S i) (firstn i t ++ v :: skipn (S i) t) = firstn i t ++ [v].
Proof.
  intros i v t H. rewrite firstn_app, firstn_firstn, firstn_length.
  replace (Nat.min (S i) i) with i by lia. replace (S i - Nat.min i (length t))%nat with 1%nat by lia. reflexivity.
Qed.

Lemma skipn_put : forall i j v (t : list N), (i < length t)%nat ->
  skipn (S i + j) (firstn i t ++ v :: skipn (S i) t) = skipn (S i + j) t.
Proof.
  intros i j v t H. rewrite skipn_app, firstn_length.
  rewrite (skipn_all2 (firstn i t)) by (rewrite firstn_length; lia).
  replace (S i + j - Nat.min i (length t))%nat with (S j) by lia. cbn [app].
  rewrite skipn_cons, skipn_skipn'. reflexivity.
Qed.

Lemma tok_put_length : forall i v (t : list N), (i < length t)%nat ->
  length (firstn i t ++ v :: skipn (S i) t) = length t.
Proof. intros. rewrite app_length. cbn [length]. rewrite firstn_length, skipn_length. lia. Qed.

(** enough bytes for the token *)
Lemma tok_loop_all : forall k bs t i n, (0 < k)%nat -> (i + k <= 8)%nat -> length t = 8%nat -> (k <= length bs)%nat ->
  tok_loop (N.of_nat (i + k)) bs t (N.of_nat i) n =
  Ok (firstn i t ++ firstn k bs ++ skipn (i + k) t, N.of_nat (i + k), (n + k)%nat, true).
Proof.
  induction k as [|k IH]; intros bs t i n Hk Hi Ht Hb; [lia|].
  destruct bs as [|b r]; [cbn in Hb; lia|]. cbn [tok_loop]. rewrite tok_put_ok by lia. cbn [bind].
  replace ((N.of_nat i + 1) mod 256) with (N.of_nat (S i)) by lia.
  destruct (N.leb_spec (N.of_nat (i + S k)) (N.of_nat (S i))).
  - assert (k = 0%nat) by lia. subst k. cbn [firstn app].
    replace (i + 1)%nat with (S i) by lia. replace (n + 1)%nat with (S n) by lia. reflexivity.
  - cbn in Hb. replace (i + S k)%nat with (S i + k)%nat by lia.
    rewrite IH; [|lia|lia|rewrite tok_put_length; lia|lia].
    rewrite firstn_put by lia. rewrite skipn_put by lia. cbn [firstn]. rewrite <- app_assoc. cbn [app].
    replace (S n + k)%nat with (n + S k)%nat by lia. reflexivity.
Qed.

(** too few *)
Lemma tok_loop_some : forall bs t i m n, (i + length bs < m)%nat -> (i + length bs <= 8)%nat -> length t = 8%nat ->
  tok_loop (N.of_nat m) bs t (N.of_nat i) n =
  Ok (firstn i t ++ bs ++ skipn (i + length bs) t, N.of_nat (i + length bs), (n + length bs)%nat, false).
Proof.
  induction bs as [|b r IH]; intros t i m n Hm H8 Ht.
  - cbn. rewrite !Nat.add_0_r, firstn_skipn. reflexivity.
  - cbn [length] in *. cbn [tok_loop]. rewrite tok_put_ok by lia. cbn [bind].
    replace ((N.of_nat i + 1) mod 256) with (N.of_nat (S i)) by lia.
    replace (N.of_nat m <=? N.of_nat (S i)) with false by (symmetry; apply N.leb_gt; lia).
    rewrite IH; [|lia|lia|rewrite tok_put_length; lia].
    rewrite firstn_put by lia. rewrite skipn_put by lia. rewrite <- app_assoc. cbn [app].
    replace (i + S (length r))%nat with (S i + length r)%nat by lia.
    replace (S n + length r)%nat with (n + S (length r))%nat by lia. reflexivity.
Qed.

(** a token longer than the buffer *)
Lemma tok_loop_over : forall k bs t i n m, (i + k = 8)%nat -> (8 < m < 16)%nat -> length t = 8%nat ->
  (k < length bs)%nat -> tok_loop (N.of_nat m) bs t (N.of_nat i) n = Fault.
Proof.
  induction k as [|k IH]; intros bs t i n m Hi Hm Ht Hb; (destruct bs as [|b r]; [cbn in Hb; lia|]); cbn [tok_loop].
  - replace i with 8%nat by lia. reflexivity.
  - rewrite tok_put_ok by lia. cbn [bind].
    replace ((N.of_nat i + 1) mod 256) with (N.of_nat (S i)) by lia.
    replace (N.of_nat m <=? N.of_nat (S i)) with false by (symmetry; apply N.leb_gt; lia).
    cbn in Hb. apply IH; try lia. rewrite tok_put_length; lia.
Qed.

Lemma tok_alias_od : forall t tp, bytes_ok t -> byte_ok tp -> od_bytes (tok_alias t tp).
Proof.
  intros t tp Ht Hp. assert (H : forall i, byte_ok (nth i t 0)).
  { intros i. destruct (Nat.lt_ge_cases i (length t)).
    - unfold bytes_ok in Ht. rewrite Forall_forall in Ht. apply Ht. now apply nth_In.
    - rewrite nth_overflow by assumption. unfold byte_ok. lia. }
  unfold od_bytes, tok_alias. cbn. auto.
Qed.

Lemma tok_alias_st : forall t tp, bytes_ok t -> 0 < tp -> tp <= 8 -> d_st (tok_alias t tp) = OptionDone.
Proof.
  intros t tp Ht Hp H8. unfold tok_alias. cbn [d_st].
  replace (_ =? 11) with false; [reflexivity|]. symmetry. apply N.eqb_neq. lia.
Qed.

Lemma bytes_ok_firstn : forall n bs, bytes_ok bs -> bytes_ok (firstn n bs).
Proof.
  induction n as [|n IH]; intros bs H; [constructor|]. destruct bs; [constructor|].
  cbn. inversion H; subst. constructor; [assumption|]. now apply IH.
Qed.

(** state at the start of the options phase *)
Definition prefix_ok (d d1 : dec) (h : hdr) (tkl : nat) : Prop :=
  k_st d1 = OptionsStart /\ k_h d1 = h /\ dec_mem d1 /\
  (tkl = 0%nat -> k_od d1 = k_od d) /\ (tkl <> 0%nat -> d_st (k_od d1) = OptionDone).

Lemma prefix_steps : forall last stop d h tok rest tkl,
  k_st d = Uninitialized -> dec_mem d -> bytes_ok (hdr_bytes h ++ tok ++ rest) ->
  hdr_tkl h = N.of_nat tkl -> length tok = tkl -> (tkl <= 8)%nat ->
  (forall d p, k_st d <> RDone -> (p <= 4 + tkl)%nat -> stop d p = false) ->
  exists n d1, (n <= 6)%nat /\
    nsteps (hdr_bytes h ++ tok ++ rest) last stop n d 0 [EHeader h; EToken tok; EOptStart] d1 (4 + tkl)%nat /\
    prefix_ok d d1 h tkl.
Proof.
  intros last stop d h tok rest tkl Hs Hmem Hok Ht Hl H8 Hstop.
  set (chunk := hdr_bytes h ++ tok ++ rest) in *.
  assert (Hlen : length chunk = (4 + (tkl + length rest))%nat).
  { unfold chunk. rewrite !app_length, Hl. reflexivity. }
  destruct Hmem as (M1 & M2 & M3).
  set (d1 := Dec RHeader (k_h d) 0 (k_tok d) (k_tpos d) (k_od d) (k_hold d)).
  assert (N1 : dec_notify chunk last d 0 = Ok ([], d1, 0%nat, Nat.eqb 0 (length chunk))).
  { unfold dec_notify, dec_iterate, dec_step. rewrite Hs. cbn [bind]. cbn [Nat.leb bind]. reflexivity. }
  set (d2 := Dec HeaderDone h 4 (k_tok d) (k_tpos d) (k_od d) (k_hold d)).
  assert (N2 : dec_notify chunk last d1 0 = Ok ([EHeader h], d2, 4%nat, Nat.eqb 4 (length chunk))).
  { unfold dec_notify, dec_iterate, dec_step. cbn [k_st d1]. unfold remainder. cbn [skipn].
    unfold chunk at 1. destruct h as [a b c e]. cbn [hdr_bytes app h0 h1 h2 h3 k_h k_hpos d1].
    replace (hdr_loop (a :: b :: c :: e :: tok ++ rest) (k_h d) 0 0) with (Ok (Hdr a b c e, 4, 4%nat, true)) by reflexivity.
    cbn [bind Nat.add]. replace (4 <=? length chunk)%nat with true by (symmetry; apply Nat.leb_le; lia). reflexivity. }
  assert (HT : forall tp t od, (tkl = 0%nat -> od = k_od d) -> (tkl <> 0%nat -> d_st od = OptionDone) ->
    od_bytes od -> bytes_ok t -> length t = 8%nat ->
    dec_notify chunk last (Dec TokenDone h 4 t tp od (k_hold d)) (4 + tkl) =
      Ok ([EOptStart], Dec OptionsStart h 4 t tp od (k_hold d), (4 + tkl)%nat, Nat.eqb (4 + tkl) (length chunk)) /\
    prefix_ok d (Dec OptionsStart h 4 t tp od (k_hold d)) h tkl).
  { intros tp t od E1 E2 E3 E4 E5. split.
    - unfold dec_notify, dec_iterate, dec_step. cbn [k_st bind k_goto].
      replace (4 + tkl <=? length chunk)%nat with true by (symmetry; apply Nat.leb_le; lia). reflexivity.
    - unfold prefix_ok, dec_mem. cbn. repeat split; auto; apply E3. }
  assert (NL : forall x y, (x <= length chunk)%nat -> (if (x <=? length chunk)%nat then y else Fault) = y :> res (dec * nat * bool)).
  { intros x y Hx. replace (x <=? length chunk)%nat with true by (symmetry; now apply Nat.leb_le). reflexivity. }
  destruct (Nat.eq_dec tkl 0) as [Z|NZ].
  - subst tkl. destruct tok; [|discriminate].
    assert (N3 : dec_notify chunk last d2 4 =
      Ok ([EToken []], Dec TokenDone h 4 (k_tok d) (k_tpos d) (k_od d) (k_hold d), 4%nat, Nat.eqb 4 (length chunk))).
    { unfold dec_notify, dec_iterate, dec_step. cbn [k_st d2]. unfold dec_tkl. cbn [k_h d2]. rewrite Ht.
      change (0 <? N.of_nat 0) with false. cbn [bind]. rewrite NL by lia. cbn [bind].
      unfold dec_events, dec_tkl. cbn [k_st k_goto d2 k_h]. rewrite Ht. reflexivity. }
    destruct (HT (k_tpos d) (k_tok d) (k_od d)) as (N4 & P); auto; try congruence.
    eexists. eexists. split; [|split; [|exact P]].
    2:{ change [EHeader h; EToken []; EOptStart] with ([] ++ [EHeader h] ++ [EToken []] ++ [EOptStart] ++ []).
        eapply nsS; [exact N1|apply Hstop; [discriminate|lia]|].
        eapply nsS; [exact N2|apply Hstop; [discriminate|lia]|].
        eapply nsS; [exact N3|apply Hstop; [discriminate|lia]|].
        eapply nsS; [exact N4|apply Hstop; [discriminate|lia]|]. apply ns0. }
    lia.
  - set (d3 := Dec TokenStart h 4 (k_tok d) (k_tpos d) (k_od d) (k_hold d)).
    set (d4 := Dec RToken h 4 (k_tok d) 0 (k_od d) (k_hold d)).
    set (t5 := tok ++ skipn tkl (k_tok d)).
    set (d5 := Dec TokenDone h 4 t5 (N.of_nat tkl) (tok_alias t5 (N.of_nat tkl)) (k_hold d)).
    assert (Hok2 : bytes_ok tok).
    { unfold chunk in Hok. apply bytes_ok_app in Hok. destruct Hok as (_ & Hok). apply bytes_ok_app in Hok. tauto. }
    assert (T5 : bytes_ok t5) by (unfold t5; apply bytes_ok_app; split; [assumption|now apply bytes_ok_skipn]).
    assert (L5 : length t5 = 8%nat) by (unfold t5; rewrite app_length, skipn_length; lia).
    assert (N3 : dec_notify chunk last d2 4 = Ok ([], d3, 4%nat, Nat.eqb 4 (length chunk))).
    { unfold dec_notify, dec_iterate, dec_step. cbn [k_st d2]. unfold dec_tkl. cbn [k_h d2]. rewrite Ht.
      replace (0 <? N.of_nat tkl) with true by (symmetry; apply N.ltb_lt; lia). cbn [bind]. rewrite NL by lia. reflexivity. }
    assert (N4 : dec_notify chunk last d3 4 = Ok ([], d4, 4%nat, Nat.eqb 4 (length chunk))).
    { unfold dec_notify, dec_iterate, dec_step. cbn [k_st d3 bind]. rewrite NL by lia. reflexivity. }
    assert (N5 : dec_notify chunk last d4 4 = Ok ([EToken tok], d5, (4 + tkl)%nat, Nat.eqb (4 + tkl) (length chunk))).
    { unfold dec_notify, dec_iterate, dec_step. cbn [k_st d4]. unfold remainder, dec_tkl. cbn [k_h k_tok k_tpos d4].
      replace (skipn 4 chunk) with (tok ++ rest) by (unfold chunk; destruct h; reflexivity).
      rewrite Ht. replace (tok_loop (N.of_nat tkl) (tok ++ rest) (k_tok d) 0 0)
        with (tok_loop (N.of_nat (0 + tkl)) (tok ++ rest) (k_tok d) (N.of_nat 0) 0) by reflexivity.
      rewrite tok_loop_all; [|lia|lia|assumption|rewrite app_length; lia].
      cbn [bind firstn app Nat.add].
      replace (firstn tkl (tok ++ rest)) with tok.
      2:{ rewrite <- Hl. rewrite firstn_app, Nat.sub_diag, firstn_all. cbn. now rewrite app_nil_r. }
      fold t5. rewrite NL by lia. cbn [bind].
      replace (Nat.eqb tkl 0) with false by (symmetry; now apply Nat.eqb_neq).
      unfold dec_events, dec_tkl. cbn [k_st k_h k_tok k_od]. rewrite Ht, Nat2N.id.
      replace (firstn tkl t5) with tok.
      2:{ unfold t5. rewrite <- Hl at 1. rewrite firstn_app, Nat.sub_diag, firstn_all. cbn. now rewrite app_nil_r. }
      reflexivity. }
    destruct (HT (N.of_nat tkl) t5 (tok_alias t5 (N.of_nat tkl))) as (N6 & P); auto; try congruence.
    { intros _. apply tok_alias_st; [assumption|lia|lia]. }
    { apply tok_alias_od; [assumption|unfold byte_ok; lia]. }
    eexists. eexists. split; [|split; [|exact P]].
    2:{ change [EHeader h; EToken tok; EOptStart] with ([] ++ [EHeader h] ++ [] ++ [] ++ [EToken tok] ++ [EOptStart] ++ []).
        eapply nsS; [exact N1|apply Hstop; [discriminate|lia]|].
        eapply nsS; [exact N2|apply Hstop; [discriminate|lia]|].
        eapply nsS; [exact N3|apply Hstop; [discriminate|lia]|].
        eapply nsS; [exact N4|apply Hstop; [discriminate|lia]|].
        eapply nsS; [exact N5|apply Hstop; [discriminate|lia]|].
        eapply nsS; [exact N6|apply Hstop; [discriminate|lia]|]. apply ns0. }
    lia.
Qed.

(** * After the options *)

Lemma run_done_payload : forall chunk d pos k, k_st d = OptionsDone -> d_st (k_od d) = OPayload ->
  (pos <= length chunk)%nat ->
  dec_run (3 + k) chunk d pos =
  Ok ([EPayload (skipn pos chunk) true; ECompleted], k_goto RDone d, length chunk).
Proof.
  intros chunk d pos k Hs Hp Hl.
  assert (N1 : dec_notify chunk true d pos = Ok ([EPayload (skipn pos chunk) true], k_goto RPayload d, pos, Nat.eqb pos (length chunk))).
  { unfold dec_notify, dec_iterate, dec_step. rewrite Hs, Hp. cbn [ostate_eqb bind].
    replace (pos <=? length chunk)%nat with true by (symmetry; now apply Nat.leb_le). reflexivity. }
  assert (N2 : forall p, dec_notify chunk true (k_goto RPayload d) p = Ok ([], k_goto PayloadDone d, length chunk, Nat.eqb (length chunk) (length chunk))).
  { intros p. unfold dec_notify, dec_iterate, dec_step. cbn [k_st k_goto bind]. rewrite Nat.leb_refl. reflexivity. }
  assert (N3 : dec_notify chunk true (k_goto PayloadDone d) (length chunk) = Ok ([ECompleted], k_goto RDone d, length chunk, Nat.eqb (length chunk) (length chunk))).
  { unfold dec_notify, dec_iterate, dec_step. cbn [k_st k_goto bind]. rewrite Nat.leb_refl. reflexivity. }
  cbn [Nat.add dec_run]. rewrite N1. cbn [bind rstate_eqb k_st k_goto].
  rewrite N2. cbn [bind rstate_eqb k_st k_goto].
  rewrite N3. reflexivity.
Qed.

Lemma run_done_end : forall chunk d k, k_st d = OptionsDone -> d_st (k_od d) <> OPayload ->
  dec_run (1 + k) chunk d (length chunk) = Ok ([ECompleted], k_goto RDone d, length chunk).
Proof.
  intros chunk d k Hs Hp. apply (run_last chunk d (length chunk) _ _ _ (Nat.eqb (length chunk) (length chunk))); [|reflexivity].
  unfold dec_notify, dec_iterate, dec_step. rewrite Hs.
  replace (ostate_eqb (d_st (k_od d)) OPayload) with false by (destruct (d_st (k_od d)); try reflexivity; congruence).
  rewrite Nat.eqb_refl. cbn [andb bind]. rewrite Nat.leb_refl. cbn [bind]. rewrite Nat.eqb_refl. reflexivity.
Qed.

(** * The options phase of the last chunk as a whole *)

Definition opt_st (e : oend) : ostate := match e with EndMarker _ => OPayload | _ => OptionValueDone end.

Definition opt_fuel (n : nat) : nat := (3 * n + N.to_nat 65570)%nat.

Lemma run_start_fresh : forall chunk d pos k, k_st d = OptionsStart -> (pos < length chunk)%nat ->
  dec_run k chunk d pos = dec_run k chunk (opt_fresh d) pos.
Proof. intros chunk d pos [|k] Hs Hp; [reflexivity|]. cbn [dec_run]. now rewrite notify_start. Qed.

Lemma fuel_split : forall n m, (n <= m)%nat -> m = (n + (m - n))%nat.
Proof. intros. lia. Qed.

(** stringing the pieces together *)
Lemma run_pieces : forall chunk d pos n es d1 pos1 fs m d2 pos2 fuel,
  nsteps chunk true stop_done n d pos es d1 pos1 ->
  (forall k, dec_run (m + k) chunk d1 pos1 = Ok (fs, d2, pos2)) -> (n + m <= fuel)%nat ->
  dec_run fuel chunk d pos = Ok (es ++ fs, d2, pos2).
Proof.
  intros chunk d pos n es d1 pos1 fs m d2 pos2 fuel H1 H2 Hf.
  replace fuel with (n + (m + (fuel - n - m)))%nat by lia.
  rewrite (run_steps _ _ _ _ _ _ _ H1). rewrite H2. reflexivity.
Qed.

Lemma run_fault : forall chunk d pos n es d1 pos1 fuel,
  nsteps chunk true stop_done n d pos es d1 pos1 -> dec_notify chunk true d1 pos1 = Fault -> (n + 1 <= fuel)%nat ->
  dec_run fuel chunk d pos = Fault.
Proof.
  intros chunk d pos n es d1 pos1 fuel H1 H2 Hf.
  replace fuel with (n + (1 + (fuel - n - 1)))%nat by lia.
  rewrite (run_steps _ _ _ _ _ _ _ H1). cbn [Nat.add dec_run]. rewrite H2. reflexivity.
Qed.

Lemma stop_done_options : forall (chunk : list N) d p, k_st d = ROptions -> (p < length chunk)%nat -> stop_done d p = false.
Proof. intros chunk d p H _. unfold stop_done. rewrite H. reflexivity. Qed.

Lemma options_run : forall chunk d pos, bytes_ok chunk -> k_st d = OptionsStart -> dec_mem d ->
  (pos < length chunk)%nat ->
  forall fuel, (opt_fuel (length chunk - pos) <= fuel)%nat ->
  match parse 0 pos (skipn pos chunk) with
  | (vs, EndReserved) => dec_run fuel chunk d pos = Fault
  | (vs, EndInHead) =>
      dec_run fuel chunk d pos = Fault \/
      exists es d1, Forall hollow es /\
        dec_run fuel chunk d pos = Ok (map (vev 0 chunk) vs ++ es ++ [EOptDone; ECompleted], d1, length chunk) /\
        k_st d1 = RDone /\ d_st (k_od d1) = OptionValueDone
  | (vs, e) =>
      exists d1, dec_run fuel chunk d pos = Ok (map (vev 0 chunk) vs ++ opt_tail e chunk, d1, length chunk) /\
        k_st d1 = RDone /\ d_st (k_od d1) = opt_st e /\ dec_mem d1
  end.
Proof.
  intros chunk d pos Hok Hs Hmem Hp fuel Hf.
  rewrite run_start_fresh by assumption.
  destruct Hmem as (M1 & M2 & M3).
  set (o0 := od_goto FirstByte (k_od d)).
  assert (Hbs : bytes_ok (skipn pos chunk)) by now apply bytes_ok_skipn.
  assert (HR := drive_parse (length (skipn pos chunk)) (skipn pos chunk) o0 holder_reset pos (le_n _)
    (or_introl eq_refl) ltac:(cbn; lia) Hbs).
  cbn [hd_num holder_reset] in HR. fold (parse 0 pos (skipn pos chunk)) in HR. unfold refines in HR.
  assert (Hlinv : linv (k_od (opt_fresh d)) (k_hold (opt_fresh d))).
  { apply linv_fresh; [reflexivity|]. exact M3. }
  assert (Hnp : d_st (k_od (opt_fresh d)) <> OPayload) by discriminate.
  assert (HLEN : (3 * length (skipn pos chunk) + 3 + N.to_nat 65567 <= fuel)%nat)
    by (rewrite skipn_length; unfold opt_fuel in Hf; lia).
  destruct (parse 0 pos (skipn pos chunk)) as [vs e]. cbn [fst snd] in HR.
  (* the drained part *)
  assert (HD : forall o1 h1 e1, mrun o0 holder_reset pos (skipn pos chunk) (Ok (vs, o1, h1, e1)) ->
    exists n, (n < 3 * length (skipn pos chunk) + 4)%nat /\
      nsteps chunk true stop_done n (opt_fresh d) pos (map (vev 0 chunk) vs ++ fin_events chunk true o1 e1)
        (opt_out chunk true d o1 h1 e1) e1 /\ linv o1 h1 /\ (e1 <= length chunk)%nat).
  { intros o1 h1 e1 Hm. apply mrun_drive in Hm; [|discriminate]. unfold od_drive in Hm.
    destruct (drain chunk true stop_done 0 Hok (stop_done_options chunk) _ (opt_fresh d) pos vs o1 h1 e1 eq_refl Hp Hnp Hlinv Hm)
      as (n & es & dm & pm & fs & pos1 & fin & A1 & A2 & A3 & A4 & A5 & A6 & A7 & A8 & A9 & A10).
    cbn in A6. subst pos1. exists (n + 1)%nat. split; [lia|]. split; [|auto].
    rewrite <- A10. eapply nsteps_snoc; [exact A2|exact A5|].
    unfold stop_done, opt_out. cbn [k_st k_goto opt_dec].
    destruct (fin_state_cases chunk true o1 e1) as [-> | ->]; reflexivity. }
  destruct e.
  - (* EndClean *)
    destruct HR as (o1 & h1 & e1 & Hm & Hb & He). cbn in He.
    assert (He' : e1 = length chunk) by (rewrite skipn_length in He; lia). clear He. subst e1.
    assert (Hv : d_st o1 = OptionValueDone).
    { destruct Hb as [Hb|Hb]; [|exact Hb]. exfalso.
      apply (mrun_not_first _ _ _ _ _ Hm); [lia|exact Hb]. }
    destruct (HD _ _ _ Hm) as (n & A1 & A2 & A3 & _).
    unfold opt_out, fin_events in A2. rewrite fin_vd in A2 by assumption.
    set (dd := k_goto OptionsDone (opt_dec d o1 h1)) in *.
    exists (k_goto RDone dd). split.
    + cbn [opt_tail]. change [EOptDone; ECompleted] with ([EOptDone] ++ [ECompleted]). rewrite app_assoc.
      eapply run_pieces; [exact A2| |].
      * intros k. apply run_done_end; [reflexivity|]. cbn. rewrite Hv. discriminate.
      * lia.
    + split; [reflexivity|]. split; [exact Hv|]. unfold dec_mem. cbn. split; [assumption|]. split; [assumption|apply A3].
  - (* EndMarker *)
    destruct HR as (o1 & h1 & e1 & Hm & Hb & ->).
    destruct (HD _ _ _ Hm) as (n & A1 & A2 & A3 & A4).
    unfold opt_out, fin_events in A2.
    assert (Ef : fin_state chunk true o1 at_ = OptionsDone) by (unfold fin_state; rewrite Hb; reflexivity).
    rewrite Ef in A2. set (dd := k_goto OptionsDone (opt_dec d o1 h1)) in *.
    exists (k_goto RDone dd). split.
    + cbn [opt_tail].
      change [EOptDone; EPayload (skipn at_ chunk) true; ECompleted]
        with ([EOptDone] ++ [EPayload (skipn at_ chunk) true; ECompleted]). rewrite app_assoc.
      eapply run_pieces; [exact A2| |].
      * intros k. apply run_done_payload; [reflexivity|exact Hb|exact A4].
      * lia.
    + split; [reflexivity|]. split; [exact Hb|]. unfold dec_mem. cbn. split; [assumption|]. split; [assumption|apply A3].
  - (* EndReserved *)
    destruct HR as (pre & c & post & o1 & h1 & e1 & E & Hne & Hm & Hq & Hft).
    assert (HF : mrun o0 holder_reset pos (skipn pos chunk) Fault).
    { rewrite E. change (@Fault oout) with (addv vs Fault). exact (mrun_app _ _ _ _ _ Hm (c :: post) Hq _ (Hft post)). }
    apply mrun_drive in HF; [|discriminate].
    destruct (drain_fault chunk true stop_done 0 Hok (stop_done_options chunk) _ (opt_fresh d) pos eq_refl Hp Hnp Hlinv HF)
      as (n & es & dm & pm & A1 & A2 & A3 & A4 & A5).
    eapply run_fault; [exact A2|exact A5|]. lia.
  - (* EndInHead *)
    destruct HR as (o1 & h1 & e1 & Hm & Hb & He).
    assert (He' : e1 = length chunk) by (rewrite skipn_length in He; lia). clear He. subst e1.
    destruct (HD _ _ _ Hm) as (n & A1 & A2 & (A3 & A3b & A3c) & _).
    assert (Np : d_st o1 <> OPayload) by (intro X; unfold midhead in Hb; rewrite X in Hb; exact Hb).
    assert (Nv : d_st o1 <> OptionValueDone) by (intro X; unfold midhead in Hb; rewrite X in Hb; exact Hb).
    assert (Ef : fin_state chunk true o1 (length chunk) = ROptions).
    { unfold fin_state. destruct (d_st o1); try congruence; cbn; rewrite andb_false_r; reflexivity. }
    unfold opt_out, fin_events in A2. rewrite Ef, app_nil_r in A2.
    change (k_goto ROptions (opt_dec d o1 h1)) with (opt_dec d o1 h1) in A2.
    pose proof (erank_bound o1 A3b) as HB.
    destruct (ghost chunk (N.to_nat (erank o1)) (opt_dec d o1 h1) eq_refl A3 A3b Np Nv (le_n _))
      as [(m & es & dm & B1 & B2 & B3 & B4 & _)|(m & es & o2 & B1 & B2 & B3 & B4 & B5)].
    + left. eapply run_fault; [eapply nsteps_app; [exact A2|exact B2]|exact B4|]. lia.
    + right. exists es. set (dd := k_goto OptionsDone (opt_dec (opt_dec d o1 h1) o2 (k_hold (opt_dec d o1 h1)))) in *.
      exists (k_goto RDone dd). split; [assumption|]. split; [|split; [reflexivity|exact B4]].
      replace (map (vev 0 chunk) vs ++ es ++ [EOptDone; ECompleted])
        with ((map (vev 0 chunk) vs ++ es ++ [EOptDone]) ++ [ECompleted]) by (rewrite <- !app_assoc; reflexivity).
      eapply run_pieces; [eapply nsteps_app; [exact A2|exact B2]| |].
      * intros k. apply run_done_end; [reflexivity|]. cbn. rewrite B4. discriminate.
      * lia.
  - (* EndAfterHead *)
    destruct HR as (o1 & h1 & e1 & Hm & Hb & Hh & He).
    assert (He' : e1 = length chunk) by (rewrite skipn_length in He; lia). clear He. subst e1 h1.
    destruct (HD _ _ _ Hm) as (n & A1 & A2 & (A3 & A3b & A3c) & _).
    destruct Hb as (Np & _ & Nv & _ & _ & _ & Hstep). destruct (Hstep 0) as (o2 & E2 & S2 & L2).
    assert (Ef : fin_state chunk true o1 (length chunk) = ROptions).
    { unfold fin_state. destruct (d_st o1); try congruence; cbn; rewrite andb_false_r; reflexivity. }
    unfold opt_out, fin_events in A2. rewrite Ef, app_nil_r in A2.
    change (k_goto ROptions (opt_dec d o1 (Holder num l))) with (opt_dec d o1 (Holder num l)) in A2.
    assert (N2 := notify_eof chunk (opt_dec d o1 (Holder num l)) o2 false eq_refl E2 ltac:(intros _; eauto)).
    unfold opt_out, fin_events, eof_events in N2. rewrite fin_state_vs, S2, L2, app_nil_r in N2 by assumption.
    cbn [k_hold opt_dec hd_len hd_num] in N2.
    change (k_goto ROptions ?x) with x in N2.
    assert (EV : (if 0 <? l then [EOption num [] (l =? 0)] else [EOption num [] true]) = [EOption num [] (l =? 0)]).
    { destruct (N.ltb_spec 0 l); [reflexivity|]. replace l with 0 by lia. reflexivity. }
    rewrite EV in N2. clear EV.
    assert (B2 := od_bytes_step 0 _ _ _ A3b ltac:(unfold byte_ok; lia) E2).
    assert (HL : l < 65536) by (destruct B2 as (_ & B2 & _); exact (get_value_bound _ _ _ _ B2 L2)).
    set (d2 := opt_dec (opt_dec d o1 (Holder num l)) o2 (Holder num l)) in *.
    assert (HE : exists m o3, (m <= N.to_nat 65540)%nat /\ d_st o3 = OptionValueDone /\ od_bytes o3 /\
      nsteps chunk true stop_done m d2 (length chunk) [EOptDone] (k_goto OptionsDone (opt_dec d2 o3 (k_hold d2))) (length chunk)).
    { set (o3 := od_goto (if l =? 0 then OptionValueDone else OptionValue) (od_set_vlen l o2)).
      assert (E3 : od_step 0 (k_od d2) = Ok (o3, false)).
      { cbn [k_od d2 opt_dec]. unfold od_step. rewrite S2, L2. reflexivity. }
      assert (B3 := od_bytes_step 0 _ _ _ (B2 : od_bytes (k_od d2)) ltac:(unfold byte_ok; lia) E3).
      destruct (N.eqb_spec l 0) as [Z|NZ].
      - assert (S3 : d_st o3 = OptionValueDone) by reflexivity.
        assert (N3 := notify_eof chunk d2 o3 false eq_refl E3 ltac:(rewrite S3; discriminate)).
        unfold opt_out, fin_events, eof_events in N3. rewrite fin_vd, S3 in N3 by assumption.
        exists 1%nat, o3. split; [lia|]. split; [assumption|]. split; [exact B3|].
        eapply nsteps_one; [exact N3|reflexivity].
      - assert (S3 : d_st o3 = OptionValue) by reflexivity.
        assert (N3 := notify_eof chunk d2 o3 false eq_refl E3 ltac:(rewrite S3; discriminate)).
        assert (Ef3 : fin_state chunk true o3 (length chunk) = ROptions) by (unfold fin_state; rewrite S3; cbn; now rewrite andb_false_r).
        unfold opt_out, fin_events, eof_events in N3. rewrite Ef3, S3 in N3.
        change (k_goto ROptions ?x) with x in N3.
        destruct (ghost_value chunk (N.to_nat l - 1) (opt_dec d2 o3 (k_hold d2)) eq_refl S3) as (o4 & S4 & B4 & C4).
        { cbn [k_od opt_dec]. unfold o3. rewrite vlen_set. lia. }
        { lia. }
        { exact B3. }
        exists (S (S (N.to_nat l - 1))), o4. split; [lia|]. split; [assumption|]. split; [assumption|].
        eapply (nsS chunk true stop_done _ d2 (length chunk) [] (opt_dec d2 o3 (k_hold d2)) (length chunk) true [EOptDone]);
          [exact N3|reflexivity|exact C4]. }
    destruct HE as (m & o3 & C1 & C2 & C3 & C4).
    set (dd := k_goto OptionsDone (opt_dec d2 o3 (k_hold d2))) in *.
    exists (k_goto RDone dd). split.
    + cbn [opt_tail].
      change [EOption num [] (l =? 0); EOptDone; ECompleted] with ([EOption num [] (l =? 0)] ++ [EOptDone] ++ [ECompleted]).
      rewrite !app_assoc.
      eapply run_pieces; [eapply nsteps_app; [eapply nsteps_snoc; [exact A2|exact N2|reflexivity]|exact C4]| |].
      * intros k. apply run_done_end; [reflexivity|]. cbn. rewrite C2. discriminate.
      * lia.
    + split; [reflexivity|]. split; [exact C2|]. unfold dec_mem. cbn. auto.
  - (* EndInValue *)
    destruct HR as (o1 & h1 & e1 & Hm & Hb & Hv & Hk & He).
    assert (He' : e1 = length chunk) by (rewrite skipn_length in He; lia). clear He. subst e1.
    destruct (HD _ _ _ Hm) as (n & A1 & A2 & (A3 & A3b & A3c) & _).
    assert (Ef : fin_state chunk true o1 (length chunk) = ROptions).
    { unfold fin_state. rewrite Hb. cbn. now rewrite andb_false_r. }
    unfold opt_out, fin_events in A2. rewrite Ef, app_nil_r in A2.
    change (k_goto ROptions (opt_dec d o1 h1)) with (opt_dec d o1 h1) in A2.
    destruct (ghost_value chunk (N.to_nat missing - 1) (opt_dec d o1 h1) eq_refl Hb) as (o4 & S4 & B4 & C4).
    { cbn [k_od opt_dec]. rewrite Hv. lia. }
    { lia. }
    { exact A3b. }
    set (dd := k_goto OptionsDone (opt_dec (opt_dec d o1 h1) o4 (k_hold (opt_dec d o1 h1)))) in *.
    exists (k_goto RDone dd). split.
    + cbn [opt_tail]. change [EOptDone; ECompleted] with ([EOptDone] ++ [ECompleted]). rewrite app_assoc.
      eapply run_pieces; [eapply nsteps_app; [exact A2|exact C4]| |].
      * intros k. apply run_done_end; [reflexivity|]. cbn. rewrite S4. discriminate.
      * lia.
    + split; [reflexivity|]. split; [exact S4|]. unfold dec_mem. cbn. auto.
Qed.

(** * Whole messages *)

Lemma run_idle : forall chunk d k, k_st d = RDone -> 
  dec_run (S k) chunk d 0 = dec_run k chunk (k_goto Uninitialized d) 0.
Proof.
  intros chunk d k Hs. cbn [dec_run]. unfold dec_notify, dec_iterate, dec_step. rewrite Hs. cbn.
  destruct (dec_run k chunk (k_goto Uninitialized d) 0) as [[[? ?] ?]| |]; reflexivity.
Qed.

(** up to the start of the options *)
Lemma message_start : forall d h tok rest tkl fuel,
  idle d -> bytes_ok (hdr_bytes h ++ tok ++ rest) ->
  hdr_tkl h = N.of_nat tkl -> length tok = tkl -> (tkl <= 8)%nat ->
  (7 <= fuel)%nat ->
  exists d1 k, (fuel <= k + 7)%nat /\ prefix_ok d d1 h tkl /\
    dec_run fuel (hdr_bytes h ++ tok ++ rest) d 0 =
    addev [EHeader h; EToken tok; EOptStart] (dec_run k (hdr_bytes h ++ tok ++ rest) d1 (4 + tkl)).
Proof.
  intros d h tok rest tkl fuel (Hs & Hm) Hok Ht Hl H8 Hf.
  assert (G : forall d' fuel', k_st d' = Uninitialized -> dec_mem d' -> (6 <= fuel')%nat ->
    exists d1 k, (fuel' <= k + 6)%nat /\ prefix_ok d' d1 h tkl /\
    dec_run fuel' (hdr_bytes h ++ tok ++ rest) d' 0 =
    addev [EHeader h; EToken tok; EOptStart] (dec_run k (hdr_bytes h ++ tok ++ rest) d1 (4 + tkl))).
  { intros d' fuel' Hs' Hm' Hf'.
    destruct (prefix_steps true stop_done d' h tok rest tkl Hs' Hm' Hok Ht Hl H8) as (n & d1 & A & B & C).
    { intros x p Hx _. unfold stop_done. destruct (k_st x); try reflexivity. congruence. }
    exists d1, (fuel' - n)%nat. split; [lia|]. split; [assumption|].
    replace fuel' with (n + (fuel' - n))%nat at 1 by lia. apply run_steps. exact B. }
  destruct Hs as [Hs|Hs].
  - destruct (G d fuel Hs Hm ltac:(lia)) as (d1 & k & A & B & C). exists d1, k. split; [lia|]. auto.
  - destruct fuel as [|fuel]; [lia|]. rewrite run_idle by assumption.
    destruct (G (k_goto Uninitialized d) fuel eq_refl Hm ltac:(lia)) as (d1 & k & A & B & C).
    exists d1, k. split; [lia|]. split; [exact B|exact C].
Qed.

Lemma skipn_prefix : forall h tok rest tkl, length tok = tkl -> skipn (4 + tkl) (hdr_bytes h ++ tok ++ rest) = rest.
Proof.
  intros h tok rest tkl Hl. cbn [hdr_bytes app Nat.add]. rewrite !skipn_cons. subst tkl.
  rewrite skipn_app, Nat.sub_diag, skipn_all. reflexivity.
Qed.

Lemma prefix_length : forall h tok rest tkl, length tok = tkl ->
  length (hdr_bytes h ++ tok ++ rest) = (4 + tkl + length rest)%nat.
Proof. intros h tok rest tkl Hl. rewrite !app_length, Hl. cbn [hdr_bytes length]. lia. Qed.

(** ... and with something after the token *)
Lemma message_run : forall d h tok rest tkl fuel,
  idle d -> bytes_ok (hdr_bytes h ++ tok ++ rest) ->
  hdr_tkl h = N.of_nat tkl -> length tok = tkl -> (tkl <= 8)%nat -> rest <> [] ->
  (dec_fuel (hdr_bytes h ++ tok ++ rest) <= fuel)%nat ->
  let chunk := hdr_bytes h ++ tok ++ rest in
  match parse 0 (4 + tkl) rest with
  | (vs, EndReserved) => dec_run fuel chunk d 0 = Fault
  | (vs, EndInHead) =>
      dec_run fuel chunk d 0 = Fault \/
      exists es d1, Forall hollow es /\
        dec_run fuel chunk d 0 = Ok ([EHeader h; EToken tok; EOptStart] ++
           map (vev 0 chunk) vs ++ es ++ [EOptDone; ECompleted], d1, length chunk) /\ k_st d1 = RDone
  | (vs, e) =>
      exists d1, dec_run fuel chunk d 0 = Ok ([EHeader h; EToken tok; EOptStart] ++
          map (vev 0 chunk) vs ++ opt_tail e chunk, d1, length chunk) /\
        k_st d1 = RDone /\ d_st (k_od d1) = opt_st e /\ dec_mem d1
  end.
Proof.
  intros d h tok rest tkl fuel Hd Hok Ht Hl H8 Hr Hf chunk.
  unfold dec_fuel in Hf.
  destruct (message_start d h tok rest tkl fuel Hd Hok Ht Hl H8 ltac:(lia)) as (d1 & k & Hk & (P1 & P2 & P3 & P4 & P5) & E).
  fold chunk in E. rewrite E.
  assert (Hlen := prefix_length h tok rest tkl Hl). fold chunk in Hlen, Hf.
  assert (Hrl : (0 < length rest)%nat) by (destruct rest; [congruence|cbn; lia]).
  assert (HO := options_run chunk d1 (4 + tkl) Hok P1 P3 ltac:(lia) k ltac:(unfold opt_fuel; lia)).
  replace (skipn (4 + tkl) chunk) with rest in HO by (symmetry; now apply skipn_prefix).
  destruct (parse 0 (4 + tkl) rest) as [vs e]. destruct e.
  - destruct HO as (d2 & -> & A). exists d2. split; [reflexivity|exact A].
  - destruct HO as (d2 & -> & A). exists d2. split; [reflexivity|exact A].
  - rewrite HO. reflexivity.
  - destruct HO as [->|(es & d2 & A1 & -> & A2 & A3)]; [left; reflexivity|right].
    exists es, d2. split; [assumption|]. split; [reflexivity|assumption].
  - destruct HO as (d2 & -> & A). exists d2. split; [reflexivity|exact A].
  - destruct HO as (d2 & -> & A). exists d2. split; [reflexivity|exact A].
Qed.

(** nothing after the token *)
Lemma message_run_bare : forall d h tok tkl fuel,
  idle d -> bytes_ok (hdr_bytes h ++ tok ++ []) ->
  hdr_tkl h = N.of_nat tkl -> length tok = tkl -> (tkl <= 8)%nat -> (20 <= fuel)%nat ->
  let chunk := hdr_bytes h ++ tok ++ [] in
  exists d1, dec_run fuel chunk d 0 = Ok ([EHeader h; EToken tok; EOptStart; EOptDone] ++
     (if Nat.eqb tkl 0 && ostate_eqb (d_st (k_od d)) OPayload then [EPayload [] true] else []) ++ [ECompleted], d1, length chunk) /\
    k_st d1 = RDone /\ dec_mem d1.
Proof.
  intros d h tok tkl fuel Hd Hok Ht Hl H8 Hf chunk.
  destruct (message_start d h tok [] tkl fuel Hd Hok Ht Hl H8 ltac:(lia)) as (d1 & k & Hk & (P1 & P2 & P3 & P4 & P5) & E).
  fold chunk in E. rewrite E.
  assert (Hlen := prefix_length h tok [] tkl Hl). fold chunk in Hlen. cbn [length] in Hlen. rewrite Nat.add_0_r in Hlen.
  assert (N1 : dec_notify chunk true d1 (4 + tkl) = Ok ([EOptDone], k_goto OptionsDone d1, length chunk, Nat.eqb (length chunk) (length chunk))).
  { unfold dec_notify, dec_iterate, dec_step. rewrite P1. unfold remainder.
    rewrite <- Hlen, skipn_end. cbn [length Nat.eqb andb bind]. rewrite Nat.leb_refl. reflexivity. }
  destruct k as [|k]; [lia|]. cbn [dec_run]. rewrite N1. cbn [bind k_st k_goto rstate_eqb].
  destruct (ostate_eqb (d_st (k_od d1)) OPayload) eqn:Ep.
  - assert (Ep' : d_st (k_od d1) = OPayload) by (destruct (d_st (k_od d1)); try discriminate Ep; reflexivity).
    assert (tkl = 0%nat) by (destruct (Nat.eq_dec tkl 0); [assumption|rewrite P5 in Ep' by assumption; discriminate]).
    rewrite <- (P4 H), Ep. replace (Nat.eqb tkl 0) with true by (symmetry; now apply Nat.eqb_eq). cbn [andb].
    exists (k_goto RDone (k_goto OptionsDone d1)). split; [|split; [reflexivity|exact P3]].
    replace k with (3 + (k - 3))%nat by lia. rewrite run_done_payload; [|reflexivity|exact Ep'|lia].
    rewrite skipn_end. reflexivity.
  - exists (k_goto RDone (k_goto OptionsDone d1)). split; [|split; [reflexivity|exact P3]].
    replace (Nat.eqb tkl 0 && ostate_eqb (d_st (k_od d)) OPayload) with false.
    2:{ destruct (Nat.eqb_spec tkl 0); [|reflexivity]. rewrite <- P4 by assumption. rewrite Ep. reflexivity. }
    replace k with (1 + (k - 1))%nat by lia. rewrite run_done_end; [reflexivity|reflexivity|].
    cbn. intro X. rewrite X in Ep. discriminate.
Qed.

(** views of encoded options read back their values *)
Lemma views_events : forall os prev pre t,
  map (vev 0 (pre ++ opts_bytes prev os ++ t)) (views prev (length pre) os) = opt_events os.
Proof.
  induction os as [|[num v] os IH]; intros prev pre t; [reflexivity|].
  cbn [opts_bytes views map opt_events fst snd].
  set (hd := opt_head (num - prev) (len v)).
  f_equal.
  - unfold vev. rewrite Nat.sub_0_r.
    replace (pre ++ (hd ++ v ++ opts_bytes num os) ++ t) with ((pre ++ hd) ++ v ++ opts_bytes num os ++ t) by (rewrite <- !app_assoc; reflexivity).
    rewrite <- app_length. rewrite skipn_app, Nat.sub_diag, skipn_all. cbn [app skipn].
    unfold len. rewrite Nat2N.id, firstn_app, Nat.sub_diag, firstn_all. cbn [firstn]. rewrite app_nil_r.
    replace (length v <=? _)%nat with true; [reflexivity|]. symmetry. apply Nat.leb_le. rewrite app_length. lia.
  - replace (pre ++ (hd ++ v ++ opts_bytes num os) ++ t) with ((pre ++ hd ++ v) ++ opts_bytes num os ++ t) by (rewrite <- !app_assoc; reflexivity).
    replace (length pre + length hd + length v)%nat with (length (pre ++ hd ++ v)) by (rewrite !app_length; lia).
    apply IH.
Qed.

Lemma opts_bytes_app : forall a prev b, opts_bytes prev (a ++ b) = opts_bytes prev a ++ opts_bytes (last_number prev a) b.
Proof.
  induction a as [|[num v] a IH]; intros prev b; [reflexivity|].
  cbn [app opts_bytes]. rewrite IH, last_number_cons, <- !app_assoc. reflexivity.
Qed.

Lemma opts_ok_app : forall a prev b, opts_ok prev (a ++ b) <-> opts_ok prev a /\ opts_ok (last_number prev a) b.
Proof.
  induction a as [|[num v] a IH]; intros prev b; [cbn; tauto|].
  cbn [app opts_ok]. rewrite IH, last_number_cons. tauto.
Qed.

Lemma ends_cases : forall os, os <> [] -> ends_in_value os \/ exists os' num, os = os' ++ [(num, [])].
Proof.
  induction os as [|[num v] os IH]; intros H; [congruence|].
  destruct os as [|p os].
  - destruct v; [right; exists [], num; reflexivity|left; cbn; discriminate].
  - destruct IH as [A|(os' & n & E)]; [discriminate|left; exact A|right].
    exists ((num, v) :: os'), n. rewrite E. reflexivity.
Qed.

(** a header at the very end *)
Lemma parse_head : forall prev off num l, prev <= num -> num < 65536 -> l < 65536 ->
  parse prev off (opt_head (num - prev) l) = ([], EndAfterHead num l).
Proof.
  intros prev off num l Hp Hn Hl. unfold parse, opt_head. cbn [length oparse].
  pose proof (nib_lt (num - prev)) as N1. pose proof (nib_lt l) as N2.
  replace (nib (num - prev) * 16 + nib l =? 255) with false by (symmetry; apply N.eqb_neq; lia).
  replace ((nib (num - prev) * 16 + nib l) / 16) with (nib (num - prev)) by lia.
  replace ((nib (num - prev) * 16 + nib l) mod 16) with (nib l) by lia.
  rewrite take_ext_enc by lia. rewrite <- (app_nil_r (ext l)), take_ext_enc by lia.
  replace ((prev + (num - prev)) mod 65536) with num by lia. reflexivity.
Qed.

(** what the parser finds in well-formed options *)
Lemma parse_message_opts : forall os off, opts_ok 0 os -> os <> [] ->
  (ends_in_value os /\ parse 0 off (opts_bytes 0 os) = (views 0 off os, EndClean)) \/
  (exists os' num, os = os' ++ [(num, [])] /\ parse 0 off (opts_bytes 0 os) = (views 0 off os', EndAfterHead num 0)).
Proof.
  intros os off Hok Hne. destruct (ends_cases os Hne) as [He|(os' & num & ->)]; [left|right].
  - split; [assumption|]. rewrite <- (app_nil_r (opts_bytes 0 os)).
    rewrite parse_opts; [|assumption|constructor|right; assumption]. cbn. rewrite app_nil_r. reflexivity.
  - exists os', num. split; [reflexivity|].
    apply opts_ok_app in Hok. destruct Hok as (H1 & H2). cbn in H2.
    rewrite opts_bytes_app. cbn [opts_bytes]. cbn [app]. rewrite app_nil_r.
    rewrite parse_opts; [|assumption|apply opt_head_ok; cbn; lia|left; discriminate].
    cbn zeta. rewrite parse_head by (cbn; lia). cbn [fst snd]. rewrite app_nil_r. reflexivity.
Qed.

Lemma hdr_ok_bytes : forall h, hdr_ok h -> bytes_ok (hdr_bytes h).
Proof. intros h H. exact H. Qed.

Lemma msg_bytes_ok : forall m, msg_ok m -> bytes_ok (msg_bytes m).
Proof.
  intros [h t os p] (A & B & C & D & E & F). unfold msg_bytes. cbn [m_hdr m_tok m_opts m_pay] in *.
  apply bytes_ok_app. split; [now apply hdr_ok_bytes|]. apply bytes_ok_app. split; [assumption|].
  apply bytes_ok_app. split; [now apply opts_bytes_ok|].
  destruct p; [|constructor]. constructor; [unfold byte_ok; lia|assumption].
Qed.

Lemma tkl_mod : forall h, hdr_tkl h = h0 h mod 16.
Proof. intros. apply nib_lo. Qed.

Lemma pay_at : forall h tok os b tkl, length tok = tkl ->
  skipn (4 + tkl + length (opts_bytes 0 os) + 1) (hdr_bytes h ++ tok ++ opts_bytes 0 os ++ 255 :: b) = b.
Proof.
  intros h tok os b tkl Hl.
  replace (hdr_bytes h ++ tok ++ opts_bytes 0 os ++ 255 :: b)
    with ((hdr_bytes h ++ tok ++ opts_bytes 0 os ++ [255]) ++ b) by (rewrite <- !app_assoc; reflexivity).
  replace (4 + tkl + length (opts_bytes 0 os) + 1)%nat with (length (hdr_bytes h ++ tok ++ opts_bytes 0 os ++ [255])).
  2:{ rewrite !app_length, Hl. cbn [hdr_bytes length]. lia. }
  rewrite skipn_app, Nat.sub_diag, skipn_all. reflexivity.
Qed.

Lemma whole_message : forall m d fuel, msg_ok m -> m_opts m <> [] \/ m_pay m <> None -> idle d ->
  (dec_fuel (msg_bytes m) <= fuel)%nat ->
  exists d1, dec_run fuel (msg_bytes m) d 0 = Ok (msg_events m, d1, length (msg_bytes m)) /\
    k_st d1 = RDone /\ dec_mem d1 /\
    d_st (k_od d1) = match m_pay m with Some _ => OPayload | None => OptionValueDone end.
Proof.
  intros m d fuel Hm Hne Hd Hf.
  assert (Hok := msg_bytes_ok m Hm).
  destruct m as [h tok os p]. destruct Hm as (A & B & C & D & E & F). cbn [m_hdr m_tok m_opts m_pay] in *.
  unfold msg_bytes in *. cbn [m_hdr m_tok m_opts m_pay] in *.
  assert (Ht : hdr_tkl h = N.of_nat (length tok)) by (rewrite tkl_mod; exact B).
  assert (Hr : opts_bytes 0 os ++ pay_bytes p <> []).
  { destruct os as [|[n v] os]; [|cbn; discriminate]. destruct p; [discriminate|]. destruct Hne; congruence. }
  assert (HM := message_run d h tok (opts_bytes 0 os ++ pay_bytes p) (length tok) fuel Hd Hok Ht eq_refl C Hr Hf).
  cbn zeta in HM. unfold msg_events. cbn [m_hdr m_tok m_opts m_pay].
  set (pre := hdr_bytes h ++ tok).
  assert (EV : forall t, map (vev 0 (hdr_bytes h ++ tok ++ opts_bytes 0 os ++ t)) (views 0 (4 + length tok) os) = opt_events os).
  { intros t. replace (hdr_bytes h ++ tok ++ opts_bytes 0 os ++ t) with (pre ++ opts_bytes 0 os ++ t) by (unfold pre; rewrite <- app_assoc; reflexivity).
    replace (4 + length tok)%nat with (length pre) by (unfold pre; rewrite app_length; reflexivity).
    apply views_events. }
  destruct p as [b|].
  - cbn [pay_bytes] in *.
    rewrite parse_opts in HM; [|assumption|constructor; [unfold byte_ok; lia|assumption]|left; discriminate].
    cbn zeta in HM. unfold parse in HM. cbn [length oparse] in HM. change (255 =? 255) with true in HM.
    cbn iota in HM. cbn [fst snd] in HM. rewrite app_nil_r in HM.
    destruct HM as (d1 & E1 & E2 & E3 & E4). exists d1. rewrite E1. split; [|auto].
    rewrite EV. unfold opt_tail. rewrite pay_at by reflexivity. reflexivity.
  - cbn [pay_bytes] in *. assert (Hos : os <> []) by (destruct Hne; congruence).
    rewrite (app_nil_r (opts_bytes 0 os)) in HM. specialize (EV []).
    rewrite (app_nil_r (opts_bytes 0 os)) in *.
    destruct (parse_message_opts os (4 + length tok) E Hos) as [(He & EP)|(os' & num & -> & EP)]; rewrite EP in HM.
    + destruct HM as (d1 & E1 & E2 & E3 & E4). exists d1. rewrite E1. split; [|auto]. rewrite EV. reflexivity.
    + destruct HM as (d1 & E1 & E2 & E3 & E4). exists d1. rewrite E1. split; [|auto].
      assert (EV' : map (vev 0 (hdr_bytes h ++ tok ++ opts_bytes 0 (os' ++ [(num, [])]))) (views 0 (4 + length tok) os') = opt_events os').
      { rewrite opts_bytes_app.
        replace (hdr_bytes h ++ tok ++ opts_bytes 0 os' ++ opts_bytes (last_number 0 os') [(num, [])])
          with (pre ++ opts_bytes 0 os' ++ opts_bytes (last_number 0 os') [(num, [])]) by (unfold pre; rewrite <- app_assoc; reflexivity).
        replace (4 + length tok)%nat with (length pre) by (unfold pre; rewrite app_length; reflexivity).
        apply views_events. }
      rewrite EV'. unfold opt_events. rewrite map_app. cbn [map fst snd opt_tail pay_events].
      change (0 =? 0) with true. rewrite <- !app_assoc. reflexivity.
Qed.

(** * Input that stops inside the header or the token *)

Lemma stuck_header : forall chunk h hp t tp o ho k,
  dec_run k chunk (Dec RHeader h hp t tp o ho) (length chunk) = NoFuel.
Proof.
  intros chunk h hp t tp o ho. induction k as [|k IH]; [reflexivity|].
  cbn [dec_run]. unfold dec_notify, dec_iterate, dec_step. cbn [k_st]. unfold remainder. rewrite skipn_end.
  cbn [k_h k_hpos k_tok k_tpos k_od k_hold hdr_loop bind]. rewrite Nat.add_0_r, Nat.leb_refl. cbn [bind dec_events k_st rstate_eqb].
  rewrite IH. reflexivity.
Qed.

Lemma stuck_token : forall chunk h hp t tp o ho k,
  dec_run k chunk (Dec RToken h hp t tp o ho) (length chunk) = NoFuel.
Proof.
  intros chunk h hp t tp o ho. induction k as [|k IH]; [reflexivity|].
  cbn [dec_run]. unfold dec_notify, dec_iterate, dec_step. cbn [k_st]. unfold remainder. rewrite skipn_end.
  cbn [k_h k_hpos k_tok k_tpos k_od k_hold tok_loop bind]. rewrite Nat.add_0_r, Nat.leb_refl. cbn [bind dec_events k_st rstate_eqb Nat.eqb].
  rewrite IH. reflexivity.
Qed.

Lemma short_header : forall bs d fuel, idle d -> (length bs < 4)%nat -> dec_run fuel bs d 0 = NoFuel.
Proof.
  intros bs d fuel (Hs & _) Hl.
  assert (G : forall d' fuel', k_st d' = Uninitialized -> dec_run fuel' bs d' 0 = NoFuel).
  { clear d fuel Hs. intros d fuel Hs. destruct fuel as [|fuel]; [reflexivity|].
    cbn [dec_run]. unfold dec_notify at 1. unfold dec_iterate, dec_step. rewrite Hs. cbn [bind Nat.leb dec_events k_st rstate_eqb].
    match goal with |- bind ?x _ = _ => replace x with (@NoFuel (list event * dec * nat)); [reflexivity|symmetry] end.
    destruct fuel as [|fuel]; [reflexivity|].
    cbn [dec_run]. unfold dec_notify at 1. unfold dec_iterate, dec_step. cbn [k_st]. unfold remainder. cbn [skipn k_h k_hpos].
    assert (E : exists h hp, hdr_loop bs (k_h d) 0 0 = Ok (h, hp, length bs, false)).
    { destruct bs as [|a [|b [|c [|e bs]]]]; cbn [length] in Hl; try lia; do 2 eexists; reflexivity. }
    destruct E as (h & hp & E). rewrite E. cbn [bind Nat.add]. rewrite Nat.leb_refl. cbn [bind dec_events k_st rstate_eqb k_tok k_tpos k_od k_hold].
    rewrite stuck_header. reflexivity. }
  destruct Hs as [Hs|Hs]; [auto|]. destruct fuel as [|fuel]; [reflexivity|]. rewrite run_idle by assumption. apply G. reflexivity.
Qed.

(** header read, token about to be read *)
Lemma to_token : forall d h rest fuel, idle d -> hdr_tkl h <> 0 -> (6 <= fuel)%nat ->
  exists k, (fuel <= k + 5)%nat /\
    dec_run fuel (hdr_bytes h ++ rest) d 0 =
    addev [EHeader h] (dec_run k (hdr_bytes h ++ rest) (Dec RToken h 4 (k_tok d) 0 (k_od d) (k_hold d)) 4).
Proof.
  intros d h rest fuel (Hs & _) Ht Hf.
  assert (G : forall d' fuel', k_st d' = Uninitialized -> (5 <= fuel')%nat -> exists k, (fuel' <= k + 4)%nat /\
    dec_run fuel' (hdr_bytes h ++ rest) d' 0 =
    addev [EHeader h] (dec_run k (hdr_bytes h ++ rest) (Dec RToken h 4 (k_tok d') 0 (k_od d') (k_hold d')) 4)).
  { clear d fuel Hs Hf. intros d fuel Hs Hf. set (chunk := hdr_bytes h ++ rest).
    assert (Hlen : (4 <= length chunk)%nat) by (unfold chunk; rewrite app_length; cbn [hdr_bytes length]; lia).
    assert (NL : forall y : res (dec * nat * bool), (if (4 <=? length chunk)%nat then y else Fault) = y).
    { intros y. replace (4 <=? length chunk)%nat with true by (symmetry; now apply Nat.leb_le). reflexivity. }
    exists (fuel - 4)%nat. split; [lia|]. replace fuel with (4 + (fuel - 4))%nat at 1 by lia.
    apply run_steps.
    change [EHeader h] with ([] ++ [EHeader h] ++ [] ++ [] ++ []).
    eapply nsS; [unfold dec_notify, dec_iterate, dec_step; rewrite Hs; cbn [bind Nat.leb dec_events k_st]; reflexivity|reflexivity|].
    eapply nsS.
    { unfold dec_notify, dec_iterate, dec_step. cbn [k_st]. unfold remainder. cbn [skipn k_h k_hpos k_tok k_tpos k_od k_hold].
      replace (hdr_loop chunk (k_h d) 0 0) with (Ok (h, 4, 4%nat, true)).
      - cbn [bind Nat.add]. rewrite NL. cbn [bind dec_events k_st]. reflexivity.
      - unfold chunk. destruct h. reflexivity. }
    { reflexivity. }
    eapply nsS.
    { unfold dec_notify, dec_iterate, dec_step. cbn [k_st]. unfold dec_tkl. cbn [k_h].
      replace (0 <? hdr_tkl h) with true by (symmetry; apply N.ltb_lt; lia). cbn [bind]. rewrite NL. cbn [bind dec_events k_st k_goto]. reflexivity. }
    { reflexivity. }
    eapply nsS.
    { unfold dec_notify, dec_iterate, dec_step. cbn [k_st k_goto bind]. rewrite NL. cbn [bind dec_events k_st]. reflexivity. }
    { reflexivity. }
    apply ns0. }
  destruct Hs as [Hs|Hs].
  - destruct (G d fuel Hs ltac:(lia)) as (k & A & B). exists k. split; [lia|exact B].
  - destruct fuel as [|fuel]; [lia|]. rewrite run_idle by assumption.
    destruct (G (k_goto Uninitialized d) fuel eq_refl ltac:(lia)) as (k & A & B). exists k. split; [lia|exact B].
Qed.

Lemma run_nofuel_small : forall chunk k d pos n es d1 pos1, nsteps chunk true stop_done n d pos es d1 pos1 ->
  (k <= n)%nat -> dec_run k chunk d pos = NoFuel.
Proof.
  intros chunk k d pos n es d1 pos1 H. revert k. induction H; intros k Hk.
  - replace k with 0%nat by lia. reflexivity.
  - destruct k as [|k]; [reflexivity|]. cbn [dec_run]. rewrite H. cbn [bind]. unfold stop_done in H0. rewrite H0.
    rewrite IHnsteps by lia. reflexivity.
Qed.

(** once out of fuel, also with less *)
Lemma run_mono : forall chunk k d pos, dec_run (S k) chunk d pos = NoFuel -> dec_run k chunk d pos = NoFuel.
Proof.
  intros chunk. induction k as [|k IH]; intros d pos H; [reflexivity|].
  cbn [dec_run] in H |- *. destruct (dec_notify chunk true d pos) as [[[[es d1] pos1] fin]| |]; cbn [bind] in *; [|discriminate|reflexivity].
  destruct (rstate_eqb (k_st d1) RDone); [discriminate|].
  change (bind (dec_run (S k) chunk d1 pos1) (fun y => let '(fs, d2, pos2) := y in Ok (es ++ fs, d2, pos2)) = NoFuel) in H.
  destruct (dec_run (S k) chunk d1 pos1) as [[[? ?] ?]| |] eqn:E; cbn [bind] in H; try discriminate.
  rewrite IH by assumption. reflexivity.
Qed.

Lemma run_mono_le : forall chunk n k d pos, (k <= n)%nat -> dec_run n chunk d pos = NoFuel -> dec_run k chunk d pos = NoFuel.
Proof.
  intros chunk n k d pos H. induction H; auto. intros E. apply IHle. now apply run_mono.
Qed.

Lemma short_token : forall d h rest tkl fuel, idle d -> hdr_tkl h = N.of_nat tkl ->
  (length rest < tkl)%nat -> (length rest <= 8)%nat -> dec_run fuel (hdr_bytes h ++ rest) d 0 = NoFuel.
Proof.
  intros d h rest tkl fuel Hd Ht Hl H8. apply (run_mono_le _ (fuel + 6)); [lia|].
  destruct (to_token d h rest (fuel + 6) Hd ltac:(lia) ltac:(lia)) as (k & A & ->).
  set (chunk := hdr_bytes h ++ rest).
  assert (Hlen : length chunk = (4 + length rest)%nat) by (unfold chunk; rewrite app_length; reflexivity).
  destruct k as [|k]; [reflexivity|]. cbn [dec_run]. unfold dec_notify at 1. unfold dec_iterate, dec_step. cbn [k_st].
  unfold remainder, dec_tkl. cbn [k_h k_tok k_tpos k_od k_hold k_hpos].
  replace (skipn 4 chunk) with rest by (unfold chunk; destruct h; reflexivity). rewrite Ht.
  destruct Hd as (_ & M & _).
  replace (tok_loop (N.of_nat tkl) rest (k_tok d) 0 0) with (tok_loop (N.of_nat tkl) rest (k_tok d) (N.of_nat 0) 0) by reflexivity.
  rewrite tok_loop_some by (assumption || lia). cbn [bind Nat.add].
  replace (S (S (S (S (length rest))))) with (length chunk) by lia. rewrite Nat.leb_refl. cbn [bind dec_events k_st rstate_eqb].
  rewrite stuck_token. reflexivity.
Qed.

Lemma long_token : forall d h rest tkl fuel, idle d -> hdr_tkl h = N.of_nat tkl ->
  (8 < tkl)%nat -> (8 < length rest)%nat -> (6 <= fuel)%nat ->
  dec_run fuel (hdr_bytes h ++ rest) d 0 = Fault.
Proof.
  intros d h rest tkl fuel Hd Ht Hl H8 Hf.
  destruct (to_token d h rest fuel Hd ltac:(lia) Hf) as (k & A & ->).
  set (chunk := hdr_bytes h ++ rest).
  destruct k as [|k]; [lia|]. cbn [dec_run]. unfold dec_notify at 1. unfold dec_iterate, dec_step. cbn [k_st].
  unfold remainder, dec_tkl. cbn [k_h k_tok k_tpos k_od k_hold k_hpos].
  replace (skipn 4 chunk) with rest by (unfold chunk; destruct h; reflexivity). rewrite Ht.
  destruct Hd as (_ & M & _).
  assert (Hh : (tkl < 16)%nat).
  { rewrite tkl_mod in Ht. pose proof (N.mod_lt (h0 h) 16). lia. }
  replace (tok_loop (N.of_nat tkl) rest (k_tok d) 0 0) with (tok_loop (N.of_nat tkl) rest (k_tok d) (N.of_nat 0) 0) by reflexivity.
  rewrite (tok_loop_over 8) by (assumption || lia). reflexivity.
Qed.

(** * Event order *)

Definition ph (s : rstate) : phase :=
  match s with
  | Uninitialized | RHeader => P0
  | HeaderDone | TokenStart | RToken => P1
  | TokenDone => P2
  | OptionsStart | ROptions => P3
  | OptionsDone => P4
  | RPayload | PayloadDone => P5
  | RDone => P6
  end.

Definition stnext (s s1 : rstate) : Prop :=
  match s with
  | Uninitialized => s1 = RHeader
  | RHeader => s1 = RHeader \/ s1 = HeaderDone
  | HeaderDone => s1 = TokenStart \/ s1 = TokenDone
  | TokenStart => s1 = RToken
  | RToken => s1 = RToken \/ s1 = TokenDone
  | TokenDone => s1 = OptionsStart
  | OptionsStart => s1 = ROptions \/ s1 = OptionsDone
  | ROptions => s1 = ROptions \/ s1 = OptionsDone
  | OptionsDone => s1 = RPayload \/ s1 = RDone
  | RPayload => s1 = RPayload \/ s1 = PayloadDone
  | PayloadDone => s1 = RDone
  | RDone => s1 = Uninitialized
  end.

Lemma dec_step_next : forall chunk last d pos d1 pos1, dec_step chunk last d pos = Ok (d1, pos1) ->
  stnext (k_st d) (k_st d1) /\ (k_st d = RPayload -> last = true -> k_st d1 = PayloadDone) /\
  ((pos <= length chunk)%nat -> (pos <= pos1)%nat).
Proof.
  intros chunk last d pos d1 pos1 H. unfold dec_step in H. destruct (k_st d) eqn:Es; cbn [stnext].
  - injection H as <- <-. cbn. split; [auto|]. split; [discriminate|lia].
  - destruct (hdr_loop _ _ _ _) as [[[[h hp] n] b]| |]; cbn [bind] in H; try discriminate. injection H as <- <-.
    cbn. split; [destruct b; auto|]. split; [discriminate|lia].
  - injection H as <- <-. cbn. split; [destruct (_ <? _); auto|]. split; [discriminate|lia].
  - injection H as <- <-. cbn. split; [auto|]. split; [discriminate|lia].
  - destruct (tok_loop _ _ _ _ _) as [[[[h hp] n] b]| |]; cbn [bind] in H; try discriminate. injection H as <- <-.
    cbn. split; [destruct b; auto|]. split; [discriminate|lia].
  - injection H as <- <-. cbn. split; [auto|]. split; [discriminate|lia].
  - destruct (_ && _); [injection H as <- <-; cbn; split; [auto|]; split; [discriminate|lia]|].
    destruct (od_chunk_last _ _ _ _) as [[[o h] n]| |]; cbn [bind] in H; try discriminate. injection H as <- <-.
    cbn. split; [destruct (ostate_eqb _ _); auto|]. split; [discriminate|lia].
  - destruct (od_chunk_last _ _ _ _) as [[[o h] n]| |]; cbn [bind] in H; try discriminate. injection H as <- <-.
    cbn. split; [destruct (ostate_eqb _ _); [auto|]; destruct (_ && _); auto|]. split; [discriminate|lia].
  - destruct (ostate_eqb _ _); [injection H as <- <-; cbn; split; [auto|]; split; [discriminate|lia]|].
    destruct (_ && _); [injection H as <- <-; cbn; split; [auto|]; split; [discriminate|lia]|].
    destruct (remainder chunk pos) as [|b r]; [discriminate|].
    destruct (b =? 255); injection H as <- <-; cbn; (split; [auto|]; split; [discriminate|lia]).
  - injection H as <- <-. cbn. split; [destruct last; auto|]. split; [intros _ ->; reflexivity|auto].
  - injection H as <- <-. cbn. split; [auto|]. split; [discriminate|lia].
  - injection H as <- <-. cbn. split; [auto|]. split; [discriminate|lia].
Qed.

Lemma notify_step : forall chunk last d pos es d1 pos1 fin, dec_notify chunk last d pos = Ok (es, d1, pos1, fin) ->
  dec_step chunk last d pos = Ok (d1, pos1) /\ dec_events chunk last d1 pos1 = Ok es /\ (pos1 <= length chunk)%nat.
Proof.
  intros chunk last d pos es d1 pos1 fin H. unfold dec_notify, dec_iterate in H.
  destruct (dec_step chunk last d pos) as [[d2 p2]| |]; cbn [bind] in H; try discriminate.
  destruct (Nat.leb_spec p2 (length chunk)); cbn [bind] in H; [|discriminate].
  destruct (dec_events chunk last d2 p2) as [es'| |] eqn:E; cbn [bind] in H; try discriminate.
  injection H as <- <- <- <-. auto.
Qed.

Lemma events_shape : forall chunk last d pos es, dec_events chunk last d pos = Ok es ->
  match k_st d with
  | HeaderDone => exists h, es = [EHeader h]
  | TokenDone => exists t, es = [EToken t]
  | OptionsStart => es = [EOptStart]
  | ROptions => es = [] \/ exists n v c, es = [EOption n v c]
  | OptionsDone => es = [EOptDone]
  | RPayload => exists b l, es = [EPayload b l]
  | RDone => es = [ECompleted]
  | _ => es = []
  end.
Proof.
  intros chunk last d pos es H. unfold dec_events in H. destruct (k_st d); try (injection H as <-; eauto).
  destruct (d_st (k_od d)); try (injection H as <-; auto).
  destruct (0 <? hd_len (k_hold d)); [|injection H as <-; eauto].
  destruct (dec_option chunk d pos) as [[v c]| |]; cbn [bind] in H; try discriminate. injection H as <-. eauto.
Qed.

Lemma phase_run_app : forall a p b, phase_run p (a ++ b) =
  match phase_run p a with Some q => phase_run q b | None => None end.
Proof. induction a as [|e a IH]; intros p b; [reflexivity|]. cbn. destruct (phase_next p e); auto. Qed.
Lemma phase_run_app' : forall a p b, phase_run' p (a ++ b) =
  match phase_run' p a with Some q => phase_run' q b | None => None end.
Proof. induction a as [|e a IH]; intros p b; [reflexivity|]. cbn. destruct (phase_next' p e); auto. Qed.

Lemma notify_phase : forall chunk last d pos es d1 pos1 fin,
  dec_notify chunk last d pos = Ok (es, d1, pos1, fin) -> k_st d <> RDone ->
  phase_run' (ph (k_st d)) es = Some (ph (k_st d1)) /\
  (last = true -> phase_run (ph (k_st d)) es = Some (ph (k_st d1))).
Proof.
  intros chunk last d pos es d1 pos1 fin H Hd. apply notify_step in H. destruct H as (HS & HE & _).
  apply dec_step_next in HS. destruct HS as (HS & HP & _). apply events_shape in HE.
  destruct (k_st d) eqn:Es; cbn [stnext] in HS; try congruence;
    repeat match goal with H : _ \/ _ |- _ => destruct H end;
    repeat match goal with H : k_st d1 = _ |- _ => rewrite H in HE, HP |- *; clear H end;
    repeat match goal with H : exists _, _ |- _ => destruct H end;
    repeat match goal with H : _ \/ _ |- _ => destruct H end;
    repeat match goal with H : exists _, _ |- _ => destruct H end;
    subst; try (split; reflexivity).
  split; [reflexivity|]. intros ->. specialize (HP eq_refl eq_refl). discriminate.
Qed.

Lemma rstate_eqb_eq : forall a b, rstate_eqb a b = true <-> a = b.
Proof. intros a b. destruct a, b; cbn; split; congruence. Qed.

Lemma trace_phase : forall n chunk d pos, k_st d <> RDone ->
  exists q, phase_run (ph (k_st d)) (dec_trace n chunk true d pos) = Some q.
Proof.
  induction n as [|n IH]; intros chunk d pos Hd; [eexists; reflexivity|].
  cbn [dec_trace]. destruct (dec_notify chunk true d pos) as [[[[es d1] pos1] fin]| |] eqn:E; try (eexists; reflexivity).
  destruct (notify_phase _ _ _ _ _ _ _ _ E Hd) as (_ & P). specialize (P eq_refl).
  destruct (rstate_eqb (k_st d1) RDone) eqn:Er; [eauto|].
  rewrite phase_run_app, P. apply IH. intros C. apply rstate_eqb_eq in C. congruence.
Qed.

Lemma calls_phase : forall calls d, k_st d <> RDone ->
  exists q, phase_run' (ph (k_st d)) (dec_calls calls d) = Some q.
Proof.
  induction calls as [|[[chunk last] pos] calls IH]; intros d Hd; [eexists; reflexivity|].
  cbn [dec_calls]. destruct (dec_notify chunk last d pos) as [[[[es d1] pos1] fin]| |] eqn:E; try (eexists; reflexivity).
  destruct (notify_phase _ _ _ _ _ _ _ _ E Hd) as (P & _).
  destruct (rstate_eqb (k_st d1) RDone) eqn:Er; [eauto|].
  rewrite phase_run_app', P. apply IH. intros C. apply rstate_eqb_eq in C. congruence.
Qed.

(** * process_experimental on the last chunk *)

Lemma notify_pos : forall chunk last d pos es d1 pos1 fin, dec_notify chunk last d pos = Ok (es, d1, pos1, fin) ->
  (pos <= length chunk)%nat -> (pos <= pos1 <= length chunk)%nat.
Proof.
  intros chunk last d pos es d1 pos1 fin H Hp. apply notify_step in H. destruct H as (HS & _ & HL).
  apply dec_step_next in HS. destruct HS as (_ & _ & HS). lia.
Qed.

Definition open_end (d : dec) : Prop := k_st d <> PayloadDone /\ (k_st d = OptionsDone -> d_st (k_od d) = OPayload).

Lemma ostate_eqb_eq : forall a b, ostate_eqb a b = true -> a = b.
Proof. intros [] []; cbn; congruence. Qed.

Lemma drain_no_completed : forall fuel chunk d pos es d1 pos1, (pos < length chunk)%nat -> open_end d ->
  dec_drain fuel chunk true d pos = Ok (es, d1, pos1) -> ~ In ECompleted es.
Proof.
  induction fuel as [|fuel IH]; intros chunk d pos es d1 pos1 Hp (Ho1 & Ho2) H; [discriminate|].
  cbn [dec_drain] in H. destruct (dec_notify chunk true d pos) as [[[[es1 d2] pos2] fin]| |] eqn:E; cbn [bind] in H; try discriminate.
  pose proof (notify_fin _ _ _ _ _ _ _ _ E) as Hfin.
  pose proof (notify_pos _ _ _ _ _ _ _ _ E ltac:(lia)) as Hpos.
  pose proof (notify_step _ _ _ _ _ _ _ _ E) as (HS & HE & _).
  assert (N1 : k_st d2 <> RDone).
  { intros C. pose proof (dec_step_next _ _ _ _ _ _ HS) as (HN & _). rewrite C in HN.
    destruct (k_st d) eqn:Es; cbn [stnext] in HN; try (destruct HN; discriminate); try discriminate; try congruence.
    unfold dec_step in HS. rewrite Es in HS. rewrite (Ho2 eq_refl) in HS. cbn [ostate_eqb] in HS. injection HS as <- _. discriminate. }
  assert (N2 : ~ In ECompleted es1).
  { apply events_shape in HE. destruct (k_st d2); try congruence;
    repeat match goal with H : exists _, _ |- _ => destruct H end;
    repeat match goal with H : _ \/ _ |- _ => destruct H end;
    repeat match goal with H : exists _, _ |- _ => destruct H end;
    subst; cbn; intuition discriminate. }
  destruct fin; [injection H as <- <- <-; exact N2|].
  destruct (dec_drain fuel chunk true d2 pos2) as [[[fs d3] pos3]| |] eqn:E2; cbn [bind] in H; try discriminate.
  injection H as <- <- <-. rewrite in_app_iff. intros [C|C]; [exact (N2 C)|]. revert C.
  assert (Hp2 : (pos2 < length chunk)%nat).
  { destruct Hfin as (Hfin & _). symmetry in Hfin. apply Nat.eqb_neq in Hfin. lia. }
  eapply IH; [exact Hp2| |exact E2].
  clear IH E E2 HE N1 N2 Hfin. unfold dec_step in HS.
  destruct (k_st d) eqn:Es.
  - injection HS as <- <-. split; cbn; congruence.
  - destruct (hdr_loop _ _ _ _) as [[[[h hp] n] b]| |]; cbn [bind] in HS; try discriminate. injection HS as <- <-.
    split; cbn; destruct b; congruence.
  - injection HS as <- <-. split; cbn; destruct (_ <? _); congruence.
  - injection HS as <- <-. split; cbn; congruence.
  - destruct (tok_loop _ _ _ _ _) as [[[[h hp] n] b]| |]; cbn [bind] in HS; try discriminate. injection HS as <- <-.
    split; cbn; destruct b; congruence.
  - injection HS as <- <-. split; cbn; congruence.
  - unfold remainder in HS. rewrite skipn_length in HS. destruct (Nat.eqb_spec (length chunk - pos) 0); [lia|]. cbn [andb] in HS.
    destruct (od_chunk_last _ _ _ _) as [[[o h] n']| |]; cbn [bind] in HS; try discriminate. injection HS as <- <-.
    split; cbn; destruct (ostate_eqb (d_st o) OPayload) eqn:Eo; try congruence. intros _. now apply ostate_eqb_eq.
  - destruct (od_chunk_last _ _ _ _) as [[[o h] n']| |]; cbn [bind] in HS; try discriminate. injection HS as <- <-.
    destruct (Nat.eqb_spec (pos + n') (length chunk)); [lia|]. cbn [andb].
    split; cbn; destruct (ostate_eqb (d_st o) OPayload) eqn:Eo; try congruence. intros _. now apply ostate_eqb_eq.
  - rewrite (Ho2 eq_refl) in HS. cbn [ostate_eqb] in HS. injection HS as <- <-. split; cbn; congruence.
  - injection HS as <- <-. lia.
  - congruence.
  - injection HS as <- <-. split; cbn; congruence.
Qed.

Lemma drain_start_fresh : forall chunk last d pos k, k_st d = OptionsStart -> (pos < length chunk)%nat ->
  dec_drain k chunk last d pos = dec_drain k chunk last (opt_fresh d) pos.
Proof. intros chunk last d pos [|k] Hs Hp; [reflexivity|]. cbn [dec_drain]. now rewrite notify_start. Qed.

Lemma drain_idle : forall chunk last d k, k_st d = RDone -> chunk <> [] ->
  dec_drain (S k) chunk last d 0 = dec_drain k chunk last (k_goto Uninitialized d) 0.
Proof.
  intros chunk last d k Hs Hc. cbn [dec_drain]. unfold dec_notify, dec_iterate, dec_step. rewrite Hs. cbn [bind Nat.leb dec_events k_st k_goto].
  destruct chunk; [congruence|]. cbn [length Nat.eqb].
  match goal with |- bind ?x _ = _ => destruct x as [[[? ?] ?]| |]; reflexivity end.
Qed.

Lemma drain_fault_steps : forall chunk last d pos n es d1 pos1 fuel,
  nsteps chunk last (stop_end chunk) n d pos es d1 pos1 -> dec_notify chunk last d1 pos1 = Fault -> (n + 1 <= fuel)%nat ->
  dec_drain fuel chunk last d pos = Fault.
Proof.
  intros chunk last d pos n es d1 pos1 fuel H1 H2 Hf.
  replace fuel with (n + (1 + (fuel - n - 1)))%nat by lia.
  rewrite (drain_steps _ _ _ _ _ _ _ _ H1). cbn [Nat.add dec_drain]. rewrite H2. reflexivity.
Qed.

Lemma stop_end_options : forall (chunk : list N) d p, k_st d = ROptions -> (p < length chunk)%nat -> stop_end chunk d p = false.
Proof. intros chunk d p _ H. unfold stop_end. apply Nat.eqb_neq. lia. Qed.

Lemma options_drain : forall chunk d pos, bytes_ok chunk -> k_st d = OptionsStart -> dec_mem d ->
  (pos < length chunk)%nat ->
  forall fuel, (3 * (length chunk - pos) + 10 <= fuel)%nat ->
  match parse 0 pos (skipn pos chunk) with
  | (vs, EndReserved) => dec_drain fuel chunk true d pos = Fault
  | (vs, e) => exists d1, dec_drain fuel chunk true d pos = Ok (map (vev 0 chunk) vs ++ drain_tail e chunk, d1, length chunk)
  end.
Proof.
  intros chunk d pos Hok Hs Hmem Hp fuel Hf.
  rewrite drain_start_fresh by assumption.
  destruct Hmem as (M1 & M2 & M3).
  set (o0 := od_goto FirstByte (k_od d)).
  assert (Hbs : bytes_ok (skipn pos chunk)) by now apply bytes_ok_skipn.
  assert (HR := drive_parse (length (skipn pos chunk)) (skipn pos chunk) o0 holder_reset pos (le_n _)
    (or_introl eq_refl) ltac:(cbn; lia) Hbs).
  cbn [hd_num holder_reset] in HR. fold (parse 0 pos (skipn pos chunk)) in HR. unfold refines in HR.
  assert (Hlinv : linv (k_od (opt_fresh d)) (k_hold (opt_fresh d))).
  { apply linv_fresh; [reflexivity|]. exact M3. }
  assert (Hnp : d_st (k_od (opt_fresh d)) <> OPayload) by discriminate.
  assert (HLEN : (3 * length (skipn pos chunk) + 10 <= fuel)%nat)
    by (rewrite skipn_length; lia).
  destruct (parse 0 pos (skipn pos chunk)) as [vs e]. cbn [fst snd] in HR.
  assert (HD : forall o1 h1 e1, mrun o0 holder_reset pos (skipn pos chunk) (Ok (vs, o1, h1, e1)) ->
    exists n es dm pm fs fin, (n < 3 * length (skipn pos chunk) + 4)%nat /\
      nsteps chunk true (stop_end chunk) n (opt_fresh d) pos es dm pm /\
      dec_notify chunk true dm pm = Ok (fs, opt_out chunk true d o1 h1 e1, e1, fin) /\
      es ++ fs = map (vev 0 chunk) vs ++ fin_events chunk true o1 e1 /\ (e1 <= length chunk)%nat).
  { intros o1 h1 e1 Hm. apply mrun_drive in Hm; [|discriminate]. unfold od_drive in Hm.
    destruct (drain chunk true (stop_end chunk) 0 Hok (stop_end_options chunk) _ (opt_fresh d) pos vs o1 h1 e1 eq_refl Hp Hnp Hlinv Hm)
      as (n & es & dm & pm & fs & pos1 & fin & A1 & A2 & A3 & A4 & A5 & A6 & A7 & A8 & A9 & A10).
    cbn in A6. subst pos1. exists n, es, dm, pm, fs, fin. split; [lia|]. split; [exact A2|]. split; [exact A5|]. split; [exact A10|exact A7]. }
  assert (HEND : forall o1 h1, mrun o0 holder_reset pos (skipn pos chunk) (Ok (vs, o1, h1, length chunk)) ->
    exists d1, dec_drain fuel chunk true (opt_fresh d) pos =
      Ok (map (vev 0 chunk) vs ++ fin_events chunk true o1 (length chunk), d1, length chunk)).
  { intros o1 h1 Hm. destruct (HD _ _ _ Hm) as (n & es & dm & pm & fs & fin & A1 & A2 & A3 & A4 & _).
    exists (opt_out chunk true d o1 h1 (length chunk)).
    replace fuel with (n + (1 + (fuel - n - 1)))%nat by lia.
    rewrite (drain_steps _ _ _ _ _ _ _ _ A2).
    rewrite (drain_last _ _ _ _ _ _ _ _ A3). cbn [addev bind]. rewrite A4. reflexivity. }
  destruct e.
  - destruct HR as (o1 & h1 & e1 & Hm & Hb & He). cbn in He.
    assert (He' : e1 = length chunk) by (rewrite skipn_length in He; lia). clear He. subst e1.
    assert (Hv : d_st o1 = OptionValueDone).
    { destruct Hb as [Hb|Hb]; [|exact Hb]. exfalso.
      apply (mrun_not_first _ _ _ _ _ Hm); [lia|exact Hb]. }
    destruct (HEND _ _ Hm) as (d1 & ->). exists d1. unfold fin_events. rewrite fin_vd by assumption. reflexivity.
  - destruct HR as (o1 & h1 & e1 & Hm & Hb & ->).
    assert (Ef : fin_state chunk true o1 at_ = OptionsDone) by (unfold fin_state; rewrite Hb; reflexivity).
    cbn [drain_tail]. destruct (Nat.eqb_spec at_ (length chunk)) as [->|Ne].
    + destruct (HEND _ _ Hm) as (d1 & ->). exists d1. unfold fin_events. rewrite Ef. reflexivity.
    + destruct (HD _ _ _ Hm) as (n & es & dm & pm & fs & fin & A1 & A2 & A3 & A4 & A5).
      unfold opt_out, fin_events in A3, A4. rewrite Ef in A3, A4.
      set (dd := k_goto OptionsDone (opt_dec d o1 h1)) in *.
      assert (N1 : dec_notify chunk true dd at_ = Ok ([EPayload (skipn at_ chunk) true], k_goto RPayload dd, at_, Nat.eqb at_ (length chunk))).
      { unfold dec_notify, dec_iterate, dec_step. cbn [k_st k_od dd k_goto opt_dec]. rewrite Hb. cbn [ostate_eqb bind].
        replace (at_ <=? length chunk)%nat with true by (symmetry; apply Nat.leb_le; lia). reflexivity. }
      assert (N2 : dec_notify chunk true (k_goto RPayload dd) at_ = Ok ([], k_goto PayloadDone dd, length chunk, true)).
      { unfold dec_notify, dec_iterate, dec_step. cbn [k_st k_od dd k_goto opt_dec bind].
        rewrite Nat.leb_refl, Nat.eqb_refl. reflexivity. }
      exists (k_goto PayloadDone dd).
      assert (NS : nsteps chunk true (stop_end chunk) (n + 1 + 1) (opt_fresh d) pos ((es ++ fs) ++ [EPayload (skipn at_ chunk) true]) (k_goto RPayload dd) at_).
      { eapply nsteps_snoc; [eapply nsteps_snoc; [exact A2|exact A3|]|exact N1|]; unfold stop_end; now apply Nat.eqb_neq. }
      replace fuel with ((n + 1 + 1) + (1 + (fuel - n - 3)))%nat by lia.
      rewrite (drain_steps _ _ _ _ _ _ _ _ NS). rewrite (drain_last _ _ _ _ _ _ _ _ N2). cbn [addev bind].
      rewrite app_nil_r, A4, <- app_assoc. reflexivity.
  - destruct HR as (pre & c & post & o1 & h1 & e1 & E & Hne & Hm & Hq & Hft).
    assert (HF : mrun o0 holder_reset pos (skipn pos chunk) Fault).
    { rewrite E. change (@Fault oout) with (addv vs Fault). exact (mrun_app _ _ _ _ _ Hm (c :: post) Hq _ (Hft post)). }
    apply mrun_drive in HF; [|discriminate].
    destruct (drain_fault chunk true (stop_end chunk) 0 Hok (stop_end_options chunk) _ (opt_fresh d) pos eq_refl Hp Hnp Hlinv HF)
      as (n & es & dm & pm & A1 & A2 & A3 & A4 & A5).
    eapply drain_fault_steps; [exact A2|exact A5|]. lia.
  - destruct HR as (o1 & h1 & e1 & Hm & Hb & He).
    assert (He' : e1 = length chunk) by (rewrite skipn_length in He; lia). clear He. subst e1.
    destruct (HEND _ _ Hm) as (d1 & ->). exists d1. unfold fin_events, fin_state.
    unfold midhead in Hb. destruct (d_st o1); try destruct Hb; cbn; rewrite ?andb_false_r; reflexivity.
  - destruct HR as (o1 & h1 & e1 & Hm & Hb & Hh & He).
    assert (He' : e1 = length chunk) by (rewrite skipn_length in He; lia). clear He. subst e1.
    destruct (HEND _ _ Hm) as (d1 & ->). exists d1. unfold fin_events, fin_state.
    destruct Hb as (Np & _ & Nv & _). destruct (d_st o1); try congruence; cbn; rewrite ?andb_false_r; reflexivity.
  - destruct HR as (o1 & h1 & e1 & Hm & Hb & Hv & Hk & He).
    assert (He' : e1 = length chunk) by (rewrite skipn_length in He; lia). clear He. subst e1.
    destruct (HEND _ _ Hm) as (d1 & ->). exists d1. unfold fin_events, fin_state.
    rewrite Hb. cbn. rewrite andb_false_r. reflexivity.
Qed.

Lemma drain_start : forall last d h tok rest tkl fuel,
  idle d -> bytes_ok (hdr_bytes h ++ tok ++ rest) -> rest <> [] ->
  hdr_tkl h = N.of_nat tkl -> length tok = tkl -> (tkl <= 8)%nat -> (7 <= fuel)%nat ->
  exists d1 k, (fuel <= k + 7)%nat /\ prefix_ok d d1 h tkl /\
    dec_drain fuel (hdr_bytes h ++ tok ++ rest) last d 0 =
    addev [EHeader h; EToken tok; EOptStart] (dec_drain k (hdr_bytes h ++ tok ++ rest) last d1 (4 + tkl)).
Proof.
  intros last d h tok rest tkl fuel (Hs & Hm) Hok Hr Ht Hl H8 Hf.
  assert (G : forall d' fuel', k_st d' = Uninitialized -> dec_mem d' -> (6 <= fuel')%nat ->
    exists d1 k, (fuel' <= k + 6)%nat /\ prefix_ok d' d1 h tkl /\
    dec_drain fuel' (hdr_bytes h ++ tok ++ rest) last d' 0 =
    addev [EHeader h; EToken tok; EOptStart] (dec_drain k (hdr_bytes h ++ tok ++ rest) last d1 (4 + tkl))).
  { intros d' fuel' Hs' Hm' Hf'.
    destruct (prefix_steps last (stop_end (hdr_bytes h ++ tok ++ rest)) d' h tok rest tkl Hs' Hm' Hok Ht Hl H8) as (n & d1 & A & B & C).
    { intros x p Hx Hp. unfold stop_end. apply Nat.eqb_neq. rewrite (prefix_length h tok rest tkl Hl).
      destruct rest; [congruence|cbn; lia]. }
    exists d1, (fuel' - n)%nat. split; [lia|]. split; [assumption|].
    replace fuel' with (n + (fuel' - n))%nat at 1 by lia. apply drain_steps. exact B. }
  destruct Hs as [Hs|Hs].
  - destruct (G d fuel Hs Hm ltac:(lia)) as (d1 & k & A & B & C). exists d1, k. split; [lia|]. auto.
  - destruct fuel as [|fuel]; [lia|]. rewrite drain_idle by (assumption || (destruct h; discriminate)).
    destruct (G (k_goto Uninitialized d) fuel eq_refl Hm ltac:(lia)) as (d1 & k & A & B & C).
    exists d1, k. split; [lia|]. split; [exact B|exact C].
Qed.

Lemma message_drain : forall d h tok rest tkl fuel,
  idle d -> bytes_ok (hdr_bytes h ++ tok ++ rest) ->
  hdr_tkl h = N.of_nat tkl -> length tok = tkl -> (tkl <= 8)%nat -> rest <> [] ->
  (3 * length (hdr_bytes h ++ tok ++ rest) + 10 <= fuel)%nat ->
  let chunk := hdr_bytes h ++ tok ++ rest in
  match parse 0 (4 + tkl) rest with
  | (vs, EndReserved) => dec_drain fuel chunk true d 0 = Fault
  | (vs, e) =>
      exists d1, dec_drain fuel chunk true d 0 = Ok ([EHeader h; EToken tok; EOptStart] ++
          map (vev 0 chunk) vs ++ drain_tail e chunk, d1, length chunk)
  end.
Proof.
  intros d h tok rest tkl fuel Hd Hok Ht Hl H8 Hr Hf chunk.
  destruct (drain_start true d h tok rest tkl fuel Hd Hok Hr Ht Hl H8 ltac:(rewrite (prefix_length h tok rest tkl Hl) in Hf; lia)) as (d1 & k & Hk & (P1 & P2 & P3 & P4 & P5) & E).
  fold chunk in E. rewrite E.
  assert (Hlen := prefix_length h tok rest tkl Hl). fold chunk in Hlen, Hf.
  assert (Hrl : (0 < length rest)%nat) by (destruct rest; [congruence|cbn; lia]).
  assert (HO := options_drain chunk d1 (4 + tkl) Hok P1 P3 ltac:(lia) k ltac:(lia)).
  replace (skipn (4 + tkl) chunk) with rest in HO by (symmetry; now apply skipn_prefix).
  destruct (parse 0 (4 + tkl) rest) as [vs e]. destruct e; try (destruct HO as (d2 & ->); exists d2; reflexivity).
  rewrite HO. reflexivity.
Qed.

(** nothing after the token *)
Lemma drain_bare : forall d h tok tkl fuel,
  idle d -> hdr_tkl h = N.of_nat tkl -> length tok = tkl -> (tkl <= 8)%nat -> (10 <= fuel)%nat ->
  exists d1, dec_drain fuel (hdr_bytes h ++ tok) true d 0 =
    Ok (EHeader h :: (if Nat.eqb tkl 0 then [] else [EToken tok]), d1, (4 + tkl)%nat).
Proof.
  intros d h tok tkl fuel (Hs & M1 & M2 & M3) Ht Hl H8 Hf.
  assert (G : forall d' fuel', k_st d' = Uninitialized -> length (k_tok d') = 8%nat -> (9 <= fuel')%nat ->
    exists d1, dec_drain fuel' (hdr_bytes h ++ tok) true d' 0 =
    Ok (EHeader h :: (if Nat.eqb tkl 0 then [] else [EToken tok]), d1, (4 + tkl)%nat)).
  2:{ destruct Hs as [Hs|Hs]; [apply G; [assumption|assumption|lia]|].
      destruct fuel as [|fuel]; [lia|]. rewrite drain_idle by (assumption || (destruct h; discriminate)).
      apply G; [reflexivity|exact M1|lia]. }
  clear d fuel Hs M1 M2 M3 Hf. intros d fuel Hs HT Hf.
  assert (Hlen : length (hdr_bytes h ++ tok) = (4 + tkl)%nat) by (rewrite app_length, Hl; reflexivity).
  set (chunk := hdr_bytes h ++ tok) in *.
  destruct fuel as [|[|[|[|[|fuel]]]]]; try lia.
  assert (S1 : dec_notify chunk true d 0 = Ok ([], Dec RHeader (k_h d) 0 (k_tok d) (k_tpos d) (k_od d) (k_hold d), 0%nat, false)).
  { unfold dec_notify, dec_iterate, dec_step. rewrite Hs. cbn [bind]. rewrite Hlen. reflexivity. }
  assert (S2 : dec_notify chunk true (Dec RHeader (k_h d) 0 (k_tok d) (k_tpos d) (k_od d) (k_hold d)) 0 =
    Ok ([EHeader h], Dec HeaderDone h 4 (k_tok d) (k_tpos d) (k_od d) (k_hold d), 4%nat, Nat.eqb tkl 0)).
  { unfold dec_notify, dec_iterate, dec_step. cbn [k_st]. unfold remainder. cbn [skipn k_h k_hpos k_tok k_tpos k_od k_hold].
    replace (hdr_loop chunk (k_h d) 0 0) with (Ok (h, 4, 4%nat, true)) by (unfold chunk; destruct h; reflexivity).
    cbn [bind Nat.add]. rewrite Hlen. cbn [Nat.leb Nat.add]. cbn [bind dec_events k_st]. destruct tkl; reflexivity. }
  cbn [dec_drain]. rewrite S1. cbn [bind]. rewrite S2. cbn [bind].
  destruct tkl as [|tkl']; [cbn [Nat.eqb]; eexists; cbn; reflexivity|]. cbn [Nat.eqb].
  set (d2 := Dec HeaderDone h 4 (k_tok d) (k_tpos d) (k_od d) (k_hold d)).
  assert (S3 : dec_notify chunk true d2 4 = Ok ([], k_goto TokenStart d2, 4%nat, false)).
  { unfold dec_notify, dec_iterate, dec_step. change (k_st d2) with HeaderDone. cbn iota. change (dec_tkl d2) with (hdr_tkl h). rewrite Ht.
    replace (0 <? N.of_nat (S tkl')) with true by (symmetry; apply N.ltb_lt; lia). cbn [bind]. rewrite Hlen. reflexivity. }
  assert (S4 : dec_notify chunk true (k_goto TokenStart d2) 4 = Ok ([], Dec RToken h 4 (k_tok d) 0 (k_od d) (k_hold d), 4%nat, false)).
  { unfold dec_notify, dec_iterate, dec_step. cbn [k_st d2 k_goto bind]. rewrite Hlen. reflexivity. }
  rewrite S3. cbn [bind]. rewrite S4. cbn [bind].
  set (d3 := Dec RToken h 4 (k_tok d) 0 (k_od d) (k_hold d)).
  assert (S5 : exists d4, dec_notify chunk true d3 4 = Ok ([EToken tok], d4, (4 + S tkl')%nat, true)).
  { unfold dec_notify, dec_iterate, dec_step. unfold d3, remainder, dec_tkl. cbn [k_st k_h k_tok k_tpos k_od k_hold k_hpos].
    replace (skipn 4 chunk) with tok by (unfold chunk; destruct h; reflexivity). rewrite Ht.
    pose proof (tok_loop_all (S tkl') tok (k_tok d) 0 0 ltac:(lia) ltac:(lia) HT ltac:(lia)) as HL.
    change (0 + S tkl')%nat with (S tkl') in HL. change (N.of_nat 0) with 0 in HL. rewrite HL. cbn [bind].
    rewrite Hlen, Nat.leb_refl, Nat.eqb_refl. cbn [bind dec_events k_st]. unfold dec_tkl. cbn [k_h k_tok].
    rewrite Ht, Nat2N.id, firstn_O. cbn [app].
    replace (firstn (S tkl') (firstn (S tkl') tok ++ skipn (S tkl') (k_tok d))) with tok.
    2:{ rewrite <- Hl, firstn_all, firstn_app, Nat.sub_diag, firstn_all, firstn_O, app_nil_r. reflexivity. }
    eexists. reflexivity. }
  destruct S5 as (d4 & S5). rewrite S5. cbn [bind app]. eexists. reflexivity.
Qed.

(** * Memory stays memory *)

Lemma od_bytes_loop : forall fuel d h bs n d1 h1 n1, od_bytes d -> bytes_ok bs ->
  od_chunk_loop fuel d h bs n = Ok (d1, h1, n1) -> od_bytes d1.
Proof.
  induction fuel as [|k IH]; intros d h bs n d1 h1 n1 Hl Hb H.
  - destruct bs; [|discriminate]. cbn in H. injection H as <- <- <-. exact Hl.
  - destruct bs as [|b r]; [cbn in H; injection H as <- <- <-; exact Hl|].
    cbn [od_chunk_loop] in H. inversion Hb as [|? ? Hb1 Hb2]; subst.
    destruct (od_step b d) as [[d2 q]| |] eqn:E; cbn [bind fst snd] in H; try discriminate.
    pose proof (od_bytes_step _ _ _ _ Hl Hb1 E) as HS.
    destruct (hold_upd d2 h) as [h2| |]; cbn [bind] in H; try discriminate.
    destruct (od_stops (d_st d2)).
    + injection H as <- <- _. exact HS.
    + eapply IH; [exact HS| |exact H]. destruct q; assumption.
Qed.

Lemma od_bytes_last : forall d h bs last d1 h1 n1, od_bytes d -> bytes_ok bs ->
  od_chunk_last d h bs last = Ok (d1, h1, n1) -> od_bytes d1.
Proof.
  intros d h bs last d1 h1 n1 Hd Hb H. unfold od_chunk_last in H. destruct bs as [|b r].
  - destruct last; [|eapply od_bytes_loop; eassumption].
    destruct (od_step 0 d) as [[d2 q]| |] eqn:E; cbn [bind fst] in H; try discriminate. injection H as <- _ _.
    eapply od_bytes_step; [exact Hd| |exact E]. unfold byte_ok. lia.
  - eapply od_bytes_loop; eassumption.
Qed.

Lemma tok_loop_mem : forall bs tkl t tp n t1 tp1 n1 b, length t = 8%nat -> bytes_ok t -> bytes_ok bs -> byte_ok tp ->
  tok_loop tkl bs t tp n = Ok (t1, tp1, n1, b) -> length t1 = 8%nat /\ bytes_ok t1 /\ byte_ok tp1.
Proof.
  induction bs as [|x bs IH]; intros tkl t tp n t1 tp1 n1 b Ht Hb Hbs Hp H.
  - injection H as <- <- _ _. auto.
  - cbn [tok_loop] in H. unfold tok_put in H. destruct (N.ltb_spec tp 8) as [Hlt|]; cbn [bind] in H; [|discriminate].
    inversion Hbs as [|? ? X1 X2]; subst.
    assert (L : length (firstn (N.to_nat tp) t ++ x :: skipn (S (N.to_nat tp)) t) = 8%nat).
    { rewrite app_length. cbn [length]. rewrite firstn_length, skipn_length. lia. }
    assert (B : bytes_ok (firstn (N.to_nat tp) t ++ x :: skipn (S (N.to_nat tp)) t)).
    { apply bytes_ok_app. split; [now apply bytes_ok_firstn|]. constructor; [assumption|]. now apply bytes_ok_skipn. }
    assert (P : byte_ok ((tp + 1) mod 256)) by (unfold byte_ok; apply N.mod_lt; discriminate).
    destruct (tkl <=? (tp + 1) mod 256); [injection H as <- <- _ _; auto|].
    eapply IH; eassumption.
Qed.

(** [dec_mem] and, in the token phase, a byte-sized token position *)
Definition dec_mem' (d : dec) : Prop := dec_mem d /\ (k_st d = RToken -> byte_ok (k_tpos d)).

Lemma dec_step_mem : forall chunk last d pos d1 pos1, bytes_ok chunk -> dec_mem' d ->
  dec_step chunk last d pos = Ok (d1, pos1) -> dec_mem' d1.
Proof.
  intros chunk last d pos d1 pos1 Hc (Hm & Ht) H. pose proof Hm as (M1 & M2 & M3). unfold dec_step in H.
  assert (Hrem : bytes_ok (remainder chunk pos)) by (unfold remainder; now apply bytes_ok_skipn).
  unfold dec_mem', dec_mem.
  destruct (k_st d) eqn:Es.
  - injection H as <- <-. cbn. split; [auto|discriminate].
  - destruct (hdr_loop _ _ _ _) as [[[[h hp] n] b]| |]; cbn [bind] in H; try discriminate. injection H as <- <-.
    cbn. split; [auto|]. destruct b; discriminate.
  - injection H as <- <-. cbn. split; [auto|]. destruct (_ <? _); discriminate.
  - injection H as <- <-. cbn. split; [auto|]. intros _. unfold byte_ok. lia.
  - destruct (tok_loop _ _ _ _ _) as [[[[t tp] n] b]| |] eqn:E; cbn [bind] in H; try discriminate. injection H as <- <-.
    destruct (tok_loop_mem _ _ _ _ _ _ _ _ _ M1 M2 Hrem (Ht eq_refl) E) as (A & B & C).
    cbn. split; [|auto]. split; [assumption|]. split; [assumption|].
    destruct (Nat.eqb n 0); [assumption|]. now apply tok_alias_od.
  - injection H as <- <-. cbn. split; [auto|discriminate].
  - destruct (_ && _); [injection H as <- <-; cbn; split; [auto|discriminate]|].
    destruct (od_chunk_last _ _ _ _) as [[[o h] n]| |] eqn:E; cbn [bind] in H; try discriminate. injection H as <- <-.
    cbn. split; [|destruct (ostate_eqb _ _); discriminate]. split; [assumption|]. split; [assumption|].
    eapply od_bytes_last; [|exact Hrem|exact E]. exact M3.
  - destruct (od_chunk_last _ _ _ _) as [[[o h] n]| |] eqn:E; cbn [bind] in H; try discriminate. injection H as <- <-.
    cbn. split; [|destruct (ostate_eqb _ _); [discriminate|destruct (_ && _); discriminate]]. split; [assumption|]. split; [assumption|].
    eapply od_bytes_last; [|exact Hrem|exact E]. exact M3.
  - destruct (ostate_eqb _ _); [injection H as <- <-; cbn; split; [auto|discriminate]|].
    destruct (_ && _); [injection H as <- <-; cbn; split; [auto|discriminate]|].
    destruct (remainder chunk pos) as [|b r]; [discriminate|].
    destruct (b =? 255); injection H as <- <-; cbn; (split; [auto|discriminate]).
  - injection H as <- <-. cbn. split; [auto|destruct last; discriminate].
  - injection H as <- <-. cbn. split; [auto|discriminate].
  - injection H as <- <-. cbn. split; [auto|discriminate].
Qed.

Lemma run_mem : forall fuel chunk d pos es d1 pos1, bytes_ok chunk -> dec_mem' d ->
  dec_run fuel chunk d pos = Ok (es, d1, pos1) -> dec_mem d1 /\ k_st d1 = RDone.
Proof.
  induction fuel as [|k IH]; intros chunk d pos es d1 pos1 Hc Hm H; [discriminate|].
  cbn [dec_run] in H. destruct (dec_notify chunk true d pos) as [[[[es1 d2] pos2] fin]| |] eqn:E; cbn [bind] in H; try discriminate.
  apply notify_step in E. destruct E as (E & _).
  pose proof (dec_step_mem _ _ _ _ _ _ Hc Hm E) as Hm2.
  destruct (rstate_eqb (k_st d2) RDone) eqn:Er.
  - injection H as <- <- <-. split; [apply Hm2|now apply rstate_eqb_eq].
  - destruct (dec_run k chunk d2 pos2) as [[[fs d3] pos3]| |] eqn:E2; cbn [bind] in H; try discriminate.
    injection H as <- <- <-. eapply IH; eassumption.
Qed.

Lemma run_idle_again : forall fuel chunk d es d1 pos1, bytes_ok chunk -> idle d ->
  dec_run fuel chunk d 0 = Ok (es, d1, pos1) -> idle d1.
Proof.
  intros fuel chunk d es d1 pos1 Hc (Hs & Hm) H.
  assert (Hm' : dec_mem' d) by (split; [assumption|]; destruct Hs as [Hs|Hs]; rewrite Hs; discriminate).
  destruct (run_mem _ _ _ _ _ _ _ Hc Hm' H) as (A & B). split; [right; assumption|assumption].
Qed.

(** * An option cut inside its value *)

Lemma parse_cut : forall prev off num v j, prev <= num -> num < 65536 -> len v < 65536 -> (0 < j < length v)%nat ->
  parse prev off (opt_head (num - prev) (len v) ++ firstn j v) =
  ([(num, len v, (off + length (opt_head (num - prev) (len v)))%nat)], EndInValue (len v - N.of_nat j)).
Proof.
  intros prev off num v j Hp Hn Hv Hj. unfold parse, opt_head. cbn [app length oparse].
  pose proof (nib_lt (num - prev)) as N1. pose proof (nib_lt (len v)) as N2.
  replace (nib (num - prev) * 16 + nib (len v) =? 255) with false by (symmetry; apply N.eqb_neq; lia).
  replace ((nib (num - prev) * 16 + nib (len v)) / 16) with (nib (num - prev)) by lia.
  replace ((nib (num - prev) * 16 + nib (len v)) mod 16) with (nib (len v)) by lia.
  rewrite <- app_assoc. rewrite take_ext_enc by lia. rewrite take_ext_enc by lia.
  replace ((prev + (num - prev)) mod 65536) with num by lia.
  assert (Hfl : length (firstn j v) = j) by (rewrite firstn_length; lia).
  replace (length (firstn j v) <? N.to_nat (len v))%nat with true by (symmetry; apply Nat.ltb_lt; unfold len; lia).
  rewrite !app_length, Hfl. destruct (firstn j v) as [|c fv]; [cbn in Hfl; lia|].
  do 2 f_equal. f_equal. lia.
Qed.

Lemma cut_message : forall h tok os num v j d fuel,
  msg_ok (Msg h tok (os ++ [(num, v)]) None) -> (j < length v)%nat -> idle d ->
  let prev := last_number 0 os in
  let bs := hdr_bytes h ++ tok ++ opts_bytes 0 os ++ opt_head (num - prev) (len v) ++ firstn j v in
  (dec_fuel bs <= fuel)%nat ->
  exists d1, dec_run fuel bs d 0 = Ok ([EHeader h; EToken tok; EOptStart] ++ opt_events os ++
      [EOption num (firstn j v) false; EOptDone; ECompleted], d1, length bs) /\ idle d1.
Proof.
  intros h tok os num v j d fuel Hm Hj Hd prev bs Hf.
  destruct Hm as (A & B & C & D & E & _). cbn [m_hdr m_tok m_opts] in *.
  apply opts_ok_app in E. destruct E as (E1 & E2). cbn in E2. destruct E2 as (E2 & E3 & E4 & E5 & _).
  fold prev in E2.
  assert (Hj' : bytes_ok (opt_head (num - prev) (len v) ++ firstn j v)).
  { apply bytes_ok_app. split; [apply opt_head_ok; lia|now apply bytes_ok_firstn]. }
  assert (Hok : bytes_ok bs).
  { unfold bs. apply bytes_ok_app. split; [exact A|]. apply bytes_ok_app. split; [exact D|].
    apply bytes_ok_app. split; [now apply opts_bytes_ok|exact Hj']. }
  assert (HM := message_run d h tok _ (length tok) fuel Hd Hok ltac:(rewrite tkl_mod; exact B) eq_refl C).
  match type of HM with ?a -> _ => assert (X : a) end.
  { destruct (opts_bytes 0 os); [unfold opt_head; discriminate|discriminate]. }
  specialize (HM X Hf). clear X. cbn zeta in HM. fold bs in HM.
  rewrite parse_opts in HM; [|assumption|exact Hj'|left; unfold opt_head; discriminate]. cbn zeta in HM. fold prev in HM.
  assert (EV : map (vev 0 bs) (views 0 (4 + length tok) os) = opt_events os).
  { unfold bs. replace (hdr_bytes h ++ tok ++ opts_bytes 0 os ++ opt_head (num - prev) (len v) ++ firstn j v)
      with ((hdr_bytes h ++ tok) ++ opts_bytes 0 os ++ opt_head (num - prev) (len v) ++ firstn j v) by (rewrite <- app_assoc; reflexivity).
    replace (4 + length tok)%nat with (length (hdr_bytes h ++ tok)) by (rewrite app_length; reflexivity). apply views_events. }
  destruct (Nat.eq_dec j 0) as [->|Hj0].
  - cbn [firstn] in *. rewrite app_nil_r in HM. rewrite parse_head in HM by assumption. cbn [fst snd] in HM. rewrite app_nil_r in HM.
    destruct HM as (d1 & H1 & H2 & H3 & H4). exists d1. rewrite H1, EV. cbn [opt_tail].
    replace (len v =? 0) with false by (symmetry; apply N.eqb_neq; unfold len; lia).
    split; [reflexivity|]. split; [right; assumption|assumption].
  - rewrite parse_cut in HM by (assumption || lia). cbn [fst snd] in HM.
    destruct HM as (d1 & H1 & H2 & H3 & H4). exists d1. rewrite H1, map_app. unfold pview, oview in *. rewrite EV. cbn [opt_tail map].
    split; [|split; [right; assumption|assumption]]. do 4 f_equal. rewrite <- app_assoc. f_equal. cbn [app]. f_equal.
    unfold vev. rewrite Nat.sub_0_r.
    replace (skipn _ bs) with (firstn j v).
    2:{ unfold bs. replace (hdr_bytes h ++ tok ++ opts_bytes 0 os ++ opt_head (num - prev) (len v) ++ firstn j v)
          with ((hdr_bytes h ++ tok ++ opts_bytes 0 os ++ opt_head (num - prev) (len v)) ++ firstn j v) by (rewrite <- !app_assoc; reflexivity).
        replace (4 + length tok + length (opts_bytes 0 os) + length (opt_head (num - prev) (len v)))%nat
          with (length (hdr_bytes h ++ tok ++ opts_bytes 0 os ++ opt_head (num - prev) (len v))).
        - rewrite skipn_app, Nat.sub_diag, skipn_all. reflexivity.
        - rewrite !app_length. cbn [hdr_bytes length]. lia. }
    unfold len. rewrite Nat2N.id, firstn_firstn, firstn_length.
    replace (Nat.min (length v) j) with j by lia. f_equal.
    apply Nat.leb_gt. lia.
Qed.
