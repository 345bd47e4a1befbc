(** Proofs about the option decoder. *)
From Verif Require Import Base OptEncModel OptSpec OptDecModel OptDecSpec.
Local Open Scope N_scope.

(** * Micro steps *)

Definition mstep (b : N) (d : odec) (h : holder) : res (odec * holder * bool) :=
  bind (od_step b d) (fun x => bind (hold_upd (fst x) h) (fun h1 => Ok (fst x, h1, snd x))).

Definition oout : Type := (list oview * odec * holder * nat)%type.

Definition addv (vs : list oview) (r : res oout) : res oout :=
  match r with
  | Ok (ws, d, h, o) => Ok (vs ++ ws, d, h, o)
  | x => x
  end.

Definition emit (d : odec) (h : holder) (off : nat) : list oview :=
  match d_st d with ValueStart => [(hd_num h, hd_len h, off)] | _ => [] end.

Definition adv (p : bool) (off : nat) : nat := if p then S off else off.
Definition rest (p : bool) (b : N) (r : list N) : list N := if p then r else b :: r.

Inductive mrun : odec -> holder -> nat -> list N -> res oout -> Prop :=
| mr_nil : forall d h off, mrun d h off [] (Ok ([], d, h, off))
| mr_pay : forall d h off bs, d_st d = OPayload -> mrun d h off bs (Ok ([], d, h, off))
| mr_fault : forall d h off b r, d_st d <> OPayload -> mstep b d h = Fault ->
    mrun d h off (b :: r) Fault
| mr_step : forall d h off b r d1 h1 p R, d_st d <> OPayload -> mstep b d h = Ok (d1, h1, p) ->
    mrun d1 h1 (adv p off) (rest p b r) R ->
    mrun d h off (b :: r) (addv (emit d1 h1 (adv p off)) R).

Lemma mrun_det : forall d h off bs R, mrun d h off bs R ->
  forall R', mrun d h off bs R' -> R = R'.
Proof.
  induction 1; intros R' H'.
  - inversion H'; reflexivity.
  - inversion H'; subst; try reflexivity; congruence.
  - inversion H'; subst; congruence.
  - inversion H'; subst; try congruence.
    rewrite H0 in H8. injection H8 as <- <- <-. f_equal. auto.
Qed.

Lemma addv_app : forall a b R, addv a (addv b R) = addv (a ++ b) R.
Proof. intros a b [[[[ws d] h] o]| |]; cbn; rewrite ?app_assoc; reflexivity. Qed.

Lemma addv_nil : forall R, addv [] R = R.
Proof. intros [[[[ws d] h] o]| |]; reflexivity. Qed.

(** sequencing *)
Lemma mrun_app : forall d h off a R, mrun d h off a R -> forall b,
  match R with
  | Ok (vs, d1, h1, o1) =>
      d_st d1 <> OPayload -> forall R2, mrun d1 h1 o1 b R2 -> mrun d h off (a ++ b) (addv vs R2)
  | Fault => mrun d h off (a ++ b) Fault
  | NoFuel => False
  end.
Proof.
  induction 1; intros bb.
  - intros _ R2 H2. rewrite addv_nil. exact H2.
  - intros Hn. congruence.
  - cbn. constructor; assumption.
  - specialize (IHmrun bb).
    destruct R as [[[[vs d2] h2] o2]| |]; cbn [addv].
    + intros Hp R2 H2. rewrite <- addv_app. cbn. eapply mr_step; eauto.
      specialize (IHmrun Hp R2 H2). destruct p; exact IHmrun.
    + change Fault with (addv (emit d1 h1 (adv p off)) Fault).
      cbn [app]. eapply mr_step; eauto. destruct p; exact IHmrun.
    + exact IHmrun.
Qed.

Lemma mrun_app_pay : forall d h off a vs d1 h1 o1, mrun d h off a (Ok (vs, d1, h1, o1)) ->
  d_st d1 = OPayload -> forall b, mrun d h off (a ++ b) (Ok (vs, d1, h1, o1)).
Proof.
  intros d h off a vs d1 h1 o1 H. remember (Ok (vs, d1, h1, o1)) as R eqn:E.
  revert vs d1 h1 o1 E. induction H; intros vs d2 h2 o2 E Hp b0.
  - injection E as <- <- <- <-. apply mr_pay. assumption.
  - injection E as <- <- <- <-. apply mr_pay. assumption.
  - discriminate.
  - destruct R as [[[[ws d3] h3] o3]| |]; cbn [addv] in E; try discriminate.
    injection E as <- <- <- <-.
    change (Ok (emit d1 h1 (adv p off) ++ ws, d3, h3, o3))
      with (addv (emit d1 h1 (adv p off)) (Ok (ws, d3, h3, o3))).
    cbn [app]. eapply mr_step; eauto. specialize (IHmrun _ _ _ _ eq_refl Hp b0).
    destruct p; exact IHmrun.
Qed.

(** * The chunk loop *)

Definition rk (s : ostate) : nat :=
  match s with
  | OptionValueDone => 2
  | FirstByte | ValueStart | OptionDeltaDone | OptionLengthDone | OptionDeltaAndLengthDone => 1
  | _ => 0
  end.

Definition dr (s : ostate) : nat :=
  match s with
  | OptionDeltaDone | OptionLengthDone | OptionDeltaAndLengthDone => 2
  | ValueStart => 1
  | _ => 0
  end.

Lemma get_value_cases : forall n a b,
  (exists v, get_value n a b = Ok v) \/ get_value n a b = Fault.
Proof.
  intros. unfold get_value.
  destruct (n <? 13); [eauto|]. destruct (n =? 13); [eauto|]. destruct (n =? 14); eauto.
Qed.

Lemma od_put_cases : forall i v d,
  (exists d1, od_put i v d = Ok d1 /\ d_st d1 = d_st d) \/ od_put i v d = Fault.
Proof.
  intros. unfold od_put.
  destruct i as [|[[?|?|]|[?|?|]|]]; eauto; left; eexists; split; reflexivity.
Qed.

Lemma pos_size_cases : forall r p,
  (exists v, process_option_size r p = Ok v) \/ process_option_size r p = Fault.
Proof.
  intros. unfold process_option_size. destruct (r =? 13); eauto. destruct (r =? 14); eauto.
Qed.

Ltac break_step :=
  repeat match goal with
  | |- context [if ?c then _ else _] => destruct c eqn:?
  | H : context [if ?c then _ else _] |- _ => destruct c eqn:?
  end.

(** one step: the state reached, progress in terms of [rk] and [dr] *)
Lemma od_step_cases : forall b d,
  od_step b d = Fault \/
  exists d1 p, od_step b d = Ok (d1, p) /\
    (p = false -> d_st d <> OPayload -> od_stops (d_st d1) = false -> (rk (d_st d1) < rk (d_st d))%nat) /\
    (p = false -> if od_stops (d_st d1) then (dr (d_st d1) < dr (d_st d))%nat /\ d_st d1 <> OPayload
                  else dr (d_st d1) = 0%nat) /\
    (p = true -> d_st d1 <> ValueStart).
Proof.
  intros b d. unfold od_step. destruct (d_st d) eqn:E.
  - right. destruct (b =? 255); do 2 eexists; (split; [reflexivity|]); cbn;
      repeat split; intros; try discriminate; try lia; tauto.
  - right. break_step; do 2 eexists; (split; [reflexivity|]); cbn;
      repeat split; intros; try discriminate; try lia; tauto.
  - destruct (od_put_cases (d_pos d) b d) as [(d1 & -> & H1)| ->]; [|left; reflexivity].
    destruct (pos_size_cases (raw_delta d) (d_pos d)) as [(v & ->)| ->]; [|left; reflexivity].
    right. cbn [bind]. do 2 eexists. split; [reflexivity|]. destruct v; cbn;
      repeat split; intros; try discriminate; try lia; try congruence; tauto.
  - right. break_step; do 2 eexists; (split; [reflexivity|]); cbn;
      repeat split; intros; try discriminate; try lia; tauto.
  - destruct (od_put_cases (d_pos d) b d) as [(d1 & -> & H1)| ->]; [|left; reflexivity].
    destruct (pos_size_cases (raw_length d) (d_pos d)) as [(v & ->)| ->]; [|left; reflexivity].
    right. cbn [bind]. do 2 eexists. split; [reflexivity|]. destruct v; cbn;
      repeat split; intros; try discriminate; try lia; try congruence; tauto.
  - right. break_step; do 2 eexists; (split; [reflexivity|]); cbn;
      repeat split; intros; try discriminate; try lia; tauto.
  - right. break_step; do 2 eexists; (split; [reflexivity|]); cbn;
      repeat split; intros; try discriminate; try lia; tauto.
  - destruct (get_value_cases (raw_length d) (d_b1 d) (d_b2 d)) as [(v & Hv)|Hv];
      unfold od_length; rewrite Hv; [right|left; reflexivity].
    cbn [bind]. destruct (v =? 0); do 2 eexists; (split; [reflexivity|]); cbn;
      repeat split; intros; try discriminate; try lia; tauto.
  - right. break_step; do 2 eexists; (split; [reflexivity|]); cbn;
      repeat split; intros; try discriminate; try lia; tauto.
  - right. do 2 eexists; (split; [reflexivity|]); cbn;
      repeat split; intros; try discriminate; try lia; tauto.
  - right. do 2 eexists; (split; [reflexivity|]); cbn;
      repeat split; intros; try discriminate; try lia; try congruence; tauto.
  - left. reflexivity.
Qed.

Lemma hold_upd_cases : forall d h,
  (exists h1, hold_upd d h = Ok h1) \/ hold_upd d h = Fault.
Proof.
  intros. unfold hold_upd, od_delta, od_length.
  destruct (get_value_cases (raw_delta d) (d_b1 d) (d_b2 d)) as [(v & ->)| ->];
  destruct (get_value_cases (raw_length d) (d_b1 d) (d_b2 d)) as [(w & ->)| ->];
  destruct (d_st d); cbn; eauto.
Qed.

Definition need (d : odec) (bs : list N) : nat :=
  match bs with [] => 0 | _ => 3 * length bs + rk (d_st d) end.

(** what a chunk call did, in terms of micro steps *)
Definition chunk_post (d : odec) (h : holder) (bs : list N) (n : nat)
  (r : res (odec * holder * nat)) : Prop :=
  match r with
  | Ok (d1, h1, n1) =>
      (n <= n1)%nat /\ (n1 <= n + length bs)%nat /\
      (d_st d1 = OPayload -> (n < n1)%nat) /\
      (forall off R, mrun d1 h1 (off + (n1 - n)) (skipn (n1 - n) bs) R ->
         mrun d h off bs (addv (emit d1 h1 (off + (n1 - n))) R))
  | Fault => forall off, mrun d h off bs Fault
  | NoFuel => False
  end.

Lemma rk_le2 : forall s, (rk s <= 2)%nat.
Proof. destruct s; cbn; lia. Qed.

Lemma od_chunk_loop_post : forall fuel d h bs n,
  d_st d <> OPayload -> bs <> [] \/ d_st d <> ValueStart -> (need d bs <= fuel)%nat ->
  chunk_post d h bs n (od_chunk_loop fuel d h bs n).
Proof.
  induction fuel as [|k IH]; intros d h bs n Hp Hv Hf.
  - destruct bs as [|b r]; [|cbn in Hf; lia]. cbn. repeat split; try lia; try congruence.
    intros off R HR. rewrite Nat.sub_diag, Nat.add_0_r in *. cbn in HR.
    unfold emit. destruct (d_st d) eqn:E; try (rewrite addv_nil; exact HR).
    destruct Hv; congruence.
  - destruct bs as [|b r].
    { cbn. repeat split; try lia; try congruence.
      intros off R HR. rewrite Nat.sub_diag, Nat.add_0_r in *. cbn in HR.
      unfold emit. destruct (d_st d) eqn:E; try (rewrite addv_nil; exact HR).
      destruct Hv; congruence. }
    cbn [od_chunk_loop].
    assert (Hm := eq_refl (mstep b d h)). unfold mstep at 2 in Hm.
    destruct (od_step_cases b d) as [E|(d1 & p & E & Hrk & Hdr & Hvs)]; rewrite E in *; cbn [bind fst snd] in *.
    { cbn. intros off. apply mr_fault; assumption. }
    destruct (hold_upd_cases d1 h) as [(h1 & Eh)|Eh]; rewrite Eh in *; cbn [bind] in *.
    2:{ cbn. intros off. apply mr_fault; assumption. }
    destruct (od_stops (d_st d1)) eqn:Es.
    + unfold chunk_post. cbn [length]. destruct p.
      * repeat split; try lia. intros off R HR.
        replace (S n - n)%nat with 1%nat in * by lia. cbn [skipn] in HR.
        replace (off + 1)%nat with (S off) in * by lia.
        exact (mr_step d h off b r d1 h1 true R Hp Hm HR).
      * specialize (Hdr eq_refl). repeat split; try lia; try tauto.
        -- intros off R HR. rewrite Nat.sub_diag, Nat.add_0_r in *. cbn in HR.
           exact (mr_step d h off b r d1 h1 false R Hp Hm HR).
    + assert (Hp1 : d_st d1 <> OPayload) by (intro Q; rewrite Q in Es; discriminate).
      assert (Hv1 : d_st d1 <> ValueStart) by (intro Q; rewrite Q in Es; discriminate).
      assert (Hf1 : (need d1 (if p then r else b :: r) <= k)%nat).
      { destruct p.
        - unfold need in *. destruct r; [lia|]. cbn [length] in *. pose proof (rk_le2 (d_st d1)). lia.
        - specialize (Hrk eq_refl Hp eq_refl). unfold need in *. lia. }
      specialize (IH d1 h1 (if p then r else b :: r) (if p then S n else n) Hp1 (or_intror Hv1) Hf1).
      destruct (od_chunk_loop k d1 h1 (if p then r else b :: r) (if p then S n else n))
        as [[[d2 h2] n2]| |] eqn:EL.
      * destruct IH as (A & B & C & D). unfold chunk_post.
        destruct p.
        -- cbn [length]. repeat split; try lia. intros off R HR.
           specialize (D (S off) R).
           replace (off + (n2 - n))%nat with (S off + (n2 - S n))%nat in * by lia.
           replace (n2 - n)%nat with (S (n2 - S n)) in HR by lia. cbn [skipn] in HR.
           specialize (D HR).
           pose proof (mr_step d h off b r d1 h1 true _ Hp Hm D) as Q.
           replace (emit d1 h1 (adv true off)) with (@nil oview) in Q
             by (unfold emit; destruct (d_st d1); try reflexivity; congruence).
           rewrite addv_nil in Q. exact Q.
        -- cbn [length] in *. repeat split; try lia. intros off R HR.
           specialize (D off R HR).
           pose proof (mr_step d h off b r d1 h1 false _ Hp Hm D) as Q.
           replace (emit d1 h1 (adv false off)) with (@nil oview) in Q
             by (unfold emit; destruct (d_st d1); try reflexivity; congruence).
           rewrite addv_nil in Q. exact Q.
      * cbn in *. intros off.
        specialize (IH (adv p off)).
        pose proof (mr_step d h off b r d1 h1 p Fault Hp Hm) as Q.
        destruct p; apply Q, IH.
      * destruct IH.
Qed.

Lemma od_chunk_post : forall d h bs,
  d_st d <> OPayload -> bs <> [] \/ d_st d <> ValueStart ->
  chunk_post d h bs 0 (od_chunk d h bs).
Proof.
  intros. apply od_chunk_loop_post; try assumption.
  unfold need. destruct bs; [cbn; lia|]. pose proof (rk_le2 (d_st d)). lia.
Qed.

(** * Progress of a chunk call *)

Lemma od_chunk_loop_progress : forall fuel d h b r n d1 h1 n1,
  d_st d <> OPayload ->
  od_chunk_loop fuel d h (b :: r) n = Ok (d1, h1, n1) ->
  (n < n1 \/ (n = n1 /\ dr (d_st d1) < dr (d_st d)))%nat.
Proof.
  induction fuel as [|k IH]; intros d h b r n d1 h1 n1 Hp H; [discriminate|].
  cbn [od_chunk_loop] in H.
  destruct (od_step_cases b d) as [E|(d2 & p & E & Hrk & Hdr & Hvs)]; rewrite E in H;
    cbn [bind fst snd] in H; [discriminate|].
  destruct (hold_upd_cases d2 h) as [(h2 & Eh)|Eh]; rewrite Eh in H; cbn [bind] in H; [|discriminate].
  destruct p.
  - destruct (od_stops (d_st d2)) eqn:Es.
    + injection H as <- <- <-. left. lia.
    + destruct r as [|c r].
      * cbn in H. destruct k; injection H as <- <- <-; left; lia.
      * apply IH in H; [left; lia|]. intro Q. rewrite Q in Es. discriminate.
  - specialize (Hdr eq_refl). destruct (od_stops (d_st d2)) eqn:Es.
    + injection H as <- <- <-. right. split; [reflexivity|tauto].
    + apply IH in H; [left; lia|]. intro Q. rewrite Q in Es. discriminate.
Qed.

Lemma dr_le2 : forall s, (dr s <= 2)%nat.
Proof. destruct s; cbn; lia. Qed.

Definition dneed (d : odec) (bs : list N) : nat :=
  match bs with [] => 0 | _ => 3 * length bs + dr (d_st d) end.

Lemma od_drive_loop_run : forall fuel d h off bs,
  d_st d <> OPayload -> (dneed d bs <= fuel)%nat ->
  mrun d h off bs (od_drive_loop fuel d h off bs).
Proof.
  induction fuel as [|k IH]; intros d h off bs Hp Hf.
  - destruct bs; [constructor|cbn in Hf; lia].
  - destruct bs as [|b r]; [constructor|].
    cbn [od_drive_loop].
    assert (HP : chunk_post d h (b :: r) 0 (od_chunk d h (b :: r)))
      by (apply od_chunk_post; [assumption|left; discriminate]).
    destruct (od_chunk d h (b :: r)) as [[[d1 h1] n1]| |] eqn:E; cbn [bind].
    + destruct HP as (A & B & C & D).
      assert (Hpr := od_chunk_loop_progress _ _ _ _ _ _ _ _ _ Hp E).
      rewrite Nat.sub_0_r in D. specialize (D off).
      destruct (ostate_eqb (d_st d1) OPayload) eqn:EP.
      * assert (d_st d1 = OPayload) as Q by (destruct (d_st d1); try discriminate; reflexivity).
        rewrite Q. specialize (D (Ok ([], d1, h1, off + n1)%nat)).
        unfold emit in D. rewrite Q in D. rewrite addv_nil in D. apply D. apply mr_pay, Q.
      * assert (d_st d1 <> OPayload) as Q by (intro Q; rewrite Q in EP; discriminate).
        assert (Hf1 : (dneed d1 (skipn n1 (b :: r)) <= k)%nat).
        { unfold dneed in *. pose proof (dr_le2 (d_st d1)). pose proof (skipn_length n1 (b :: r)) as L.
          destruct (skipn n1 (b :: r)); [lia|]. rewrite L. cbn [length] in *. lia. }
        specialize (IH d1 h1 (off + n1)%nat (skipn n1 (b :: r)) Q Hf1).
        specialize (D _ IH). unfold emit in D.
        destruct (d_st d1) eqn:Ed; try congruence; try (rewrite addv_nil in D; exact D).
        destruct (od_drive_loop k d1 h1 (off + n1) (skipn n1 (b :: r))) as [[[[vs d2] h2] o2]| |];
          exact D.
    + apply HP.
    + destruct HP.
Qed.

Lemma od_drive_run : forall d h off bs, d_st d <> OPayload ->
  mrun d h off bs (od_drive d h off bs).
Proof.
  intros. apply od_drive_loop_run; [assumption|].
  unfold dneed. destruct bs; [lia|]. pose proof (dr_le2 (d_st d)). lia.
Qed.

Lemma mrun_drive : forall d h off bs R, d_st d <> OPayload -> mrun d h off bs R ->
  od_drive d h off bs = R.
Proof. intros d h off bs R Hp H. symmetry. eapply mrun_det; [exact H|]. now apply od_drive_run. Qed.

Lemma od_drive_chunks_eq : forall cs d h off, d_st d <> OPayload ->
  od_drive_chunks d h off cs = od_drive d h off (concat cs).
Proof.
  induction cs as [|c cs IH]; intros d h off Hp.
  - reflexivity.
  - cbn [od_drive_chunks concat]. symmetry. apply mrun_drive; [assumption|].
    assert (H := od_drive_run d h off c Hp).
    assert (HA := mrun_app _ _ _ _ _ H (concat cs)).
    destruct (od_drive d h off c) as [[[[vs d1] h1] o1]| |]; cbn [bind]; try exact HA; [|destruct HA].
    destruct (ostate_eqb (d_st d1) OPayload) eqn:EP.
    + assert (d_st d1 = OPayload) as Q by (destruct (d_st d1); try discriminate; reflexivity).
      rewrite Q. apply mrun_app_pay; assumption.
    + assert (d_st d1 <> OPayload) as Q by (intro Q; rewrite Q in EP; discriminate).
      assert (HB := HA Q _ (od_drive_run d1 h1 o1 (concat cs) Q)).
      rewrite <- (IH d1 h1 o1 Q) in HB.
      destruct (d_st d1) eqn:Ed; try congruence;
      destruct (od_drive_chunks d1 h1 o1 cs) as [[[[ws d2] h2] o2]| |]; exact HB.
Qed.

(** * Runs over one option *)

Lemma mrun_step' : forall d h off b r d1 h1 p R R', d_st d <> OPayload ->
  od_step b d = Ok (d1, p) -> hold_upd d1 h = Ok h1 ->
  mrun d1 h1 (adv p off) (rest p b r) R -> R' = addv (emit d1 h1 (adv p off)) R ->
  mrun d h off (b :: r) R'.
Proof.
  intros d h off b r d1 h1 p R R' Hp H1 H2 H3 ->.
  eapply mr_step; [assumption| |exact H3]. unfold mstep. rewrite H1. cbn [bind fst snd].
  rewrite H2. reflexivity.
Qed.

Lemma mrun_fault' : forall d h off b r, d_st d <> OPayload -> od_step b d = Fault ->
  mrun d h off (b :: r) Fault.
Proof. intros. apply mr_fault; [assumption|]. unfold mstep. rewrite H0. reflexivity. Qed.

(** between the end of an option header and the start of its value *)
Definition ready (d : odec) (l : N) : Prop :=
  d_st d <> OPayload /\ d_st d <> FirstByte /\ d_st d <> OptionValueDone /\ d_st d <> ValueStart /\
  d_st d <> FirstByteDone /\ od_stops (d_st d) = false /\
  forall b, exists d3, od_step b d = Ok (d3, false) /\ d_st d3 = ValueStart /\ od_length d3 = Ok l.

(** inside an option header *)
Definition midhead (d : odec) : Prop :=
  match d_st d with
  | OptionDelta | OptionDeltaDone | OptionLength | OptionLengthDone => True
  | _ => False
  end.

Lemma nib_hi : forall b, N.shiftr b 4 = b / 16.
Proof. intros. rewrite N.shiftr_div_pow2. reflexivity. Qed.
Lemma nib_lo : forall b, N.land b 15 = b mod 16.
Proof. intros. exact (N.land_ones b 4). Qed.

Lemma ext16 : forall a b, a < 256 -> b < 256 ->
  (269 + N.lor ((N.shiftl a 8) mod 65536) b) mod 65536 = (269 + 256 * a + b) mod 65536.
Proof.
  intros a b Ha Hb. rewrite N.shiftl_mul_pow2. change (2 ^ 8) with 256.
  rewrite (N.mod_small (a * 256)) by lia.
  change 256 with (2 ^ 8) at 1. rewrite lor_add by (change (2 ^ 8) with 256; lia).
  change (2 ^ 8) with 256. f_equal. lia.
Qed.

Lemma take_ext_cases : forall nb bs,
  (nb < 13 /\ take_ext nb bs = Got nb bs) \/
  (13 <= nb /\ bs = [] /\ take_ext nb bs = Short) \/
  (nb = 13 /\ exists a r, bs = a :: r /\ take_ext nb bs = Got (13 + a) r) \/
  (nb = 14 /\ exists a, bs = [a] /\ take_ext nb bs = Short) \/
  (nb = 14 /\ exists a b r, bs = a :: b :: r /\ take_ext nb bs = Got ((269 + 256 * a + b) mod 65536) r) \/
  (15 <= nb /\ exists a r, bs = a :: r /\ take_ext nb bs = Reserved).
Proof.
  intros nb bs. unfold take_ext. destruct (N.ltb_spec nb 13); [left; auto|].
  destruct bs as [|a r]; [right; left; auto|].
  destruct (N.eqb_spec nb 13); [right; right; left; eauto|].
  destruct (N.eqb_spec nb 14).
  - destruct r as [|b r]; [do 3 right; left; eauto|do 4 right; left; split; eauto 6].
  - do 5 right. split; [lia|eauto].
Qed.

Ltac kill_if :=
  repeat (match goal with
  | |- context [if ?c then _ else _] =>
      first [ replace c with true by (symmetry; first [apply N.leb_le|apply N.ltb_lt|apply N.eqb_eq]; lia)
            | replace c with false by (symmetry; first [apply N.leb_gt|apply N.ltb_ge|apply N.eqb_neq]; lia) ]
  end; cbn iota).

Ltac odstep :=
  unfold od_step, hold_upd, od_delta, od_length, get_value, process_option_size, od_goto, od_setpos,
    raw_delta, raw_length;
  cbn [d_st d_b0 d_b1 d_b2 d_b3 d_pos bind fst snd od_put hd_num hd_len]; rewrite ?nib_hi, ?nib_lo;
  change (negb (1 =? 2)) with true; change (negb (2 =? 2)) with false;
  change ((1 + 1) mod 256) with 2;
  kill_if; cbn [bind];
  change (negb (1 =? 2)) with true; change (negb (2 =? 2)) with false;
  change ((1 + 1) mod 256) with 2; cbn iota; try reflexivity.

Lemma mrun_step0 : forall d h off b r d1 h1 p R, d_st d <> OPayload ->
  od_step b d = Ok (d1, p) -> hold_upd d1 h = Ok h1 -> d_st d1 <> ValueStart ->
  mrun d1 h1 (adv p off) (rest p b r) R -> mrun d h off (b :: r) R.
Proof.
  intros. eapply mrun_step'; eauto. unfold emit.
  destruct (d_st d1) eqn:E; try (rewrite addv_nil; reflexivity). congruence.
Qed.

Ltac go := eapply mrun_step0; [cbn; discriminate | odstep | odstep | cbn; discriminate | cbn [adv rest]].

Ltac rdy := unfold ready; cbn [d_st]; repeat split; try discriminate;
  (intros ?; eexists; split; [odstep|split; [reflexivity|odstep]]).

Lemma head_run : forall d h off b r delta r1 l r2,
  d_st d = FirstByte -> b <> 255 -> bytes_ok (b :: r) ->
  take_ext (b / 16) r = Got delta r1 -> take_ext (b mod 16) r1 = Got l r2 ->
  exists hb d2, b :: r = hb ++ r2 /\ hb <> [] /\ ready d2 l /\
    mrun d h off hb (Ok ([], d2, Holder ((hd_num h + delta) mod 65536) l, off + length hb)%nat).
Proof.
  intros [st b0 b1 b2 b3 pos] [hn hl] off b r delta r1 l r2 Hst Hb Hok H1 H2. cbn in Hst. subst st.
  cbn [hd_num].
  assert (Hlo : b mod 16 < 16) by (apply N.mod_lt; discriminate).
  destruct (take_ext_cases (b / 16) r) as
    [(N1 & E1)|[(N1 & -> & E1)|[(N1 & a & s & -> & E1)|[(N1 & a & -> & E1)|[(N1 & a & c & s & -> & E1)|(N1 & a & s & -> & E1)]]]]];
    rewrite E1 in H1; try discriminate; injection H1 as <- <-; clear E1;
  match type of H2 with take_ext _ ?x = _ =>
  destruct (take_ext_cases (b mod 16) x) as
    [(N2 & E2)|[(N2 & Ex & E2)|[(N2 & a' & s' & Ex & E2)|[(N2 & a' & Ex & E2)|[(N2 & a' & c' & s' & Ex & E2)|(N2 & a' & s' & Ex & E2)]]]]]
  end; rewrite E2 in H2; try discriminate; injection H2 as <- <-; clear E2; try (subst; cbn in *);
  unfold bytes_ok in Hok; repeat match goal with H : Forall _ (_ :: _) |- _ => inversion H; clear H; subst end;
  unfold byte_ok in *.
  - exists [b]. eexists. split; [reflexivity|]. split; [discriminate|]. split.
    2:{ cbn [length]. replace (off + 1)%nat with (S off) by lia. go. go. constructor. }
    rdy.
  - exists [b; a']. eexists. split; [reflexivity|]. split; [discriminate|]. split.
    2:{ cbn [length]. replace (off + 2)%nat with (S (S off)) by lia. go. go. go. go. constructor. }
    rdy.
  - exists [b; a'; c']. eexists. split; [reflexivity|]. split; [discriminate|]. split.
    2:{ cbn [length]. replace (off + 3)%nat with (S (S (S off))) by lia.
        rewrite <- ext16 by assumption. go. go. go. go. go. constructor. }
    rdy. rewrite ext16 by assumption. reflexivity.
  - exists [b; a]. eexists. split; [reflexivity|]. split; [discriminate|]. split.
    2:{ cbn [length]. replace (off + 2)%nat with (S (S off)) by lia. go. go. go. go. constructor. }
    rdy.
  - exists [b; a; a']. eexists. split; [reflexivity|]. split; [discriminate|]. split.
    2:{ cbn [length]. replace (off + 3)%nat with (S (S (S off))) by lia. go. go. go. go. go. constructor. }
    rdy.
  - exists [b; a; a'; c']. eexists. split; [reflexivity|]. split; [discriminate|]. split.
    2:{ cbn [length]. replace (off + 4)%nat with (S (S (S (S off)))) by lia.
        rewrite <- ext16 by assumption. go. go. go. go. go. go. constructor. }
    rdy. rewrite ext16 by assumption. reflexivity.
  - exists [b; a; c]. eexists. split; [reflexivity|]. split; [discriminate|]. split.
    2:{ cbn [length]. replace (off + 3)%nat with (S (S (S off))) by lia.
        rewrite <- ext16 by assumption. go. go. go. go. go. constructor. }
    rdy.
  - exists [b; a; c; a']. eexists. split; [reflexivity|]. split; [discriminate|]. split.
    2:{ cbn [length]. replace (off + 4)%nat with (S (S (S (S off)))) by lia.
        rewrite <- ext16 by assumption. go. go. go. go. go. go. constructor. }
    rdy.
  - exists [b; a; c; a'; c']. eexists. split; [reflexivity|]. split; [discriminate|]. split.
    2:{ cbn [length]. replace (off + 5)%nat with (S (S (S (S (S off))))) by lia.
        rewrite <- !ext16 by assumption. go. go. go. go. go. go. go. constructor. }
    rdy. rewrite ext16 by assumption. reflexivity.
Qed.

Lemma head_cut : forall d h off b r,
  d_st d = FirstByte -> b <> 255 -> bytes_ok (b :: r) ->
  (take_ext (b / 16) r = Short \/
   exists delta r1, take_ext (b / 16) r = Got delta r1 /\ take_ext (b mod 16) r1 = Short) ->
  exists d2 h2, midhead d2 /\
    mrun d h off (b :: r) (Ok ([], d2, h2, off + length (b :: r))%nat).
Proof.
  intros [st b0 b1 b2 b3 pos] [hn hl] off b r Hst Hb Hok H. cbn in Hst. subst st.
  assert (Hlo : b mod 16 < 16) by (apply N.mod_lt; discriminate).
  assert (Hsp : b mod 16 < 13 \/ 13 <= b mod 16) by lia.
  assert (Hhi : b / 16 < 16) by (inversion Hok; subst; unfold byte_ok in *; lia).
  destruct (take_ext_cases (b / 16) r) as
    [(N1 & E1)|[(N1 & -> & E1)|[(N1 & a & s & -> & E1)|[(N1 & a & -> & E1)|[(N1 & a & c & s & -> & E1)|(N1 & a & s & -> & E1)]]]]];
    (destruct H as [H|(dl & r1 & Hg & H)]; [rewrite E1 in H; try discriminate|rewrite E1 in Hg; try discriminate]);
    try (injection Hg as <- <-);
    try (match type of H with take_ext _ ?x = _ =>
  destruct (take_ext_cases (b mod 16) x) as
    [(N2 & E2)|[(N2 & Ex & E2)|[(N2 & a' & s' & Ex & E2)|[(N2 & a' & Ex & E2)|[(N2 & a' & c' & s' & Ex & E2)|(N2 & a' & s' & Ex & E2)]]]]]
  end; rewrite E2 in H; try discriminate);  try (subst; cbn in *);
  unfold bytes_ok in Hok; repeat match goal with H : Forall _ (_ :: _) |- _ => inversion H; clear H; subst end;
  unfold byte_ok in *.
  - (* lo cut, no ext of hi *)
    do 2 eexists. split; [|replace (off + 1)%nat with (S off) by lia; go; go; constructor]. exact I.
  - do 2 eexists. split; [|replace (off + 2)%nat with (S (S off)) by lia; go; go; go; go; constructor]. exact I.
  - destruct Hsp.
    + do 2 eexists. split; [|replace (off + 1)%nat with (S off) by lia; go; go; constructor]. exact I.
    + do 2 eexists. split; [|replace (off + 1)%nat with (S off) by lia; go; go; constructor]. exact I.
  - do 2 eexists. split; [|replace (off + 2)%nat with (S (S off)) by lia; go; go; go; constructor]. exact I.
  - do 2 eexists. split; [|replace (off + 3)%nat with (S (S (S off))) by lia; go; go; go; go; go; constructor]. exact I.
  - destruct Hsp.
    + do 2 eexists. split; [|replace (off + 2)%nat with (S (S off)) by lia; go; go; go; go; constructor]. exact I.
    + do 2 eexists. split; [|replace (off + 2)%nat with (S (S off)) by lia; go; go; go; constructor]. exact I.
  - do 2 eexists. split; [|replace (off + 3)%nat with (S (S (S off))) by lia; go; go; go; go; constructor]. exact I.
  - do 2 eexists. split; [|replace (off + 4)%nat with (S (S (S (S off)))) by lia; go; go; go; go; go; go; constructor]. exact I.
Qed.

Ltac gof := apply mrun_fault'; [cbn; discriminate|odstep].

Lemma head_reserved : forall d h off b r,
  d_st d = FirstByte -> b <> 255 -> bytes_ok (b :: r) ->
  (take_ext (b / 16) r = Reserved \/
   exists delta r1, take_ext (b / 16) r = Got delta r1 /\ take_ext (b mod 16) r1 = Reserved) ->
  exists pre c post d2 h2, b :: r = pre ++ c :: post /\ pre <> [] /\ midhead d2 /\
    mrun d h off pre (Ok ([], d2, h2, off + length pre)%nat) /\
    forall post', mrun d2 h2 (off + length pre)%nat (c :: post') Fault.
Proof.
  intros [st b0 b1 b2 b3 pos] [hn hl] off b r Hst Hb Hok H. cbn in Hst. subst st.
  assert (Hlo : b mod 16 < 16) by (apply N.mod_lt; discriminate).
  assert (Hsp : b mod 16 < 13 \/ 13 <= b mod 16) by lia.
  assert (Hhi : b / 16 < 16) by (inversion Hok; subst; unfold byte_ok in *; lia).
  destruct (take_ext_cases (b / 16) r) as
    [(N1 & E1)|[(N1 & -> & E1)|[(N1 & a & s & -> & E1)|[(N1 & a & -> & E1)|[(N1 & a & c & s & -> & E1)|(N1 & a & s & -> & E1)]]]]];
    (destruct H as [H|(dl & r1 & Hg & H)]; [rewrite E1 in H; try discriminate|rewrite E1 in Hg; try discriminate]);
    try (injection Hg as <- <-);
    try (match type of H with take_ext _ ?x = _ =>
  destruct (take_ext_cases (b mod 16) x) as
    [(N2 & E2)|[(N2 & Ex & E2)|[(N2 & a' & s' & Ex & E2)|[(N2 & a' & Ex & E2)|[(N2 & a' & c' & s' & Ex & E2)|(N2 & a' & s' & Ex & E2)]]]]]
  end; rewrite E2 in H; try discriminate);  try (subst; cbn in *);
  unfold bytes_ok in Hok; repeat match goal with H : Forall _ (_ :: _) |- _ => inversion H; clear H; subst end;
  unfold byte_ok in *.
  - exists [b], a', s'. do 2 eexists. split; [reflexivity|]. split; [discriminate|]. split; [|split].
    2:{ cbn [length]. replace (off + 1)%nat with (S off) by lia. go. go. constructor. }
    + exact I.
    + intros post'. go. gof.
  - exists [b; a], a', s'. do 2 eexists. split; [reflexivity|]. split; [discriminate|]. split; [|split].
    2:{ cbn [length]. replace (off + 2)%nat with (S (S off)) by lia. go. go. go. constructor. }
    + exact I.
    + intros post'. go. gof.
  - exists [b; a; c], a', s'. do 2 eexists. split; [reflexivity|]. split; [discriminate|]. split; [|split].
    2:{ cbn [length]. replace (off + 3)%nat with (S (S (S off))) by lia. go. go. go. go. constructor. }
    + exact I.
    + intros post'. go. gof.
  - destruct Hsp.
    + exists [b], a, s. do 2 eexists. split; [reflexivity|]. split; [discriminate|]. split; [|split].
      2:{ cbn [length]. replace (off + 1)%nat with (S off) by lia. go. go. constructor. }
      * exact I.
      * intros post'. go. gof.
    + exists [b], a, s. do 2 eexists. split; [reflexivity|]. split; [discriminate|]. split; [|split].
      2:{ cbn [length]. replace (off + 1)%nat with (S off) by lia. go. go. constructor. }
      * exact I.
      * intros post'. gof.
Qed.

Lemma vlen_set : forall l d s, od_vlen (od_goto s (od_set_vlen l d)) = l.
Proof. intros. unfold od_vlen, od_goto, od_set_vlen. cbn. pose proof (N.div_mod l 256). lia. Qed.

(** the value bytes are skipped *)
Lemma value_run : forall v d h off, d_st d = OptionValue -> len v < od_vlen d -> od_vlen d < 65536 ->
  exists d2, d_st d2 = OptionValue /\ od_vlen d2 = od_vlen d - len v /\
    mrun d h off v (Ok ([], d2, h, off + length v)%nat).
Proof.
  induction v as [|b v IH]; intros d h off Hs Hl Hb.
  - exists d. unfold len in *. cbn in *. repeat split; [assumption|lia|]. rewrite Nat.add_0_r. constructor.
  - unfold len in *. cbn [length] in *.
    set (l := (od_vlen d + 65535) mod 65536).
    assert (El : l = od_vlen d - 1) by (unfold l; lia).
    destruct (IH (od_goto OptionValue (od_set_vlen l d)) h (S off)) as (d2 & A & B & C).
    + reflexivity.
    + rewrite vlen_set. lia.
    + rewrite vlen_set. lia.
    + exists d2. rewrite vlen_set in B. repeat split; [assumption|lia|].
      replace (off + S (length v))%nat with (S off + length v)%nat by lia.
      eapply (mrun_step0 _ _ _ _ _ _ _ true); [rewrite Hs; discriminate| | | |exact C].
      * unfold od_step. rewrite Hs. fold l. cbn zeta.
        replace (l =? 0) with false by (symmetry; apply N.eqb_neq; lia). reflexivity.
      * reflexivity.
      * cbn. discriminate.
Qed.

Lemma value_run_all : forall v d h off, d_st d = OptionValue -> len v = od_vlen d -> od_vlen d < 65536 ->
  v <> [] ->
  exists d2, d_st d2 = OptionValueDone /\ mrun d h off v (Ok ([], d2, h, off + length v)%nat).
Proof.
  intros v d h off Hs Hl Hb Hn.
  destruct (exists_last Hn) as (w & b & ->).
  unfold len in Hl. rewrite app_length in Hl. cbn in Hl.
  destruct (value_run w d h off Hs) as (d2 & A & B & C); unfold len; try lia.
  unfold len in B.
  set (l := (od_vlen d2 + 65535) mod 65536).
  assert (El : l = 0) by (unfold l; rewrite B; lia).
  exists (od_goto OptionValueDone (od_set_vlen l d2)). split; [reflexivity|].
  assert (Q := mrun_app _ _ _ _ _ C [b]). cbn beta iota in Q.
  rewrite app_length. cbn [length]. rewrite <- (addv_nil (Ok _)). apply Q; [congruence|].
  eapply (mrun_step0 _ _ _ _ _ _ _ true); [rewrite A; discriminate| | | |].
  - unfold od_step. rewrite A. fold l. cbn zeta. rewrite El. reflexivity.
  - reflexivity.
  - cbn. discriminate.
  - cbn [adv rest]. rewrite El. replace (off + (length w + 1))%nat with (S (off + length w)) by lia.
    constructor.
Qed.

(** * Refinement of the RFC parser *)

Definition boundary (d : odec) : Prop := d_st d = FirstByte \/ d_st d = OptionValueDone.

Lemma boundary_not_pay : forall d, boundary d -> d_st d <> OPayload.
Proof. intros d [H|H]; congruence. Qed.

Lemma boundary_run : forall d h off b r R, boundary d ->
  mrun (od_goto FirstByte d) h off (b :: r) R -> mrun d h off (b :: r) R.
Proof.
  intros d h off b r R [H|H] HR.
  - destruct d; cbn in *; subst. exact HR.
  - eapply (mrun_step0 _ _ _ _ _ _ _ false);
      [rewrite H; discriminate|unfold od_step; rewrite H; reflexivity|reflexivity|discriminate|exact HR].
Qed.

Lemma start_zero : forall d, d_st d = ValueStart -> od_length d = Ok 0 ->
  exists d3, boundary d3 /\
    forall h off b r R, mrun d3 h off (b :: r) R -> mrun d h off (b :: r) R.
Proof.
  intros d Hs Hl. exists (od_goto OptionValueDone (od_set_vlen 0 d)). split; [right; reflexivity|].
  intros h off b r R HR.
  eapply (mrun_step0 _ _ _ _ _ (od_goto OptionValueDone (od_set_vlen 0 d)) h false); [rewrite Hs; discriminate| |reflexivity|discriminate|exact HR].
  unfold od_step. rewrite Hs, Hl. reflexivity.
Qed.

Lemma start_pos : forall d l, d_st d = ValueStart -> od_length d = Ok l -> l <> 0 ->
  exists d3, d_st d3 = OptionValue /\ od_vlen d3 = l /\
    forall h off b r R, mrun d3 h off (b :: r) R -> mrun d h off (b :: r) R.
Proof.
  intros d l Hs Hl Hn. exists (od_goto OptionValue (od_set_vlen l d)).
  split; [reflexivity|]. split; [apply vlen_set|].
  intros h off b r R HR.
  eapply (mrun_step0 _ _ _ _ _ (od_goto OptionValue (od_set_vlen l d)) h false); [rewrite Hs; discriminate| |reflexivity|discriminate|exact HR].
  unfold od_step. rewrite Hs, Hl. cbn [bind].
  replace (l =? 0) with false by (symmetry; now apply N.eqb_neq). reflexivity.
Qed.

Lemma take_ext_bound : forall nb bs v r, nb < 16 -> bytes_ok bs -> take_ext nb bs = Got v r ->
  v < 65536 /\ bytes_ok r /\ (length r <= length bs)%nat.
Proof.
  intros nb bs v r Hn Hok H. unfold bytes_ok in *.
  destruct (take_ext_cases nb bs) as
    [(N1 & E1)|[(N1 & -> & E1)|[(N1 & a & s & -> & E1)|[(N1 & a & -> & E1)|[(N1 & a & c & s & -> & E1)|(N1 & a & s & -> & E1)]]]]];
  rewrite E1 in H; try discriminate; injection H as <- <-;
  repeat match goal with H : Forall _ (_ :: _) |- _ => inversion H; clear H; subst end;
  unfold byte_ok in *; cbn [length]; repeat split; try lia; try assumption.
Qed.

(** state of the decoder when the stream ends *)
Definition at_end (e : oend) (d : odec) (h : holder) (total o : nat) : Prop :=
  match e with
  | EndClean => boundary d /\ o = total
  | EndMarker p => d_st d = OPayload /\ o = p
  | EndReserved => False
  | EndInHead => midhead d /\ o = total
  | EndAfterHead num l => ready d l /\ h = Holder num l /\ o = total
  | EndInValue k => d_st d = OptionValue /\ od_vlen d = k /\ 0 < k < 65536 /\ o = total
  end.

Definition refines (d : odec) (h : holder) (off : nat) (bs : list N) (p : list pview * oend) : Prop :=
  match snd p with
  | EndReserved =>
      exists pre c post d1 h1 o1, bs = pre ++ c :: post /\ pre <> [] /\
        mrun d h off pre (Ok (fst p, d1, h1, o1)) /\ d_st d1 <> OPayload /\
        forall post', mrun d1 h1 o1 (c :: post') Fault
  | e => exists d1 h1 o1, mrun d h off bs (Ok (fst p, d1, h1, o1)) /\
           at_end e d1 h1 (off + length bs) o1
  end.

Lemma refines_prefix : forall d h off a b p vs d1 h1,
  mrun d h off a (Ok (vs, d1, h1, off + length a)%nat) -> d_st d1 <> OPayload ->
  refines d1 h1 (off + length a) b p ->
  refines d h off (a ++ b) (vs ++ fst p, snd p).
Proof.
  intros d h off a b [ws e] vs d1 h1 Ha Hp Hr. unfold refines in *. cbn [fst snd] in *.
  pose proof (fun x => mrun_app _ _ _ _ _ Ha x Hp) as HA. cbn beta iota in HA.
  destruct e.
  - destruct Hr as (d2 & h2 & o2 & Hm & He). exists d2, h2, o2. split; [exact (HA b _ Hm)|].
    rewrite app_length, Nat.add_assoc. exact He.
  - destruct Hr as (d2 & h2 & o2 & Hm & He). exists d2, h2, o2. split; [exact (HA b _ Hm)|].
    rewrite app_length, Nat.add_assoc. exact He.
  - destruct Hr as (pre & c & post & d2 & h2 & o2 & -> & Hne & Hm & Hq & Hf).
    exists (a ++ pre), c, post, d2, h2, o2. rewrite <- app_assoc. split; [reflexivity|].
    split; [destruct a; [assumption|discriminate]|].
    split; [exact (HA pre _ Hm)|]. auto.
  - destruct Hr as (d2 & h2 & o2 & Hm & He). exists d2, h2, o2. split; [exact (HA b _ Hm)|].
    rewrite app_length, Nat.add_assoc. exact He.
  - destruct Hr as (d2 & h2 & o2 & Hm & He). exists d2, h2, o2. split; [exact (HA b _ Hm)|].
    rewrite app_length, Nat.add_assoc. exact He.
  - destruct Hr as (d2 & h2 & o2 & Hm & He). exists d2, h2, o2. split; [exact (HA b _ Hm)|].
    rewrite app_length, Nat.add_assoc. exact He.
Qed.

Lemma refines_step : forall d d3 h h3 off c s p vs,
  (forall x R, mrun d3 h3 off (c :: x) R -> mrun d h off (c :: x) (addv vs R)) ->
  refines d3 h3 off (c :: s) p ->
  refines d h off (c :: s) (vs ++ fst p, snd p).
Proof.
  intros d d3 h h3 off c s [ws e] vs HS Hr. unfold refines in *. cbn [fst snd] in *.
  destruct e.
  - destruct Hr as (d2 & h2 & o2 & Hm & He). exists d2, h2, o2. split; [exact (HS _ _ Hm)|exact He].
  - destruct Hr as (d2 & h2 & o2 & Hm & He). exists d2, h2, o2. split; [exact (HS _ _ Hm)|exact He].
  - destruct Hr as (pre & x & post & d2 & h2 & o2 & E & Hne & Hm & Hq & Hf).
    exists pre, x, post, d2, h2, o2. repeat split; try assumption.
    destruct pre as [|y pre]; [congruence|]. injection E as <- E. exact (HS _ _ Hm).
  - destruct Hr as (d2 & h2 & o2 & Hm & He). exists d2, h2, o2. split; [exact (HS _ _ Hm)|exact He].
  - destruct Hr as (d2 & h2 & o2 & Hm & He). exists d2, h2, o2. split; [exact (HS _ _ Hm)|exact He].
  - destruct Hr as (d2 & h2 & o2 & Hm & He). exists d2, h2, o2. split; [exact (HS _ _ Hm)|exact He].
Qed.

Lemma drive_parse : forall n bs d h off, (length bs <= n)%nat -> boundary d ->
  hd_num h < 65536 -> bytes_ok bs -> refines d h off bs (oparse n (hd_num h) off bs).
Proof.
  induction n as [|n IH]; intros bs d h off Hn Hd Hh Hok.
  { destruct bs; [|cbn in Hn; lia]. exists d, h, off. split; [constructor|].
    split; [assumption|cbn; lia]. }
  destruct bs as [|b r].
  { exists d, h, off. split; [constructor|]. split; [assumption|cbn; lia]. }
  cbn [oparse].
  destruct (N.eqb_spec b 255) as [->|Hb].
  { exists (od_goto OPayload (od_goto FirstByte d)), h, (off + 1)%nat. cbn [fst]. split.
    - apply boundary_run; [assumption|].
      eapply (mrun_step0 _ _ _ _ _ _ _ true); [discriminate|reflexivity|reflexivity|discriminate|].
      cbn [adv]. replace (off + 1)%nat with (S off) by lia. apply mr_pay. reflexivity.
    - split; reflexivity. }
  assert (Hlo : b mod 16 < 16) by (apply N.mod_lt; discriminate).
  assert (Hhi : b / 16 < 16) by (inversion Hok; subst; unfold byte_ok in *; lia).
  assert (HB : forall p, refines (od_goto FirstByte d) h off (b :: r) p -> refines d h off (b :: r) p).
  { intros p Hp. pose proof (refines_step d (od_goto FirstByte d) h h off b r p []) as Q.
    cbn [app] in Q. destruct p as [ws e]. apply Q; [|exact Hp].
    intros x R HR. rewrite addv_nil. apply boundary_run; assumption. }
  apply HB. clear HB. set (d0 := od_goto FirstByte d). assert (Hd0 : d_st d0 = FirstByte) by reflexivity.
  clearbody d0. clear Hd d.
  assert (HC : (take_ext (b / 16) r = Short \/
     exists delta r1, take_ext (b / 16) r = Got delta r1 /\ take_ext (b mod 16) r1 = Short) ->
     refines d0 h off (b :: r) ([], EndInHead)).
  { intros H. destruct (head_cut d0 h off b r Hd0 Hb Hok H) as (d2 & h2 & Hm & HR).
    exists d2, h2, (off + length (b :: r))%nat. split; [exact HR|].
    split; [exact Hm|reflexivity]. }
  assert (HV : (take_ext (b / 16) r = Reserved \/
     exists delta r1, take_ext (b / 16) r = Got delta r1 /\ take_ext (b mod 16) r1 = Reserved) ->
     refines d0 h off (b :: r) ([], EndReserved)).
  { intros H. destruct (head_reserved d0 h off b r Hd0 Hb Hok H)
      as (pre & c & post & d2 & h2 & E & Hne & Hm & HR & HF).
    exists pre, c, post, d2, h2, (off + length pre)%nat. repeat split; try assumption.
    intro Q. unfold midhead in Hm. rewrite Q in Hm. exact Hm. }
  destruct (take_ext (b / 16) r) as [delta r1| |] eqn:E1; [|apply HC; auto|apply HV; auto].
  destruct (take_ext (b mod 16) r1) as [l r2| |] eqn:E2; [|apply HC; eauto|apply HV; eauto].
  clear HC HV.
  destruct (take_ext_bound _ _ _ _ Hhi (Forall_inv_tail Hok) E1) as (Bd & Hok1 & L1).
  destruct (take_ext_bound _ _ _ _ Hlo Hok1 E2) as (Bl & Hok2 & L2).
  destruct (head_run d0 h off b r delta r1 l r2 Hd0 Hb Hok E1 E2) as (hb & d2 & Ebs & Hne & Hrd & HR).
  assert (Hnp : d_st d2 <> OPayload) by apply Hrd.
  set (num := (hd_num h + delta) mod 65536) in *.
  assert (Hnum : num < 65536) by (apply N.mod_lt; discriminate).
  replace (off + (length (b :: r) - length r2))%nat with (off + length hb)%nat
    by (rewrite Ebs, app_length; lia).
  rewrite Ebs. set (off2 := (off + length hb)%nat) in *.
  destruct r2 as [|c s].
  { exists d2, (Holder num l), off2. cbn [fst]. rewrite app_nil_r. split; [exact HR|].
    cbn. repeat split; try assumption; apply Hrd. }
  (* at least one byte after the header *)
  assert (HS : forall p, 
     (forall d3, d_st d3 = ValueStart -> od_length d3 = Ok l -> refines d3 (Holder num l) off2 (c :: s) p) ->
     refines d0 h off (hb ++ c :: s) ((num, l, off2) :: fst p, snd p)).
  { intros p Hp. change ((num, l, off2) :: fst p, snd p)
      with ([] ++ fst ([(num, l, off2)] ++ fst p, snd p), snd ([(num, l, off2)] ++ fst p, snd p)).
    eapply refines_prefix; [exact HR|assumption|].
    destruct Hrd as (R1 & R2 & R3 & R4 & R5 & R6 & R7).
    destruct (R7 c) as (d3 & A & B & C).
    apply (refines_step d2 d3 (Holder num l) (Holder num l)).
    - intros x R Hx. eapply (mrun_step' _ _ _ _ _ d3 (Holder num l) false R); [assumption|exact A| | |].
      + unfold hold_upd. rewrite B. reflexivity.
      + exact Hx.
      + unfold emit. rewrite B. reflexivity.
    - apply Hp; assumption. }
  destruct (Nat.ltb_spec (length (c :: s)) (N.to_nat l)) as [Hcut|Hfull].
  - (* value cut short *)
    apply (HS ([], EndInValue (l - N.of_nat (length (c :: s))))). intros d3 A B.
    destruct (start_pos d3 l A B) as (d4 & D1 & D2 & D3); [cbn in Hcut; lia|].
    destruct (value_run (c :: s) d4 (Holder num l) off2 D1) as (d5 & V1 & V2 & V3);
      [rewrite D2; unfold len; lia|rewrite D2; assumption|].
    exists d5, (Holder num l), (off2 + length (c :: s))%nat. cbn [fst]. split.
    + apply D3, V3.
    + unfold len in V2. rewrite D2 in V2. cbn [snd at_end]. repeat split; try assumption; lia.
  - (* value complete *)
    destruct (oparse n num (off2 + N.to_nat l) (skipn (N.to_nat l) (c :: s))) as [vs e] eqn:EP.
    change ((num, l, off2) :: vs, e) with ((num, l, off2) :: fst (vs, e), snd (vs, e)).
    apply HS. intros d3 A B.
    assert (Hlen : (length (skipn (N.to_nat l) (c :: s)) <= n)%nat).
    { rewrite skipn_length. cbn [length] in *. lia. }
    assert (Hoks : bytes_ok (skipn (N.to_nat l) (c :: s))).
    { rewrite <- (firstn_skipn (N.to_nat l) (c :: s)) in Hok2. apply bytes_ok_app in Hok2. tauto. }
    destruct (N.eq_dec l 0) as [El|El].
    + rewrite El in *. destruct (start_zero d3 A B) as (d4 & D1 & D2).
      cbn [N.to_nat skipn] in *. rewrite Nat.add_0_r in EP.
      specialize (IH (c :: s) d4 (Holder num 0) off2 Hlen D1 Hnum Hoks). cbn [hd_num] in IH.
      rewrite EP in IH. apply (refines_step d3 d4 _ (Holder num 0) off2 c s (vs, e) []).
      * intros x R Hx. rewrite addv_nil. apply D2, Hx.
      * exact IH.
    + destruct (start_pos d3 l A B El) as (d4 & D1 & D2 & D3).
      set (v := firstn (N.to_nat l) (c :: s)) in *.
      set (w := skipn (N.to_nat l) (c :: s)) in *.
      assert (Lv : length v = N.to_nat l) by (unfold v; rewrite firstn_length; lia).
      assert (Evw : c :: s = v ++ w) by (symmetry; apply firstn_skipn).
      destruct (value_run_all v d4 (Holder num l) off2 D1) as (d5 & V1 & V2);
        [unfold len; lia|lia|destruct v; [cbn in Lv; lia|discriminate]|].
      specialize (IH w d5 (Holder num l) (off2 + N.to_nat l)%nat Hlen (or_intror V1) Hnum Hoks).
      cbn [hd_num] in IH. rewrite EP in IH.
      assert (Q : refines d4 (Holder num l) off2 (v ++ w) ([] ++ fst (vs, e), snd (vs, e))).
      { eapply refines_prefix; [exact V2|congruence|]. rewrite Lv. exact IH. }
      rewrite <- Evw in Q. cbn [app fst snd] in Q.
      apply (refines_step d3 d4 _ (Holder num l) off2 c s (vs, e) []).
      * intros x R Hx. rewrite addv_nil. apply D3, Hx.
      * exact Q.
Qed.

(** * The parser on encoded option lists *)

Lemma oparse_fuel : forall n m bs prev off, (length bs <= n)%nat -> (length bs <= m)%nat ->
  bytes_ok bs -> oparse n prev off bs = oparse m prev off bs.
Proof.
  induction n as [|n IH]; intros m bs prev off Hn Hm Hok.
  - destruct bs; [|cbn in Hn; lia]. destruct m; reflexivity.
  - destruct bs as [|b r]; [destruct m; reflexivity|].
    destruct m as [|m]; [cbn in Hm; lia|]. cbn [oparse].
    destruct (b =? 255); [reflexivity|].
    assert (Hlo : b mod 16 < 16) by (apply N.mod_lt; discriminate).
    assert (Hhi : b / 16 < 16) by (inversion Hok; subst; unfold byte_ok in *; lia).
    destruct (take_ext (b / 16) r) as [delta r1| |] eqn:E1; try reflexivity.
    destruct (take_ext (b mod 16) r1) as [l r2| |] eqn:E2; try reflexivity.
    destruct (take_ext_bound _ _ _ _ Hhi (Forall_inv_tail Hok) E1) as (Bd & Hok1 & L1).
    destruct (take_ext_bound _ _ _ _ Hlo Hok1 E2) as (Bl & Hok2 & L2).
    destruct r2 as [|c s]; [reflexivity|]. destruct (_ <? _)%nat; [reflexivity|].
    rewrite (IH m); [reflexivity| | |].
    + rewrite skipn_length. cbn [length] in *. lia.
    + rewrite skipn_length. cbn [length] in *. lia.
    + rewrite <- (firstn_skipn (N.to_nat l) (c :: s)) in Hok2. apply bytes_ok_app in Hok2. tauto.
Qed.

Lemma nib_lt : forall x, nib x < 15.
Proof. intros. unfold nib. destruct (x <? 13) eqn:E; [apply N.ltb_lt in E; lia|]. destruct (x <? 269); lia. Qed.

Lemma take_ext_enc : forall x t, x < 65536 -> take_ext (nib x) (ext x ++ t) = Got x t.
Proof.
  intros x t Hx. unfold nib, ext, take_ext.
  destruct (N.ltb_spec x 13).
  - replace (x <? 13) with true by (symmetry; apply N.ltb_lt; lia). reflexivity.
  - destruct (N.ltb_spec x 269).
    + change (13 <? 13) with false. cbn [app]. change (13 =? 13) with true. cbn iota.
      f_equal. lia.
    + change (14 <? 13) with false. cbn [app]. change (14 =? 13) with false.
      change (14 =? 14) with true. cbn iota. f_equal. lia.
Qed.

Lemma ext_bytes_ok : forall x, x < 65536 -> bytes_ok (ext x).
Proof.
  intros x Hx. unfold ext, bytes_ok, byte_ok.
  destruct (N.ltb_spec x 13); [constructor|]. destruct (N.ltb_spec x 269).
  - constructor; [lia|constructor].
  - constructor; [lia|constructor; [lia|constructor]].
Qed.

Lemma opt_head_ok : forall d l, d < 65536 -> l < 65536 -> bytes_ok (opt_head d l).
Proof.
  intros d l Hd Hl. unfold opt_head. constructor.
  - pose proof (nib_lt d). pose proof (nib_lt l). unfold byte_ok. lia.
  - apply bytes_ok_app. split; apply ext_bytes_ok; assumption.
Qed.

Lemma opts_bytes_ok : forall os prev, opts_ok prev os -> bytes_ok (opts_bytes prev os).
Proof.
  induction os as [|[num v] os IH]; intros prev H; [constructor|].
  cbn in H. destruct H as (A & B & C & D & E). cbn [opts_bytes].
  apply bytes_ok_app. split; [apply opt_head_ok; lia|]. apply bytes_ok_app. split; auto.
Qed.

(** one encoded option followed by at least one byte (of its value or after it) *)
Lemma oparse_opt : forall n prev off num v t,
  prev <= num -> num < 65536 -> len v < 65536 -> v ++ t <> [] ->
  oparse (S n) prev off (opt_head (num - prev) (len v) ++ v ++ t) =
  (let o := (off + length (opt_head (num - prev) (len v)))%nat in
   ((num, len v, o) :: fst (oparse n num (o + length v) t), snd (oparse n num (o + length v) t))).
Proof.
  intros n prev off num v t Hp Hn Hl Hne.
  unfold opt_head. set (delta := num - prev). assert (Hd : delta < 65536) by (unfold delta; lia).
  cbn [app]. cbn [oparse].
  pose proof (nib_lt delta) as Bd. pose proof (nib_lt (len v)) as Bl.
  replace (nib delta * 16 + nib (len v) =? 255) with false by (symmetry; apply N.eqb_neq; lia).
  replace ((nib delta * 16 + nib (len v)) / 16) with (nib delta) by lia.
  replace ((nib delta * 16 + nib (len v)) mod 16) with (nib (len v)) by lia.
  rewrite <- app_assoc, take_ext_enc by assumption. rewrite take_ext_enc by assumption.
  replace ((prev + delta) mod 65536) with num by (unfold delta; lia).
  assert (El : N.to_nat (len v) = length v) by (unfold len; lia). rewrite El.
  cbn [length]. rewrite !app_length.
  replace (S (length (ext delta) + (length (ext (len v)) + (length v + length t))) - (length v + length t))%nat
    with (S (length (ext delta) + length (ext (len v)))) by lia.
  destruct (v ++ t) as [|c s] eqn:E; [congruence|]. rewrite <- E.
  rewrite ?app_length.
  replace (length v + length t <? length v)%nat with false
    by (symmetry; apply Nat.ltb_ge; lia).
  rewrite skipn_app, skipn_all, Nat.sub_diag. cbn [app skipn].
  destruct (oparse n num _ t) as [vs e]. reflexivity.
Qed.

Lemma last_number_cons : forall os prev num v,
  last_number prev ((num, v) :: os) = last_number num os.
Proof.
  unfold last_number. cbn [map fst]. intros os. generalize (map fst os). clear.
  induction l as [|x l IH]; intros prev num v; [reflexivity|].
  cbn [last] in *. destruct l; [reflexivity|]. exact (IH prev num v).
Qed.

(** the last option has a value *)
Fixpoint ends_in_value (os : list opt) : Prop :=
  match os with
  | [] => False
  | [(_, v)] => v <> []
  | _ :: r => ends_in_value r
  end.

Lemma parse_opts : forall os prev off t, opts_ok prev os -> bytes_ok t -> t <> [] \/ ends_in_value os ->
  parse prev off (opts_bytes prev os ++ t) =
  (let o := (off + length (opts_bytes prev os))%nat in
   (views prev off os ++ fst (parse (last_number prev os) o t), snd (parse (last_number prev os) o t))).
Proof.
  induction os as [|[num v] os IH]; intros prev off t H Ht Hne.
  - cbn [opts_bytes app length views]. rewrite Nat.add_0_r.
    change (last_number prev []) with prev. cbn zeta. destruct (parse prev off t). reflexivity.
  - pose proof H as H'. cbn in H'. destruct H' as (A & B & C & D & E).
    assert (Hne' : v ++ opts_bytes num os ++ t <> []).
    { destruct v; [|discriminate]. destruct os as [|[n2 v2] os].
      - destruct Hne as [Hne|Hne]; [exact Hne|cbn in Hne; congruence].
      - cbn [opts_bytes]. unfold opt_head. discriminate. }
    unfold parse at 1. cbn [opts_bytes]. rewrite <- !app_assoc.
    assert (HL : (0 < length (opt_head (num - prev) (len v)))%nat) by (unfold opt_head; cbn; lia).
    set (hd := opt_head (num - prev) (len v)) in *.
    assert (EL : length (hd ++ v ++ opts_bytes num os ++ t)
      = S (length hd - 1 + (length v + length (opts_bytes num os ++ t)))) by (rewrite !app_length; lia).
    rewrite EL. unfold hd. rewrite oparse_opt; try assumption.
    fold hd. cbn zeta.
    assert (Hok2 : bytes_ok (opts_bytes num os ++ t)) by (apply bytes_ok_app; split; [now apply opts_bytes_ok|assumption]).
    rewrite (oparse_fuel _ (length (opts_bytes num os ++ t))); [|lia|lia|assumption].
    fold (parse num (off + length hd + length v) (opts_bytes num os ++ t)).
    destruct os as [|o2 os2] eqn:Eos.
    { cbn [opts_bytes app views length fst snd]. rewrite !app_nil_r, !app_length.
      change (last_number prev [(num, v)]) with num.
      rewrite Nat.add_assoc. reflexivity. }
    rewrite <- Eos in *.
    rewrite IH; [|assumption|assumption|destruct Hne; [left; assumption|right; rewrite Eos in *; assumption]].
    cbn zeta. cbn [fst snd views].
    fold hd. rewrite !app_length.
    replace (off + length hd + length v + length (opts_bytes num os))%nat
      with (off + (length hd + (length v + length (opts_bytes num os))))%nat by lia.
    rewrite last_number_cons.
    reflexivity.
Qed.

(** * Safety of single steps *)

(** states reachable from construction by feeding bytes (until the payload marker) *)
Inductive od_reach : odec -> Prop :=
| or_init : forall d, d_st d = FirstByte -> od_reach d
| or_step : forall d b d1 p, od_reach d -> byte_ok b -> od_step b d = Ok (d1, p) -> od_reach d1.

Definition od_inv (d : odec) : Prop :=
  match d_st d with
  | FirstByte | OptionValueDone | OPayload => True
  | FirstByteDone => d_pos d = 1 /\ d_b0 d < 255
  | OptionDelta => d_b0 d < 255 /\ 13 <= raw_delta d /\ (d_pos d = 1 \/ (d_pos d = 2 /\ raw_delta d = 14))
  | OptionDeltaDone => d_b0 d < 255 /\ raw_delta d < 15
  | OptionLength => d_b0 d < 255 /\ 13 <= raw_length d /\ (d_pos d = 1 \/ (d_pos d = 2 /\ raw_length d = 14))
  | OptionLengthDone => d_b0 d < 255 /\ raw_length d < 15 /\ (raw_length d < 13 -> d_pos d = 1 /\ 13 <= raw_delta d)
  | OptionDeltaAndLengthDone => raw_delta d < 13 /\ raw_length d < 13
  | ValueStart => raw_length d < 15
  | OptionValue => 0 < od_vlen d
  | OptionDone => False
  end.

Lemma get_value_ok : forall n a b, n < 15 -> exists v, get_value n a b = Ok v.
Proof.
  intros n a b H. unfold get_value. destruct (N.ltb_spec n 13); [eauto|].
  destruct (N.eqb_spec n 13); [eauto|]. destruct (N.eqb_spec n 14); [eauto|lia].
Qed.

Lemma raw_len_lt : forall d, raw_length d < 16.
Proof. intros. unfold raw_length. rewrite nib_lo. apply N.mod_lt. discriminate. Qed.

Lemma nib_not_both : forall d, d_b0 d < 255 -> raw_delta d < 16 /\ (raw_delta d = 15 -> raw_length d < 15).
Proof. intros d H. unfold raw_delta, raw_length. rewrite nib_hi, nib_lo. lia. Qed.

(** a step from a state satisfying the invariant: it keeps it, or hits the
    assertion for a reserved nibble *)
Lemma od_step_inv : forall b d, od_inv d -> byte_ok b ->
  (exists d1 p, od_step b d = Ok (d1, p) /\ od_inv d1) \/
  (od_step b d = Fault /\
   (d_st d = OPayload \/ (d_st d = OptionDelta /\ raw_delta d = 15) \/
    (d_st d = OptionLength /\ raw_length d = 15))).
Proof.
  intros b d Hi Hb. unfold byte_ok in Hb. unfold od_inv in Hi. unfold od_step. destruct (d_st d) eqn:E.
  - left. destruct (N.eqb_spec b 255); do 2 eexists; (split; [reflexivity|]); unfold od_inv; cbn; [exact I|lia].
  - left. destruct Hi as (H1 & H2). destruct (nib_not_both d H2) as (H3 & H4). pose proof (raw_len_lt d).
    destruct (N.leb_spec 13 (raw_delta d)); destruct (N.leb_spec 13 (raw_length d));
      do 2 eexists; (split; [reflexivity|]); unfold od_inv, od_goto, raw_delta, raw_length in *; cbn;
      repeat split; try assumption; try lia.
  - destruct Hi as (H1 & H2 & H3). destruct (nib_not_both d H1) as (H4 & H5).
    assert (Hc : raw_delta d = 13 \/ raw_delta d = 14 \/ raw_delta d = 15) by lia.
    unfold process_option_size.
    destruct H3 as [H3|(H3 & H3')]; rewrite H3; cbn [od_put bind];
    destruct Hc as [Hc|[Hc|Hc]]; rewrite Hc; try congruence.
    + left. change (13 =? 13) with true. cbn iota. do 2 eexists. split; [reflexivity|].
      unfold od_inv, od_goto, raw_delta, raw_length in *; cbn. lia.
    + left. change (14 =? 13) with false. change (14 =? 14) with true. change (1 =? 2) with false. cbn iota.
      do 2 eexists. split; [reflexivity|]. unfold od_inv, od_setpos, raw_delta, raw_length in *; cbn. rewrite E. cbn.
      repeat split; lia.
    + right. split; [reflexivity|]. tauto.
    + left. change (14 =? 13) with false. change (14 =? 14) with true. change (2 =? 2) with true. cbn iota.
      do 2 eexists. split; [reflexivity|]. unfold od_inv, od_goto, raw_delta, raw_length in *; cbn. lia.
  - left. destruct Hi as (H1 & H2). pose proof (raw_len_lt d).
    destruct (N.leb_spec 13 (raw_length d)); do 2 eexists; (split; [reflexivity|]);
      unfold od_inv, od_goto, od_setpos, raw_delta, raw_length in *; cbn; repeat split; try lia.
  - destruct Hi as (H1 & H2 & H3). pose proof (raw_len_lt d).
    assert (Hc : raw_length d = 13 \/ raw_length d = 14 \/ raw_length d = 15) by lia.
    unfold process_option_size.
    destruct H3 as [H3|(H3 & H3')]; rewrite H3; cbn [od_put bind];
    destruct Hc as [Hc|[Hc|Hc]]; rewrite Hc; try congruence.
    + left. change (13 =? 13) with true. cbn iota. do 2 eexists. split; [reflexivity|].
      unfold od_inv, od_goto, raw_delta, raw_length in *; cbn. lia.
    + left. change (14 =? 13) with false. change (14 =? 14) with true. change (1 =? 2) with false. cbn iota.
      do 2 eexists. split; [reflexivity|]. unfold od_inv, od_setpos, raw_delta, raw_length in *; cbn. rewrite E. cbn.
      repeat split; lia.
    + right. split; [reflexivity|]. tauto.
    + left. change (14 =? 13) with false. change (14 =? 14) with true. change (2 =? 2) with true. cbn iota.
      do 2 eexists. split; [reflexivity|]. unfold od_inv, od_goto, raw_delta, raw_length in *; cbn. lia.
  - left. destruct Hi as (H1 & H2 & H3). 
    destruct (N.leb_spec 13 (raw_length d)); do 2 eexists; (split; [reflexivity|]);
      unfold od_inv, od_goto, raw_delta, raw_length in *; cbn; try lia.
  - left. do 2 eexists; (split; [reflexivity|]); unfold od_inv, od_goto, raw_delta, raw_length in *; cbn; lia.
  - left. destruct (get_value_ok (raw_length d) (d_b1 d) (d_b2 d) Hi) as (v & Hv). unfold od_length. rewrite Hv.
    cbn [bind]. destruct (N.eqb_spec v 0); do 2 eexists; (split; [reflexivity|]); unfold od_inv; cbn [d_st od_goto];
      [exact I|]. rewrite vlen_set. lia.
  - left. cbn zeta. set (l := (od_vlen d + 65535) mod 65536).
    destruct (N.eqb_spec l 0); do 2 eexists; (split; [reflexivity|]); unfold od_inv; cbn [d_st od_goto];
      [exact I|]. rewrite vlen_set. lia.
  - left. do 2 eexists; (split; [reflexivity|]); exact I.
  - destruct Hi.
  - right. split; [reflexivity|tauto].
Qed.

Lemma od_reach_inv : forall d, od_reach d -> od_inv d.
Proof.
  induction 1 as [d H|d b d1 p H IH Hb E].
  - unfold od_inv. rewrite H. exact I.
  - destruct (od_step_inv b d IH Hb) as [(d2 & q & E2 & Hi)|(E2 & _)]; rewrite E in E2; [|discriminate].
    injection E2 as <- <-. exact Hi.
Qed.

Lemma hold_upd_inv : forall d h, od_inv d -> exists h1, hold_upd d h = Ok h1.
Proof.
  intros d h Hi. unfold hold_upd, od_delta, od_length. unfold od_inv in Hi.
  destruct (d_st d); eauto.
  - destruct (get_value_ok (raw_delta d) (d_b1 d) (d_b2 d)) as (v & ->); [tauto|]. cbn. eauto.
  - destruct (get_value_ok (raw_length d) (d_b1 d) (d_b2 d)) as (v & ->); [tauto|]. cbn. eauto.
  - destruct (get_value_ok (raw_delta d) (d_b1 d) (d_b2 d)) as (v & ->); [lia|].
    destruct (get_value_ok (raw_length d) (d_b1 d) (d_b2 d)) as (w & ->); [lia|]. cbn. eauto.
Qed.

Lemma mrun_nofuel : forall d h off bs R, mrun d h off bs R -> R <> NoFuel.
Proof.
  induction 1; try discriminate. destruct R as [[[[? ?] ?] ?]| |]; cbn; congruence.
Qed.

Lemma mrun_end : forall d h off bs R, mrun d h off bs R ->
  match R with
  | Ok (vs, d1, h1, o1) => (off <= o1 <= off + length bs)%nat /\
      (d_st d1 = OPayload \/ o1 = off + length bs)%nat
  | _ => True
  end.
Proof.
  induction 1.
  - cbn. split; [lia|right; lia].
  - cbn. split; [lia|left; assumption].
  - exact I.
  - destruct R as [[[[? ?] ?] ?]| |]; cbn [addv]; auto.
    destruct p; cbn [adv rest length] in *; destruct IHmrun as (A & B); split; try lia;
      (destruct B; [left; assumption|right; lia]).
Qed.

Lemma step_true_not_first : forall b d h d1 h1, mstep b d h = Ok (d1, h1, true) -> d_st d1 <> FirstByte.
Proof.
  intros b d h d1 h1 H. unfold mstep in H.
  destruct (od_step b d) as [[d2 p]| |] eqn:E; cbn [bind fst snd] in H; try discriminate.
  destruct (hold_upd d2 h) as [h2| |]; cbn [bind] in H; try discriminate.
  injection H as <- <- ->. unfold od_step in E. destruct (d_st d) eqn:Ed.
  - break_step; inversion E; subst; cbn; discriminate.
  - break_step; inversion E; subst; cbn; discriminate.
  - destruct (od_put_cases (d_pos d) b d) as [(d3 & E2 & E3)|E2]; rewrite E2 in E; cbn [bind] in E; [|discriminate].
    destruct (process_option_size _ _) as [[|]| |]; cbn [bind] in E; try discriminate;
      inversion E; subst; cbn; congruence.
  - break_step; inversion E.
  - destruct (od_put_cases (d_pos d) b d) as [(d3 & E2 & E3)|E2]; rewrite E2 in E; cbn [bind] in E; [|discriminate].
    destruct (process_option_size _ _) as [[|]| |]; cbn [bind] in E; try discriminate;
      inversion E; subst; cbn; congruence.
  - break_step; inversion E.
  - inversion E.
  - destruct (od_length d); cbn [bind] in E; inversion E.
  - cbn zeta in E. break_step; inversion E; subst; cbn; discriminate.
  - inversion E.
  - inversion E; subst. congruence.
  - discriminate.
Qed.

Lemma mrun_not_first : forall d h off bs R, mrun d h off bs R ->
  match R with
  | Ok (vs, d1, h1, o1) => (off < o1)%nat -> d_st d1 <> FirstByte
  | _ => True
  end.
Proof.
  induction 1; auto.
  - lia.
  - lia.
  - pose proof (mrun_end _ _ _ _ _ H1) as HE.
    destruct R as [[[[vs d2] h2] o2]| |]; cbn [addv]; auto. intros Ho.
    destruct p; cbn [adv rest] in *; [|auto].
    destruct (Nat.eq_dec o2 (S off)) as [->|]; [|apply IHmrun; lia].
    destruct HE as (_ & [HE|HE]); [congruence|].
    destruct r; [|cbn in HE; lia].
    inversion H1; subst; [|congruence]. eapply step_true_not_first; eassumption.
Qed.
