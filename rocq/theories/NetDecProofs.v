(** Proofs about NetBufDecoder and option_iterator. *)
From Verif Require Import Base HeaderModel HeaderProofs OptEncModel OptSpec OptDecModel OptDecSpec OptDecProofs.
From Verif Require Import DecoderModel DecoderSpec DecoderProofs SubjectProofs NetDecModel NetDecSpec.
Local Open Scope N_scope.

(** * One call of the option decoder *)

Lemma step_done_b0 : forall b d d1 p, od_step b d = Ok (d1, p) -> d_st d <> OptionValueDone -> d_st d1 = OptionValueDone -> d_b0 d1 = 0.
Proof.
  intros b d d1 p H Hd H1. unfold od_step in H. destruct (d_st d) eqn:E; try congruence.
  - destruct (b =? 255); injection H as <- <-; discriminate.
  - destruct (13 <=? raw_delta d), (13 <=? raw_length d); injection H as <- <-; discriminate.
  - destruct (od_put _ _ _) as [d2| |] eqn:P; cbn [bind] in H; try discriminate. destruct (process_option_size _ _) as [m| |]; cbn [bind] in H; try discriminate.
    destruct (od_put_cases (d_pos d) b d) as [(d3 & Q & Q2)|Q]; rewrite P in Q; [injection Q as ->|discriminate].
    destruct m; injection H as <- <-; cbn in H1; congruence.
  - destruct (13 <=? raw_length d); injection H as <- <-; discriminate.
  - destruct (od_put _ _ _) as [d2| |] eqn:P; cbn [bind] in H; try discriminate. destruct (process_option_size _ _) as [m| |]; cbn [bind] in H; try discriminate.
    destruct (od_put_cases (d_pos d) b d) as [(d3 & Q & Q2)|Q]; rewrite P in Q; [injection Q as ->|discriminate].
    destruct m; injection H as <- <-; cbn in H1; congruence.
  - destruct (13 <=? raw_length d); injection H as <- <-; discriminate.
  - injection H as <- <-. discriminate.
  - destruct (od_length d) as [l| |]; cbn [bind] in H; try discriminate. destruct (N.eqb_spec l 0) as [Z|N0]; injection H as <- <-; [rewrite Z; reflexivity|discriminate].
  - cbn zeta in H. destruct (N.eqb_spec ((od_vlen d + 65535) mod 65536) 0) as [Z|N0]; injection H as <- <-; [rewrite Z; reflexivity|discriminate].
Qed.

Lemma loop_done_b0 : forall fuel d h bs n o h1 n1, od_chunk_loop fuel d h bs n = Ok (o, h1, n1) -> d_st d <> OptionValueDone ->
  d_st o = OptionValueDone -> d_b0 o = 0.
Proof.
  induction fuel as [|f IH]; intros d h bs n o h1 n1 H Hd Ho; (destruct bs as [|b r]; [cbn in H; injection H as <- <- <-; congruence|]); [discriminate|].
  cbn [od_chunk_loop] in H. destruct (od_step b d) as [[d1 p]| |] eqn:E; cbn [bind fst snd] in H; try discriminate.
  destruct (hold_upd d1 h) as [h2| |]; cbn [bind] in H; try discriminate.
  destruct (od_stops (d_st d1)) eqn:S; [injection H as <- <- <-; eapply step_done_b0; eauto|].
  eapply IH; [exact H| |exact Ho]. intro Q. rewrite Q in S. discriminate.
Qed.

Lemma b0_length : forall d, d_b0 d = 0 -> od_length d = Ok 0.
Proof. intros d H. unfold od_length, raw_length. rewrite H. reflexivity. Qed.

Lemma ready_length : forall d l, ready d l -> od_length d = Ok l.
Proof.
  intros d l (R1 & R2 & R3 & R4 & R5 & R6 & R7). destruct (R7 0) as (d3 & A & B & C).
  unfold od_step in A. destruct (d_st d) eqn:E; try congruence.
  - destruct (od_put _ _ _); cbn [bind] in A; try discriminate. destruct (process_option_size _ _); cbn [bind] in A; discriminate.
  - destruct (13 <=? raw_length d); injection A as <-; [discriminate|exact C].
  - destruct (od_put _ _ _); cbn [bind] in A; try discriminate. destruct (process_option_size _ _); cbn [bind] in A; discriminate.
  - destruct (13 <=? raw_length d); injection A as <-; [exact C|discriminate].
  - injection A as <-. exact C.
Qed.

(** an option header is eaten whole *)
Lemma opt_heads : forall od h num v os p, boundary od -> opts_ok (hd_num h) ((num, v) :: os) ->
  match p with None => True | Some b => bytes_ok b end ->
  exists hb d2, opts_bytes (hd_num h) ((num, v) :: os) ++ pay_bytes p = hb ++ v ++ opts_bytes num os ++ pay_bytes p /\
    hb <> [] /\ ready d2 (len v) /\ heads od h hb d2 (Holder num (len v)).
Proof.
  intros od h num v os p Hb Hos Hp. cbn [opts_ok] in Hos. destruct Hos as (P1 & P2 & P3 & P4 & P5).
  cbn [opts_bytes]. unfold opt_head. set (delta := num - hd_num h) in *.
  pose proof (nib_lt delta) as Bd. pose proof (nib_lt (len v)) as Bl. assert (Hd : delta < 65536) by (unfold delta; lia).
  set (b := nib delta * 16 + nib (len v)) in *.
  set (r2 := v ++ opts_bytes num os ++ pay_bytes p).
  assert (Hs : ((b :: ext delta ++ ext (len v)) ++ v ++ opts_bytes num os) ++ pay_bytes p = b :: ext delta ++ ext (len v) ++ r2).
  { unfold r2. cbn [app]. rewrite <- !app_assoc. reflexivity. }
  rewrite Hs.
  assert (Ok2 : bytes_ok r2).
  { unfold r2. apply bytes_ok_app. split; [exact P4|]. apply bytes_ok_app. split; [apply opts_bytes_ok; exact P5|].
    destruct p; [|apply Forall_nil]. cbn [pay_bytes]. apply Forall_cons; [unfold byte_ok; lia|exact Hp]. }
  assert (Ok1 : bytes_ok (b :: ext delta ++ ext (len v) ++ r2)).
  { apply Forall_cons; [unfold byte_ok, b; lia|]. apply bytes_ok_app. split; [apply ext_bytes_ok; exact Hd|]. apply bytes_ok_app. split; [apply ext_bytes_ok; exact P3|exact Ok2]. }
  assert (T1 : take_ext (b / 16) (ext delta ++ ext (len v) ++ r2) = OptDecSpec.Got delta (ext (len v) ++ r2)).
  { replace (b / 16) with (nib delta) by (unfold b; lia). apply take_ext_enc. exact Hd. }
  assert (T2 : take_ext (b mod 16) (ext (len v) ++ r2) = OptDecSpec.Got (len v) r2).
  { replace (b mod 16) with (nib (len v)) by (unfold b; lia). apply take_ext_enc. exact P3. }
  assert (B255 : b <> 255) by (unfold b; lia).
  destruct (head_run (od_goto FirstByte od) h 0 b _ delta _ (len v) r2 eq_refl B255 Ok1 T1 T2) as (hb & d2 & Q1 & Q2 & Q3 & Q4).
  replace ((hd_num h + delta) mod 65536) with num in Q4 by (unfold delta; rewrite N.mod_small; lia).
  assert (O1 : outside (d_st (od_goto FirstByte od))) by (repeat split; discriminate).
  assert (O2 : d_st (od_goto FirstByte od) <> OPayload) by discriminate.
  assert (O3 : d_st d2 <> OPayload) by apply Q3.
  pose proof (mrun_heads _ _ _ _ _ Q4 _ _ _ eq_refl O1 O2 O3) as Hh.
  exists hb, d2. split; [exact Q1|]. split; [exact Q2|]. split; [exact Q3|].
  destruct Hb as [Hb|Hb].
  - replace od with (od_goto FirstByte od) by (destruct od; cbn in *; subst; reflexivity). exact Hh.
  - destruct hb as [|b0 hb]; [congruence|].
    apply (hs_step od h b0 hb (od_goto FirstByte od) h false); [|reflexivity|exact Hh].
    unfold mstep, od_step. rewrite Hb. reflexivity.
Qed.

(** the payload marker *)
Lemma marker_chunk : forall od h r, boundary od -> exists o, od_chunk od h (255 :: r) = Ok (o, h, 1%nat) /\ d_st o = OPayload.
Proof.
  intros od h r Hb. exists (od_goto OPayload (match d_st od with FirstByte => od | _ => od_goto FirstByte od end)). split; [|reflexivity].
  unfold od_chunk. replace (4 * length (255%N :: r) + 4)%nat with (S (S (4 * length (255%N :: r) + 2))) by lia.
  destruct Hb as [Hb|Hb].
  - cbn [od_chunk_loop]. unfold od_step at 1. rewrite Hb. change (255 =? 255) with true. reflexivity.
  - set (k := (4 * length (255%N :: r) + 2)%nat). cbn [od_chunk_loop]. unfold od_step at 1. rewrite Hb. cbn [bind fst snd hold_upd od_goto d_st od_stops].
    unfold od_step. cbn [od_goto d_st]. change (255 =? 255) with true. reflexivity.
Qed.

Lemma empty_value_chunk : forall od h b r, d_st od = ValueStart -> od_length od = Ok 0 ->
  exists o, od_chunk od h (b :: r) = Ok (o, h, 0%nat) /\ d_st o = OptionValueDone /\ od_length o = Ok 0.
Proof.
  intros od h b r H1 H2. exists (od_goto OptionValueDone (od_set_vlen 0 od)). split; [|split; reflexivity].
  unfold od_chunk. replace (4 * length (b :: r) + 4)%nat with (S (4 * length (b :: r) + 3)) by lia.
  set (k := (4 * length (b :: r) + 3)%nat). cbn [od_chunk_loop]. unfold od_step at 1. rewrite H1, H2. reflexivity.
Qed.

(** * Places in a message *)

Inductive place : Type :=
| LB (n : N) (os : list opt)              (* the value of option n is done, [os] to come *)
| LV (n : N) (v : list N) (os : list opt) (* at the value of option n *)
| LX (n : N)                              (* the last option header ended the message *)
| LE                                      (* OptionsDone *)
| LP
| LD.

Definition at_place (c : list N) (p : option (list N)) (P : place) (x : ndec) : Prop :=
  let d := n_dec x in let pos := n_pos x in
  (pos <= length c)%nat /\
  match P with
  | LB n os => k_st d = ROptions /\ d_st (k_od d) = OptionValueDone /\ od_length (k_od d) = Ok 0 /\ hd_num (k_hold d) = n /\
      skipn pos c = opts_bytes n os ++ pay_bytes p /\ skipn pos c <> [] /\ opts_ok n os
  | LV n v os => k_st d = ROptions /\ d_st (k_od d) = ValueStart /\ od_length (k_od d) = Ok (len v) /\ hd_num (k_hold d) = n /\
      skipn pos c = v ++ opts_bytes n os ++ pay_bytes p /\ len v < 65536 /\ opts_ok n os
  | LX n => k_st d = ROptions /\ ready (k_od d) 0 /\ hd_num (k_hold d) = n /\ pos = length c /\ p = None
  | LE => k_st d = OptionsDone /\
      match p with Some b => d_st (k_od d) = OPayload /\ skipn pos c = b | None => d_st (k_od d) <> OPayload /\ pos = length c end
  | LP => k_st d = RPayload /\ p = Some (skipn pos c)
  | LD => k_st d = RDone /\ p = None /\ pos = length c
  end.

Definition p_head (pay : bool) (n : N) (v : list N) (os : list opt) : place :=
  match v, os, pay with [], [], false => LX n | _, _, _ => LV n v os end.
Definition p_step (pay : bool) (P : place) : place :=
  match P with
  | LB _ [] => LE
  | LB _ ((n, v) :: os) => p_head pay n v os
  | LV n _ os => match os, pay with [], false => LE | _, _ => LB n os end
  | LX n => LV n [] []
  | LE => if pay then LP else LD
  | x => x
  end.
Definition p_st (P : place) : rstate :=
  match P with LB _ _ | LV _ _ _ | LX _ => ROptions | LE => OptionsDone | LP => RPayload | LD => RDone end.

Lemma at_st : forall c p P x, at_place c p P x -> nd_state x = p_st P.
Proof. intros c p P x (_ & H). unfold nd_state. destruct P; cbn [p_st]; apply H. Qed.

Lemma skipn_nil_end : forall (c : list N) pos, (pos <= length c)%nat -> skipn pos c = [] -> pos = length c.
Proof. intros c pos L E. apply (f_equal (@length N)) in E. rewrite skipn_length in E. cbn in E. lia. Qed.
Lemma skipn_add : forall (c : list N) pos a r, skipn pos c = a ++ r -> skipn (pos + length a) c = r.
Proof.
  intros c pos a r E. rewrite <- skipn_skipn', E. rewrite skipn_app, skipn_all, Nat.sub_diag. reflexivity.
Qed.

Lemma iter_of : forall c last x d1 p1 f, dec_iterate c last (n_dec x) (n_pos x) = Ok (d1, p1, f) -> nd_iter c last x = Ok (ND d1 p1).
Proof. intros c last x d1 p1 f H. unfold nd_iter. rewrite H. reflexivity. Qed.

(** one iteration in Options with bytes left *)
Lemma iter_options : forall c x o h n, nd_state x = ROptions -> (n_pos x < length c)%nat ->
  od_chunk (k_od (n_dec x)) (k_hold (n_dec x)) (skipn (n_pos x) c) = Ok (o, h, n) -> (n_pos x + n <= length c)%nat ->
  nd_iter c true x = Ok (ND (opt_out c true (n_dec x) o h (n_pos x + n)) (n_pos x + n)).
Proof.
  intros c x o h n S L E L2. eapply iter_of. apply iterate_options; [exact S|exact L|exact E|]. unfold remainder. rewrite skipn_length. lia.
Qed.

Lemma out_st : forall c d o h pos, d_st o <> OPayload -> (d_st o = OptionValueDone -> pos <> length c) -> k_st (opt_out c true d o h pos) = ROptions.
Proof.
  intros c d o h pos H1 H2. unfold opt_out, fin_state. cbn [k_st k_goto].
  destruct (d_st o); try congruence; cbn [ostate_eqb]; rewrite ?andb_false_r; try reflexivity.
  destruct (Nat.eqb_spec pos (length c)); [|reflexivity]. exfalso. now apply H2.
Qed.
Lemma out_pay : forall c d o h pos, d_st o = OPayload -> k_st (opt_out c true d o h pos) = OptionsDone.
Proof. intros c d o h pos H. unfold opt_out, fin_state. rewrite H. reflexivity. Qed.
Lemma out_end : forall c d o h, d_st o = OptionValueDone -> k_st (opt_out c true d o h (length c)) = OptionsDone.
Proof. intros c d o h H. unfold opt_out, fin_state. rewrite H, Nat.eqb_refl. reflexivity. Qed.

(** past an option header or the payload marker *)
Lemma bound_iter : forall c p x n os, nd_state x = ROptions -> boundary (k_od (n_dec x)) -> hd_num (k_hold (n_dec x)) = n ->
  (n_pos x <= length c)%nat -> skipn (n_pos x) c = opts_bytes n os ++ pay_bytes p -> skipn (n_pos x) c <> [] -> opts_ok n os ->
  match p with None => True | Some b => bytes_ok b end ->
  exists x1, nd_iter c true x = Ok x1 /\ at_place c p (p_step (has p) (LB n os)) x1.
Proof.
  intros c p x n os S B Hn L E Ne Hos Hp. subst n.
  assert (L1 : (n_pos x < length c)%nat).
  { destruct (Nat.eq_dec (n_pos x) (length c)) as [Q|Q]; [|lia]. exfalso. apply Ne. rewrite Q. apply skipn_all. }
  destruct os as [|[num v] os].
  - cbn [opts_bytes app] in E. destruct p as [b|]; cbn [pay_bytes] in E; [|congruence].
    destruct (marker_chunk (k_od (n_dec x)) (k_hold (n_dec x)) b B) as (o & E1 & E2). rewrite <- E in E1.
    eexists. split; [apply (iter_options _ _ _ _ _ S L1 E1); lia|]. cbn [p_step]. unfold at_place. cbn [n_dec n_pos].
    split; [lia|]. split; [apply out_pay; exact E2|]. split; [exact E2|]. apply (skipn_add _ _ [255] b). exact E.
  - destruct (opt_heads (k_od (n_dec x)) (k_hold (n_dec x)) num v os p B Hos Hp) as (hb & d2 & Q1 & Q2 & Q3 & Q4). apply (fun e => eq_trans e Q1) in E.
    destruct Hos as (_ & _ & P3 & _ & P5). assert (LL := f_equal (@length N) E). rewrite skipn_length, app_length in LL.
    cbn [p_step]. unfold p_head.
    destruct (v ++ opts_bytes num os ++ pay_bytes p) as [|b0 r0] eqn:ER.
    + apply app_eq_nil in ER. destruct ER as [-> ER]. apply app_eq_nil in ER. destruct ER as [ER1 ER2].
      destruct os as [|[n2 v2] os2]; [|discriminate]. destruct p; [discriminate|]. cbn [has].
      rewrite app_nil_r in E. cbn [length] in LL.
      destruct (heads_eat _ _ _ _ _ Q4 hb [] 0 (4 * length hb + 4) (eq_sym (app_nil_r hb))) as [F|(d1 & h1 & F & F2 & _)].
      { exfalso. exact (od_chunk_fuel _ _ _ F). }
      assert (F3 : d1 = d2 /\ h1 = Holder num (len [])) by (inversion F2; auto). destruct F3 as [-> ->].
      eexists. split; [apply (iter_options c x d2 (Holder num (len [])) (length hb) S L1); [rewrite E; exact F|lia]|].
      unfold at_place. cbn [n_dec n_pos]. split; [lia|]. destruct Q3 as (R1 & R2 & R3 & R4).
      split; [apply out_st; [exact R1|congruence]|]. split; [repeat split; try assumption; apply R4|]. split; [reflexivity|]. split; [lia|reflexivity].
    + destruct (heads_start _ _ _ _ _ Q4 _ Q3 b0 r0 0 (4 * length (skipn (n_pos x) c) + 4)) as [F|(d3 & F & F2 & F3)].
      { exfalso. rewrite <- E in F. exact (od_chunk_fuel _ _ _ F). }
      rewrite <- E in F.
      assert (G : nd_iter c true x = Ok (ND (opt_out c true (n_dec x) d3 (Holder num (len v)) (n_pos x + length hb)) (n_pos x + length hb))).
      { apply (iter_options c x d3 _ (length hb) S L1); [exact F|]. lia. }
      eexists. split; [exact G|].
      assert (A : at_place c p (LV num v os) (ND (opt_out c true (n_dec x) d3 (Holder num (len v)) (n_pos x + length hb)) (n_pos x + length hb))).
      { unfold at_place. cbn [n_dec n_pos]. split; [lia|]. split; [apply out_st; rewrite F2; discriminate|]. split; [exact F2|]. split; [exact F3|]. split; [reflexivity|].
        split; [rewrite ER; apply skipn_add; exact E|]. split; assumption. }
      destruct v; [|exact A]. destruct os; [|exact A]. destruct p; [exact A|discriminate].
Qed.

Lemma place_iter : forall c p P x, at_place c p P x -> P <> LP -> P <> LD -> match p with None => True | Some b => bytes_ok b end ->
  exists x1, nd_iter c true x = Ok x1 /\ at_place c p (p_step (has p) P) x1.
Proof.
  intros c p P x (L & A) NP ND' Hp. destruct P as [n os|n v os|n| | |]; try congruence.
  - destruct A as (A1 & A2 & A3 & A4 & A5 & A6 & A7). apply bound_iter; auto. right. exact A2.
  - destruct A as (A1 & A2 & A3 & A4 & A5 & A6 & A7). cbn [p_step].
    assert (Z : forall (d : dec) o h q, d_st o = OptionValueDone -> (q <= length c)%nat -> skipn q c = opts_bytes n os ++ pay_bytes p -> od_length o = Ok 0 -> hd_num h = n ->
      at_place c p (match os, has p with [], false => LE | _, _ => LB n os end) (ND (opt_out c true d o h q) q)).
    { intros d o h q Q1 Q2 Q3 Q4 Q5. destruct (opts_bytes n os ++ pay_bytes p) as [|b r] eqn:ER.
      - assert (Q : q = length c) by (apply skipn_nil_end; assumption). subst q. apply app_eq_nil in ER. destruct ER as [E1 E2].
        destruct os as [|[? ?] ?]; [|discriminate]. destruct p; [discriminate|]. cbn [has].
        split; [exact Q2|]. cbn [n_dec n_pos]. split; [apply out_end; exact Q1|]. split; [|reflexivity].
        unfold opt_out. cbn. rewrite Q1. discriminate.
      - assert (B : at_place c p (LB n os) (ND (opt_out c true d o h q) q)).
        { split; [exact Q2|]. cbn [n_dec n_pos]. split; [apply out_st; [rewrite Q1; discriminate|intros _ W; rewrite W, skipn_all in Q3; discriminate]|].
          split; [exact Q1|]. split; [exact Q4|]. split; [exact Q5|]. split; [rewrite Q3, ER; reflexivity|]. split; [rewrite Q3; discriminate|exact A7]. }
        destruct os; [|exact B]. destruct p; [exact B|discriminate]. }
    destruct v as [|b v].
    + cbn [app] in A5. destruct (skipn (n_pos x) c) as [|b r] eqn:ER.
      * assert (Q : n_pos x = length c) by (apply skipn_nil_end; assumption).
        set (o := od_goto OptionValueDone (od_set_vlen 0 (k_od (n_dec x)))).
        exists (ND (opt_out c true (n_dec x) o (k_hold (n_dec x)) (n_pos x)) (n_pos x)). split.
        -- eapply iter_of. apply iterate_intro; [|exact L]. unfold dec_step. rewrite A1. unfold remainder. rewrite ER.
           cbn [od_chunk_last]. unfold od_step. rewrite A2, A3. change (len [] =? 0) with true. cbn [bind fst]. rewrite Nat.add_0_r. reflexivity.
        -- apply Z; auto. rewrite ER. exact A5.
      * assert (L1 : (n_pos x < length c)%nat).
        { destruct (Nat.eq_dec (n_pos x) (length c)) as [Q|Q]; [|lia]. exfalso. rewrite Q, skipn_all in ER. discriminate. }
        destruct (empty_value_chunk (k_od (n_dec x)) (k_hold (n_dec x)) b r A2 A3) as (o & E1 & E2 & E3). rewrite <- ER in E1.
        eexists. split; [apply (iter_options c x o _ 0 A1 L1 E1); lia|]. rewrite Nat.add_0_r. apply Z; auto. rewrite ER. exact A5.
    + assert (LL := f_equal (@length N) A5). rewrite skipn_length, app_length in LL.
      assert (L1 : (n_pos x < length c)%nat) by (cbn [length] in LL; lia).
      destruct (value_chunk (k_od (n_dec x)) (k_hold (n_dec x)) (b :: v) (skipn (n_pos x) c)) as [_ V]; [right; auto|discriminate|exact A6|apply rem_ne; exact L1|].
      destruct (V _ A5) as (o & E1 & E2).
      eexists. split; [apply (iter_options c x o _ (length (b :: v)) A1 L1 E1); lia|].
      apply Z; auto; [lia|apply skipn_add; exact A5|]. apply b0_length. unfold od_chunk in E1. eapply loop_done_b0; [exact E1| |exact E2]. rewrite A2. discriminate.
  - destruct A as (A1 & A2 & A3 & A4 & A5). pose proof A2 as (R1 & R2 & R3 & R4 & R5 & R6 & R7). destruct (R7 0) as (d3 & B1 & B2 & B3).
    exists (ND (opt_out c true (n_dec x) d3 (k_hold (n_dec x)) (n_pos x)) (n_pos x)). split.
    + eapply iter_of. apply iterate_intro; [|exact L]. unfold dec_step. rewrite A1. unfold remainder. rewrite A4, skipn_all.
      cbn [od_chunk_last]. rewrite B1. cbn [bind fst]. rewrite Nat.add_0_r. reflexivity.
    + cbn [p_step]. split; [exact L|]. cbn [n_dec n_pos]. split; [apply out_st; rewrite B2; discriminate|]. split; [exact B2|]. split; [exact B3|]. split; [exact A3|].
      split; [subst p; rewrite A4, skipn_all; reflexivity|]. split; [reflexivity|exact I].
  - destruct A as (A1 & A2). cbn [p_step]. destruct p as [b|]; cbn [has] in *; destruct A2 as [A2 A3].
    + exists (ND (k_goto RPayload (n_dec x)) (n_pos x)). split.
      * eapply iter_of. apply iterate_intro; [|exact L]. unfold dec_step. rewrite A1, A2. reflexivity.
      * split; [exact L|]. cbn [n_dec n_pos]. split; [reflexivity|]. rewrite A3. reflexivity.
    + exists (ND (k_goto RDone (n_dec x)) (n_pos x)). split.
      * eapply iter_of. apply iterate_intro; [|exact L]. unfold dec_step. rewrite A1.
        replace (ostate_eqb (d_st (k_od (n_dec x))) OPayload) with false by (destruct (d_st (k_od (n_dec x))); try reflexivity; congruence).
        rewrite A3, Nat.eqb_refl. reflexivity.
      * split; [exact L|]. cbn [n_dec n_pos]. auto.
Qed.

(** * The iterator, place by place *)

Definition p_valid (P : place) : bool := rstate_eqb (p_st P) ROptions.
Definition p_next (pay : bool) (P : place) : place :=
  let P2 := p_step pay (p_step pay P) in
  let P3 := if rstate_eqb (p_st P2) OptionsDone then p_step pay P2 else P2 in
  if p_valid P3 then p_step pay P3 else P3.
Definition p_num (P : place) : N := match P with LB n _ | LV n _ _ | LX n => n | _ => 0 end.
Definition p_val (P : place) : list N := match P with LV _ v _ => v | _ => [] end.
Fixpoint p_loop (fuel : nat) (pay : bool) (P : place) : option (list (N * list N) * place) :=
  match fuel with
  | O => None
  | S k => if p_valid P then match p_loop k pay (p_next pay P) with Some (l, Q) => Some ((p_num P, p_val P) :: l, Q) | None => None end
           else Some ([], P)
  end.

Lemma step_open : forall pay P, p_st P = ROptions -> p_step pay P <> LP /\ p_step pay P <> LD.
Proof.
  intros pay P H. destruct P as [n [|[m v] os]|n v [|o os]|n| | |]; try discriminate; cbn [p_step]; unfold p_head;
    repeat match goal with |- context [match ?a with _ => _ end] => destruct a end; split; discriminate.
Qed.
Lemma not_end : forall P, p_st P = ROptions \/ p_st P = OptionsDone -> P <> LP /\ P <> LD.
Proof. intros P [H|H]; destruct P; try discriminate; split; discriminate. Qed.

Lemma place_next : forall c p P x, at_place c p P x -> p_st P = ROptions -> match p with None => True | Some b => bytes_ok b end ->
  exists x1, it_next c true x = Ok x1 /\ at_place c p (p_next (has p) P) x1.
Proof.
  intros c p P x A V Hp. unfold it_next, nd_next, nd_from. rewrite (at_st _ _ _ _ A), V. cbn [rstate_eqb].
  destruct (not_end P (or_introl V)) as [N1 N2].
  destruct (place_iter c p P x A N1 N2 Hp) as (x1 & -> & A1). cbn [bind].
  destruct (step_open (has p) P V) as [N3 N4].
  destruct (place_iter c p _ x1 A1 N3 N4 Hp) as (x2 & -> & A2). cbn [bind]. unfold p_next. cbn zeta.
  set (P2 := p_step (has p) (p_step (has p) P)) in *.
  assert (E3 : exists x3, (if rstate_eqb (nd_state x2) OptionsDone then nd_iter c true x2 else Ok x2) = Ok x3 /\
    at_place c p (if rstate_eqb (p_st P2) OptionsDone then p_step (has p) P2 else P2) x3).
  { rewrite (at_st _ _ _ _ A2). destruct (rstate_eqb (p_st P2) OptionsDone) eqn:Q; [|eauto].
    assert (QE : p_st P2 = OptionsDone) by (destruct (p_st P2); try discriminate Q; reflexivity).
    destruct (not_end P2 (or_intror QE)) as [N5 N6]. apply place_iter; assumption. }
  destruct E3 as (x3 & -> & A3). cbn [bind fst snd]. rewrite (at_st _ _ _ _ A3).
  set (P3 := if rstate_eqb (p_st P2) OptionsDone then p_step (has p) P2 else P2) in *. unfold p_valid.
  destruct (rstate_eqb (p_st P3) ROptions) eqn:Q; [|eauto].
  assert (QE : p_st P3 = ROptions) by (destruct (p_st P3); try discriminate Q; reflexivity).
  destruct (not_end P3 (or_introl QE)) as [N5 N6]. apply place_iter; assumption.
Qed.

Lemma place_shows : forall c p P x, at_place c p P x -> p_st P = ROptions ->
  it_number x = p_num P /\ it_opaque c x = Ok (p_val P, true).
Proof.
  intros c p P x (L & A) V. unfold it_number, it_opaque, dec_option. destruct P as [n os|n v os|n| | |]; try discriminate; cbn [p_num p_val].
  - destruct A as (A1 & A2 & A3 & A4 & A5). split; [exact A4|]. rewrite A3. reflexivity.
  - destruct A as (A1 & A2 & A3 & A4 & A5 & A6). split; [exact A4|]. rewrite A3. cbn [bind]. unfold remainder. rewrite A5. unfold len. rewrite Nat2N.id.
    rewrite app_length. replace (length v <=? length v + length (opts_bytes n os ++ pay_bytes p))%nat with true by (symmetry; apply Nat.leb_le; lia).
    rewrite firstn_app, firstn_all, Nat.sub_diag. cbn [firstn]. rewrite app_nil_r. reflexivity.
  - destruct A as (A1 & A2 & A3 & A4 & A5). split; [exact A3|]. rewrite (ready_length _ _ A2). reflexivity.
Qed.

Lemma place_loop : forall fuel c p P x l Q, at_place c p P x -> match p with None => True | Some b => bytes_ok b end ->
  p_loop fuel (has p) P = Some (l, Q) -> exists x1, it_loop fuel c true x = Ok (l, x1) /\ at_place c p Q x1.
Proof.
  induction fuel as [|f IH]; intros c p P x l Q A Hp H; [discriminate|]. cbn [p_loop it_loop] in *.
  unfold it_valid. rewrite (at_st _ _ _ _ A). unfold p_valid in H. destruct (rstate_eqb (p_st P) ROptions) eqn:V.
  - assert (VE : p_st P = ROptions) by (destruct (p_st P); try discriminate V; reflexivity).
    destruct (place_shows _ _ _ _ A VE) as [S1 S2]. rewrite S2. cbn [bind fst]. rewrite S1.
    destruct (place_next _ _ _ _ A VE Hp) as (x1 & -> & A1). cbn [bind].
    destruct (p_loop f (has p) (p_next (has p) P)) as [[l2 Q2]|] eqn:E; [|discriminate]. injection H as <- <-.
    destruct (IH _ _ _ _ _ _ A1 Hp E) as (x2 & -> & A2). cbn [bind fst snd]. eauto.
  - injection H as <- <-. eauto.
Qed.

(** after the constructor *)
Definition p_new (pay : bool) (os : list opt) : place :=
  match os with [] => if pay then LP else LD | (n, v) :: r => p_step pay (p_head pay n v r) end.

Lemma next_third : forall pay n v r, p_next pay (p_head pay n v r) = p_new pay r.
Proof.
  intros pay n v r. unfold p_next, p_new, p_head.
  destruct v as [|b v]; destruct r as [|[m w] r]; destruct pay; try reflexivity; cbn [p_step];
    unfold p_head; destruct w; destruct r; reflexivity.
Qed.

Lemma shown_ind : forall (A : list opt -> Prop), A [] -> (forall o, A [o]) -> (forall o1 o2, A [o1; o2]) ->
  (forall o1 o2 o3 r, A r -> A (o1 :: o2 :: o3 :: r)) -> forall os, A os.
Proof.
  intros A H0 H1 H2 H3. assert (K : forall n os, (length os <= n)%nat -> A os).
  { induction n as [|n IH]; intros os L; [destruct os; [exact H0|cbn in L; lia]|].
    destruct os as [|o1 [|o2 [|o3 r]]]; auto. apply H3, IH. cbn in L. lia. }
  intro os. exact (K _ os (le_n _)).
Qed.

Lemma p_loop_more : forall f pay P x, p_loop f pay P = Some x -> forall k, (f <= k)%nat -> p_loop k pay P = Some x.
Proof.
  induction f as [|f IH]; intros pay P x H k L; [discriminate|]. destruct k as [|k]; [lia|]. cbn [p_loop] in *. destruct (p_valid P); [|exact H].
  destruct (p_loop f pay (p_next pay P)) as [y|] eqn:E; [|discriminate]. rewrite (IH _ _ _ E k) by lia. exact H.
Qed.

Lemma head_shows : forall pay n v r, p_valid (p_head pay n v r) = true /\ p_num (p_head pay n v r) = n /\ p_val (p_head pay n v r) = v.
Proof. intros pay n v r. unfold p_head. destruct v; destruct r; destruct pay; repeat split; reflexivity. Qed.

Lemma p_loop_S : forall k pay P l Q, p_valid P = true -> p_loop k pay (p_next pay P) = Some (l, Q) ->
  p_loop (S k) pay P = Some ((p_num P, p_val P) :: l, Q).
Proof. intros k pay P l Q V E. cbn [p_loop]. rewrite V, E. reflexivity. Qed.

Lemma p_loop_shown : forall pay os, exists Q, p_loop (S (length os)) pay (p_new pay os) = Some (shown pay os, Q) /\ p_st Q = left_in pay os.
Proof.
  intros pay. induction os as [|o|o1 o2|o1 o2 o3 r IH] using shown_ind.
  - destruct pay; eexists; split; reflexivity.
  - destruct o as [n v]. destruct pay, v; eexists; split; reflexivity.
  - destruct o1 as [n1 v1], o2 as [n2 v2]. destruct pay, v1, v2; eexists; split; reflexivity.
  - destruct o1 as [n1 v1], o2 as [n2 v2], o3 as [n3 v3]. destruct IH as (Q & E & SQ).
    exists Q. cbn [shown left_in]. split; [|exact SQ].
    assert (E1 : p_new pay (@cons opt (n1, v1) (@cons opt (n2, v2) (@cons opt (n3, v3) r))) = LB n1 ((n2, v2) :: (n3, v3) :: r)).
    { cbn [p_new]. unfold p_head. destruct v1; reflexivity. }
    assert (E2 : p_next pay (LB n1 ((n2, v2) :: (n3, v3) :: r)) = p_head pay n3 v3 r).
    { unfold p_next. cbn [p_step]. unfold p_head at 1 2. destruct v2; reflexivity. }
    rewrite E1. cbn [length].
    apply (p_loop_S _ pay (LB n1 ((n2, v2) :: (n3, v3) :: r)) ((n3, v3) :: shown pay r)); [reflexivity|]. rewrite E2.
    destruct (head_shows pay n3 v3 r) as (V & A1 & A2).
    pose proof (p_loop_S (S (S (length r))) pay _ (shown pay r) Q V) as G. rewrite A1, A2, next_third in G. apply G.
    apply (p_loop_more _ _ _ _ E). lia.
Qed.

(** * Header and token *)

Lemma until_hit : forall c last s k x, nd_state x = s -> nd_until c last s (S k) x = Ok x.
Proof. intros c last s k x <-. cbn [nd_until]. destruct (nd_state x); reflexivity. Qed.
Lemma until_miss : forall c last s k x x1, nd_iter c last x = Ok x1 -> rstate_eqb (nd_state x) s = false ->
  nd_until c last s (S k) x = nd_until c last s k x1.
Proof. intros c last s k x x1 E H. cbn [nd_until]. rewrite H, E. reflexivity. Qed.

(** what is true once header and token are read *)
Definition ht_done (d : dec) (h : hdr) (tok : list N) (x : ndec) : Prop :=
  nd_state x = OptionsStart /\ n_pos x = (4 + length tok)%nat /\ k_h (n_dec x) = h /\
  (tok = [] -> k_od (n_dec x) = k_od d) /\ (tok <> [] -> d_st (k_od (n_dec x)) = OptionDone).

Lemma idle_until : forall c last d k, idle d -> exists d1, k_st d1 = Uninitialized /\ dec_mem d1 /\ k_od d1 = k_od d /\
  nd_until c last HeaderDone (S (S k)) (ND d 0) = nd_until c last HeaderDone (if rstate_eqb (k_st d) RDone then S k else S (S k)) (ND d1 0).
Proof.
  intros c last d k ([S|S] & M).
  - exists d. rewrite S. auto.
  - exists (k_goto Uninitialized d). split; [reflexivity|]. split; [exact M|]. split; [reflexivity|]. rewrite S. cbn [rstate_eqb].
    apply until_miss; [|unfold nd_state; cbn [n_dec]; rewrite S; reflexivity]. eapply iter_of. cbn [n_dec n_pos]. apply iterate_intro; [|lia].
    unfold dec_step. rewrite S. reflexivity.
Qed.

Lemma header_done : forall last d h rest, idle d -> let c := hdr_bytes h ++ rest in
  exists t tp hd, length t = 8%nat /\ bytes_ok t /\
    nd_until c last HeaderDone 10 (ND d 0) = Ok (ND (Dec HeaderDone h 4 t tp (k_od d) hd) 4).
Proof.
  intros last d h rest Hd c. assert (Hlen : length c = (4 + length rest)%nat) by (unfold c; rewrite app_length; reflexivity).
  destruct (idle_until c last d 8 Hd) as (d1 & U & M & O & ->).
    exists (k_tok d1), (k_tpos d1), (k_hold d1). split; [apply M|]. split; [apply M|]. rewrite <- O.
    assert (N1 : nd_iter c last (ND d1 0) = Ok (ND (Dec RHeader (k_h d1) 0 (k_tok d1) (k_tpos d1) (k_od d1) (k_hold d1)) 0)).
    { eapply iter_of. cbn [n_dec n_pos]. apply iterate_intro; [|lia]. unfold dec_step. rewrite U. reflexivity. }
    assert (N2 : nd_iter c last (ND (Dec RHeader (k_h d1) 0 (k_tok d1) (k_tpos d1) (k_od d1) (k_hold d1)) 0) =
      Ok (ND (Dec HeaderDone h 4 (k_tok d1) (k_tpos d1) (k_od d1) (k_hold d1)) 4)).
    { eapply iter_of. cbn [n_dec n_pos]. apply iterate_intro; [|lia]. unfold dec_step. cbn [k_st]. unfold remainder. cbn [skipn].
      unfold c. destruct h as [a b e f]. cbn [hdr_bytes app h0 h1 h2 h3 k_h k_hpos].
      replace (hdr_loop (a :: b :: e :: f :: rest) (k_h d1) 0 0) with (Ok (Hdr a b e f, 4, 4%nat, true)) by reflexivity. reflexivity. }
    assert (G : forall j, nd_until c last HeaderDone (S (S (S j))) (ND d1 0) = Ok (ND (Dec HeaderDone h 4 (k_tok d1) (k_tpos d1) (k_od d1) (k_hold d1)) 4)).
    { intro j. assert (U1 : rstate_eqb (nd_state (ND d1 0)) HeaderDone = false) by (unfold nd_state; cbn [n_dec]; rewrite U; reflexivity).
      rewrite (until_miss _ _ _ _ _ _ N1 U1).
      rewrite (until_miss _ _ HeaderDone _ _ _ N2 eq_refl). apply until_hit. reflexivity. }
    destruct (rstate_eqb (k_st d) RDone); apply G.
Qed.

Lemma header_token : forall last d h tok rest, idle d -> bytes_ok tok -> hdr_tkl h = len tok -> (length tok <= 8)%nat ->
  exists x1 x2, let c := hdr_bytes h ++ tok ++ rest in
    nd_header c last (ND d 0) = Ok (h, x1) /\ nd_token c last x1 = Ok (tok, x2) /\ ht_done d h tok x2.
Proof.
  intros last d h tok rest Hd Hok Ht H8. cbn zeta. set (c := hdr_bytes h ++ tok ++ rest).
  assert (Hlen : length c = (4 + (length tok + length rest))%nat) by (unfold c; rewrite !app_length; reflexivity).
  destruct (header_done last d h (tok ++ rest) Hd) as (t & tp & hd & T8 & Tok & N0). fold c in N0.
  assert (GO : forall s s1 t1 tp1 o1 q, (s, s1) = (TokenDone, OptionsStart) -> (q <= length c)%nat ->
    nd_iter c last (ND (Dec s h 4 t1 tp1 o1 hd) q) = Ok (ND (Dec s1 h 4 t1 tp1 o1 hd) q)).
  { intros s s1 t1 tp1 o1 q E L. injection E as -> ->. eapply iter_of. cbn [n_dec n_pos]. apply iterate_intro; [|exact L]. reflexivity. }
  destruct tok as [|b0 tok].
  - assert (N3 : nd_iter c last (ND (Dec HeaderDone h 4 t tp (k_od d) hd) 4) = Ok (ND (Dec TokenDone h 4 t tp (k_od d) hd) 4)).
    { eapply iter_of. cbn [n_dec n_pos]. apply iterate_intro; [|lia]. unfold dec_step. cbn [k_st]. unfold dec_tkl. cbn [k_h]. rewrite Ht. reflexivity. }
    exists (ND (Dec OptionsStart h 4 t tp (k_od d) hd) 4), (ND (Dec OptionsStart h 4 t tp (k_od d) hd) 4).
    split; [|split; [reflexivity|unfold ht_done; cbn; repeat split; congruence]].
    unfold nd_header. rewrite N0. cbn [bind]. rewrite N3. cbn [bind nd_state n_dec k_st rstate_eqb].
    rewrite (GO _ _ _ _ _ _ eq_refl) by lia. reflexivity.
  - set (tk := b0 :: tok) in *. assert (Z : (0 < length tk)%nat) by (cbn; lia).
    assert (N3 : nd_iter c last (ND (Dec HeaderDone h 4 t tp (k_od d) hd) 4) = Ok (ND (Dec TokenStart h 4 t tp (k_od d) hd) 4)).
    { eapply iter_of. cbn [n_dec n_pos]. apply iterate_intro; [|lia]. unfold dec_step. cbn [k_st]. unfold dec_tkl. cbn [k_h]. rewrite Ht.
      replace (0 <? len tk) with true by (symmetry; apply N.ltb_lt; unfold len; lia). reflexivity. }
    assert (N4 : nd_iter c last (ND (Dec TokenStart h 4 t tp (k_od d) hd) 4) = Ok (ND (Dec RToken h 4 t 0 (k_od d) hd) 4)).
    { eapply iter_of. cbn [n_dec n_pos]. apply iterate_intro; [|lia]. reflexivity. }
    set (t5 := tk ++ skipn (length tk) t).
    assert (N5 : nd_iter c last (ND (Dec RToken h 4 t 0 (k_od d) hd) 4) =
      Ok (ND (Dec TokenDone h 4 t5 (len tk) (tok_alias t5 (len tk)) hd) (4 + length tk))).
    { eapply iter_of. cbn [n_dec n_pos]. apply iterate_intro; [|lia]. unfold dec_step. cbn [k_st]. unfold remainder, dec_tkl. cbn [k_h k_tok k_tpos].
      replace (skipn 4 c) with (tk ++ rest) by (unfold c; destruct h; reflexivity). rewrite Ht.
      replace (tok_loop (len tk) (tk ++ rest) t 0 0) with (tok_loop (N.of_nat (0 + length tk)) (tk ++ rest) t (N.of_nat 0) 0) by reflexivity.
      rewrite tok_loop_all; [|lia|lia|assumption|rewrite app_length; lia]. cbn [bind firstn app Nat.add].
      replace (firstn (length tk) (tk ++ rest)) with tk by (rewrite firstn_app, Nat.sub_diag, firstn_all; cbn; now rewrite app_nil_r).
      fold t5. replace (Nat.eqb (length tk) 0) with false by (symmetry; apply Nat.eqb_neq; lia). reflexivity. }
    exists (ND (Dec TokenStart h 4 t tp (k_od d) hd) 4), (ND (Dec OptionsStart h 4 t5 (len tk) (tok_alias t5 (len tk)) hd) (4 + length tk)).
    split; [|split].
    + unfold nd_header. rewrite N0. cbn [bind]. rewrite N3. reflexivity.
    + unfold nd_token, nd_tkl. cbn [nd_state n_dec k_st]. unfold nd_from. cbn [nd_state n_dec k_st rstate_eqb]. rewrite N4. cbn [bind].
      rewrite (until_miss _ _ TokenDone _ _ _ N5 eq_refl), until_hit by reflexivity. cbn [bind]. rewrite (GO _ _ _ _ _ _ eq_refl) by lia.
      cbn [bind fst snd n_dec k_tok]. unfold dec_tkl. cbn [k_h]. rewrite Ht. unfold len at 1. rewrite Nat2N.id.
      do 2 f_equal. unfold t5. rewrite firstn_app, firstn_all, Nat.sub_diag. cbn [firstn]. apply app_nil_r.
    + unfold ht_done. cbn [nd_state n_dec n_pos k_st k_h k_od].
      split; [reflexivity|]. split; [reflexivity|]. split; [reflexivity|]. split; [intro Q; discriminate Q|].
      intros _. apply tok_alias_st; [|unfold len; lia|unfold len; lia].
      unfold t5. apply bytes_ok_app. split; [exact Hok|]. apply bytes_ok_skipn. exact Tok.
Qed.

Lemma stuck_until : forall c last s k x, nd_iter c last x = Ok x -> rstate_eqb (nd_state x) s = false -> nd_until c last s k x = Fault.
Proof.
  induction k as [|k IH]; intros x E H; [reflexivity|]. rewrite (until_miss c last s k x x E H). apply IH; assumption.
Qed.

(** fewer than four bytes *)
Lemma header_short : forall c last d, idle d -> (length c < 4)%nat -> nd_header c last (ND d 0) = Fault.
Proof.
  intros c last d Hd L. unfold nd_header. destruct (idle_until c last d 8 Hd) as (d1 & U & M & O & ->).
  assert (N1 : nd_iter c last (ND d1 0) = Ok (ND (Dec RHeader (k_h d1) 0 (k_tok d1) (k_tpos d1) (k_od d1) (k_hold d1)) 0)).
  { eapply iter_of. cbn [n_dec n_pos]. apply iterate_intro; [|lia]. unfold dec_step. rewrite U. reflexivity. }
  assert (U1 : rstate_eqb (nd_state (ND d1 0)) HeaderDone = false) by (unfold nd_state; cbn [n_dec]; rewrite U; reflexivity).
  assert (N2 : exists h p, nd_iter c last (ND (Dec RHeader (k_h d1) 0 (k_tok d1) (k_tpos d1) (k_od d1) (k_hold d1)) 0) =
    Ok (ND (Dec RHeader h p (k_tok d1) (k_tpos d1) (k_od d1) (k_hold d1)) (length c))).
  { destruct c as [|b0 [|b1 [|b2 [|b3 r]]]]; try (cbn in L; lia); do 2 eexists; eapply iter_of; cbn [n_dec n_pos]; (apply iterate_intro; [|cbn; lia]); reflexivity. }
  destruct N2 as (h & p & N2).
  assert (N3 : nd_iter c last (ND (Dec RHeader h p (k_tok d1) (k_tpos d1) (k_od d1) (k_hold d1)) (length c)) =
    Ok (ND (Dec RHeader h p (k_tok d1) (k_tpos d1) (k_od d1) (k_hold d1)) (length c))).
  { eapply iter_of. cbn [n_dec n_pos]. apply iterate_intro; [|lia]. unfold dec_step. cbn [k_st]. unfold remainder. rewrite skipn_all.
    cbn [hdr_loop bind k_h k_hpos]. rewrite Nat.add_0_r. reflexivity. }
  assert (G : forall j, nd_until c last HeaderDone (S (S j)) (ND d1 0) = Fault).
  { intro j. rewrite (until_miss _ _ _ _ _ _ N1 U1). rewrite (until_miss _ _ HeaderDone _ _ _ N2 eq_refl). apply stuck_until; [exact N3|reflexivity]. }
  destruct (rstate_eqb (k_st d) RDone); rewrite G; reflexivity.
Qed.

(** a token that is cut off, or longer than eight bytes *)
Lemma token_short : forall last d h rest, idle d -> let c := hdr_bytes h ++ rest in
  hdr_tkl h < 16 -> 8 < hdr_tkl h \/ len rest < hdr_tkl h ->
  exists x, nd_header c last (ND d 0) = Ok (h, x) /\ nd_token c last x = Fault.
Proof.
  intros last d h rest Hd c H16 Ht. assert (Hlen : length c = (4 + length rest)%nat) by (unfold c; rewrite app_length; reflexivity).
  destruct (header_done last d h rest Hd) as (t & tp & hd & T8 & Tok & N0). fold c in N0.
  assert (Z : 0 < hdr_tkl h) by (unfold len in Ht; lia).
  assert (N3 : nd_iter c last (ND (Dec HeaderDone h 4 t tp (k_od d) hd) 4) = Ok (ND (Dec TokenStart h 4 t tp (k_od d) hd) 4)).
  { eapply iter_of. cbn [n_dec n_pos]. apply iterate_intro; [|lia]. unfold dec_step. cbn [k_st]. unfold dec_tkl. cbn [k_h].
    replace (0 <? hdr_tkl h) with true by (symmetry; apply N.ltb_lt; exact Z). reflexivity. }
  assert (N4 : nd_iter c last (ND (Dec TokenStart h 4 t tp (k_od d) hd) 4) = Ok (ND (Dec RToken h 4 t 0 (k_od d) hd) 4)).
  { eapply iter_of. cbn [n_dec n_pos]. apply iterate_intro; [|lia]. reflexivity. }
  exists (ND (Dec TokenStart h 4 t tp (k_od d) hd) 4). split; [unfold nd_header; rewrite N0; cbn [bind]; rewrite N3; reflexivity|].
  unfold nd_token, nd_tkl. cbn [nd_state n_dec k_st]. unfold nd_from. cbn [nd_state n_dec k_st rstate_eqb]. rewrite N4. cbn [bind].
  assert (R4 : skipn 4 c = rest) by (unfold c; destruct h; reflexivity).
  assert (TK : hdr_tkl h = N.of_nat (N.to_nat (hdr_tkl h))) by (rewrite N2Nat.id; reflexivity).
  destruct (Nat.le_gt_cases (length rest) 8) as [L8|G8].
  - assert (L : (0 + length rest < N.to_nat (hdr_tkl h))%nat) by (unfold len in Ht; lia).
    pose proof (tok_loop_some rest t 0 (N.to_nat (hdr_tkl h)) 0 L L8 T8) as TL. rewrite <- TK in TL. cbn [firstn app Nat.add] in TL.
    set (t1 := rest ++ skipn (length rest) t) in *.
    assert (N5 : exists o, nd_iter c last (ND (Dec RToken h 4 t 0 (k_od d) hd) 4) = Ok (ND (Dec RToken h 4 t1 (len rest) o hd) (length c))).
    { eexists. eapply iter_of. cbn [n_dec n_pos]. rewrite Hlen. apply iterate_intro; [|lia]. unfold dec_step. cbn [k_st]. unfold remainder, dec_tkl. cbn [k_h k_tok k_tpos].
      rewrite R4. change 0 with (N.of_nat 0) at 1. rewrite TL. cbn [bind]. reflexivity. }
    destruct N5 as (o & N5).
    assert (N6 : nd_iter c last (ND (Dec RToken h 4 t1 (len rest) o hd) (length c)) = Ok (ND (Dec RToken h 4 t1 (len rest) o hd) (length c))).
    { eapply iter_of. cbn [n_dec n_pos]. apply iterate_intro; [|lia]. unfold dec_step. cbn [k_st]. unfold remainder, dec_tkl. rewrite skipn_all. cbn [tok_loop k_h k_tok k_tpos bind Nat.eqb].
      rewrite Nat.add_0_r. reflexivity. }
    rewrite (until_miss _ _ TokenDone _ _ _ N5 eq_refl), stuck_until; [reflexivity|exact N6|reflexivity].
  - assert (F : nd_iter c last (ND (Dec RToken h 4 t 0 (k_od d) hd) 4) = Fault).
    { unfold nd_iter, dec_iterate, dec_step. cbn [n_dec n_pos k_st]. unfold remainder, dec_tkl. cbn [k_h k_tok k_tpos]. rewrite R4, TK.
      change 0 with (N.of_nat 0) at 1. rewrite (tok_loop_over 8); [reflexivity|lia|unfold len in Ht; lia|exact T8|exact G8]. }
    cbn [nd_until nd_state n_dec k_st rstate_eqb]. rewrite F. reflexivity.
Qed.

(** * From the start of the options *)

Lemma iterate_start : forall c d pos, k_st d = OptionsStart -> (pos < length c)%nat ->
  dec_iterate c true d pos = dec_iterate c true (opt_fresh d) pos.
Proof.
  intros c d pos Hs Hp. unfold dec_iterate. f_equal.
  unfold dec_step. rewrite Hs. cbn [k_st opt_fresh opt_dec k_od k_hold k_h k_hpos k_tok k_tpos]. unfold remainder.
  destruct (skipn_nonempty c pos Hp) as (b & r & E). rewrite E. cbn [length Nat.eqb andb].
  rewrite chunk_last_nonempty.
  destruct (od_chunk (od_goto FirstByte (k_od d)) holder_reset (b :: r)) as [[[o h] n]| |] eqn:EC; cbn [bind]; try reflexivity.
  assert (HO : d_st o <> OptionValueDone).
  { eapply outside_chunk; [|exact EC]. unfold outside. cbn. repeat split; discriminate. }
  destruct (d_st o); try reflexivity; try (rewrite andb_false_r; reflexivity). congruence.
Qed.

Lemma new_place : forall c p x os, nd_state x = OptionsStart -> (n_pos x <= length c)%nat -> skipn (n_pos x) c = opts_bytes 0 os ++ pay_bytes p ->
  opts_ok 0 os -> match p with None => True | Some b => bytes_ok b end ->
  os <> [] \/ p <> None \/ d_st (k_od (n_dec x)) <> OPayload ->
  exists x1, it_new c true x = Ok x1 /\ at_place c p (p_new (has p) os) x1.
Proof.
  intros c p x os S L E Hos Hp St. unfold it_new, nd_begin, nd_from. rewrite S. cbn [rstate_eqb].
  assert (K : exists x1, nd_iter c true x = Ok x1 /\ at_place c p (match os with [] => LE | (n, v) :: r => p_head (has p) n v r end) x1).
  { destruct (opts_bytes 0 os ++ pay_bytes p) as [|b r] eqn:ER.
    - apply app_eq_nil in ER. destruct ER as [E1 E2]. destruct os as [|[? ?] ?]; [|discriminate]. destruct p; [discriminate|].
      destruct St as [St|[St|St]]; try congruence. pose proof (skipn_nil_end _ _ L E) as Q.
      exists (ND (k_goto OptionsDone (n_dec x)) (n_pos x)). split.
      + eapply iter_of. apply iterate_intro; [|exact L]. unfold dec_step. unfold nd_state in S. rewrite S. unfold remainder. rewrite E. reflexivity.
      + split; [exact L|]. cbn [n_dec n_pos]. auto.
    - assert (L1 : (n_pos x < length c)%nat).
      { destruct (Nat.eq_dec (n_pos x) (length c)) as [Q|Q]; [|lia]. exfalso. rewrite Q, skipn_all in E. discriminate. }
      assert (A : exists x1, nd_iter c true (ND (opt_fresh (n_dec x)) (n_pos x)) = Ok x1 /\ at_place c p (p_step (has p) (LB 0 os)) x1).
      { apply bound_iter; [reflexivity|left; reflexivity|reflexivity|exact L|cbn [n_pos]; rewrite E, ER; reflexivity|cbn [n_pos]; rewrite E; discriminate|exact Hos|exact Hp]. }
      destruct A as (x1 & A1 & A2). exists x1. split; [|destruct os as [|[n v] os]; exact A2].
      unfold nd_iter in *. rewrite iterate_start; assumption. }
  destruct K as (x1 & -> & A). cbn [bind]. rewrite (at_st _ _ _ _ A). destruct os as [|[n v] os].
  - cbn [p_st rstate_eqb p_new]. destruct (place_iter c p LE x1 A ltac:(discriminate) ltac:(discriminate) Hp) as (x2 & -> & A2).
    cbn [bind fst snd]. exists x2. split; [reflexivity|]. exact A2.
  - destruct (head_shows (has p) n v os) as (V & _). assert (VE : p_st (p_head (has p) n v os) = ROptions) by (unfold p_valid in V; destruct (p_st _); try discriminate V; reflexivity).
    rewrite VE. cbn [rstate_eqb fst snd bind p_new]. destruct (not_end _ (or_introl VE)) as [N1 N2].
    apply place_iter; assumption.
Qed.

Lemma left_in_not_options : forall pay os, left_in pay os <> ROptions.
Proof.
  intros pay os. induction os as [|[n v]|[n1 v1] [n v]|[n1 v1] [n2 v2] o3 r IH] using shown_ind; cbn [left_in].
  - destruct pay; discriminate.
  - destruct pay, v; discriminate.
  - destruct pay, v; discriminate.
  - exact IH.
Qed.

Lemma read_place : forall m d fuel, msg_ok m -> idle d -> (length (m_opts m) < fuel)%nat ->
  m_opts m <> [] \/ m_pay m <> None \/ m_tok m <> [] \/ d_st (k_od d) <> OPayload ->
  exists x Q, nd_read fuel (msg_bytes m) true d = Ok (m_hdr m, m_tok m, shown (has (m_pay m)) (m_opts m), x) /\
    at_place (msg_bytes m) (m_pay m) Q x /\ p_st Q = left_in (has (m_pay m)) (m_opts m).
Proof.
  intros m d fuel Hm Hd Hf St. destruct Hm as (M1 & M2 & M3 & M4 & M5 & M6).
  assert (Ht : hdr_tkl (m_hdr m) = len (m_tok m)) by (rewrite tkl_mod; exact M2).
  destruct (header_token true d (m_hdr m) (m_tok m) (opts_bytes 0 (m_opts m) ++ pay_bytes (m_pay m)) Hd M4 Ht M3) as (x1 & x2 & E1 & E2 & D1 & D2 & D3 & D4 & D5).
  cbn zeta in *. fold (msg_bytes m) in *. unfold nd_read. rewrite E1. cbn [bind snd]. rewrite E2. cbn [bind snd].
  assert (LC : length (msg_bytes m) = (4 + length (m_tok m) + length (opts_bytes 0 (m_opts m) ++ pay_bytes (m_pay m)))%nat).
  { unfold msg_bytes. rewrite !app_length. cbn [hdr_bytes length]. lia. }
  destruct (new_place (msg_bytes m) (m_pay m) x2 (m_opts m) D1) as (x3 & E3 & A3); try assumption.
  - rewrite D2. lia.
  - rewrite D2. unfold msg_bytes. replace (4 + length (m_tok m))%nat with (length (hdr_bytes (m_hdr m) ++ m_tok m)) by (rewrite app_length; reflexivity).
    rewrite app_assoc. rewrite skipn_app, skipn_all, Nat.sub_diag. reflexivity.
  - destruct St as [St|[St|[St|St]]]; auto.
    + right. right. rewrite D5 by exact St. discriminate.
    + destruct (m_tok m) as [|b t] eqn:ET; [rewrite D4 by reflexivity; auto|rewrite D5 by discriminate; right; right; discriminate].
  - rewrite E3. cbn [bind]. destruct (p_loop_shown (has (m_pay m)) (m_opts m)) as (Q & EQ & SQ).
    pose proof (p_loop_more _ _ _ _ EQ fuel Hf) as EQ2. destruct (place_loop _ _ _ _ _ _ _ A3 M6 EQ2) as (x4 & -> & A4). cbn [bind fst snd].
    exists x4, Q. auto.
Qed.

Lemma read_message : forall m d fuel, msg_ok m -> idle d -> (length (m_opts m) < fuel)%nat ->
  m_opts m <> [] \/ m_pay m <> None \/ m_tok m <> [] \/ d_st (k_od d) <> OPayload ->
  exists x, nd_read fuel (msg_bytes m) true d = Ok (m_hdr m, m_tok m, shown (has (m_pay m)) (m_opts m), x) /\
    nd_state x = left_in (has (m_pay m)) (m_opts m) /\ forall b, m_pay m = Some b -> nd_payload (msg_bytes m) x = b.
Proof.
  intros m d fuel Hm Hd Hf St. destruct (read_place m d fuel Hm Hd Hf St) as (x4 & Q & E & A4 & SQ).
  exists x4. split; [exact E|]. split; [rewrite (at_st _ _ _ _ A4); exact SQ|].
  intros b Eb. unfold nd_payload, remainder. destruct A4 as (L4 & A4). destruct Q as [n os|n v os|n| | |].
  - exfalso. exact (left_in_not_options _ _ (eq_sym SQ)).
  - exfalso. exact (left_in_not_options _ _ (eq_sym SQ)).
  - exfalso. exact (left_in_not_options _ _ (eq_sym SQ)).
  - rewrite Eb in A4. apply A4.
  - destruct A4 as (_ & A4). rewrite Eb in A4. injection A4 as ->. reflexivity.
  - destruct A4 as (_ & A4 & _). congruence.
Qed.
