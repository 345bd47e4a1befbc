(** Proofs for C79: two decoders that hold different memory are told the same and tell the same. *)
From Verif Require Import Base HeaderModel OptEncModel OptDecModel DecoderModel SbDecModel OptSpec OptDecSpec DecoderSpec DecoderProofs IsolSpec.
Local Open Scope N_scope.

Definition same_res {X Y} (R : X -> Y -> Prop) (a : res X) (b : res Y) : Prop :=
  match a, b with
  | Ok x, Ok y => R x y
  | Fault, Fault | NoFuel, NoFuel => True
  | _, _ => False
  end.

Lemma same_bind : forall X Y X' Y' (R : X -> Y -> Prop) (Q : X' -> Y' -> Prop) a b f g,
  same_res R a b -> (forall x y, R x y -> same_res Q (f x) (g y)) -> same_res Q (bind a f) (bind b g).
Proof. intros X Y X' Y' R Q [x| |] [y| |] f g H K; cbn in *; auto; contradiction. Qed.

(** ** The option decoder *)

(** what its state has written and will read *)
Definition od_live (o p : odec) : Prop :=
  match d_st o with
  | FirstByteDone => d_b0 o = d_b0 p /\ d_pos o = 1 /\ d_pos p = 1
  | OptionDelta | OptionLength => d_b0 o = d_b0 p /\ d_pos o = d_pos p /\ (d_pos o = 1 \/ d_pos o = 2 /\ d_b1 o = d_b1 p)
  | OptionDeltaDone => d_b0 o = d_b0 p /\ od_delta o = od_delta p
  | OptionLengthDone => d_b0 o = d_b0 p /\ od_length o = od_length p /\ (raw_length o < 13 -> d_pos o = 1 /\ d_pos p = 1)
  | OptionDeltaAndLengthDone => od_delta o = od_delta p /\ od_length o = od_length p
  | ValueStart => od_length o = od_length p
  | OptionValue => d_b0 o = d_b0 p /\ d_b1 o = d_b1 p
  | OptionValueDone | FirstByte | OPayload | OptionDone => True
  end.
Definition od_same (o p : odec) : Prop := d_st o = d_st p /\ od_live o p.

Lemma raw_small : forall o p, d_b0 o = d_b0 p -> raw_delta o = raw_delta p /\ raw_length o = raw_length p.
Proof. intros o p E. unfold raw_delta, raw_length. rewrite E. split; reflexivity. Qed.

Lemma get_small : forall n a b c d, n < 13 -> get_value n a b = get_value n c d.
Proof. intros n a b c d H. unfold get_value. apply N.ltb_lt in H. rewrite H. reflexivity. Qed.

Lemma od_step_same : forall v o p, od_same o p -> same_res (fun x y => od_same (fst x) (fst y) /\ snd x = snd y) (od_step v o) (od_step v p).
Proof.
  intros v [s a0 a1 a2 a3 q] [s1 c0 c1 c2 c3 q1] (E & L). cbn [d_st] in E. subst s1. unfold od_live in L. cbn [d_st d_b0 d_b1 d_pos] in L.
  destruct s; unfold od_step; cbn [d_st].
  - (* FirstByte *) destruct (v =? 255); cbn; unfold od_same, od_live; cbn; auto.
  - (* FirstByteDone *)
    destruct L as (-> & -> & ->). unfold raw_delta, raw_length. cbn [d_b0].
    destruct (13 <=? N.shiftr c0 4) eqn:E1; destruct (13 <=? N.land c0 15) eqn:E2; cbn; unfold od_same, od_live; cbn; auto;
      unfold od_length, od_delta, raw_length, raw_delta; cbn; try (apply N.leb_gt in E1); try (apply N.leb_gt in E2);
      (split; [split; [reflexivity|]|reflexivity]); repeat split; auto using get_small.
  - (* OptionDelta *)
    destruct L as (-> & -> & L). unfold raw_delta. cbn [d_b0 d_pos].
    destruct L as [->|(-> & ->)]; cbn [od_put bind d_st d_b0 d_b1 d_b2 d_b3 d_pos]; unfold process_option_size; change ((1 + 1) mod 256) with 2; try change (1 =? 2) with false; try change (2 =? 2) with true.
    + destruct (N.shiftr c0 4 =? 13) eqn:E1; [|destruct (N.shiftr c0 4 =? 14) eqn:E2]; cbn; auto; unfold od_same, od_live; cbn; auto 10.
      split; [split; [reflexivity|]|reflexivity]. split; [reflexivity|]. unfold od_delta, raw_delta, get_value. cbn. rewrite E1.
      destruct (_ <? 13); reflexivity.
    + destruct (N.shiftr c0 4 =? 13) eqn:E1; [|destruct (N.shiftr c0 4 =? 14) eqn:E2]; cbn; auto; unfold od_same, od_live; cbn; auto 10.
  - (* OptionDeltaDone *)
    destruct L as (-> & L). unfold raw_length. cbn [d_b0].
    destruct (13 <=? N.land c0 15) eqn:E2; cbn; unfold od_same, od_live; cbn; auto 10.
    apply N.leb_gt in E2. split; [split; [reflexivity|]|reflexivity]. unfold od_length, raw_length. cbn. auto using get_small.
  - (* OptionLength *)
    destruct L as (-> & -> & L). unfold raw_length. cbn [d_b0 d_pos].
    assert (G : forall n x, n =? 13 = true -> (n < 13 -> x)) by (intros n x G1 G2; apply N.eqb_eq in G1; lia).
    assert (G' : forall n x, n =? 14 = true -> (n < 13 -> x)) by (intros n x G1 G2; apply N.eqb_eq in G1; lia).
    destruct L as [->|(-> & ->)]; cbn [od_put bind d_st d_b0 d_b1 d_b2 d_b3 d_pos]; unfold process_option_size; change ((1 + 1) mod 256) with 2; try change (1 =? 2) with false; try change (2 =? 2) with true.
    + destruct (N.land c0 15 =? 13) eqn:E1; [|destruct (N.land c0 15 =? 14) eqn:E2]; cbn; auto; unfold od_same, od_live; cbn; auto 10.
      split; [split; [reflexivity|]|reflexivity]. split; [reflexivity|]. unfold od_length, raw_length. cbn. split; [|eapply G; eassumption].
      unfold get_value. rewrite E1. destruct (_ <? 13); reflexivity.
    + destruct (N.land c0 15 =? 13) eqn:E1; [|destruct (N.land c0 15 =? 14) eqn:E2]; cbn; auto; unfold od_same, od_live; cbn;
        (split; [split; [reflexivity|]|reflexivity]); (split; [reflexivity|]); (split; [reflexivity|]); unfold raw_length; cbn; [eapply G|eapply G']; eassumption.
  - (* OptionLengthDone *)
    destruct L as (-> & L & P). unfold raw_length in *. cbn [d_b0] in *.
    destruct (13 <=? N.land c0 15) eqn:E2; cbn; unfold od_same, od_live; cbn; auto 10.
    apply N.leb_gt in E2. destruct (P E2) as (-> & ->). auto 10.
  - (* OptionDeltaAndLengthDone *) destruct L as (_ & L). cbn. unfold od_same, od_live. cbn. auto.
  - (* ValueStart *)
    rewrite L. destruct (od_length (ODec ValueStart c0 c1 c2 c3 q1)) as [l| |]; cbn; auto. unfold od_same, od_live. cbn. destruct (l =? 0); cbn; auto 10.
  - (* OptionValue *)
    destruct L as (-> & ->). unfold od_vlen. cbn. unfold od_same, od_live. cbn. destruct (_ =? 0); cbn; auto 10.
  - cbn. unfold od_same, od_live. cbn. auto.
  - cbn. unfold od_same, od_live. cbn. auto.
  - cbn. auto.
Qed.

Lemma hold_same : forall o p h, od_same o p -> hold_upd o h = hold_upd p h.
Proof.
  intros o p h (E & L). unfold hold_upd, od_live in *. rewrite <- E. destruct (d_st o); try reflexivity.
  - destruct L as (_ & ->). reflexivity.
  - destruct L as (_ & -> & _). reflexivity.
  - destruct L as (-> & ->). reflexivity.
Qed.

Definition od_out (x y : odec * holder * nat) : Prop :=
  od_same (fst (fst x)) (fst (fst y)) /\ snd (fst x) = snd (fst y) /\ snd x = snd y.

Lemma loop_same : forall fuel o p h bs n, od_same o p -> same_res od_out (od_chunk_loop fuel o h bs n) (od_chunk_loop fuel p h bs n).
Proof.
  induction fuel; intros o p h [|b r] n H; cbn [od_chunk_loop]; try (cbn; unfold od_out; auto; fail).
  eapply same_bind; [apply od_step_same; exact H|]. intros [o1 c1] [p1 c2] (S1 & E1). cbn [fst snd] in *. subst c2.
  rewrite (hold_same _ _ h S1). destruct (hold_upd p1 h) as [h1| |]; cbn [bind]; [|exact I|exact I].
  destruct S1 as (S1 & L1). rewrite S1. destruct (od_stops (d_st p1)).
  - cbn. unfold od_out. cbn. repeat split; auto.
  - apply IHfuel. split; assumption.
Qed.

Lemma chunk_last_same : forall o p h bs last, od_same o p -> same_res od_out (od_chunk_last o h bs last) (od_chunk_last p h bs last).
Proof.
  intros o p h bs last H. unfold od_chunk_last, od_chunk. destruct bs as [|b r]; [destruct last|]; try (apply loop_same; exact H).
  eapply same_bind; [apply od_step_same; exact H|]. intros [o1 c1] [p1 c2] (S1 & E1). cbn [fst snd] in *. cbn. unfold od_out. cbn. auto.
Qed.

(** ** The message decoder *)

Definition pay_same (o p : odec) : Prop := ostate_eqb (d_st o) OPayload = ostate_eqb (d_st p) OPayload.

Definition hdr_upto (p : N) (h g : hdr) : Prop :=
  (0 < p -> h0 h = h0 g) /\ (1 < p -> h1 h = h1 g) /\ (2 < p -> h2 h = h2 g) /\ (3 < p -> h3 h = h3 g).

Lemma hdr_upto_all : forall p h g, 4 <= p -> hdr_upto p h g -> h = g.
Proof.
  intros p [a b c e] [a' b' c' e'] H (A & B & C & D). cbn in *. rewrite A, B, C, D by lia. reflexivity.
Qed.

Lemma hdr_put_same : forall p b h g, hdr_upto p h g ->
  same_res (fun x y => hdr_upto (p + 1) x y /\ p < 4) (hdr_put p b h) (hdr_put p b g).
Proof.
  intros p b h g (A & B & C & D).
  assert (P : p = 0 \/ p = 1 \/ p = 2 \/ p = 3 \/ 4 <= p) by lia.
  destruct P as [-> | [-> | [-> | [-> | P]]]]; try (cbn; unfold hdr_upto; cbn; repeat split; intros; auto; try lia; try (apply A; lia); try (apply B; lia); apply C; lia).
  assert (F : forall f, hdr_put p b f = Fault) by (intros f; destruct p as [|[[|[]|]|[|[]|]|]]; try reflexivity; lia).
  rewrite !F. exact I.
Qed.

Lemma hdr_loop_same : forall bs h g p n, hdr_upto p h g ->
  same_res (fun x y => hdr_upto (snd (fst (fst x))) (fst (fst (fst x))) (fst (fst (fst y))) /\
                       snd (fst (fst x)) = snd (fst (fst y)) /\ snd (fst x) = snd (fst y) /\ snd x = snd y /\
                       (snd x = true -> 4 <= snd (fst (fst x))))
           (hdr_loop bs h p n) (hdr_loop bs g p n).
Proof.
  induction bs as [|b r IH]; intros h g p n H; cbn [hdr_loop].
  - cbn. repeat split; auto; try apply H. discriminate.
  - assert (K := hdr_put_same p b h g H).
    eapply same_bind; [exact K|]. intros h1 g1 (K1 & K2). rewrite N.mod_small by lia. destruct (4 <=? p + 1) eqn:E.
    + cbn. apply N.leb_le in E. repeat split; auto; apply K1.
    + apply IH. exact K1.
Qed.

Lemma firstn_le : forall (t u : list N) a b, (a <= b)%nat -> firstn b t = firstn b u -> firstn a t = firstn a u.
Proof.
  intros t u a b H E. replace a with (Nat.min a b) by lia. rewrite <- !firstn_firstn, E. reflexivity.
Qed.

Lemma tok_put_same : forall i v t u, length t = 8%nat -> length u = 8%nat -> firstn (N.to_nat i) t = firstn (N.to_nat i) u ->
  same_res (fun x y => length x = 8%nat /\ length y = 8%nat /\ firstn (N.to_nat (i + 1)) x = firstn (N.to_nat (i + 1)) y /\ i < 8)
           (tok_put i v t) (tok_put i v u).
Proof.
  intros i v t u Lt Lu E. unfold tok_put. destruct (i <? 8) eqn:B; [|exact I]. apply N.ltb_lt in B. cbn [same_res].
  assert (T : forall x : list N, length x = 8%nat ->
    length (firstn (N.to_nat i) x ++ v :: skipn (S (N.to_nat i)) x) = 8%nat /\
    firstn (N.to_nat (i + 1)) (firstn (N.to_nat i) x ++ v :: skipn (S (N.to_nat i)) x) = firstn (N.to_nat i) x ++ [v]).
  { intros x Lx. assert (F : length (firstn (N.to_nat i) x) = N.to_nat i) by (rewrite firstn_length; lia). split.
    - rewrite app_length. cbn [length]. rewrite F, skipn_length. lia.
    - rewrite firstn_app, F. replace (N.to_nat (i + 1) - N.to_nat i)%nat with 1%nat by lia.
      rewrite firstn_all2 by lia. reflexivity. }
  destruct (T t Lt) as (T1 & T2). destruct (T u Lu) as (U1 & U2). repeat split; auto. rewrite T2, U2, E. reflexivity.
Qed.

Lemma tok_loop_same : forall tkl bs t u p n, length t = 8%nat -> length u = 8%nat -> p <= 8 ->
  firstn (N.to_nat p) t = firstn (N.to_nat p) u ->
  same_res (fun x y => length (fst (fst (fst x))) = 8%nat /\ length (fst (fst (fst y))) = 8%nat /\
                       snd (fst (fst x)) <= 8 /\ snd (fst (fst x)) = snd (fst (fst y)) /\
                       firstn (N.to_nat (snd (fst (fst x)))) (fst (fst (fst x))) = firstn (N.to_nat (snd (fst (fst x)))) (fst (fst (fst y))) /\
                       snd (fst x) = snd (fst y) /\ snd x = snd y /\
                       (snd x = true -> tkl <= snd (fst (fst x))))
           (tok_loop tkl bs t p n) (tok_loop tkl bs u p n).
Proof.
  intros tkl bs. induction bs as [|b r IH]; intros t u p n Lt Lu P E; cbn [tok_loop].
  - cbn. repeat split; auto. discriminate.
  - eapply same_bind; [apply tok_put_same; assumption|]. intros t1 u1 (A & B & C & D). rewrite N.mod_small by lia.
    destruct (tkl <=? p + 1) eqn:K.
    + cbn. apply N.leb_le in K. repeat split; auto. lia.
    + apply IH; auto. lia.
Qed.

Lemma alias_done : forall t p, p <= 8 -> d_st (tok_alias t p) = OptionDone.
Proof.
  intros t p H. unfold tok_alias. cbn [d_st].
  generalize (nth 0 t 0) (nth 1 t 0) (nth 2 t 0). intros a b c.
  destruct (p + 256 * a + 65536 * b + 16777216 * c =? 11) eqn:E; [|reflexivity]. apply N.eqb_eq in E. lia.
Qed.

Definition dec_live (d e : dec) : Prop :=
  match k_st d with
  | RHeader => k_hpos d = k_hpos e /\ hdr_upto (k_hpos d) (k_h d) (k_h e) /\ pay_same (k_od d) (k_od e)
  | HeaderDone | TokenStart => k_h d = k_h e /\ pay_same (k_od d) (k_od e)
  | RToken => k_h d = k_h e /\ k_tpos d = k_tpos e /\ k_tpos d <= 8 /\
              firstn (N.to_nat (k_tpos d)) (k_tok d) = firstn (N.to_nat (k_tpos d)) (k_tok e) /\ pay_same (k_od d) (k_od e)
  | TokenDone => k_h d = k_h e /\ firstn (N.to_nat (dec_tkl d)) (k_tok d) = firstn (N.to_nat (dec_tkl d)) (k_tok e) /\
                 pay_same (k_od d) (k_od e)
  | ROptions => od_same (k_od d) (k_od e) /\ k_hold d = k_hold e
  | Uninitialized | OptionsStart | OptionsDone | RPayload | PayloadDone | RDone => pay_same (k_od d) (k_od e)
  end.
Definition dec_same (d e : dec) : Prop :=
  k_st d = k_st e /\ length (k_tok d) = 8%nat /\ length (k_tok e) = 8%nat /\ dec_live d e.

Lemma od_same_pay : forall o p, od_same o p -> pay_same o p.
Proof. intros o p (E & _). unfold pay_same. rewrite E. reflexivity. Qed.

Lemma dec_step_same : forall chunk last d e pos, dec_same d e ->
  same_res (fun x y => dec_same (fst x) (fst y) /\ snd x = snd y) (dec_step chunk last d pos) (dec_step chunk last e pos).
Proof.
  intros chunk last [s h hp t tp o hd] [s1 g gp u up p hd1] pos (E & Lt & Lu & L). cbn [k_st k_tok] in *. subst s1.
  unfold dec_live in L. cbn [k_st k_h k_hpos k_tok k_tpos k_od k_hold] in L.
  destruct s; unfold dec_step; cbn [k_st k_h k_hpos k_tok k_tpos k_od k_hold].
  - (* Uninitialized *)
    cbn. unfold dec_same, dec_live. cbn. unfold hdr_upto. repeat split; auto; lia.
  - (* RHeader *)
    destruct L as (<- & H & P). eapply same_bind; [apply hdr_loop_same; exact H|].
    intros [[[h1 p1] n1] b1] [[[h2 p2] n2] b2] (A & B & C & D & F). cbn [fst snd] in *. subst p2 n2 b2. cbn.
    unfold dec_same, dec_live. destruct b1; cbn; repeat split; auto; try apply A.
    apply hdr_upto_all with (p := p1); auto.
  - (* HeaderDone *)
    destruct L as (<- & P). unfold dec_tkl. cbn [k_h]. cbn. unfold dec_same, dec_live, dec_tkl. cbn.
    destruct (0 <? hdr_tkl h) eqn:Z; cbn; repeat split; auto.
    apply N.ltb_ge in Z. replace (hdr_tkl h) with 0 by lia. reflexivity.
  - (* TokenStart *)
    destruct L as (<- & P). cbn. unfold dec_same, dec_live. cbn. repeat split; auto. lia.
  - (* RToken *)
    destruct L as (<- & <- & B & F & P). unfold dec_tkl. cbn [k_h].
    eapply same_bind; [apply tok_loop_same; assumption|].
    intros [[[t1 p1] n1] b1] [[[t2 p2] n2] b2] (A1 & A2 & A3 & A4 & A5 & A6 & A7 & A8). cbn [fst snd] in *. subst p2 n2 b2. cbn.
    assert (Q : pay_same (if Nat.eqb n1 0 then o else tok_alias t1 p1) (if Nat.eqb n1 0 then p else tok_alias t2 p1)).
    { destruct (Nat.eqb n1 0); [exact P|]. unfold pay_same. rewrite !alias_done by assumption. reflexivity. }
    unfold dec_same, dec_live, dec_tkl. destruct b1; cbn; repeat split; auto.
    apply firstn_le with (b := N.to_nat p1); auto. specialize (A8 eq_refl). lia.
  - (* TokenDone *)
    destruct L as (<- & _ & P). cbn. unfold dec_same, dec_live. cbn. auto.
  - (* OptionsStart *)
    destruct (Nat.eqb _ 0 && last); [cbn; unfold dec_same, dec_live; cbn; auto|].
    eapply same_bind; [apply chunk_last_same; split; [reflexivity|exact I]|].
    intros [[o1 h1] n1] [[o2 h2] n2] (A & B & C). cbn [fst snd] in *. subst h2 n2. cbn.
    assert (A' := A). destruct A' as (A' & _). unfold dec_same, dec_live. cbn. rewrite <- A'.
    destruct (ostate_eqb (d_st o1) OPayload); cbn; auto 10 using od_same_pay.
  - (* ROptions *)
    destruct L as (L & <-). eapply same_bind; [apply chunk_last_same; exact L|].
    intros [[o1 h1] n1] [[o2 h2] n2] (A & B & C). cbn [fst snd] in *. subst h2 n2. cbn [same_res fst snd].
    assert (A' := A). destruct A' as (A' & _). unfold dec_same, dec_live. cbn [k_st k_tok k_od k_hold]. rewrite <- A'.
    destruct (ostate_eqb (d_st o1) OPayload); [cbn; auto 10 using od_same_pay|].
    destruct ((_ && last) && _); cbn; auto 10 using od_same_pay.
  - (* OptionsDone *)
    unfold pay_same in L. rewrite L. destruct (ostate_eqb (d_st p) OPayload) eqn:K; [cbn; unfold dec_same, dec_live, pay_same; cbn; rewrite K; auto|].
    destruct (Nat.eqb pos (length chunk) && last); [cbn; unfold dec_same, dec_live, pay_same; cbn; rewrite K; auto|].
    destruct (remainder chunk pos) as [|b r]; [exact I|]. destruct (b =? 255); cbn; unfold dec_same, dec_live, pay_same; cbn; rewrite K; auto.
  - (* RPayload *) cbn. unfold dec_same, dec_live. destruct last; cbn; auto.
  - cbn. unfold dec_same, dec_live. cbn. auto.
  - cbn. unfold dec_same, dec_live. cbn. auto.
Qed.

Lemma dec_events_same : forall chunk last d e pos, dec_same d e -> dec_events chunk last d pos = dec_events chunk last e pos.
Proof.
  intros chunk last d e pos (E & _ & _ & L). unfold dec_events, dec_live in *. rewrite <- E. destruct (k_st d); try reflexivity.
  - destruct L as (-> & _). reflexivity.
  - destruct L as (L1 & L2 & _). unfold dec_tkl in *. rewrite <- L1, L2. reflexivity.
  - destruct L as ((S1 & L1) & ->). rewrite <- S1. unfold od_live in L1. destruct (d_st (k_od d)) eqn:K; try reflexivity.
    unfold dec_option. rewrite L1. reflexivity.
Qed.

Lemma dec_notify_same : forall chunk last d e pos, dec_same d e ->
  same_res (fun x y => fst (fst (fst x)) = fst (fst (fst y)) /\ dec_same (snd (fst (fst x))) (snd (fst (fst y))) /\
                       snd (fst x) = snd (fst y) /\ snd x = snd y)
           (dec_notify chunk last d pos) (dec_notify chunk last e pos).
Proof.
  intros chunk last d e pos H. unfold dec_notify, dec_iterate.
  eapply same_bind with (R := fun x y => dec_same (fst (fst x)) (fst (fst y)) /\ snd (fst x) = snd (fst y) /\ snd x = snd y).
  - eapply same_bind; [apply dec_step_same; exact H|]. intros [d1 p1] [e1 q1] (A & B). cbn [fst snd] in *. subst q1.
    destruct (p1 <=? length chunk)%nat; cbn; auto.
  - intros [[d1 p1] f1] [[e1 q1] f2] (A & B & C). cbn [fst snd] in *. subst q1 f2.
    rewrite (dec_events_same _ _ _ _ _ A). destruct (dec_events chunk last e1 p1); cbn; auto.
Qed.

(** ** Calls, and the loop over one datagram *)

Lemma seen_same : forall calls d e, dec_same d e -> seen calls d = seen calls e.
Proof.
  induction calls as [|[[chunk last] pos] r IH]; intros d e H; [reflexivity|]. cbn [seen].
  assert (K := dec_notify_same chunk last d e pos H).
  destruct (dec_notify chunk last d pos) as [[[[es d1] p1] f1]| |], (dec_notify chunk last e pos) as [[[[es2 e1] p2] f2]| |];
    cbn in K; try contradiction; try reflexivity.
  destruct K as (-> & K & -> & ->). rewrite (IH d1 e1 K). reflexivity.
Qed.

(** the states before anything of the option decoder is read, for a datagram longer than a header *)
Definition pend (pos : nat) (d e : dec) : Prop :=
  k_st d = k_st e /\ length (k_tok d) = 8%nat /\ length (k_tok e) = 8%nat /\
  match k_st d with
  | Uninitialized | RDone => pos = 0%nat
  | RHeader => pos = 0%nat /\ k_hpos d = 0 /\ k_hpos e = 0
  | HeaderDone | TokenStart => pos = 4%nat /\ k_h d = k_h e
  | RToken => pos = 4%nat /\ k_h d = k_h e /\ k_tpos d = 0 /\ k_tpos e = 0
  | TokenDone => pos = 4%nat /\ k_h d = k_h e /\ dec_tkl d = 0
  | OptionsStart => pos = 4%nat
  | _ => False
  end.

Lemma tok_loop_count : forall tkl bs t p n x, tok_loop tkl bs t p n = Ok x -> (n <= snd (fst x))%nat.
Proof.
  intros tkl bs. induction bs as [|b r IH]; intros t p n x H; cbn [tok_loop] in H.
  - injection H as <-. cbn. lia.
  - destruct (tok_put p b t) as [t1| |]; cbn [bind] in H; try discriminate.
    destruct (_ <=? _); [injection H as <-; cbn; lia|]. apply IH in H. lia.
Qed.

Lemma pend_step : forall chunk d e pos, (4 < length chunk)%nat -> pend pos d e ->
  same_res (fun x y => snd x = snd y /\ (dec_same (fst x) (fst y) \/ pend (snd x) (fst x) (fst y)))
    (dec_step chunk true d pos) (dec_step chunk true e pos).
Proof.
  intros chunk [s h hp t tp o hd] [s1 g gp u up p hd1] pos Hc (E & Lt & Lu & L). cbn [k_st k_tok] in *. subst s1.
  cbn [k_h k_hpos k_tpos] in L.
  destruct s; try contradiction; unfold dec_step; cbn [k_st k_h k_hpos k_tok k_tpos k_od k_hold].
  - subst pos. cbn. split; [reflexivity|]. right. unfold pend. cbn. auto 10.
  - destruct L as (-> & -> & ->). unfold remainder. cbn [skipn].
    destruct chunk as [|a [|b [|c [|f r]]]]; cbn [length] in Hc; try lia.
    assert (R : forall x, hdr_loop (a :: b :: c :: f :: r) x 0 0 = Ok (Hdr a b c f, 4, 4%nat, true)) by reflexivity.
    rewrite !R. cbn. split; [reflexivity|]. right. unfold pend. cbn. auto 10.
  - destruct L as (-> & ->). unfold dec_tkl. cbn [k_h]. cbn. split; [reflexivity|]. right. unfold pend, dec_tkl. cbn.
    destruct (0 <? hdr_tkl g) eqn:Z; cbn; auto 10. apply N.ltb_ge in Z. repeat split; auto. lia.
  - destruct L as (-> & ->). cbn. split; [reflexivity|]. right. unfold pend. cbn. auto 10.
  - destruct L as (-> & -> & -> & ->). unfold dec_tkl. cbn [k_h].
    assert (NE : exists b r, remainder chunk 4 = b :: r).
    { destruct chunk as [|a [|b [|c [|f [|q r]]]]]; cbn [length] in Hc; try lia. exists q, r. reflexivity. }
    destruct NE as (b & r & ->). cbn [tok_loop].
    assert (F0 : firstn (N.to_nat 0) t = firstn (N.to_nat 0) u) by reflexivity.
    assert (K := tok_put_same 0 b t u Lt Lu F0).
    destruct (tok_put 0 b t) as [t1| |], (tok_put 0 b u) as [u1| |]; cbn [same_res] in K; try contradiction; cbn [bind]; try exact I.
    destruct K as (K1 & K2 & K3 & _). change ((0 + 1) mod 256) with 1. change (0 + 1) with 1 in K3.
    assert (AL : forall x y q, q <= 8 -> pay_same (tok_alias x q) (tok_alias y q)).
    { intros x y q Q. unfold pay_same. rewrite !alias_done by assumption. reflexivity. }
    destruct (hdr_tkl g <=? 1) eqn:T.
    + cbn [bind same_res fst snd]. split; [reflexivity|]. left. apply N.leb_le in T. cbn [Nat.eqb].
      unfold dec_same, dec_live, dec_tkl. cbn [k_st k_h k_tok k_tpos k_od]. repeat split; auto.
      * apply firstn_le with (b := N.to_nat 1); auto. lia.
      * apply AL. lia.
    + assert (K := tok_loop_same (hdr_tkl g) r t1 u1 1 1 K1 K2 ltac:(lia) K3).
      assert (C := tok_loop_count (hdr_tkl g) r t1 1 1).
      destruct (tok_loop (hdr_tkl g) r t1 1 1) as [[[[t2 p2] n2] b2]| |], (tok_loop (hdr_tkl g) r u1 1 1) as [[[[t3 p3] n3] b3]| |];
        cbn [same_res] in K; try contradiction; cbn [bind]; try exact I.
      cbn [fst snd] in K. destruct K as (A1 & A2 & A3 & A4 & A5 & A6 & A7 & A8). subst p3 n3 b3.
      specialize (C _ eq_refl). cbn [fst snd] in C. replace (Nat.eqb n2 0) with false by (symmetry; apply Nat.eqb_neq; lia).
      cbn [same_res fst snd]. split; [reflexivity|]. left. unfold dec_same, dec_live, dec_tkl. cbn [k_st k_h k_tok k_tpos k_od].
      destruct b2; repeat split; auto.
      apply firstn_le with (b := N.to_nat p2); auto. specialize (A8 eq_refl). lia.
  - destruct L as (-> & _). cbn. split; [reflexivity|]. right. unfold pend. cbn. auto 10.
  - subst pos. assert (NE : exists b r, remainder chunk 4 = b :: r).
    { destruct chunk as [|a [|b [|c [|f [|q r]]]]]; cbn [length] in Hc; try lia. exists q, r. reflexivity. }
    destruct NE as (b & r & ->). cbn [length Nat.eqb andb].
    eapply same_bind; [apply chunk_last_same; split; [reflexivity|exact I]|].
    intros [[o1 h1] n1] [[o2 h2] n2] (A & B & C). cbn [fst snd] in *. subst h2 n2. cbn [same_res fst snd].
    assert (A' := A). destruct A' as (A' & _). split; [reflexivity|]. left. unfold dec_same, dec_live. cbn [k_st k_tok k_od k_hold]. rewrite <- A'.
    destruct (ostate_eqb (d_st o1) OPayload); cbn; auto 10 using od_same_pay.
  - subst pos. cbn. split; [reflexivity|]. right. unfold pend. cbn. auto 10.
Qed.

Lemma pend_events : forall chunk d e pos, pend pos d e -> dec_events chunk true d pos = dec_events chunk true e pos.
Proof.
  intros chunk d e pos (E & _ & _ & L). unfold dec_events. rewrite <- E. destruct (k_st d); try reflexivity; try contradiction.
  - destruct L as (_ & ->). reflexivity.
  - destruct L as (_ & L1 & L2). unfold dec_tkl in *. rewrite <- L1, L2. reflexivity.
Qed.

Lemma run_same : forall fuel chunk d e pos, dec_same d e \/ (4 < length chunk)%nat /\ pend pos d e ->
  outcome (dec_run fuel chunk d pos) = outcome (dec_run fuel chunk e pos).
Proof.
  induction fuel; intros chunk d e pos H; [reflexivity|]. cbn [dec_run].
  assert (K : same_res (fun x y => fst (fst (fst x)) = fst (fst (fst y)) /\
     (dec_same (snd (fst (fst x))) (snd (fst (fst y))) \/ (4 < length chunk)%nat /\ pend (snd (fst x)) (snd (fst (fst x))) (snd (fst (fst y)))) /\
     snd (fst x) = snd (fst y)) (dec_notify chunk true d pos) (dec_notify chunk true e pos)).
  { destruct H as [H|(Hc & H)].
    - assert (K := dec_notify_same chunk true d e pos H).
      destruct (dec_notify chunk true d pos) as [[[[es d1] p1] f1]| |], (dec_notify chunk true e pos) as [[[[es2 e1] p2] f2]| |];
        cbn in *; auto. destruct K as (A & B & C & D). auto.
    - unfold dec_notify, dec_iterate. assert (K := pend_step chunk d e pos Hc H).
      destruct (dec_step chunk true d pos) as [[d1 p1]| |], (dec_step chunk true e pos) as [[e1 p2]| |]; cbn [same_res fst snd] in K; try contradiction; cbn [bind]; try exact I.
      destruct K as (<- & K). destruct (p1 <=? length chunk)%nat; cbn [bind]; [|exact I].
      assert (EV : dec_events chunk true d1 p1 = dec_events chunk true e1 p1) by (destruct K; auto using dec_events_same, pend_events).
      rewrite EV. destruct (dec_events chunk true e1 p1); cbn; auto. destruct K; auto. }
  destruct (dec_notify chunk true d pos) as [[[[es d1] p1] f1]| |], (dec_notify chunk true e pos) as [[[[es2 e1] p2] f2]| |];
    cbn [same_res fst snd] in K; try contradiction; cbn [bind]; try reflexivity.
  destruct K as (<- & K & <-).
  assert (ST : k_st d1 = k_st e1) by (destruct K as [K|(_ & K)]; apply K).
  rewrite ST. destruct (rstate_eqb (k_st e1) RDone); [reflexivity|].
  specialize (IHfuel chunk d1 e1 p1 K).
  destruct (dec_run fuel chunk d1 p1) as [[[fs d2] p2]| |], (dec_run fuel chunk e1 p1) as [[[fs2 e2] p3]| |]; cbn in *; congruence.
Qed.

(** the turn that leaves the completed state *)
Lemma run_extra : forall fuel chunk d, idle d -> exists d0, k_st d0 = Uninitialized /\ k_tok d0 = k_tok d /\ k_od d0 = k_od d /\
  dec_run (extra d + fuel) chunk d 0 = dec_run fuel chunk d0 0.
Proof.
  intros fuel chunk d ([U|U] & _); unfold extra; rewrite U; cbn [rstate_eqb Nat.add].
  - exists d. auto.
  - exists (k_goto Uninitialized d). cbn [k_st k_goto k_tok k_od]. repeat split.
    cbn [dec_run]. unfold dec_notify, dec_iterate, dec_step. rewrite U. cbn [bind Nat.leb dec_events k_st k_goto rstate_eqb].
    destruct (dec_run fuel chunk _ 0) as [[[fs d2] p2]| |]; reflexivity.
Qed.

Lemma datagram_same : forall fuel m d e, idle d -> idle e -> length m <> 4%nat \/ payload_left d = payload_left e ->
  outcome (dec_run (extra d + fuel) m d 0) = outcome (dec_run (extra e + fuel) m e 0).
Proof.
  intros fuel m d e Hd He H.
  destruct (run_extra fuel m d Hd) as (d0 & A1 & A2 & A3 & ->). destruct (run_extra fuel m e He) as (e0 & B1 & B2 & B3 & ->).
  assert (Ld : length (k_tok d0) = 8%nat) by (rewrite A2; apply Hd). assert (Le : length (k_tok e0) = 8%nat) by (rewrite B2; apply He).
  assert (S1 : payload_left d = payload_left e -> dec_same d0 e0).
  { intros K. unfold dec_same, dec_live, pay_same. rewrite A1, B1, A3, B3. auto. }
  destruct H as [H|H]; [|apply run_same; left; auto].
  destruct (Nat.le_gt_cases (length m) 4) as [C|C].
  - assert (I0 : forall x y, idle y -> k_st x = Uninitialized -> k_tok x = k_tok y -> k_od x = k_od y -> idle x).
    { intros x y (_ & Y) X1 X2 X3. split; [left; exact X1|]. unfold dec_mem in *. rewrite X2, X3. exact Y. }
    rewrite !short_header; eauto; lia.
  - apply run_same. right. split; [exact C|]. unfold pend. rewrite A1, B1. auto.
Qed.

Lemma run_S : forall k chunk d pos, dec_run (S k) chunk d pos =
  bind (dec_notify chunk true d pos) (fun x =>
    let '(es, d1, pos1, _) := x in
    if rstate_eqb (k_st d1) RDone then Ok (es, d1, pos1)
    else bind (dec_run k chunk d1 pos1) (fun y => let '(fs, d2, pos2) := y in Ok (es ++ fs, d2, pos2))).
Proof. reflexivity. Qed.

Lemma run_more : forall k chunk d pos, dec_run k chunk d pos <> NoFuel -> dec_run (S k) chunk d pos = dec_run k chunk d pos.
Proof.
  induction k; intros chunk d pos H; [cbn in H; congruence|]. rewrite run_S in H. rewrite (run_S (S k)), (run_S k).
  destruct (dec_notify chunk true d pos) as [[[[es d1] p1] f1]| |]; cbn [bind] in *; try reflexivity.
  destruct (rstate_eqb (k_st d1) RDone); [reflexivity|]. rewrite IHk; [reflexivity|]. intros E. rewrite E in H. cbn in H. congruence.
Qed.

(** ** The decoder of a stream *)

Lemma sb_hdr_loop_same : forall sg k s h g p, hdr_upto p h g ->
  same_res (fun x y => hdr_upto (snd (fst (fst x))) (fst (fst (fst x))) (fst (fst (fst y))) /\
                       snd (fst (fst x)) = snd (fst (fst y)) /\ snd (fst x) = snd (fst y) /\ snd x = snd y /\
                       (snd x = true -> 4 <= snd (fst (fst x))))
           (sb_hdr_loop k sg s h p) (sb_hdr_loop k sg s g p).
Proof.
  intros sg. induction k; intros s h g p H; [exact I|]. cbn [sb_hdr_loop]. destruct (sb_bump s) as [x s1].
  destruct (sb_char sg x) as [b|].
  2:{ cbn. repeat split; auto; try apply H. discriminate. }
  eapply same_bind; [apply hdr_put_same; exact H|]. intros h1 g1 (K1 & K2). rewrite N.mod_small by lia. destruct (4 <=? p + 1) eqn:E.
  - cbn. apply N.leb_le in E. repeat split; auto; apply K1.
  - apply IHk. exact K1.
Qed.

Lemma sb_tok_loop_same : forall sg tkl k s t u p, length t = 8%nat -> length u = 8%nat -> p <= 8 ->
  firstn (N.to_nat p) t = firstn (N.to_nat p) u ->
  same_res (fun x y => length (fst (fst (fst x))) = 8%nat /\ length (fst (fst (fst y))) = 8%nat /\
                       snd (fst (fst x)) <= 8 /\ snd (fst (fst x)) = snd (fst (fst y)) /\
                       firstn (N.to_nat (snd (fst (fst x)))) (fst (fst (fst x))) = firstn (N.to_nat (snd (fst (fst x)))) (fst (fst (fst y))) /\
                       snd (fst x) = snd (fst y) /\ snd x = snd y /\
                       (snd x = true -> tkl <= snd (fst (fst x))))
           (sb_tok_loop k sg tkl s t p) (sb_tok_loop k sg tkl s u p).
Proof.
  intros sg tkl. induction k; intros s t u p Lt Lu P E; [exact I|]. cbn [sb_tok_loop]. destruct (sb_bump s) as [x s1].
  destruct (sb_char sg x) as [b|].
  2:{ cbn. repeat split; auto. discriminate. }
  eapply same_bind; [apply tok_put_same; assumption|]. intros t1 u1 (A & B & C & D). rewrite N.mod_small by lia.
  destruct (tkl <=? p + 1) eqn:K.
  - cbn. apply N.leb_le in K. repeat split; auto. lia.
  - apply IHk; auto. lia.
Qed.

Lemma sb_options_same : forall neg o p h s, od_same o p ->
  same_res (fun x y => od_same (fst (fst x)) (fst (fst y)) /\ snd (fst x) = snd (fst y) /\ snd x = snd y)
    (sb_options neg o h s) (sb_options neg p h s).
Proof.
  intros neg o p h s H. unfold sb_options. destruct (s_cur s) as [|b r].
  - destruct (s_cur (sb_fill s)); [|cbn; auto]. destruct neg; [exact I|].
    eapply same_bind; [apply od_step_same; exact H|]. intros [o1 c1] [p1 c2] (S1 & E1). cbn [fst snd] in *. cbn. auto.
  - eapply same_bind; [apply loop_same; exact H|]. intros [[o1 h1] n1] [[o2 h2] n2] (A & B & C). cbn [fst snd] in *. subst h2 n2. cbn. auto.
Qed.

Lemma sbd_step_same : forall sg neg d e s, dec_same d e ->
  same_res (fun x y => dec_same (fst (fst x)) (fst (fst y)) /\ snd (fst x) = snd (fst y) /\ snd x = snd y) (sbd_step sg neg d s) (sbd_step sg neg e s).
Proof.
  intros sg neg [q h hp t tp o hd] [q1 g gp u up p hd1] s (E & Lt & Lu & L). cbn [k_st k_tok] in *. subst q1.
  unfold dec_live in L. cbn [k_st k_h k_hpos k_tok k_tpos k_od k_hold] in L. unfold sbd_step. destruct (sb_eof s) as [eof s0].
  destruct q; cbn [k_st k_h k_hpos k_tok k_tpos k_od k_hold].
  - cbn. unfold dec_same, dec_live. cbn. unfold hdr_upto. repeat split; auto; lia.
  - destruct L as (<- & H & P). eapply same_bind; [apply sb_hdr_loop_same; exact H|].
    intros [[[h1 p1] n1] b1] [[[h2 p2] n2] b2] (A & B & C & D & F). cbn [fst snd] in *. subst p2 n2 b2. cbn.
    unfold dec_same, dec_live. destruct b1; cbn; repeat split; auto; try apply A.
    apply hdr_upto_all with (p := p1); auto.
  - destruct L as (<- & P). unfold dec_tkl. cbn [k_h]. cbn. unfold dec_same, dec_live, dec_tkl. cbn.
    destruct (0 <? hdr_tkl h) eqn:Z; cbn; repeat split; auto.
    apply N.ltb_ge in Z. replace (hdr_tkl h) with 0 by lia. reflexivity.
  - destruct L as (<- & P). cbn. unfold dec_same, dec_live. cbn. repeat split; auto. lia.
  - destruct L as (<- & <- & B & F & P). unfold dec_tkl. cbn [k_h].
    eapply same_bind; [apply sb_tok_loop_same; assumption|].
    intros [[[t1 p1] n1] b1] [[[t2 p2] n2] b2] (A1 & A2 & A3 & A4 & A5 & A6 & A7 & A8). cbn [fst snd] in *. subst p2 n2 b2. cbn.
    assert (Q : pay_same (if p1 =? tp then o else tok_alias t1 p1) (if p1 =? tp then p else tok_alias t2 p1)).
    { destruct (p1 =? tp); [exact P|]. unfold pay_same. rewrite !alias_done by assumption. reflexivity. }
    unfold dec_same, dec_live, dec_tkl. destruct b1; cbn; repeat split; auto.
    apply firstn_le with (b := N.to_nat p1); auto. specialize (A8 eq_refl). lia.
  - destruct L as (<- & _ & P). cbn. unfold dec_same, dec_live. cbn. auto.
  - destruct eof; [cbn; unfold dec_same, dec_live; cbn; auto|].
    eapply same_bind; [apply sb_options_same; split; [reflexivity|exact I]|].
    intros [[o1 h1] n1] [[o2 h2] n2] (A & B & C). cbn [fst snd] in *. subst h2 n2. cbn.
    assert (A' := A). destruct A' as (A' & _). unfold dec_same, dec_live. cbn. rewrite <- A'.
    destruct (ostate_eqb (d_st o1) OPayload); cbn; auto 10 using od_same_pay.
  - destruct L as (L & <-). eapply same_bind; [apply sb_options_same; exact L|].
    intros [[o1 h1] n1] [[o2 h2] n2] (A & B & C). cbn [fst snd] in *. subst h2 n2. destruct (sb_eof n1) as [eof1 s2]. cbn [same_res fst snd].
    assert (A' := A). destruct A' as (A' & _). unfold dec_same, dec_live. cbn [k_st k_tok k_od k_hold]. rewrite <- A'.
    destruct (ostate_eqb (d_st o1) OPayload); [cbn; auto 10 using od_same_pay|].
    destruct (eof1 && _); cbn; auto 10 using od_same_pay.
  - unfold pay_same in L. rewrite L. destruct (ostate_eqb (d_st p) OPayload) eqn:K; [cbn; unfold dec_same, dec_live, pay_same; cbn; rewrite K; auto 10|].
    destruct eof; [cbn; unfold dec_same, dec_live, pay_same; cbn; rewrite K; auto 10|].
    assert (G : forall q z f, (q = RPayload \/ q = RDone) -> same_res (fun x y : dec * sbuf * bool => dec_same (fst (fst x)) (fst (fst y)) /\ snd (fst x) = snd (fst y) /\ snd x = snd y)
      (Ok (k_goto q (Dec OptionsDone h hp t tp o hd), z, f)) (Ok (k_goto q (Dec OptionsDone g gp u up p hd1), z, f))).
    { intros q z f [-> | ->]; cbn; unfold dec_same, dec_live, pay_same; cbn; rewrite K; auto 10. }
    destruct (s_cur s0) as [|b r]; [apply G; auto|].
    destruct (N.eq_dec b 255) as [->|NB]; [apply G; auto|].
    assert (M : forall (X : Type) (x y : X), match b with 255 => x | _ => y end = y).
    { intros X x y. destruct b as [|[[[[[[[[]|[]|]|[]|]|[]|]|[]|]|[]|]|[]|]|[]|]]; try reflexivity. congruence. }
    rewrite !M. apply G. auto.
  - cbn. unfold dec_same, dec_live. destruct eof; cbn; auto.
  - cbn. unfold dec_same, dec_live. cbn. auto.
  - cbn. unfold dec_same, dec_live. cbn. auto.
Qed.

Lemma sbd_events_same : forall neg eat d e s, dec_same d e -> sbd_events neg eat d s = sbd_events neg eat e s.
Proof.
  intros neg eat d e s (E & _ & _ & L). unfold sbd_events, dec_live in *. rewrite <- E. destruct (k_st d); try reflexivity.
  - destruct L as (-> & _). reflexivity.
  - destruct L as (L1 & L2 & _). unfold dec_tkl in *. rewrite <- L1, L2. reflexivity.
  - destruct L as ((S1 & L1) & ->). rewrite <- S1. unfold od_live in L1. destruct (d_st (k_od d)) eqn:K; try reflexivity.
    unfold sbd_option. rewrite L1. reflexivity.
Qed.

Lemma sbd_notify_same : forall sg neg eat d e s, dec_same d e ->
  same_res (fun x y => fst (fst (fst x)) = fst (fst (fst y)) /\ dec_same (snd (fst (fst x))) (snd (fst (fst y))) /\
                       snd (fst x) = snd (fst y) /\ snd x = snd y)
           (sbd_notify sg neg eat d s) (sbd_notify sg neg eat e s).
Proof.
  intros sg neg eat d e s H. unfold sbd_notify. eapply same_bind; [apply sbd_step_same; exact H|].
  intros [[d1 s1] f1] [[e1 s2] f2] (A & B & C). cbn [fst snd] in *. subst s2 f2.
  rewrite (sbd_events_same _ _ _ _ _ A). destruct (sbd_events neg eat e1 s1) as [[es s2]| |]; cbn; auto.
Qed.

Lemma stream_seen_same : forall sg neg eat calls d e s, dec_same d e -> stream_seen sg neg eat calls d s = stream_seen sg neg eat calls e s.
Proof.
  intros sg neg eat. induction calls as [|f r IH]; intros d e s H; [reflexivity|]. cbn [stream_seen].
  assert (K := sbd_notify_same sg neg eat d e (f s) H).
  destruct (sbd_notify sg neg eat d (f s)) as [[[[es d1] s1] f1]| |], (sbd_notify sg neg eat e (f s)) as [[[[es2 e1] s2] f2]| |];
    cbn in K; try contradiction; try reflexivity.
  destruct K as (-> & K & -> & ->). rewrite (IH d1 e1 s2 K). reflexivity.
Qed.

Lemma stream_run_same : forall fuel sg neg eat d e s, dec_same d e ->
  stream_outcome (sbd_run fuel sg neg eat d s) = stream_outcome (sbd_run fuel sg neg eat e s).
Proof.
  induction fuel; intros sg neg eat d e s H; [reflexivity|]. cbn [sbd_run].
  assert (K := sbd_notify_same sg neg eat d e s H).
  destruct (sbd_notify sg neg eat d s) as [[[[es d1] s1] f1]| |], (sbd_notify sg neg eat e s) as [[[[es2 e1] s2] f2]| |];
    cbn [same_res fst snd] in K; try contradiction; cbn [bind]; try reflexivity.
  destruct K as (<- & K & <- & _). assert (ST : k_st d1 = k_st e1) by apply K.
  rewrite ST. destruct (rstate_eqb (k_st e1) RDone); [reflexivity|].
  specialize (IHfuel sg neg eat d1 e1 s1 K).
  destruct (sbd_run fuel sg neg eat d1 s1) as [[[fs d2] p2]| |], (sbd_run fuel sg neg eat e1 s1) as [[[fs2 e2] p3]| |]; cbn in *; congruence.
Qed.
