(** The option iterator on any bytes, place by place. *)
From Coq Require Import ZArith.
From Verif Require Import Base HeaderModel HeaderSpec HeaderProofs OptEncModel OptSpec StreambufModel StreambufProofs NetbufModel ContextModel UriModel AppModel
  ObserveModel RespModel RespSpec RespProofs OptDecModel OptDecSpec OptDecProofs DecoderModel DecoderSpec DecoderProofs NetDecModel NetDecSpec NetDecProofs
  SubjectProofs CutProofs HeadCutSpec HeadCutProofs NetAnySpec NetAnyProofs NetCutProofs VisitSpec.
Local Open Scope N_scope.

(** * Fate *)

Lemma iter_kind : forall c x y, bytes_ok c -> alive c x -> nd_iter c true x = Ok y ->
  ended c y \/ (alive c y /\ (mu c y < mu c x)%nat).
Proof.
  intros c x y Hok A E. destruct (alive_step c x Hok A) as [F|(x1 & E1 & K)]; [congruence|]. rewrite E in E1. injection E1 as <-. exact K.
Qed.
Lemma iter_alive : forall c x y, bytes_ok c -> alive c x -> nd_iter c true x = Ok y -> nd_state y = ROptions -> alive c y.
Proof. intros c x y Hok A E S. destruct (iter_kind c x y Hok A E) as [(S1 & _)|(Ay & _)]; [congruence|exact Ay]. Qed.
Lemma iter_ended : forall c x y, bytes_ok c -> alive c x -> nd_iter c true x = Ok y -> nd_state y = OptionsDone -> ended c y.
Proof. intros c x y Hok A E S. destruct (iter_kind c x y Hok A E) as [D|((S1 & _) & _)]; [exact D|congruence]. Qed.

Lemma doomed_back : forall c x y, bytes_ok c -> alive c x -> nd_iter c true x = Ok y -> alive c y -> doomed c y -> doomed c x.
Proof.
  intros c x y Hok A E Ay (n & z & L & H & Az & F). destruct (iter_kind c x y Hok A E) as [(S & _)|(_ & Lm)]; [destruct Ay; congruence|].
  exists (S n), z. split; [lia|]. split; [econstructor; eauto|auto].
Qed.
Lemma doomed_now : forall c x, alive c x -> nd_iter c true x = Fault -> doomed c x.
Proof. intros c x A F. exists 0%nat, x. split; [lia|]. split; [constructor|auto]. Qed.

Lemma doomed_unsafe : forall c x, doomed c x -> safe c x -> False.
Proof.
  intros c x D S. destruct (run_safe c x (mu c x + 6) S ltac:(lia)) as (r & R). rewrite (run_doomed c x (mu c x + 6) D ltac:(lia)) in R. discriminate.
Qed.

(** * The trail of the decoder *)

Definition shown_at (c : list N) (x : ndec) (v : res (list N)) : Prop := bind (it_opaque c x) (fun w => Ok (fst w)) = v.

Inductive follows (c : list N) : ndec -> trail -> Prop :=
| fo_end : forall x y, nd_iter c true x = Ok y -> ended c y -> follows c x TEnd
| fo_crash : forall x, doomed c x -> follows c x TCrash
| fo_stop : forall x y n v t, nd_iter c true x = Ok y -> alive c y -> it_number y = n -> shown_at c y v -> follows c y t -> follows c x (TStop n v t).

Lemma next_follows : forall c reads x t, bytes_ok c -> alive c x -> follows c x t ->
  (doomed c x /\ visits reads 2 t = Fault) \/
  exists y, it_next c true x = Ok y /\
    ((it_valid y = false /\ visits reads 2 t = Ok []) \/
     (alive c y /\ (mu c y < mu c x)%nat /\ exists n v t', visits reads 2 t = visits reads 0 (TStop n v t') /\ it_number y = n /\ shown_at c y v /\ follows c y t')).
Proof.
  intros c reads x t Hok A H. unfold it_next, nd_next, nd_from. pose proof A as (S & _). rewrite S. cbn [rstate_eqb].
  destruct H as [x x1 E1 D1|x D|x x1 n1 v1 t1 E1 A1 N1 V1 H1].
  - right. rewrite E1. cbn [bind]. destruct (after_end c x1 D1) as (y & -> & V & N). cbn [bind].
    replace (rstate_eqb (nd_state y) OptionsDone) with false by (destruct (nd_state y); try reflexivity; congruence). cbn [bind].
    unfold it_valid in V. rewrite V. cbn [fst snd]. exists y. split; [reflexivity|]. left. split; [exact V|reflexivity].
  - left. auto.
  - assert (L1 : (mu c x1 < mu c x)%nat) by (destruct (iter_kind c x x1 Hok A E1) as [(Q & _)|(_ & Q)]; [destruct A1; congruence|exact Q]).
    cbn [visits]. rewrite E1. cbn [bind]. destruct H1 as [x1 x2 E2 D2|x1 D|x1 x2 n2 v2 t2 E2 A2 N2 V2 H2].
    + right. rewrite E2. cbn [bind]. destruct (after_end c x2 D2) as (y & Ey & V & N). destruct D2 as (S2 & D2). rewrite S2. cbn [rstate_eqb]. rewrite Ey. cbn [bind].
      unfold it_valid in V. rewrite V. cbn [fst snd]. exists y. split; [reflexivity|]. left. split; [exact V|reflexivity].
    + left. split; [eapply doomed_back; eauto|reflexivity].
    + assert (L2 : (mu c x2 < mu c x1)%nat) by (destruct (iter_kind c x1 x2 Hok A1 E2) as [(Q & _)|(_ & Q)]; [destruct A2; congruence|exact Q]).
      cbn [visits]. rewrite E2. cbn [bind]. pose proof A2 as (S2 & _). rewrite S2. cbn [rstate_eqb bind]. rewrite S2. cbn [rstate_eqb fst snd].
      destruct H2 as [x2 x3 E3 D3|x2 D|x2 x3 n3 v3 t3 E3 A3 N3 V3 H3].
      * right. exists x3. split; [exact E3|]. left. split; [now apply (ended_valid c)|reflexivity].
      * left. split; [eapply doomed_back; [exact Hok|exact A|exact E1|exact A1|]; eapply doomed_back; eauto|reflexivity].
      * right. exists x3. split; [exact E3|]. right. split; [exact A3|].
        assert (L3 : (mu c x3 < mu c x2)%nat) by (destruct (iter_kind c x2 x3 Hok A2 E3) as [(Q & _)|(_ & Q)]; [destruct A3; congruence|exact Q]).
        split; [lia|]. exists n3, v3, t3. auto.
Qed.

(** the loop of a server from a place on *)
Lemma loop_follows : forall c reads, bytes_ok c -> forall fuel x t v, alive c x -> (mu c x + 1 < fuel)%nat -> follows c x t -> shown_at c x v ->
  rs_loop reads fuel c x = visits reads 0 (TStop (it_number x) v t).
Proof.
  intros c reads Hok. induction fuel as [|k IH]; intros x t v A L H V; [lia|].
  destruct (next_follows c reads x t Hok A H) as [(D & Ev)|(y & En & K)].
  - assert (R : rs_loop reads (S k) c x = Fault) by (destruct (loop_any c reads Hok (S k) x A L) as [E|(l & _ & Sf & _)]; [exact E|destruct (doomed_unsafe c x D Sf)]).
    rewrite R. change (visits reads 0 (TStop (it_number x) v t)) with (bind (if reads (it_number x) then v else Ok []) (fun w => bind (visits reads 2 t) (fun l => Ok ((it_number x, w) :: l)))). rewrite Ev.
    destruct (reads (it_number x)); [|reflexivity]. unfold shown_at in V. rewrite <- V. destruct (opaque_any c x) as [-> |(w & f & -> & _)]; reflexivity.
  - cbn [rs_loop]. rewrite (alive_valid c x A). change (visits reads 0 (TStop (it_number x) v t)) with (bind (if reads (it_number x) then v else Ok []) (fun w => bind (visits reads 2 t) (fun l => Ok ((it_number x, w) :: l)))).
    unfold shown_at in V. rewrite V. destruct (if reads (it_number x) then v else Ok []) as [w| |]; cbn [bind]; try reflexivity. rewrite En. cbn [bind].
    destruct K as [(Vy & ->)|(Ay & Ly & n & u & t' & -> & <- & Vy & Hy)].
    + destruct k as [|k]; [lia|]. cbn [rs_loop]. rewrite Vy. reflexivity.
    + rewrite (IH y t' u Ay ltac:(lia) Hy Vy). reflexivity.
Qed.

(** the constructor and the loop *)
Lemma options_follow : forall c reads fuel x t, bytes_ok c -> nd_state x = OptionsStart -> dec_mem (n_dec x) -> (n_pos x < length c)%nat ->
  let f := ND (opt_fresh (n_dec x)) (n_pos x) in (mu c f + 1 < fuel)%nat -> follows c f t -> rs_options reads fuel c x = visits reads 1 t.
Proof.
  intros c reads fuel x t Hok S M L f Hf H. destruct (new_any c x Hok S M) as (_ & N2). destruct (N2 L) as (A & K). fold f in A, K. clear N2.
  assert (E : nd_iter c true x = nd_iter c true f) by (unfold nd_iter; rewrite (iterate_start c (n_dec x) (n_pos x) S L); reflexivity).
  assert (DF : doomed c f -> rs_options reads fuel c x = Fault).
  { intro D. unfold rs_options. destruct K as [(-> & _)|(y & -> & [(_ & G)|(Ay & Ly & _ & G)])]; cbn [bind]; [reflexivity|destruct (doomed_unsafe c f D G)|].
    destruct (loop_any c reads Hok fuel y Ay ltac:(lia)) as [Q|(l & _ & Sf & _)]; [exact Q|destruct (doomed_unsafe c f D (G Sf))]. }
  clear K. set (g := f) in H. assert (Eg : g = f) by reflexivity. clearbody g.
  destruct H as [g x1 E1 D1|g D|g x1 n1 v1 t1 E1 A1 N1 V1 H1]; subst g.
  - unfold rs_options, it_new, nd_begin, nd_from. rewrite S. cbn [rstate_eqb]. rewrite E, E1. cbn [bind]. pose proof D1 as (S1 & _). rewrite S1. cbn [rstate_eqb].
    destruct (after_end c x1 D1) as (y & -> & V & _). cbn [bind fst snd visits]. destruct fuel as [|q]; [lia|]. cbn [rs_loop]. rewrite V. reflexivity.
  - exact (DF D).
  - assert (L1 : (mu c x1 < mu c f)%nat) by (destruct (iter_kind c f x1 Hok A E1) as [(Q & _)|(_ & Q)]; [destruct A1; congruence|exact Q]).
    cbn [visits]. destruct H1 as [x1 x2 E2 D2|x1 D|x1 x2 n2 v2 t2 E2 A2 N2 V2 H2]; [|exact (DF (doomed_back c f x1 Hok A E1 A1 D))|];
      unfold rs_options, it_new, nd_begin, nd_from; rewrite S; cbn [rstate_eqb]; rewrite E, E1; cbn [bind]; pose proof A1 as (S1 & _); rewrite S1; cbn [rstate_eqb bind fst snd]; rewrite E2; cbn [bind].
    + destruct fuel as [|q]; [lia|]. cbn [rs_loop]. rewrite (ended_valid c x2 D2). reflexivity.
    + destruct (iter_kind c x1 x2 Hok A1 E2) as [(Q & _)|(_ & L2)]; [destruct A2; congruence|]. rewrite <- N2. apply loop_follows; auto. lia.
Qed.

(** * At the end of the datagram *)

Lemma opaque_end : forall c x, n_pos x = length c -> raw_length (k_od (n_dec x)) < 15 -> shown_at c x (Ok []).
Proof.
  intros c x P R. unfold shown_at, it_opaque, dec_option, od_length.
  destruct (get_value_ok (raw_length (k_od (n_dec x))) (d_b1 (k_od (n_dec x))) (d_b2 (k_od (n_dec x))) R) as (l & ->). cbn [bind].
  unfold remainder. rewrite P, skipn_end. destruct (_ <=? _)%nat; [rewrite firstn_nil|]; reflexivity.
Qed.

Lemma length_raw : forall d l, od_length d = Ok l -> raw_length d < 15.
Proof.
  intros d l H. unfold od_length, get_value in H. destruct (N.ltb_spec (raw_length d) 13); [lia|]. destruct (N.eqb_spec (raw_length d) 13); [lia|].
  destruct (N.eqb_spec (raw_length d) 14); [lia|discriminate].
Qed.

Lemma follows_count : forall c n k x, bytes_ok c -> alive c x -> counting c n (S k) x -> follows c x (countdown k n).
Proof.
  intros c n. induction k as [|k IH]; intros x Hok A C; destruct (count_step c n _ x C) as (y & E & Cy).
  - eapply fo_end; [exact E|]. eapply iter_ended; eauto. apply Cy.
  - assert (Ay : alive c y) by (eapply iter_alive; eauto; apply Cy).
    cbn [countdown]. eapply fo_stop; [exact E|exact Ay|apply Cy| |exact (IH y Hok Ay Cy)].
    unfold shown_at. pose proof (count_opaque c n _ y Cy) as O. destruct (Nat.eqb (S k mod 16) 15); [rewrite O; reflexivity|]. destruct O as (f & ->). reflexivity.
Qed.

(** at the start of a value of which nothing is there *)
Lemma follows_value : forall c n l x, bytes_ok c -> alive c x -> d_st (k_od (n_dec x)) = ValueStart -> od_length (k_od (n_dec x)) = Ok l -> l < 65536 ->
  n_pos x = length c -> it_number x = n -> follows c x (countdown (N.to_nat l) n).
Proof.
  intros c n l x Hok A V Ll Lb P Nm. pose proof A as (Sx & _).
  assert (E : od_step 0 (k_od (n_dec x)) = Ok (od_goto (if l =? 0 then OptionValueDone else OptionValue) (od_set_vlen l (k_od (n_dec x))), false)).
  { unfold od_step. rewrite V, Ll. reflexivity. }
  assert (I := iter_end c x _ _ Sx P E). destruct (N.eqb_spec l 0) as [->|L0].
  - cbn [N.to_nat countdown]. eapply fo_end; [exact I|]. eapply iter_ended; eauto. now apply out_end.
  - set (y := ND _ _) in I.
    assert (C : counting c n (N.to_nat l) y).
    { split; [apply out_st; discriminate|]. split; [reflexivity|]. split; [unfold y; cbn [n_dec opt_out k_goto opt_dec k_od]; rewrite vlen_set; lia|].
      split; [lia|]. split; [lia|]. split; [reflexivity|exact Nm]. }
    assert (Ay : alive c y) by (eapply iter_alive; eauto; apply C).
    destruct (N.to_nat l) as [|k] eqn:Q; [lia|]. cbn [countdown].
    eapply fo_stop; [exact I|exact Ay|exact Nm| |exact (follows_count c n k y Hok Ay C)].
    unfold shown_at. pose proof (count_opaque c n _ y C) as O. destruct (Nat.eqb (S k mod 16) 15); [rewrite O; reflexivity|]. destruct O as (f & ->). reflexivity.
Qed.

(** zeros fed inside a header *)
Inductive zpath : nat -> odec -> odec -> Prop :=
| zp_last : forall d o p, od_step 0 d = Ok (o, p) -> d_st o = ValueStart -> zpath 1 d o
| zp_more : forall n d o p o2, od_step 0 d = Ok (o, p) -> headst (d_st o) -> raw_length o < 15 -> zpath n o o2 -> zpath (S n) d o2.

Lemma follows_zeros : forall c n l k x o, bytes_ok c -> alive c x -> zpath k (k_od (n_dec x)) o -> od_length o = Ok l -> l < 65536 -> n_pos x = length c -> it_number x = n ->
  follows c x (again k n (countdown (N.to_nat l) n)).
Proof.
  intros c n l k. induction k as [|k IH]; intros x o Hok A Z Ll Lb P Nm; inversion Z; subst; pose proof A as (Sx & _).
  - assert (I := iter_end c x _ _ Sx P H0). set (y := ND _ _) in I. cbn [again].
    assert (Ay : alive c y) by (eapply iter_alive; eauto; apply out_st; congruence).
    eapply fo_stop; [exact I|exact Ay|reflexivity|apply opaque_end; [reflexivity|exact (length_raw _ _ Ll)]|].
    apply follows_value; auto.
  - assert (I := iter_end c x _ _ Sx P H0). set (y := ND _ _) in I. cbn [again].
    assert (Ay : alive c y). { eapply iter_alive; eauto. apply out_st; intro Q; rewrite Q in H1; destruct H1. }
    eapply fo_stop; [exact I|exact Ay|reflexivity|apply opaque_end; [reflexivity|exact H2]|].
    apply (IH y o); auto.
Qed.

Lemma follows_gfault : forall c k x, bytes_ok c -> alive c x -> gfault k (k_od (n_dec x)) -> n_pos x = length c -> doomed c x.
Proof.
  intros c. induction k as [|k IH]; intros x Hok A G P; inversion G; subst; pose proof A as (Sx & _).
  - apply doomed_now; [exact A|]. unfold nd_iter, dec_iterate, dec_step. unfold nd_state in Sx. rewrite Sx. unfold remainder. rewrite P, skipn_end. unfold od_chunk_last. rewrite H. reflexivity.
  - assert (I := iter_end c x _ _ Sx P H0). set (y := ND _ _) in I.
    assert (Ay : alive c y). { eapply iter_alive; eauto. apply out_st; intro Q; rewrite Q in H1; destruct H1. }
    eapply doomed_back; [exact Hok|exact A|exact I|exact Ay|]. apply IH; auto.
Qed.

(** * A header that lacks bytes *)

Ltac zstep := first
  [ eapply zp_last; [solve [odstep]|reflexivity]
  | eapply zp_more; [odstep|exact I|unfold raw_length; cbn [d_b0]; rewrite nib_lo; lia|cbn [d_st d_b0 d_b1 d_b2 d_b3 d_pos]; zstep] ].

Lemma head_cut_zeros : forall d h off b r,
  d_st d = FirstByte -> b <> 255 -> bytes_ok (b :: r) -> hd_num h < 65536 ->
  b / 16 <> 15 -> b mod 16 <> 15 -> (length r < ext_count (b / 16) + ext_count (b mod 16))%nat ->
  exists d2 hl o g,
    mrun d h off (b :: r) (Ok ([], d2, Holder (cut_num (hd_num h) b r) hl, off + length (b :: r))%nat) /\
    midhead d2 /\ raw_length d2 < 15 /\ S g = head_stops b r /\
    zpath g d2 o /\ od_length o = Ok (zero_len b r).
Proof.
  intros [st b0 b1 b2 b3 pos] [hn hl] off b r Hst Hb Hok Hn H15 L15 Hlen. cbn in Hst. subst st. cbn [hd_num hd_len] in *.
  assert (Hlo : b mod 16 < 16) by (apply N.mod_lt; discriminate).
  assert (Hbb : b < 256) by (inversion Hok; assumption).
  assert (Hhi : b / 16 < 16) by lia.
  assert (Ehi : b / 16 < 13 \/ b / 16 = 13 \/ b / 16 = 14) by lia.
  assert (Elo : b mod 16 < 13 \/ b mod 16 = 13 \/ b mod 16 = 14) by lia.
  clear H15 L15. unfold cut_num, head_stops, zero_len, wide_last, missing. unfold ext_count in *. unfold take_ext.
  destruct Ehi as [Eh|[Eh|Eh]]; destruct Elo as [El|[El|El]];
    revert Hlen; kill_if; intros Hlen;
    (destruct r as [|r1 [|r2 [|r3 [|r4 r]]]]; cbn [length] in Hlen; try lia);
    unfold bytes_ok in Hok; repeat match goal with H : Forall _ (_ :: _) |- _ => inversion H; clear H; subst end; unfold byte_ok in *.
  all: cbn [length app skipn Nat.add Nat.sub Nat.eqb andb negb]; rewrite ?Nat.add_succ_r, ?Nat.add_0_r.
  all: do 4 eexists; (split; [repeat go; rewrite ?ext16 by assumption; constructor|]).
  all: (split; [exact I|split; [unfold raw_length; cbn [d_b0]; rewrite nib_lo; lia|split; [|split; [zstep|]]]]).
  all: try reflexivity.
  all: try (odstep; rewrite ?ext16 by (assumption || reflexivity); try reflexivity; f_equal; lia).
  all: try (replace (b mod 16 =? 14) with false by (symmetry; apply N.eqb_neq; lia); reflexivity).
  all: try (replace (b mod 16 =? 14) with true by (symmetry; apply N.eqb_eq; lia); reflexivity).
  all: try (replace (b / 16 =? 14) with false by (symmetry; apply N.eqb_neq; lia); reflexivity).
  all: try (replace (b / 16 =? 14) with true by (symmetry; apply N.eqb_eq; lia); reflexivity).
Qed.

Lemma zero_len_lt : forall b r, b < 256 -> bytes_ok r -> zero_len b r < 65536.
Proof.
  intros b r Hb Hr. unfold zero_len, take_ext. assert (Ok4 : bytes_ok (skipn (ext_count (b / 16)) (r ++ [0; 0; 0; 0]))).
  { apply bytes_ok_skipn, bytes_ok_app. split; [exact Hr|repeat constructor]. }
  destruct (N.ltb_spec (b mod 16) 13); [lia|]. destruct (skipn _ _) as [|x [|y s]]; [lia|..]; inversion Ok4; subst; unfold byte_ok in *;
    destruct (b mod 16 =? 13); try lia; destruct (b mod 16 =? 14); try lia; apply N.mod_lt; discriminate.
Qed.

Lemma take_ext_lt : forall nb bs v r, take_ext nb bs = OptDecSpec.Got v r -> bytes_ok bs -> v < 65536.
Proof.
  intros nb bs v r H B. unfold take_ext in H. destruct (N.ltb_spec nb 13); [injection H as <- _; lia|]. destruct bs as [|x s]; [discriminate|].
  inversion B; subst. unfold byte_ok in *. destruct (nb =? 13); [injection H as <- _; lia|]. destruct (nb =? 14); [|discriminate].
  destruct s as [|y s]; [discriminate|]. injection H as <- _. apply N.mod_lt. discriminate.
Qed.

(** * From option to option *)

Lemma heads_boundary : forall d h q d2 h2, boundary d -> q <> [] -> heads (od_goto FirstByte d) h q d2 h2 -> heads d h q d2 h2.
Proof.
  intros d h q d2 h2 [Hb|Hb] Hq Hh.
  - replace d with (od_goto FirstByte d) by (destruct d; cbn in *; subst; reflexivity). exact Hh.
  - destruct q as [|b0 q]; [congruence|]. apply (hs_step d h b0 q (od_goto FirstByte d) h false); [|reflexivity|exact Hh].
    unfold mstep, od_step. rewrite Hb. reflexivity.
Qed.

(** a reserved nibble in a header of which the next byte is there *)
Inductive cfault : odec -> holder -> list N -> Prop :=
| cf_now : forall d h b r, od_step b d = Fault -> cfault d h (b :: r)
| cf_step : forall d h b r d1 h1 p, od_step b d = Ok (d1, p) -> hold_upd d1 h = Ok h1 -> od_stops (d_st d1) = false -> cfault d1 h1 (rest p b r) -> cfault d h (b :: r).

Lemma cfault_loop : forall d h bs, cfault d h bs -> forall fuel n, od_chunk_loop fuel d h bs n = NoFuel \/ od_chunk_loop fuel d h bs n = Fault.
Proof.
  induction 1 as [d h b r E|d h b r d1 h1 p E U S C IH]; intros [|fuel] n; auto; cbn [od_chunk_loop]; rewrite E; cbn [bind fst snd]; [auto|].
  rewrite U. cbn [bind]. rewrite S. apply IH.
Qed.

Ltac cf := eapply cf_step; [odstep|odstep|reflexivity|cbn [rest]].
Ltac cff := apply cf_now; odstep.

Lemma head_reserved_chunk : forall d h b r, d_st d = FirstByte -> b <> 255 -> bytes_ok (b :: r) ->
  (take_ext (b / 16) r = Reserved \/ exists delta r1, take_ext (b / 16) r = OptDecSpec.Got delta r1 /\ take_ext (b mod 16) r1 = Reserved) -> cfault d h (b :: r).
Proof.
  intros [st b0 b1 b2 b3 pos] [hn hl] b r Hst Hb Hok H. cbn in Hst. subst st.
  assert (Hlo : b mod 16 < 16) by (apply N.mod_lt; discriminate).
  assert (Hsp : b mod 16 < 13 \/ 13 <= b mod 16) by lia.
  assert (Hhi : b / 16 < 16) by (inversion Hok; subst; unfold byte_ok in *; lia).
  destruct (take_ext_cases (b / 16) r) as
    [(N1 & E1)|[(N1 & -> & E1)|[(N1 & a & s & -> & E1)|[(N1 & a & -> & E1)|[(N1 & a & c & s & -> & E1)|(N1 & a & s & -> & E1)]]]]];
    (destruct H as [H|(dl & r1 & Hg & H)]; [rewrite E1 in H; try discriminate|rewrite E1 in Hg; try discriminate]);
    try (injection Hg as <- <-);
    try (match type of H with take_ext _ ?x = _ =>
  destruct (take_ext_cases (b mod 16) x) as
    [(N2 & E2)|[(N2 & Ex & E2)|[(N2 & a' & s' & Ex & E2)|[(N2 & a' & Ex & E2)|[(N2 & a' & c' & s' & Ex & E2)|(N2 & a' & s' & Ex & E2)]]]]]
  end; rewrite E2 in H; try discriminate);  try (subst; cbn in *);
  unfold bytes_ok in Hok; repeat match goal with H : Forall _ (_ :: _) |- _ => inversion H; clear H; subst end;
  unfold byte_ok in *.
  - cf. cf. cf. cff.
  - cf. cf. cf. cf. cff.
  - cf. cf. cf. cf. cf. cff.
  - destruct Hsp.
    + cf. cf. cf. cff.
    + cf. cf. cff.
Qed.

Lemma cfault_boundary : forall d h b r, boundary d -> cfault (od_goto FirstByte d) h (b :: r) -> cfault d h (b :: r).
Proof.
  intros d h b r [Hb|Hb] C.
  - replace d with (od_goto FirstByte d) by (destruct d; cbn in *; subst; reflexivity). exact C.
  - eapply (cf_step d h b r (od_goto FirstByte d) h false); [unfold od_step; rewrite Hb; reflexivity|reflexivity|reflexivity|exact C].
Qed.

Lemma iter_cfault : forall c x b r, nd_state x = ROptions -> skipn (n_pos x) c = b :: r -> cfault (k_od (n_dec x)) (k_hold (n_dec x)) (b :: r) -> nd_iter c true x = Fault.
Proof.
  intros c x b r S E C. unfold nd_iter, dec_iterate, dec_step. unfold nd_state in S. rewrite S. unfold remainder. rewrite E, chunk_last_nonempty.
  destruct (cfault_loop _ _ _ C (4 * length (b :: r) + 4) 0) as [F|F]; [exfalso; exact (od_chunk_fuel _ _ _ F)|]. unfold od_chunk. rewrite F. reflexivity.
Qed.

(** one iteration over the bytes of a header that is all there is *)
Lemma iter_drains : forall c x d2 h2, nd_state x = ROptions -> (n_pos x < length c)%nat -> heads (k_od (n_dec x)) (k_hold (n_dec x)) (skipn (n_pos x) c) d2 h2 ->
  nd_iter c true x = Ok (ND (opt_out c true (n_dec x) d2 h2 (length c)) (length c)).
Proof.
  intros c x d2 h2 S L Hh. set (q := skipn (n_pos x) c) in *. assert (Lq : (n_pos x + length q = length c)%nat) by (unfold q; rewrite skipn_length; lia).
  destruct (heads_eat _ _ _ _ _ Hh q [] 0 (4 * length q + 4) (eq_sym (app_nil_r q))) as [F|(d1 & h1 & F & F2 & _)].
  { exfalso. exact (od_chunk_fuel _ _ _ F). }
  assert (F3 : d1 = d2 /\ h1 = h2) by (inversion F2; auto). destruct F3 as [-> ->].
  rewrite (iter_options c x d2 h2 (length q) S L F ltac:(lia)). rewrite Lq. reflexivity.
Qed.

Lemma midhead_st : forall d, midhead d -> d_st d <> OPayload /\ d_st d <> OptionValueDone.
Proof. intros d H. unfold midhead in H. destruct (d_st d); try contradiction; split; discriminate. Qed.

Lemma follows_stops : forall c, bytes_ok c -> forall k x bs, alive c x -> boundary (k_od (n_dec x)) -> skipn (n_pos x) c = bs -> bs <> [] -> (length bs <= k)%nat ->
  it_number x < 65536 -> follows c x (stops k (it_number x) bs).
Proof.
  intros c Hok. induction k as [|k IH]; intros x bs A B E Ne Lk Hn; [destruct bs; [congruence|cbn [length] in Lk; lia]|].
  destruct bs as [|b r]; [congruence|]. clear Ne. cbn [length] in Lk. pose proof A as (S & _ & _ & _ & Lp & _).
  assert (L1 : (n_pos x < length c)%nat). { assert (Q := f_equal (@length N) E). rewrite skipn_length in Q. cbn [length] in Q. lia. }
  assert (Okb : bytes_ok (b :: r)) by (rewrite <- E; apply bytes_ok_skipn; exact Hok).
  assert (Bb : b < 256) by (inversion Okb; assumption). assert (Okr : bytes_ok r) by (inversion Okb; assumption).
  cbn [stops]. destruct (N.eqb_spec b 255) as [->|Nb].
  { destruct (marker_chunk (k_od (n_dec x)) (k_hold (n_dec x)) r B) as (o & E1 & E2). rewrite <- E in E1.
    assert (I := iter_options _ _ _ _ _ S L1 E1 ltac:(lia)). eapply fo_end; [exact I|]. eapply iter_ended; eauto. now apply out_pay. }
  assert (NEb : b :: r <> []) by discriminate.
  set (d0 := od_goto FirstByte (k_od (n_dec x))). set (h := k_hold (n_dec x)).
  assert (O1 : outside (d_st d0)) by (repeat split; discriminate). assert (O2 : d_st d0 <> OPayload) by discriminate.
  assert (RS : (take_ext (b / 16) r = Reserved \/ exists delta r1, take_ext (b / 16) r = OptDecSpec.Got delta r1 /\ take_ext (b mod 16) r1 = Reserved) -> follows c x TCrash).
  { intro H. apply fo_crash, doomed_now; [exact A|]. apply (iter_cfault c x b r S E). apply cfault_boundary; [exact B|]. apply head_reserved_chunk; auto. }
  assert (CU : (take_ext (b / 16) r = Short \/ exists delta r1, take_ext (b / 16) r = OptDecSpec.Got delta r1 /\ take_ext (b mod 16) r1 = Short) ->
    follows c x (if (b / 16 =? 15) || (b mod 16 =? 15) then TCrash
                 else again (head_stops b r) (cut_num (it_number x) b r) (countdown (N.to_nat (zero_len b r)) (cut_num (it_number x) b r)))).
  { intro H. destruct ((b / 16 =? 15) || (b mod 16 =? 15)) eqn:F.
    - apply orb_true_iff in F. rewrite !N.eqb_eq in F.
      destruct (head_cut_fault d0 h 0 b r eq_refl Nb Okb F H) as (d2 & h2 & n & Q1 & Q2 & Q3 & _). destruct (midhead_st d2 Q2) as (M1 & M2).
      assert (Hh := heads_boundary _ _ _ _ _ B NEb (mrun_heads _ _ _ _ _ Q1 _ _ _ eq_refl O1 O2 M1)). rewrite <- E in Hh.
      assert (I := iter_drains c x d2 h2 S L1 Hh). set (y := ND _ _) in I.
      assert (Ay : alive c y) by (eapply iter_alive; eauto; apply out_st; congruence).
      apply fo_crash. eapply doomed_back; [exact Hok|exact A|exact I|exact Ay|]. eapply follows_gfault; eauto.
    - apply orb_false_iff in F. rewrite !N.eqb_neq in F. destruct F as (F1 & F2).
      destruct (head_cut_zeros d0 h 0 b r eq_refl Nb Okb Hn F1 F2 (short_count b r F1 F2 Bb H)) as (d2 & hl & o & g & Q1 & Q2 & Q3 & Q4 & Q5 & Q6).
      destruct (midhead_st d2 Q2) as (M1 & M2).
      assert (Hh := heads_boundary _ _ _ _ _ B NEb (mrun_heads _ _ _ _ _ Q1 _ _ _ eq_refl O1 O2 M1)). rewrite <- E in Hh.
      assert (I := iter_drains c x d2 _ S L1 Hh). set (y := ND _ _) in I.
      assert (Ay : alive c y) by (eapply iter_alive; eauto; apply out_st; congruence).
      rewrite <- Q4. cbn [again]. eapply fo_stop; [exact I|exact Ay|reflexivity|apply opaque_end; [reflexivity|exact Q3]|].
      eapply follows_zeros; eauto. apply zero_len_lt; assumption. }
  destruct (take_ext (b / 16) r) as [delta r1| |] eqn:T1; [|apply CU; auto|apply RS; auto].
  destruct (take_ext (b mod 16) r1) as [l r2| |] eqn:T2; [|apply CU; eauto|apply RS; eauto]. clear CU RS. cbv zeta.
  assert (Hlo : b mod 16 < 16) by (apply N.mod_lt; discriminate). assert (Hhi : b / 16 < 16) by lia.
  destruct (take_ext_bound _ _ _ _ Hhi Okr T1) as (Bd & Ok1 & Le1). destruct (take_ext_bound _ _ _ _ Hlo Ok1 T2) as (Bl & Ok2 & Le2).
  destruct (head_run d0 h 0 b r delta r1 l r2 eq_refl Nb Okb T1 T2) as (hb & d2 & Ebs & Hne & Hrd & HR).
  assert (Hnp : d_st d2 <> OPayload) by apply Hrd.
  assert (Hh := heads_boundary _ _ _ _ _ B Hne (mrun_heads _ _ _ _ _ HR _ _ _ eq_refl O1 O2 Hnp)). clear HR.
  change (hd_num h) with (it_number x) in Hh. set (num := (it_number x + delta) mod 65536) in *.
  assert (Hnum : num < 65536) by (apply N.mod_lt; discriminate).
  rewrite Ebs in E. destruct r2 as [|c0 s].
  - rewrite app_nil_r in E. rewrite <- E in Hh. assert (I := iter_drains c x d2 _ S L1 Hh). set (y := ND _ _) in I.
    pose proof Hrd as (_ & _ & R3 & _ & _ & _ & R7).
    assert (Ay : alive c y) by (eapply iter_alive; eauto; apply out_st; [assumption|congruence]).
    cbn [again]. eapply fo_stop; [exact I|exact Ay|reflexivity|apply opaque_end; [reflexivity|exact (length_raw _ _ (ready_length _ _ Hrd))]|].
    destruct (R7 0) as (d3 & A1 & A2 & A3). assert (I3 := iter_end c y _ _ (proj1 Ay) eq_refl A1). set (z := ND _ _) in I3.
    assert (Az : alive c z) by (eapply iter_alive; [exact Hok|exact Ay|exact I3|]; apply out_st; rewrite A2; discriminate).
    eapply fo_stop; [exact I3|exact Az|reflexivity|apply opaque_end; [reflexivity|exact (length_raw _ _ A3)]|].
    apply follows_value; auto.
  - set (r2 := c0 :: s) in *.
    destruct (heads_start _ _ _ _ _ Hh _ Hrd c0 s 0 (4 * length (skipn (n_pos x) c) + 4)) as [F|(d3 & F & F2 & F3)].
    { exfalso. fold r2 in F. rewrite <- E in F. exact (od_chunk_fuel _ _ _ F). }
    fold r2 in F. rewrite <- E in F. assert (LL := f_equal (@length N) E). rewrite skipn_length, app_length in LL.
    assert (I := iter_options c x d3 _ (length hb) S L1 F ltac:(lia)). set (y := ND _ _) in I.
    assert (Ay : alive c y) by (eapply iter_alive; eauto; apply out_st; rewrite F2; discriminate).
    assert (Ey : skipn (n_pos y) c = r2) by (unfold y; cbn [n_pos]; apply skipn_add; exact E).
    assert (Ly : (n_pos y < length c)%nat) by (unfold y, r2 in *; cbn [n_pos length] in *; lia).
    assert (V : shown_at c y (Ok (if (length r2 <=? N.to_nat l)%nat then r2 else firstn (N.to_nat l) r2))).
    { unfold shown_at, it_opaque, dec_option. cbn [y n_dec opt_out k_goto opt_dec k_od]. rewrite F3. cbn [bind]. unfold remainder. rewrite Ey.
      destruct (Nat.leb_spec (N.to_nat l) (length r2)) as [Q|Q]; destruct (Nat.leb_spec (length r2) (N.to_nat l)) as [Q2|Q2]; cbn [bind fst]; try reflexivity; try lia.
      rewrite firstn_all2 by lia. reflexivity. }
    assert (ND0 : forall o n, od_chunk (k_od (n_dec y)) (k_hold (n_dec y)) r2 = Ok (o, k_hold (n_dec y), n) -> (n <= length r2)%nat ->
      nd_iter c true y = Ok (ND (opt_out c true (n_dec y) o (k_hold (n_dec y)) (n_pos y + n)) (n_pos y + n))).
    { intros o n G Gl. apply iter_options; [apply Ay|exact Ly|rewrite Ey; exact G|]. assert (Q := f_equal (@length N) Ey). rewrite skipn_length in Q. lia. }
    assert (Lr : (n_pos y + length r2 = length c)%nat) by (assert (Q := f_equal (@length N) Ey); rewrite skipn_length in Q; lia).
    destruct (Nat.leb_spec (length r2) (N.to_nat l)) as [Q|Q].
    + eapply fo_stop; [exact I|exact Ay|reflexivity|exact V|]. set (v := r2 ++ repeat 0 (N.to_nat l - length r2)).
      assert (Lv : len v = l) by (unfold len, v; rewrite app_length, repeat_length; lia).
      destruct (value_chunk (k_od (n_dec y)) (k_hold (n_dec y)) v r2) as (V1 & V2); [right; split; [exact F2|rewrite Lv; exact F3]|discriminate|rewrite Lv; exact Bl|discriminate|].
      destruct (Nat.eq_dec (length r2) (N.to_nat l)) as [Q1|Q1].
      * rewrite Q1, Nat.sub_diag. cbn [countdown]. assert (Evr : v = r2) by (unfold v; rewrite Q1, Nat.sub_diag; apply app_nil_r).
        destruct (V2 [] ltac:(rewrite app_nil_r; congruence)) as (o & G1 & G2). rewrite Evr in G1.
        assert (J := ND0 _ _ G1 (le_n _)). eapply fo_end; [exact J|]. eapply iter_ended; [exact Hok|exact Ay|exact J|]. unfold nd_state. cbn [n_dec]. rewrite Lr. now apply out_end.
      * destruct (V1 ltac:(unfold len in *; lia)) as (o & G1 & G2 & G3). assert (J := ND0 _ _ G1 (le_n _)). rewrite Lr in J. set (z := ND _ _) in J.
        assert (C : counting c num (N.to_nat l - length r2) z).
        { split; [apply out_st; rewrite G2; discriminate|]. split; [exact G2|]. split; [unfold z; cbn [n_dec opt_out k_goto opt_dec k_od]; unfold len in *; lia|].
          split; [lia|]. split; [lia|]. split; reflexivity. }
        assert (Az : alive c z) by (eapply iter_alive; [exact Hok|exact Ay|exact J|]; apply C).
        destruct (N.to_nat l - length r2)%nat as [|m] eqn:Em; [lia|]. cbn [countdown].
        eapply fo_stop; [exact J|exact Az|reflexivity| |exact (follows_count c num m z Hok Az C)].
        unfold shown_at. pose proof (count_opaque c num _ z C) as O. destruct (Nat.eqb (Datatypes.S m mod 16) 15); [rewrite O; reflexivity|]. destruct O as (f & ->). reflexivity.
    + eapply fo_stop; [exact I|exact Ay|reflexivity|exact V|].
      assert (G : exists o, od_chunk (k_od (n_dec y)) (k_hold (n_dec y)) r2 = Ok (o, k_hold (n_dec y), N.to_nat l) /\ d_st o = OptionValueDone /\ od_length o = Ok 0).
      { destruct (N.eq_dec l 0) as [->|Nz].
        - exact (empty_value_chunk (k_od (n_dec y)) (k_hold (n_dec y)) c0 s F2 F3).
        - set (v := firstn (N.to_nat l) r2). assert (Lv : length v = N.to_nat l) by (unfold v; rewrite firstn_length; lia).
          destruct (value_chunk (k_od (n_dec y)) (k_hold (n_dec y)) v r2) as (_ & V2);
            [right; split; [exact F2|unfold len; rewrite Lv, N2Nat.id; exact F3]|intro X; rewrite X in Lv; cbn in Lv; lia|unfold len; lia|discriminate|].
          destruct (V2 (skipn (N.to_nat l) r2) ltac:(unfold v; now rewrite firstn_skipn)) as (o & G1 & G2). rewrite Lv in G1. exists o. split; [exact G1|]. split; [exact G2|].
          apply b0_length. unfold od_chunk in G1. eapply loop_done_b0; [exact G1| |exact G2]. unfold y. cbn [n_dec opt_out k_goto opt_dec k_od]. rewrite F2. discriminate. }
      destruct G as (o & G1 & G2 & G3). assert (J := ND0 _ _ G1 ltac:(lia)). set (z := ND _ _) in J.
      assert (Az : alive c z) by (eapply iter_alive; [exact Hok|exact Ay|exact J|]; apply out_st; [rewrite G2; discriminate|intros _; lia]).
      eapply fo_stop; [exact J|exact Az|reflexivity| |].
      * unfold shown_at, it_opaque, dec_option. cbn [z n_dec opt_out k_goto opt_dec k_od]. rewrite G3. reflexivity.
      * change num with (it_number z). apply IH; [exact Az|right; exact G2| | | |exact Hnum].
        -- unfold z. cbn [n_pos]. rewrite <- skipn_skipn', Ey. reflexivity.
        -- apply rem_ne. lia.
        -- rewrite skipn_length. unfold r2 in *. cbn [length] in *. lia.
Qed.
