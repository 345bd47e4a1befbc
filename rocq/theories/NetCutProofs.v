(** The option iterator where the only option is cut off. *)
From Coq Require Import ZArith.
From Verif Require Import Base HeaderModel HeaderSpec HeaderProofs OptEncModel OptSpec StreambufModel StreambufProofs NetbufModel ContextModel UriModel AppModel
  ObserveModel RespModel RespSpec RespProofs OptDecModel OptDecSpec OptDecProofs DecoderModel DecoderSpec DecoderProofs NetDecModel NetDecSpec NetDecProofs
  SubjectProofs NetAnySpec NetAnyProofs.
Local Open Scope N_scope.

(** at the end of the datagram inside a value of which [k] bytes are missing *)
Definition counting (c : list N) (n : N) (k : nat) (x : ndec) : Prop :=
  nd_state x = ROptions /\ d_st (k_od (n_dec x)) = OptionValue /\ od_vlen (k_od (n_dec x)) = N.of_nat k /\ (0 < k)%nat /\ N.of_nat k < 65536 /\
  n_pos x = length c /\ it_number x = n.
(** ... and past it *)
Definition finished (c : list N) (x : ndec) : Prop := nd_state x = OptionsDone /\ d_st (k_od (n_dec x)) = OptionValueDone /\ n_pos x = length c.

Lemma iter_end : forall c x o p, nd_state x = ROptions -> n_pos x = length c -> od_step 0 (k_od (n_dec x)) = Ok (o, p) ->
  nd_iter c true x = Ok (ND (opt_out c true (n_dec x) o (k_hold (n_dec x)) (length c)) (length c)).
Proof.
  intros c x o p S E Eo. unfold nd_iter, dec_iterate, dec_step. unfold nd_state in S. rewrite S. unfold remainder. rewrite E, skipn_end.
  unfold od_chunk_last. rewrite Eo. cbn [bind fst]. rewrite Nat.add_0_r, Nat.leb_refl. reflexivity.
Qed.

Lemma count_step : forall c n k x, counting c n k x ->
  exists y, nd_iter c true x = Ok y /\ match k with 0%nat | 1%nat => finished c y | S j => counting c n j y end.
Proof.
  intros c n k x (S & V & L & K0 & K1 & P & Nm). 
  assert (E : od_step 0 (k_od (n_dec x)) = Ok (od_goto (if N.of_nat (k - 1) =? 0 then OptionValueDone else OptionValue) (od_set_vlen (N.of_nat (k - 1)) (k_od (n_dec x))), true)).
  { unfold od_step. rewrite V. cbn zeta. rewrite L. replace ((N.of_nat k + 65535) mod 65536) with (N.of_nat (k - 1)) by lia. reflexivity. }
  eexists. split; [eapply iter_end; eauto|]. destruct k as [|[|k]]; [lia|..].
  - split; [apply out_end; reflexivity|]. split; reflexivity.
  - replace (N.of_nat (Datatypes.S (Datatypes.S k) - 1)) with (N.of_nat (Datatypes.S k)) by lia.
    replace (N.of_nat (Datatypes.S k) =? 0) with false by (symmetry; apply N.eqb_neq; lia).
    split; [apply out_st; discriminate|]. split; [reflexivity|]. split; [cbn [n_dec opt_out k_goto opt_dec k_od]; apply vlen_set|]. split; [lia|]. split; [lia|]. split; [reflexivity|exact Nm].
Qed.

Lemma finish_step : forall c x, finished c x -> exists y, nd_iter c true x = Ok y /\ nd_state y = RDone.
Proof.
  intros c x (S & V & P). exists (ND (k_goto RDone (n_dec x)) (length c)). split; [|reflexivity].
  unfold nd_iter, dec_iterate, dec_step. unfold nd_state in S. rewrite S, V. cbn [ostate_eqb]. rewrite P, Nat.eqb_refl. cbn [andb bind]. rewrite Nat.leb_refl. reflexivity.
Qed.

(** operator++ there *)
Lemma count_next : forall c n k x, counting c n k x ->
  exists y, it_next c true x = Ok y /\ (if (k <=? 3)%nat then it_valid y = false else counting c n (k - 3) y).
Proof.
  intros c n k x C. unfold it_next, nd_next, nd_from. pose proof C as (S & _ & _ & K0 & _). rewrite S. cbn [rstate_eqb].
  destruct (count_step c n k x C) as (x1 & -> & C1). cbn [bind]. destruct k as [|[|k]]; [lia|..].
  - destruct (finish_step c x1 C1) as (y & -> & Sy). cbn [bind]. rewrite Sy. cbn [rstate_eqb bind]. rewrite Sy. cbn [rstate_eqb fst snd]. exists y. split; [reflexivity|].
    cbn. unfold it_valid. rewrite Sy. reflexivity.
  - destruct (count_step c n _ x1 C1) as (x2 & -> & C2). cbn [bind]. destruct k as [|k].
    + pose proof C2 as (S2 & _). rewrite S2. cbn [rstate_eqb]. destruct (finish_step c x2 C2) as (y & -> & Sy). cbn [bind]. rewrite Sy. cbn [rstate_eqb fst snd]. exists y. split; [reflexivity|].
      cbn. unfold it_valid. rewrite Sy. reflexivity.
    + pose proof C2 as (S2 & _). rewrite S2. cbn [rstate_eqb bind]. rewrite S2. cbn [rstate_eqb fst snd].
      destruct (count_step c n _ x2 C2) as (x3 & -> & C3). exists x3. split; [reflexivity|]. destruct k as [|k].
      * cbn. unfold it_valid. destruct C3 as (-> & _). reflexivity.
      * replace (Datatypes.S (Datatypes.S (Datatypes.S (Datatypes.S k))) - 3)%nat with (Datatypes.S k) by lia. exact C3.
Qed.

Lemma count_opaque : forall c n k x, counting c n k x ->
  if Nat.eqb (k mod 16) 15 then it_opaque c x = Fault else exists f, it_opaque c x = Ok ([], f).
Proof.
  intros c n k x (S & V & L & _ & _ & P & _). unfold it_opaque, dec_option, od_length.
  assert (R : raw_length (k_od (n_dec x)) = N.of_nat (k mod 16)).
  { unfold raw_length. rewrite nib_lo. unfold od_vlen in L. rewrite Nat2N.inj_mod, <- L. change (N.of_nat 16) with 16.
    replace (256 * d_b1 (k_od (n_dec x))) with (16 * d_b1 (k_od (n_dec x)) * 16) by lia. now rewrite N.mod_add by discriminate. }
  assert (B : (k mod 16 < 16)%nat) by (apply Nat.mod_upper_bound; discriminate).
  destruct (Nat.eqb_spec (k mod 16) 15) as [E|E].
  - rewrite R, E. reflexivity.
  - destruct (get_value_ok (raw_length (k_od (n_dec x))) (d_b1 (k_od (n_dec x))) (d_b2 (k_od (n_dec x)))) as (l & ->); [rewrite R; lia|]. cbn [bind].
    unfold remainder. rewrite P, skipn_end. destruct (_ <=? _)%nat; [rewrite firstn_nil|]; eauto.
Qed.

(** the loop of a server from there *)
Lemma count_loop : forall c reads n fuel k x, counting c n k x -> ((k + 2) / 3 < fuel)%nat ->
  rs_loop reads fuel c x = if reads n && negb (quiet k) then Fault else Ok (repeat (n, []) ((k + 2) / 3)).
Proof.
  intros c reads n. induction fuel as [|fuel IH]; intros k x C Hf; [lia|]. cbn [rs_loop].
  pose proof C as (S & _ & _ & K0 & _ & _ & Nm). assert (V : it_valid x = true) by (unfold it_valid; rewrite S; reflexivity). rewrite V, Nm.
  pose proof (count_opaque c n k x C) as O. destruct (count_next c n k x C) as (y & En & Cy).
  destruct (Nat.leb_spec k 3) as [L3|G3].
  - assert (Q : quiet k = true) by (destruct k as [|[|[|[|k]]]]; try reflexivity; lia).
    assert (Qn : Nat.eqb (k mod 16) 15 = false) by (rewrite Nat.mod_small by lia; apply Nat.eqb_neq; lia).
    rewrite Qn in O. destruct O as (f & O). rewrite Q. cbn [negb]. rewrite andb_false_r.
    assert (D : ((k + 2) / 3 = 1)%nat) by (destruct k as [|[|[|[|k]]]]; try lia; reflexivity). rewrite D in *.
    replace (if reads n then bind (it_opaque c x) (fun v => Ok (fst v)) else Ok []) with (Ok (@nil N)) by (destruct (reads n); rewrite ?O; reflexivity).
    cbn [bind]. rewrite En. cbn [bind]. destruct fuel as [|fuel]; [lia|]. cbn [rs_loop]. rewrite Cy. reflexivity.
  - assert (D : ((k + 2) / 3 = Datatypes.S ((k - 3 + 2) / 3))%nat).
    { replace (k + 2)%nat with (k - 3 + 2 + 1 * 3)%nat by lia. rewrite Nat.div_add by discriminate. lia. }
    rewrite D in *. specialize (IH (k - 3)%nat y Cy ltac:(lia)).
    assert (Q : quiet k = negb (Nat.eqb (k mod 16) 15) && quiet (k - 3)).
    { destruct k as [|[|[|k]]]; try lia. cbn [quiet]. replace (Datatypes.S (Datatypes.S (Datatypes.S k)) - 3)%nat with k by lia. reflexivity. }
    rewrite Q. destruct (reads n) eqn:R; cbn [andb] in *.
    + destruct (Nat.eqb (k mod 16) 15); cbn [negb andb]; [rewrite O; reflexivity|]. destruct O as (f & ->). cbn [bind fst]. rewrite En. cbn [bind]. rewrite IH.
      destruct (negb (quiet (k - 3))); reflexivity.
    + cbn [bind]. rewrite En. cbn [bind]. rewrite IH. reflexivity.
Qed.

(** at the start of a value of which nothing is there *)
Definition at_value (c : list N) (n L : N) (x : ndec) : Prop :=
  nd_state x = ROptions /\ d_st (k_od (n_dec x)) = ValueStart /\ od_length (k_od (n_dec x)) = Ok L /\ 0 < L < 65536 /\ n_pos x = length c /\ it_number x = n.

Lemma value_loop : forall c reads n L fuel x, at_value c n L x -> (S (N.to_nat L / 3) < fuel)%nat ->
  rs_loop reads fuel c x = if reads n && negb (quiet (N.to_nat L - 2)) then Fault else Ok (repeat (n, []) (S (N.to_nat L / 3))).
Proof.
  intros c reads n L fuel x (Sx & V & Ll & L0 & P & Nm) Hf. destruct fuel as [|fuel]; [lia|]. cbn [rs_loop].
  assert (Vx : it_valid x = true) by (unfold it_valid; rewrite Sx; reflexivity). rewrite Vx, Nm.
  assert (O : exists f, it_opaque c x = Ok ([], f)).
  { unfold it_opaque, dec_option. rewrite Ll. cbn [bind]. unfold remainder. rewrite P, skipn_end. destruct (_ <=? _)%nat; [rewrite firstn_nil|]; eauto. }
  destruct O as (f & O).
  replace (if reads n then bind (it_opaque c x) (fun v => Ok (fst v)) else Ok []) with (Ok (@nil N)) by (destruct (reads n); rewrite ?O; reflexivity). cbn [bind].
  assert (E : od_step 0 (k_od (n_dec x)) = Ok (od_goto OptionValue (od_set_vlen L (k_od (n_dec x))), false)).
  { unfold od_step. rewrite V, Ll. cbn [bind]. replace (L =? 0) with false by (symmetry; apply N.eqb_neq; lia). reflexivity. }
  assert (I := iter_end c x _ _ Sx P E). set (x1 := ND _ _) in I.
  assert (C1 : counting c n (N.to_nat L) x1).
  { split; [apply out_st; discriminate|]. split; [reflexivity|]. split; [unfold x1; cbn [n_dec opt_out k_goto opt_dec k_od]; rewrite vlen_set; lia|].
    split; [lia|]. split; [lia|]. split; [reflexivity|exact Nm]. }
  assert (NX : exists y, it_next c true x = Ok y /\ (if (N.to_nat L <=? 2)%nat then it_valid y = false else counting c n (N.to_nat L - 2) y)).
  { unfold it_next, nd_next, nd_from. rewrite Sx. cbn [rstate_eqb]. rewrite I. cbn [bind]. clear -C1. set (k := N.to_nat L) in *. clearbody k x1.
    pose proof C1 as (_ & _ & _ & K0 & _).
    destruct (count_step c n k x1 C1) as (x2 & -> & C2). cbn [bind]. destruct k as [|[|k]]; [lia|..].
    - pose proof C2 as (S2 & _). rewrite S2. cbn [rstate_eqb]. destruct (finish_step c x2 C2) as (y & -> & Sy). cbn [bind]. rewrite Sy. cbn [rstate_eqb fst snd].
      exists y. split; [reflexivity|]. cbn. unfold it_valid. rewrite Sy. reflexivity.
    - pose proof C2 as (S2 & _). rewrite S2. cbn [rstate_eqb bind]. rewrite S2. cbn [rstate_eqb fst snd].
      destruct (count_step c n _ x2 C2) as (x3 & -> & C3). exists x3. split; [reflexivity|]. destruct k as [|k].
      + cbn. unfold it_valid. destruct C3 as (-> & _). reflexivity.
      + replace (Datatypes.S (Datatypes.S (Datatypes.S k)) - 2)%nat with (Datatypes.S k) by lia. exact C3. }
  destruct NX as (y & -> & Cy). cbn [bind]. destruct (Nat.leb_spec (N.to_nat L) 2) as [L2|G2].
  - replace (N.to_nat L - 2)%nat with 0%nat by lia. cbn [quiet negb]. rewrite andb_false_r. rewrite Nat.div_small by lia.
    destruct fuel as [|fuel]; [lia|]. cbn [rs_loop]. rewrite Cy. reflexivity.
  - assert (D : ((N.to_nat L - 2 + 2) / 3 = N.to_nat L / 3)%nat) by (f_equal; lia).
    rewrite (count_loop c reads n fuel _ y Cy) by (rewrite D; lia). rewrite D. destruct (reads n && negb (quiet (N.to_nat L - 2))); reflexivity.
Qed.

Lemma cut_new : forall c x n L v, nd_state x = OptionsStart -> (n_pos x < length c)%nat -> skipn (n_pos x) c = opt_head n L ++ v -> bytes_ok v ->
  n < 65536 -> 0 < L < 65536 -> len v < L ->
  exists y, it_new c true x = Ok y /\ (v = [] -> at_value c n L y) /\ (v <> [] -> counting c n (N.to_nat (L - len v)) y).
Proof.
  intros c x n L v Sx P E Bv Hn HL Hv. unfold it_new, nd_begin, nd_from. rewrite Sx. cbn [rstate_eqb].
  set (f := ND (opt_fresh (n_dec x)) (n_pos x)).
  assert (Ef : nd_iter c true x = nd_iter c true f) by (unfold nd_iter; rewrite (iterate_start c (n_dec x) (n_pos x) Sx P); reflexivity).
  rewrite Ef.
  pose proof (nib_lt n) as Bn. pose proof (nib_lt L) as Bl. unfold opt_head in E. set (b := nib n * 16 + nib L) in *.
  assert (T1 : take_ext (b / 16) (ext n ++ ext L ++ v) = OptDecSpec.Got n (ext L ++ v)) by (replace (b / 16) with (nib n) by (unfold b; lia); apply take_ext_enc; exact Hn).
  assert (T2 : take_ext (b mod 16) (ext L ++ v) = OptDecSpec.Got L v) by (replace (b mod 16) with (nib L) by (unfold b; lia); apply take_ext_enc; lia).
  assert (Ok1 : bytes_ok (b :: ext n ++ ext L ++ v)).
  { apply Forall_cons; [unfold byte_ok, b; lia|]. apply bytes_ok_app. split; [apply ext_bytes_ok; exact Hn|]. apply bytes_ok_app. split; [apply ext_bytes_ok; lia|exact Bv]. }
  assert (B255 : b <> 255) by (unfold b; lia).
  destruct (head_run (k_od (n_dec f)) holder_reset 0 b _ n _ L v eq_refl B255 Ok1 T1 T2) as (hb & d2 & Q1 & Q2 & Q3 & Q4).
  replace ((hd_num holder_reset + n) mod 65536) with n in Q4 by (cbn [hd_num holder_reset]; rewrite N.mod_small; lia).
  assert (O1 : outside (d_st (k_od (n_dec f)))) by (repeat split; discriminate).
  assert (O2 : d_st (k_od (n_dec f)) <> OPayload) by discriminate.
  assert (O3 : d_st d2 <> OPayload) by apply Q3.
  pose proof (mrun_heads _ _ _ _ _ Q4 _ _ _ eq_refl O1 O2 O3) as Hh.
  cbn [app] in E. rewrite <- app_assoc in E. rewrite Q1 in E. assert (LL := f_equal (@length N) E). rewrite skipn_length, app_length in LL.
  destruct v as [|b0 r0].
  - rewrite app_nil_r in E. cbn [length] in LL.
    destruct (heads_eat _ _ _ _ _ Hh hb [] 0 (4 * length hb + 4) (eq_sym (app_nil_r hb))) as [F|(d1 & h1 & F & F2 & _)].
    { exfalso. exact (od_chunk_fuel _ _ _ F). }
    assert (F3 : d1 = d2 /\ h1 = Holder n L) by (inversion F2; auto). destruct F3 as [-> ->].
    assert (G := iter_options c f d2 (Holder n L) (length hb) eq_refl P ltac:(cbn [n_pos f]; rewrite E; exact F) ltac:(cbn [n_pos f]; lia)).
    cbn [n_pos f] in G. rewrite G. cbn [bind]. replace (n_pos x + length hb)%nat with (length c) in * by lia. set (x1 := ND _ _).
    destruct Q3 as (R1 & _ & R3 & _ & _ & _ & R7). destruct (R7 0) as (d3 & A1 & A2 & A3).
    assert (S1 : nd_state x1 = ROptions) by (apply out_st; [exact R1|congruence]). rewrite S1. cbn [rstate_eqb bind fst snd].
    rewrite (iter_end c x1 d3 false S1 eq_refl A1). eexists. split; [reflexivity|]. split; [intros _|congruence].
    split; [apply out_st; rewrite A2; discriminate|]. split; [exact A2|]. split; [exact A3|]. split; [exact HL|]. split; reflexivity.
  - destruct (heads_start _ _ _ _ _ Hh _ Q3 b0 r0 0 (4 * length (skipn (n_pos x) c) + 4)) as [F|(d3 & F & F2 & F3)].
    { exfalso. rewrite <- E in F. exact (od_chunk_fuel _ _ _ F). }
    rewrite <- E in F.
    assert (G := iter_options c f d3 (Holder n L) (length hb) eq_refl P F ltac:(cbn [n_pos f]; lia)).
    cbn [n_pos f] in G. rewrite G. cbn [bind]. set (x1 := ND _ _).
    assert (S1 : nd_state x1 = ROptions) by (apply out_st; rewrite F2; discriminate). rewrite S1. cbn [rstate_eqb bind fst snd].
    assert (Es : skipn (n_pos x1) c = b0 :: r0) by (unfold x1; cbn [n_pos]; apply skipn_add; exact E).
    set (v := b0 :: r0) in *.
    assert (EC : exists d4, od_chunk d3 (Holder n L) v = Ok (d4, Holder n L, length v) /\ d_st d4 = OptionValue /\ od_vlen d4 = L - len v).
    { pose proof (od_chunk_fuel d3 (Holder n L) v) as NF. unfold od_chunk in *. replace (4 * length v + 4)%nat with (S (4 * length v + 3)) in * by lia.
      assert (St : od_chunk_loop (S (4 * length v + 3)) d3 (Holder n L) v 0 = od_chunk_loop (4 * length v + 3) (od_goto OptionValue (od_set_vlen L d3)) (Holder n L) v 0).
      { unfold v at 2. cbn [od_chunk_loop]. unfold od_step. rewrite F2, F3. cbn [bind].
        replace (L =? 0) with false by (symmetry; apply N.eqb_neq; lia). reflexivity. }
      rewrite St in *.
      destruct (value_part v (od_goto OptionValue (od_set_vlen L d3)) (Holder n L) 0 (4 * length v + 3) eq_refl ltac:(rewrite vlen_set; exact Hv) ltac:(rewrite vlen_set; lia)) as [F4|(d4 & A & B & C)]; [contradiction|].
      exists d4. rewrite vlen_set in C. auto. }
    destruct EC as (d4 & A & B & C).
    assert (Lc : (n_pos x1 + length v)%nat = length c) by (unfold x1; cbn [n_pos]; lia).
    rewrite (iter_options c x1 d4 (Holder n L) (length v) S1) ; [|unfold x1, v in *; cbn [n_pos length] in *; lia|rewrite Es; exact A|lia].
    rewrite Lc. eexists. split; [reflexivity|]. split; [discriminate|]. intros _.
    split; [apply out_st; rewrite B; discriminate|]. split; [exact B|]. split; [cbn [n_dec opt_out k_goto opt_dec k_od]; rewrite C, N2Nat.id; reflexivity|].
    split; [lia|]. split; [lia|]. split; reflexivity.
Qed.
