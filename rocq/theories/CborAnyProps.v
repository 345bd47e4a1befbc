(** C86: the CBOR server on any payload and any datagram. *)
From Coq Require Import ZArith.
From Verif Require Import Base HeaderModel HeaderSpec HeaderProofs OptEncModel OptSpec UIntSpec UIntModel StreambufModel StreambufProofs NetbufModel ContextModel AppModel
  ObserveModel RespModel RespSpec RespProofs OptDecModel OptDecSpec OptDecProofs DecoderModel DecoderSpec DecoderProofs NetDecModel NetDecSpec NetDecProofs
  HeadCutSpec HeadCutProofs NetAnySpec NetAnyProofs NetAnyProps CborModel CborSpec CborProofs CborRespModel CborRespSpec CborRespProofs CborAnySpec CborAnyProofs.
Local Open Scope N_scope.

(** * The end of the options *)

(** [z]: where the iterator is after the options *)
Definition leaves (c : list N) (x z : ndec) : Prop :=
  exists n y, (n <= S (mu c x))%nat /\ isteps c n x y /\ ended c y /\ (z = y \/ nd_iter c true y = Ok z).

Lemma leaves_more : forall c x x1 z, alive c x -> nd_iter c true x = Ok x1 -> (mu c x1 < mu c x)%nat -> leaves c x1 z -> leaves c x z.
Proof. intros c x x1 z A E L (n & y & P & Q & R). exists (S n), y. split; [lia|]. split; [eapply isS; eauto|exact R]. Qed.
Lemma leaves_now : forall c x x1 z, alive c x -> nd_iter c true x = Ok x1 -> ended c x1 -> z = x1 \/ nd_iter c true x1 = Ok z -> leaves c x z.
Proof. intros c x x1 z A E D Z. exists 1%nat, x1. split; [lia|]. split; [eapply isS; eauto; constructor|]. auto. Qed.

Lemma next_leaves : forall c x z, bytes_ok c -> alive c x -> it_next c true x = Ok z -> it_valid z = false -> leaves c x z.
Proof.
  intros c x z Hok A E V. unfold it_next, nd_next, nd_from in E. pose proof A as (S & _). rewrite S in E. cbn [rstate_eqb] in E.
  destruct (alive_step c x Hok A) as [F|(x1 & E1 & [D1|(A1 & L1)])].
  - rewrite F in E. discriminate.
  - rewrite E1 in E. cbn [bind] in E. destruct (after_end c x1 D1) as (y & Ey & V1 & N). rewrite Ey in E. cbn [bind] in E.
    replace (rstate_eqb (nd_state y) OptionsDone) with false in E by (destruct (nd_state y); try reflexivity; congruence). cbn [bind] in E.
    unfold it_valid in V1. rewrite V1 in E. cbn [fst snd] in E. injection E as <-. eapply leaves_now; eauto.
  - rewrite E1 in E. cbn [bind] in E. eapply leaves_more; eauto. destruct (alive_step c x1 Hok A1) as [F|(x2 & E2 & [D2|(A2 & L2)])].
    + rewrite F in E. discriminate.
    + rewrite E2 in E. cbn [bind] in E. destruct (after_end c x2 D2) as (y & Ey & V1 & N). pose proof D2 as (S2 & _). rewrite S2 in E. cbn [rstate_eqb] in E. rewrite Ey in E. cbn [bind] in E.
      unfold it_valid in V1. rewrite V1 in E. cbn [fst snd] in E. injection E as <-. eapply leaves_now; eauto.
    + rewrite E2 in E. cbn [bind] in E. pose proof A2 as (S2 & _). rewrite S2 in E. cbn [rstate_eqb bind] in E. rewrite S2 in E. cbn [rstate_eqb fst snd] in E.
      eapply leaves_more; eauto. destruct (alive_step c x2 Hok A2) as [F|(x3 & E3 & [D3|(A3 & L3)])]; rewrite E in *; try discriminate.
      * injection E3 as <-. eapply leaves_now; eauto.
      * injection E3 as <-. apply alive_valid in A3. congruence.
Qed.

Lemma skip_leaves : forall c, bytes_ok c -> forall fuel x z, alive c x -> it_skip fuel c true x = Ok z -> leaves c x z.
Proof.
  intros c Hok. induction fuel as [|k IH]; intros x z A E; [discriminate|]. cbn [it_skip] in E. rewrite (alive_valid c x A) in E.
  destruct (it_next c true x) as [x1| |] eqn:Nx; cbn [bind] in E; try discriminate.
  destruct (it_valid x1) eqn:V.
  - destruct (next_alive c x Hok A) as [(Y & _)|(x2 & Y & [(V2 & _)|(A1 & L1 & _)])]; rewrite Nx in Y; try discriminate; injection Y as <-; [congruence|].
    assert (Q := IH x1 z A1 E). clear IH E. 
    (* operator++ is iterations *)
    unfold it_next, nd_next, nd_from in Nx. pose proof A as (S & _). rewrite S in Nx. cbn [rstate_eqb] in Nx.
    destruct (alive_step c x Hok A) as [F|(y1 & E1 & [D1|(B1 & M1)])]; [rewrite F in Nx; discriminate| |].
    + rewrite E1 in Nx. cbn [bind] in Nx. destruct (after_end c y1 D1) as (y & Ey & V1 & N). rewrite Ey in Nx. cbn [bind] in Nx.
      replace (rstate_eqb (nd_state y) OptionsDone) with false in Nx by (destruct (nd_state y); try reflexivity; congruence). cbn [bind] in Nx.
      unfold it_valid in V1. rewrite V1 in Nx. cbn [fst snd] in Nx. injection Nx as <-. unfold it_valid in V. congruence.
    + rewrite E1 in Nx. cbn [bind] in Nx. eapply leaves_more; eauto. destruct (alive_step c y1 Hok B1) as [F|(y2 & E2 & [D2|(B2 & M2)])]; [rewrite F in Nx; discriminate| |].
      * rewrite E2 in Nx. cbn [bind] in Nx. destruct (after_end c y2 D2) as (y & Ey & V1 & N). pose proof D2 as (S2 & _). rewrite S2 in Nx. cbn [rstate_eqb] in Nx. rewrite Ey in Nx. cbn [bind] in Nx.
        unfold it_valid in V1. rewrite V1 in Nx. cbn [fst snd] in Nx. injection Nx as <-. unfold it_valid in V. congruence.
      * rewrite E2 in Nx. cbn [bind] in Nx. pose proof B2 as (S2 & _). rewrite S2 in Nx. cbn [rstate_eqb bind] in Nx. rewrite S2 in Nx. cbn [rstate_eqb fst snd] in Nx.
        eapply leaves_more; eauto. destruct (alive_step c y2 Hok B2) as [F|(y3 & E3 & [D3|(B3 & M3)])]; rewrite Nx in *; try discriminate.
        -- injection E3 as <-. apply ended_valid in D3. congruence.
        -- injection E3 as <-. eapply leaves_more; eauto.
  - destruct k as [|k]; [discriminate|]. cbn [it_skip] in E. rewrite V in E. injection E as <-. eapply next_leaves; eauto.
Qed.

Lemma new_leaves : forall c x fuel z, bytes_ok c -> nd_state x = OptionsStart -> dec_mem (n_dec x) -> (n_pos x < length c)%nat ->
  bind (it_new c true x) (it_skip fuel c true) = Ok z -> leaves c (ND (opt_fresh (n_dec x)) (n_pos x)) z.
Proof.
  intros c x fuel z Hok S M L E. destruct (new_any c x Hok S M) as (_ & H). destruct (H L) as (A & _). clear H. set (f := ND (opt_fresh (n_dec x)) (n_pos x)) in *.
  assert (E0 : nd_iter c true x = nd_iter c true f) by (unfold nd_iter; rewrite (iterate_start c (n_dec x) (n_pos x) S L); reflexivity).
  unfold it_new, nd_begin, nd_from in E. rewrite S in E. cbn [rstate_eqb] in E. rewrite E0 in E.
  assert (DN : forall y w, it_valid y = false -> it_skip fuel c true y = Ok w -> w = y).
  { intros y w V Q. destruct fuel; [discriminate|]. cbn [it_skip] in Q. rewrite V in Q. now injection Q as <-. }
  destruct (alive_step c f Hok A) as [F|(x1 & E1 & [D1|(A1 & L1)])]; [rewrite F in E; discriminate| |].
  - rewrite E1 in E. cbn [bind] in E. pose proof D1 as (S1 & _). rewrite S1 in E. cbn [rstate_eqb] in E. destruct (after_end c x1 D1) as (y & Ey & V & _). rewrite Ey in E. cbn [bind fst snd] in E.
    apply DN in E; [|exact V]. subst z. eapply leaves_now; eauto.
  - rewrite E1 in E. cbn [bind] in E. pose proof A1 as (S1 & _). rewrite S1 in E. cbn [rstate_eqb bind fst snd] in E. eapply leaves_more; eauto.
    destruct (alive_step c x1 Hok A1) as [F|(x2 & E2 & [D2|(A2 & L2)])]; [rewrite F in E; discriminate| |]; rewrite E2 in E; cbn [bind] in E.
    + apply DN in E; [|now apply (ended_valid c)]. subst z. eapply leaves_now; eauto.
    + eapply leaves_more; eauto. eapply skip_leaves; eauto.
Qed.

(** the payload is what the specification of the options leaves *)
Lemma leaves_payload : forall c x z, bytes_ok c -> nd_state x = OptionsStart -> dec_mem (n_dec x) -> (n_pos x < length c)%nat ->
  leaves c (ND (opt_fresh (n_dec x)) (n_pos x)) z ->
  exists w, nd_has_payload c true z = Ok (match snd (parse 0 (n_pos x) (skipn (n_pos x) c)) with EndMarker _ => true | _ => false end, w) /\
    forall at_, snd (parse 0 (n_pos x) (skipn (n_pos x) c)) = EndMarker at_ -> nd_payload c w = skipn at_ c.
Proof.
  intros c x z Hok S M L (n & y & P & Q & D & Z).
  (* the run of the decoder tells the same story *)
  assert (LF := mu_start c x L). set (f := ND (opt_fresh (n_dec x)) (n_pos x)) in *. set (F := opt_fuel (length c - n_pos x)) in *.
  assert (O := options_run c (n_dec x) (n_pos x) Hok S M L F (le_n _)).
  assert (RS := run_start_fresh c (n_dec x) (n_pos x) F S L). change (opt_fresh (n_dec x)) with (n_dec f) in RS. change (n_pos x) with (n_pos f) in RS at 2.
  destruct (isteps_run c n f y Q (or_intror D)) as (es & NS). pose proof D as (S1 & D1 & Ly).
  assert (R : (d_st (k_od (n_dec y)) = OPayload /\ dec_run F c (n_dec x) (n_pos x) = Ok (es ++ [EPayload (skipn (n_pos y) c) true; ECompleted], k_goto RDone (n_dec y), length c)) \/
    (d_st (k_od (n_dec y)) <> OPayload /\ n_pos y = length c /\ dec_run F c (n_dec x) (n_pos x) = Ok (es ++ [ECompleted], k_goto RDone (n_dec y), length c))).
  { rewrite RS. destruct (ostate_eqb (d_st (k_od (n_dec y))) OPayload) eqn:B.
    - assert (B' : d_st (k_od (n_dec y)) = OPayload) by (destruct (d_st (k_od (n_dec y))); try discriminate B; reflexivity). left. split; [exact B'|].
      eapply (run_pieces _ _ _ n _ _ _ _ 3 _ _ _ NS); [|lia]. intros k. apply run_done_payload; [exact S1|exact B'|exact Ly].
    - assert (B' : d_st (k_od (n_dec y)) <> OPayload) by (intro X; rewrite X in B; discriminate). right. split; [exact B'|].
      assert (EQ : n_pos y = length c) by (destruct D1 as [D1|D1]; [contradiction|exact D1]). split; [exact EQ|]. rewrite EQ in NS.
      eapply (run_pieces _ _ _ n _ _ _ _ 1 _ _ _ NS); [|lia]. intros k. apply run_done_end; [exact S1|exact B']. }
  clear RS. 
  (* where the iterator is *)
  assert (W : forall b, (b = true <-> d_st (k_od (n_dec y)) = OPayload) -> exists w, nd_has_payload c true z = Ok (b, w) /\ (b = true -> nd_payload c w = skipn (n_pos y) c)).
  { intros b Hb. assert (NI : nd_iter c true y = Ok (ND (k_goto (if b then RPayload else RDone) (n_dec y)) (n_pos y))).
    { unfold nd_iter, dec_iterate, dec_step. unfold nd_state in S1. rewrite S1. destruct b.
      - rewrite (proj1 Hb eq_refl). cbn [ostate_eqb bind]. replace (n_pos y <=? length c)%nat with true by (symmetry; now apply Nat.leb_le). reflexivity.
      - assert (X : d_st (k_od (n_dec y)) <> OPayload) by (intro X; apply Hb in X; discriminate).
        replace (ostate_eqb (d_st (k_od (n_dec y))) OPayload) with false by (destruct (d_st (k_od (n_dec y))); try reflexivity; congruence).
        destruct D1 as [D1|D1]; [contradiction|]. rewrite D1, Nat.eqb_refl. cbn [andb bind]. rewrite Nat.leb_refl. reflexivity. }
    set (w := ND (k_goto (if b then RPayload else RDone) (n_dec y)) (n_pos y)) in *.
    assert (SW : nd_state w = if b then RPayload else RDone) by (destruct b; reflexivity).
    exists w. split; [|intros _; reflexivity]. unfold nd_has_payload. destruct Z as [->|Z].
    - rewrite S1. cbn [rstate_eqb]. rewrite NI. cbn [bind]. rewrite SW. destruct b; reflexivity.
    - rewrite NI in Z. injection Z as <-. rewrite SW. destruct b; cbn [rstate_eqb bind]; rewrite SW; reflexivity. }
  destruct (parse 0 (n_pos x) (skipn (n_pos x) c)) as [vs e] eqn:PE. cbn [snd].
  assert (C : forall A : Prop, (d_st (k_od (n_dec y)) <> OPayload -> (forall at_, e <> EndMarker at_) -> A) -> (forall at_, e = EndMarker at_ -> d_st (k_od (n_dec y)) = OPayload -> skipn (n_pos y) c = skipn at_ c -> A) -> A).
  { intros A K1 K2. destruct e as [|at_| | | |]; try (destruct O as (d1 & O & _ & O2 & _)).
    - apply K1; [|discriminate]. intro X. destruct R as [(_ & R)|(R & _)]; [|contradiction]. rewrite O in R. injection R as _ Rd. subst d1. cbn [k_goto k_od opt_st] in O2. congruence.
    - apply (K2 at_ eq_refl).
      + destruct R as [(R & _)|(R1 & _ & R)]; [exact R|]. rewrite O in R. injection R as _ Rd. subst d1. cbn [k_goto k_od opt_st] in O2. contradiction.
      + destruct R as [(_ & R)|(R1 & _ & R)]; rewrite O in R; injection R as Re Rd; [|subst d1; cbn [k_goto k_od opt_st] in O2; contradiction].
        cbn [opt_tail] in Re. change [EOptDone; EPayload (skipn at_ c) true; ECompleted] with ([EOptDone; EPayload (skipn at_ c) true] ++ [ECompleted]) in Re.
        change [EPayload (skipn (n_pos y) c) true; ECompleted] with ([EPayload (skipn (n_pos y) c) true] ++ [ECompleted]) in Re. rewrite !app_assoc in Re.
        apply app_inj_tail in Re. destruct Re as (Re & _). change [EOptDone; EPayload (skipn at_ c) true] with ([EOptDone] ++ [EPayload (skipn at_ c) true]) in Re. rewrite app_assoc in Re.
        apply app_inj_tail in Re. destruct Re as (_ & Re). congruence.
    - exfalso. destruct R as [(_ & R)|(_ & _ & R)]; rewrite O in R; discriminate.
    - apply K1; [|discriminate]. destruct O as [O|(es1 & d1 & _ & O & _ & O2)].
      + destruct R as [(_ & R)|(R & _)]; [rewrite O in R; discriminate|exact R].
      + intro X. destruct R as [(_ & R)|(R & _)]; [|contradiction]. rewrite O in R. injection R as _ Rd. subst d1. cbn [k_goto k_od opt_st] in O2. congruence.
    - apply K1; [|discriminate]. intro X. destruct R as [(_ & R)|(R & _)]; [|contradiction]. rewrite O in R. injection R as _ Rd. subst d1. cbn [k_goto k_od opt_st] in O2. congruence.
    - apply K1; [|discriminate]. intro X. destruct R as [(_ & R)|(R & _)]; [|contradiction]. rewrite O in R. injection R as _ Rd. subst d1. cbn [k_goto k_od opt_st] in O2. congruence. }
  apply C.
  - intros X Y. destruct (W false) as (w & W1 & _); [split; [discriminate|contradiction]|]. exists w. split; [|intros at_ E; now apply Y in E].
    rewrite W1. destruct e; try reflexivity. now destruct (Y at_).
  - intros at_ -> X Y. destruct (W true) as (w & W1 & W2); [split; auto|]. exists w. split; [exact W1|]. intros a E. injection E as <-. rewrite <- Y. auto.
Qed.

(** C86: every datagram with header, token and at least a byte after them, whatever it is: at a
    reserved nibble the server stops; else it prints the bytes after the payload marker, if there
    is one, and answers 2.03 with the token unless the printing stops it. *)
Theorem C86_server : forall debug cap fuel jh junk h tok rest behind d buf hd p, hdr_ok jh -> hdr_ok h -> idle d -> bytes_ok tok -> bytes_ok rest -> rest <> [] ->
  h0 h mod 16 = len tok -> (length tok <= 8)%nat -> (4 + length tok <= cap)%nat -> answerable h ->
  let c := hdr_bytes h ++ tok ++ rest in (dec_fuel c <= fuel)%nat ->
  (unreadable (4 + length tok) rest /\ cbor_server debug cap fuel jh junk c behind d buf hd p = Fault) \/
  (~ unreadable (4 + length tok) rest /\ cbor_server debug cap fuel jh junk c behind d buf hd p =
     bind (match snd (parse 0 (4 + length tok) rest) with
           | EndMarker at_ => cr_print (skipn at_ c ++ behind) (length (skipn at_ c)) buf hd p
           | _ => Ok []
           end) (fun o => Ok (o, answer_head 67 h tok))).
Proof.
  intros debug cap fuel jh junk h tok rest behind d buf hd p Hj Hh Hd Bt Br Hr Ht H8 Hc R c Hf.
  assert (Hok : bytes_ok c) by (apply bytes_ok_app; split; [now apply hdr_ok_bytes|apply bytes_ok_app; auto]).
  destruct (begin_any junk d h tok rest Hd Hok Ht H8) as (k & x & K1 & K2 & K3 & S & P & M). fold c in K1.
  assert (E := rest_skip h tok rest). fold c in E. rewrite <- P in E |- *.
  assert (Lt : (n_pos x < length c)%nat).
  { rewrite P. unfold c. rewrite !app_length. change (length (hdr_bytes h)) with 4%nat. destruct rest; [congruence|cbn [length]; lia]. }
  assert (G : (unreadable (n_pos x) rest /\ bind (it_new c true x) (it_skip fuel c true) = Fault) \/
    (~ unreadable (n_pos x) rest /\ exists y, bind (it_new c true x) (it_skip fuel c true) = Ok y)).
  { destruct (new_any c x Hok S M) as (_ & N2).
    destruct (N2 Lt) as (A & H). destruct (fate_reads c x Hok S M Lt) as (F1 & F2). cbv zeta in F1, F2. rewrite E in F1, F2.
    assert (L := mu_start c x Lt). unfold opt_fuel in L. unfold dec_fuel in Hf.
    destruct H as [(-> & D)|(y & -> & [(V & G)|(Ay & Ly & D & G)])]; cbn [bind].
    + left. auto.
    + right. split; [auto|]. exists y. destruct fuel as [|q]; [lia|]. cbn [it_skip]. rewrite V. reflexivity.
    + destruct (skip_any c Hok fuel y Ay ltac:(lia)) as [(-> & Dy)|(z & -> & Gy)]; [left|right]; eauto. }
  rewrite <- tkl_mod in Ht. unfold cbor_server. rewrite K1. cbn [bind fst snd].
  destruct G as [(U & G)|(U & z & G)]; [left|right]; (split; [exact U|]).
  - destruct (it_new c true x) as [y| |] eqn:NE; cbn [bind] in *; [|reflexivity|discriminate]. rewrite G. reflexivity.
  - assert (LV := new_leaves c x fuel z Hok S M Lt G). destruct (leaves_payload c x z Hok S M Lt LV) as (w & W1 & W2). rewrite E in W1, W2.
    destruct (it_new c true x) as [y| |] eqn:NE; cbn [bind] in *; [|discriminate|discriminate]. rewrite G. cbn [bind]. rewrite W1. cbn [bind fst snd].
    destruct (head_sink debug cap jh k code_valid h tok Hj Hh eq_refl K2 K3 Ht Hc R) as (b & -> & S1 & _). cbn [bind]. rewrite S1.
    destruct (snd (parse 0 (n_pos x) rest)) as [|at_| | | |] eqn:PE; try reflexivity. rewrite (W2 at_ eq_refl).
    destruct (cr_print (skipn at_ c ++ behind) (length (skipn at_ c)) buf hd p); reflexivity.
Qed.
Print Assumptions C86_server.

(** ... and what is printed is, for any bytes and any memory behind them, what the
    specification [printed] says, which reads the bytes item by item without the machine. *)
Theorem C86_printed : forall mem len buf hd p out, bytes_ok mem -> length buf = 4%nat -> (cr_print mem len buf hd p = out <-> printed false len mem out).
Proof. intros. symmetry. now apply print_exact. Qed.
Print Assumptions C86_printed.

(** It depends on nothing else: not on what was in the decoder object. *)
Theorem C86_fresh : forall mem len buf hd p buf2 hd2 p2, bytes_ok mem -> length buf = 4%nat -> length buf2 = 4%nat ->
  cr_print mem len buf hd p = cr_print mem len buf2 hd2 p2.
Proof.
  intros mem len buf hd p buf2 hd2 p2 Hok H1 H2.
  apply (C86_printed mem len buf hd p _ Hok H1). apply (C86_printed mem len buf2 hd2 p2 _ Hok H2). reflexivity.
Qed.
Print Assumptions C86_fresh.

(** * Items before the end *)

Lemma head_reads : forall m v r, m < 8 -> v < 2 ^ 32 -> exists b a, rfc_head m v = b :: a /\ b / 32 = m /\ b mod 32 < 27 /\
  length a = arg_size (b mod 32) /\ arg_value (b mod 32) (a ++ r) = v /\ plain_number m (b mod 32) v = number m v.
Proof.
  intros m v r Hm Hv. change (2 ^ 32) with 4294967296 in Hv.
  assert (D : forall x, x < 32 -> (m * 32 + x) / 32 = m /\ (m * 32 + x) mod 32 = x).
  { intros x Hx. rewrite (N.add_comm (m * 32)). split; [rewrite N.div_add by discriminate; rewrite N.div_small by exact Hx; lia|].
    rewrite N.mod_add by discriminate. now apply N.mod_small. }
  assert (F : forall n a, length a = n -> firstn n (a ++ r) = a) by (intros n a <-; rewrite firstn_app, Nat.sub_diag, firstn_all; apply app_nil_r).
  assert (PN : forall x, 24 <= x -> 24 <= v -> plain_number m x v = number m v).
  { intros x Hx Hw. unfold plain_number, number. destruct (N.ltb_spec x 24); [lia|]. destruct (N.ltb_spec v 24); [lia|]. reflexivity. }
  assert (B : forall n, v < 256 ^ N.of_nat n -> be (be_bytes n v) = v) by (intros n H; rewrite be_bytes_be; now apply N.mod_small).
  assert (BL : forall n w, length (be_bytes n w) = n) by (induction n; intro w; cbn [be_bytes length]; auto).
  unfold rfc_head. destruct (N.ltb_spec v 24) as [C|C].
  { exists (m * 32 + v), []. destruct (D v) as (-> & ->); [lia|]. unfold arg_size, arg_value, plain_number, number. destruct (N.ltb_spec v 24); [|lia]. repeat split; lia. }
  destruct (N.ltb_spec v 256) as [C1|C1].
  { exists (m * 32 + 24), (be_bytes 1 v). destruct (D 24) as (-> & ->); [lia|]. split; [reflexivity|]. split; [reflexivity|]. split; [lia|]. split; [apply BL|].
    split; [|apply PN; lia]. unfold arg_value. change (arg_size 24) with 1%nat. change (24 <? 24) with false. rewrite F by apply BL. apply B. exact C1. }
  destruct (N.ltb_spec v 65536) as [C2|C2].
  { exists (m * 32 + 25), (be_bytes 2 v). destruct (D 25) as (-> & ->); [lia|]. split; [reflexivity|]. split; [reflexivity|]. split; [lia|]. split; [apply BL|].
    split; [|apply PN; lia]. unfold arg_value. change (arg_size 25) with 2%nat. change (25 <? 24) with false. rewrite F by apply BL. apply B. exact C2. }
  change (2 ^ 32) with 4294967296. destruct (N.ltb_spec v 4294967296) as [C3|C3]; [|lia].
  exists (m * 32 + 26), (be_bytes 4 v). destruct (D 26) as (-> & ->); [lia|]. split; [reflexivity|]. split; [reflexivity|]. split; [lia|]. split; [apply BL|].
  split; [|apply PN; lia]. unfold arg_value. change (arg_size 26) with 4%nat. change (26 <? 24) with false. rewrite F by apply BL. apply B. exact C3.
Qed.

Lemma printed_item : forall i after left r out, item_ok i -> (match i with CS _ s => N.of_nat (length s) < 65536 | _ => True end) -> r <> [] ->
  printed (ends_plain [i]) left r out -> printed after (length (item_bytes i) + left) (item_bytes i ++ r) (bind out (fun l => Ok (said i ++ l))).
Proof.
  intros i after left r out Hi Hs Hr P. assert (LR : (0 < length r)%nat) by (destruct r; [congruence|cbn; lia]).
  assert (SK : forall a w : list N, skipn (length a) (a ++ w) = w) by (intros a w; rewrite skipn_app, skipn_all, Nat.sub_diag; reflexivity).
  destruct i as [m v|m s]; cbn [item_ok item_bytes said ends_plain] in *.
  - destruct Hi as (M8 & M2 & M3 & V). destruct (head_reads m v r M8 V) as (b & a & E & B1 & B2 & B3 & B4 & B5). rewrite E. cbn [app length].
    destruct ((m =? 4) || (m =? 5)) eqn:C; cbn [negb] in P.
    + assert (Q := Pr_nest after (S (length a) + left) b (a ++ r) out). cbv zeta in Q. rewrite <- B3, SK, B1 in Q. apply Q; try exact B2.
      * lia.
      * rewrite app_length. lia.
      * apply orb_true_iff in C. rewrite !N.eqb_eq in C. exact C.
      * replace (S (length a) + left - (1 + length a))%nat with left by lia. exact P.
    + assert (Q := Pr_number after (S (length a) + left) b (a ++ r) out). cbv zeta in Q. rewrite <- B3, SK, B4, B1, B5 in Q. apply Q; try exact B2.
      * lia.
      * rewrite app_length. lia.
      * apply orb_false_iff in C. rewrite !N.eqb_neq in C. cbn [In]. lia.
      * replace (S (length a) + left - (1 + length a))%nat with left by lia. exact P.
  - destruct Hi as (M & V). assert (M8 : m < 8) by lia. destruct (head_reads m (N.of_nat (length s)) (s ++ r) M8 V) as (b & a & E & B1 & B2 & B3 & B4 & B5). rewrite E.
    rewrite <- app_assoc. cbn [app length]. rewrite app_length.
    assert (NN : arg_value (b mod 32) (a ++ s ++ r) mod 65536 = N.of_nat (length s)) by (rewrite B4; now apply N.mod_small).
    assert (Q := Pr_string after (S (length a + length s) + left) b (a ++ s ++ r) out). cbv zeta in Q. rewrite NN, Nat2N.id in Q. rewrite <- B3, SK, B1 in Q.
    rewrite firstn_app, firstn_all, Nat.sub_diag in Q. cbn [firstn] in Q. rewrite app_nil_r in Q. apply Q; try exact B2.
    + lia.
    + rewrite !app_length. lia.
    + destruct M as [M|M]; [left; exact M|right]. split; [exact M|]. rewrite app_length. lia.
    + lia.
    + rewrite SK. replace (S (length a + length s) + left - (1 + length a) - length s)%nat with left by lia. exact P.
Qed.

Lemma printed_items : forall its after left r out, Forall item_ok its -> short_strings its -> r <> [] ->
  printed (match its with [] => after | _ => ends_plain its end) left r out ->
  printed after (length (items_bytes its) + left) (items_bytes its ++ r) (bind out (fun l => Ok (flat_map said its ++ l))).
Proof.
  induction its as [|i its IH]; intros after left r out Ho Hs Hr P.
  - cbn [items_bytes flat_map app length Nat.add]. replace (bind out (fun l => Ok l)) with out by (destruct out; reflexivity). exact P.
  - inversion Ho as [|? ? O1 O2]; subst. inversion Hs as [|? ? S1 S2]; subst. cbn [items_bytes flat_map]. fold (items_bytes its). rewrite <- app_assoc, app_length, <- Nat.add_assoc.
    replace (bind out (fun l => Ok ((said i ++ flat_map said its) ++ l))) with (bind (bind out (fun l => Ok (flat_map said its ++ l))) (fun l => Ok (said i ++ l)))
      by (destruct out; cbn [bind]; try reflexivity; now rewrite <- app_assoc).
    apply printed_item; auto.
    + destruct (items_bytes its); [exact Hr|discriminate].
    + apply IH; auto. rewrite ends_cons in P. destruct its; exact P.
Qed.

(** Items at the front are printed first, whatever comes after them and whether or not that
    stops the server. *)
Theorem C86_front : forall its rest behind buf hd p, Forall item_ok its -> short_strings its -> bytes_ok (items_bytes its ++ rest ++ behind) -> rest <> [] -> length buf = 4%nat ->
  forall out, cr_print (rest ++ behind) (length rest) buf hd p = out ->
  cr_print ((items_bytes its ++ rest) ++ behind) (length (items_bytes its ++ rest)) buf hd p = bind out (fun l => Ok (flat_map said its ++ l)).
Proof.
  intros its rest behind buf hd p Ho Hs Hok Hr Hb out E. rewrite <- app_assoc. rewrite app_length. apply print_exact; auto.
  assert (NE : rest ++ behind <> []) by (destruct rest; [congruence|discriminate]).
  apply printed_items; auto. apply bytes_ok_app in Hok. destruct Hok as (_ & Hok). apply print_exact in E; auto.
  assert (LR : (0 < length rest)%nat) by (destruct rest; [congruence|cbn; lia]). clear - E LR.
  assert (G : forall a, printed false (length rest) (rest ++ behind) out -> printed a (length rest) (rest ++ behind) out).
  { intros a H. inversion H; subst; try (econstructor; eauto; fail); lia. }
  destruct its; [exact E|]. now apply G.
Qed.
Print Assumptions C86_front.

(** An eight byte argument, a reserved one or an indefinite length with four more bytes in the
    payload stops the server, wherever its memory ends (C63_overflow_refuted asks for more). *)
Theorem C86_wide_refuted : forall its b post behind buf hd p, Forall item_ok its -> short_strings its -> bytes_ok (items_bytes its ++ (b :: post) ++ behind) -> length buf = 4%nat ->
  27 <= b mod 32 -> (4 <= length post)%nat ->
  cr_print ((items_bytes its ++ b :: post) ++ behind) (length (items_bytes its ++ b :: post)) buf hd p = Fault.
Proof.
  intros its b post behind buf hd p Ho Hs Hok Hb W L. rewrite (C86_front its (b :: post) behind buf hd p Ho Hs Hok ltac:(discriminate) Hb Fault); [reflexivity|].
  apply bytes_ok_app in Hok. destruct Hok as (_ & Hok). apply print_exact; auto. apply Pr_wide; [|exact W].
  assert (A4 : (arg_size (b mod 32) <= 4)%nat) by (unfold arg_size; repeat destruct (_ <? _); repeat destruct (_ =? _); lia). cbn [length]. lia.
Qed.
Print Assumptions C86_wide_refuted.

(** With 65535 bytes behind the payload that is the only way: a payload without such a head
    never stops the server. *)
Theorem C86_room : forall payload behind buf hd p, bytes_ok (payload ++ behind) -> length buf = 4%nat -> 65535 <= N.of_nat (length behind) ->
  cr_print (payload ++ behind) (length payload) buf hd p = Fault ->
  exists pre b post, payload = pre ++ b :: post /\ 27 <= b mod 32 /\ (4 <= length post)%nat.
Proof.
  intros payload behind buf hd p Hok Hb Hr E. apply print_exact in E; auto. remember (payload ++ behind) as mem eqn:EM.
  assert (G : forall after left r out, printed after left r out -> out = Fault -> N.of_nat left + 65535 <= N.of_nat (length r) ->
    exists pre b post, firstn left r = pre ++ b :: post /\ 27 <= b mod 32 /\ (4 <= length post)%nat).
  { assert (LIFT : forall r j left, (j <= left)%nat -> (left <= length r)%nat ->
      (exists pre b post, firstn (left - j) (skipn j r) = pre ++ b :: post /\ 27 <= b mod 32 /\ (4 <= length post)%nat) ->
      exists pre b post, firstn left r = pre ++ b :: post /\ 27 <= b mod 32 /\ (4 <= length post)%nat).
    { intros r j left Lj Ll (pre & b & post & F1 & F2). exists (firstn j r ++ pre), b, post. split; [|exact F2].
      rewrite <- app_assoc, <- F1. rewrite <- skipn_firstn_comm. symmetry. replace (firstn j r) with (firstn j (firstn left r)); [apply firstn_skipn|].
      rewrite firstn_firstn, Nat.min_l by exact Lj. reflexivity. }
    intros after left r out P. induction P as [r|after left G|after left b r G H|after left b r H W|after left b r H W X
    |after left b r out k H W R T P IH|after left b r out k H W R T P IH|after left b r k n H W R T O|after left b r k n H W R T O|after left b r out k n H W R T O P IH];
      intros F L; try discriminate.
    - cbn [length] in L. lia.
    - destruct (Nat.ltb_spec left (length (b :: r))); [discriminate|lia].
    - assert (A4 : arg_size (b mod 32) = 4%nat).
      { unfold arg_size. destruct (N.ltb_spec (b mod 32) 24); [lia|]. destruct (N.eqb_spec (b mod 32) 24); [lia|]. destruct (N.eqb_spec (b mod 32) 25); [lia|]. reflexivity. }
      rewrite A4 in H. exists [], b, (firstn (left - 1) r). split; [|split; [exact W|]].
      + destruct left; [lia|]. cbn [firstn app]. do 2 f_equal. lia.
      + rewrite firstn_length. cbn [length] in L. lia.
    - cbn [length] in L. lia.
    - apply (LIFT (b :: r) (1 + k)%nat left H ltac:(lia)). change (skipn (1 + k) (b :: r)) with (skipn k r). apply IH.
      + destruct out; cbn [bind] in F; discriminate || reflexivity.
      + rewrite skipn_length. cbn [length] in L. lia.
    - apply (LIFT (b :: r) (1 + k)%nat left H ltac:(lia)). change (skipn (1 + k) (b :: r)) with (skipn k r). apply IH.
      + destruct out; cbn [bind] in F; discriminate || reflexivity.
      + rewrite skipn_length. cbn [length] in L. lia.
    - exfalso. assert (N16 : n < 65536) by (apply N.mod_lt; discriminate). rewrite skipn_length in O. cbn [length] in L. lia.
    - apply (LIFT (b :: r) (1 + k + N.to_nat n)%nat left ltac:(lia) ltac:(lia)). rewrite <- CborAnyProofs.skip_skip. change (skipn (1 + k) (b :: r)) with (skipn k r).
      replace (left - (1 + k + N.to_nat n))%nat with (left - (1 + k) - N.to_nat n)%nat by lia. apply IH.
      + destruct out; cbn [bind] in F; discriminate || reflexivity.
      + rewrite !skipn_length. cbn [length] in L. lia. }
  destruct (G _ _ _ _ E eq_refl) as (pre & b & post & F & W & L); [subst mem; rewrite app_length; lia|].
  exists pre, b, post. split; [|auto]. rewrite <- F, EM, firstn_app, Nat.sub_diag, firstn_all. cbn [firstn]. now rewrite app_nil_r.
Qed.
Print Assumptions C86_room.

(** A GET with token 7, an option spelled with a longer delta than needed (Uri-Path: a) and a
    payload that no valid sequence of items is: an array head, a number whose argument the
    datagram cuts short; behind it are the bytes of an older datagram. *)
Definition c86_hdr : hdr := Hdr 0x41 0x02 0x12 0x34.
Definition c86_mem : dec := Dec Uninitialized (Hdr 0 0 0 0) 0 [0; 0; 0; 0; 0; 0; 0; 0] 0 (OptDecModel.ODec OptionDone 9 9 9 9 0) (Holder 0 0).
Definition c86_rest : list N := [0xB1; 97; 0xFF; 0x82; 0x39; 1; 0; 0x1A; 0].
Definition c86_run (rest behind : list N) : res (list cout * list N) :=
  cbor_server true 64 (N.to_nat 66000) c86_hdr [3; 3; 3; 3; 3; 3; 3; 3] (hdr_bytes c86_hdr ++ [7] ++ rest) behind c86_mem [7; 7; 7; 7] 0xFF 5.

Example C86_hypotheses : hdr_ok c86_hdr /\ idle c86_mem /\ bytes_ok c86_rest /\ h0 c86_hdr mod 16 = len [7] /\ answerable c86_hdr /\
  (dec_fuel (hdr_bytes c86_hdr ++ [7%N] ++ c86_rest) <= N.to_nat 66000)%nat /\ parse 0 5 c86_rest = ([(11, 1, 6%nat)], EndMarker 8) /\ ~ unreadable 5 c86_rest /\
  unreadable 5 [0xB1; 97; 0xF0; 1; 2].
Proof.
  split; [vm_compute; auto|]. split; [vm_compute; repeat split; auto; repeat constructor|]. split; [repeat constructor|]. split; [reflexivity|]. split; [vm_compute; auto|].
  split; [apply Nat.leb_le; vm_compute; reflexivity|]. split; [reflexivity|]. split.
  - intros (vs & [E|(E & _)]); vm_compute in E; discriminate.
  - exists [(11, 1, 6%nat)]. left. reflexivity.
Qed.

Example C86_case :
  c86_run c86_rest [1; 2; 3] = Ok ([RType 4; RNest; RType 1; RNumber (-257); RType 0], [0x61; 0x43; 0x12; 0x34; 7]) /\
  c86_run c86_rest [] = Fault /\ c86_run [0xB1; 97; 0xF0; 1; 2] [1; 2; 3] = Fault /\
  (* an option cut off: no payload *)
  c86_run [0xB5; 97] [1; 2; 3] = Ok ([], [0x61; 0x43; 0x12; 0x34; 7]) /\
  (* an indefinite array, four bytes *)
  c86_run [0xFF; 0x9F; 1; 2; 3; 4] [1; 2; 3] = Fault /\ c86_run [0xFF; 0x9F; 1; 2; 3] [1; 2; 3] = Ok ([RType 4], [0x61; 0x43; 0x12; 0x34; 7]).
Proof. vm_compute. repeat split. Qed.

(** the specification by itself, on the payload of the first case *)
Example C86_reading : printed false 6 [0x82; 0x39; 1; 0; 0x1A; 0; 1; 2; 3] (Ok [RType 4; RNest; RType 1; RNumber (-257); RType 0]).
Proof. apply (C86_printed _ _ [7; 7; 7; 7] 0xFF 5); [repeat constructor|reflexivity|vm_compute; reflexivity]. Qed.
Example C86_front_case : cr_print ((items_bytes [CI 5 2; CS 3 [116]] ++ [0xFB; 1; 2; 3; 4]) ++ []) 8 [0; 0; 0; 0] 0 0 = Fault /\
  Forall item_ok [CI 5 2; CS 3 [116]] /\ short_strings [CI 5 2; CS 3 [116]] /\ 0xFB mod 32 = 27.
Proof. split; [vm_compute; reflexivity|]. split; [repeat (constructor; [cbn; repeat split; lia|]); constructor|]. split; [repeat (constructor; [cbn; lia || exact I|]); constructor|reflexivity]. Qed.
Example C86_room_case : cr_print ([0x9F; 1; 2; 3; 4] ++ repeat 0 (N.to_nat 65535)) 5 [0; 0; 0; 0] 0 0 = Fault.
Proof. vm_compute. reflexivity. Qed.
