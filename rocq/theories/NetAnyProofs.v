(** The option iterator and the example servers on any bytes. *)
From Coq Require Import ZArith.
From Verif Require Import Base HeaderModel HeaderSpec HeaderProofs OptEncModel OptSpec StreambufModel StreambufProofs NetbufModel ContextModel UriModel AppModel
  ObserveModel RespModel RespSpec RespProofs OptDecModel OptDecSpec OptDecProofs DecoderModel DecoderSpec DecoderProofs NetDecModel NetDecSpec NetDecProofs
  SubjectProofs HeadCutSpec HeadCutProofs NetAnySpec.
Local Open Scope N_scope.

(** * One iteration *)

Lemma chunk_inv : forall fuel d h bs n d1 h1 n1, od_inv d -> od_bytes d -> bytes_ok bs ->
  od_chunk_loop fuel d h bs n = Ok (d1, h1, n1) -> od_inv d1 /\ od_bytes d1.
Proof.
  induction fuel as [|k IH]; intros d h bs n d1 h1 n1 Hi Hb Hok H.
  - destruct bs; [|discriminate]. injection H as <- _ _. auto.
  - destruct bs as [|b r]; [injection H as <- _ _; auto|]. cbn [od_chunk_loop] in H.
    assert (Bb : byte_ok b) by (inversion Hok; assumption).
    destruct (od_step b d) as [[d2 q]| |] eqn:E; cbn [bind fst snd] in H; try discriminate.
    destruct (hold_upd d2 h) as [h2| |]; cbn [bind] in H; try discriminate.
    assert (I2 : od_inv d2).
    { destruct (od_step_inv b d Hi Bb) as [(d3 & p & E3 & I3)|(E3 & _)]; rewrite E in E3; [|discriminate]. injection E3 as <- <-. exact I3. }
    assert (B2 := od_bytes_step b d d2 q Hb Bb E).
    destruct (od_stops (d_st d2)); [injection H as <- _ _; auto|].
    eapply IH; [exact I2|exact B2| |exact H]. destruct q; [inversion Hok; assumption|assumption].
Qed.

(** the iterator is among the options *)
Definition alive (c : list N) (x : ndec) : Prop :=
  nd_state x = ROptions /\ od_inv (k_od (n_dec x)) /\ od_bytes (k_od (n_dec x)) /\ d_st (k_od (n_dec x)) <> OPayload /\ (n_pos x <= length c)%nat /\
  (n_pos x = length c -> d_st (k_od (n_dec x)) <> OptionValueDone).

(** ... or has just left them *)
Definition ended (c : list N) (x : ndec) : Prop :=
  nd_state x = OptionsDone /\ (d_st (k_od (n_dec x)) = OPayload \/ n_pos x = length c) /\ (n_pos x <= length c)%nat.

(** iterations left, at most *)
Definition mu (c : list N) (x : ndec) : nat :=
  if (n_pos x <? length c)%nat then (N.to_nat 65546 + 3 * (length c - n_pos x) + dr (d_st (k_od (n_dec x))))%nat
  else N.to_nat (erank (k_od (n_dec x))).

Lemma notify_of_iter : forall c x x1, nd_iter c true x = Ok x1 -> (alive c x1 \/ ended c x1) ->
  exists es fin, dec_notify c true (n_dec x) (n_pos x) = Ok (es, n_dec x1, n_pos x1, fin).
Proof.
  intros c x x1 H A. unfold nd_iter in H. unfold dec_notify.
  destruct (dec_iterate c true (n_dec x) (n_pos x)) as [[[d1 p1] f]| |]; cbn [bind fst snd] in *; try discriminate.
  injection H as <-. cbn [n_dec n_pos]. unfold dec_events.
  destruct A as [(S & I & _)|(S & _)]; unfold nd_state in S; cbn [n_dec] in *; rewrite S; [|cbn [bind]; eauto].
  unfold od_inv in I. destruct (d_st (k_od d1)) eqn:E; cbn [bind]; eauto.
  destruct (0 <? hd_len (k_hold d1)); cbn [bind]; eauto. unfold dec_option, od_length.
  destruct (get_value_ok (raw_length (k_od d1)) (d_b1 (k_od d1)) (d_b2 (k_od d1)) I) as (l & ->). cbn [bind].
  destruct (_ <=? _)%nat; cbn [bind]; eauto.
Qed.

Lemma notify_fault : forall c x, nd_iter c true x = Fault -> dec_notify c true (n_dec x) (n_pos x) = Fault.
Proof.
  intros c x H. unfold nd_iter in H. unfold dec_notify. destruct (dec_iterate c true (n_dec x) (n_pos x)); cbn [bind] in *; try discriminate. reflexivity.
Qed.

Lemma alive_step : forall c x, bytes_ok c -> alive c x ->
  nd_iter c true x = Fault \/ exists x1, nd_iter c true x = Ok x1 /\ (ended c x1 \/ alive c x1 /\ (mu c x1 < mu c x)%nat).
Proof.
  intros c x Hok (S & I & B & Np & L & Nv).
  destruct (Nat.eq_dec (n_pos x) (length c)) as [E|Ne].
  - assert (HS := od_step_inv 0 (k_od (n_dec x)) I ltac:(unfold byte_ok; lia)).
    destruct HS as [(o & p & Eo & Io)|(Eo & _)].
    + right. exists (ND (opt_out c true (n_dec x) o (k_hold (n_dec x)) (length c)) (length c)). split.
      { unfold nd_iter, dec_iterate, dec_step. unfold nd_state in S. rewrite S. unfold remainder. rewrite E, skipn_end. unfold od_chunk_last. rewrite Eo. cbn [bind fst].
        rewrite Nat.add_0_r, Nat.leb_refl. reflexivity. }
      assert (Bo := od_bytes_step 0 _ _ _ B ltac:(unfold byte_ok; lia) Eo).
      destruct (erank_step _ _ _ I B (Nv E) Eo) as (Hp & Hr).
      destruct (ostate_eqb (d_st o) OptionValueDone) eqn:Ev.
      * assert (Ev' : d_st o = OptionValueDone) by (destruct (d_st o); try discriminate Ev; reflexivity).
        left. split; [unfold nd_state; cbn [n_dec]; now apply out_end|]. cbn [n_pos]. split; [right; reflexivity|lia].
      * assert (Ev' : d_st o <> OptionValueDone) by (intro X; rewrite X in Ev; discriminate).
        destruct Hr as [Hr|Hr]; [congruence|]. right. split.
        -- split; [unfold nd_state; cbn [n_dec]; now apply out_st|]. cbn [n_dec n_pos opt_out k_od k_goto opt_dec].
           split; [exact Io|]. split; [exact Bo|]. split; [exact Hp|]. split; [lia|auto].
        -- unfold mu. cbn [n_pos n_dec opt_out k_od k_goto opt_dec]. rewrite E, Nat.ltb_irrefl. lia.
    + left. unfold nd_iter, dec_iterate, dec_step. unfold nd_state in S. rewrite S. unfold remainder. rewrite E, skipn_end. unfold od_chunk_last. rewrite Eo. reflexivity.
  - assert (Lt : (n_pos x < length c)%nat) by lia. destruct (skipn_nonempty c (n_pos x) Lt) as (b & r & Es).
    assert (HP := od_chunk_post (k_od (n_dec x)) (k_hold (n_dec x)) (skipn (n_pos x) c) Np ltac:(left; rewrite Es; discriminate)).
    destruct (od_chunk (k_od (n_dec x)) (k_hold (n_dec x)) (skipn (n_pos x) c)) as [[[o h] n]| |] eqn:EC; [|left|destruct HP].
    + unfold chunk_post in HP. destruct HP as (_ & P2 & _). rewrite skipn_length in P2.
      assert (Hn : (n_pos x + n <= length c)%nat) by lia.
      right. exists (ND (opt_out c true (n_dec x) o h (n_pos x + n)) (n_pos x + n)). split; [now apply iter_options|].
      unfold od_chunk in EC. destruct (chunk_inv _ _ _ _ _ _ _ _ I B (bytes_ok_skipn _ _ Hok) EC) as (Io & Bo).
      assert (Hpr : (0 < n \/ (0 = n /\ dr (d_st o) < dr (d_st (k_od (n_dec x)))))%nat) by (rewrite Es in EC; exact (od_chunk_loop_progress _ _ _ _ _ _ _ _ _ Np EC)).
      destruct (ostate_eqb (d_st o) OPayload) eqn:Ep.
      { assert (Ep' : d_st o = OPayload) by (destruct (d_st o); try discriminate Ep; reflexivity). left.
        split; [unfold nd_state; cbn [n_dec]; now apply out_pay|]. cbn [n_dec n_pos opt_out k_od k_goto opt_dec]. auto. }
      assert (Ep' : d_st o <> OPayload) by (intro X; rewrite X in Ep; discriminate).
      destruct (Nat.eq_dec (n_pos x + n) (length c)) as [En|Nn].
      * destruct (ostate_eqb (d_st o) OptionValueDone) eqn:Ev.
        -- assert (Ev' : d_st o = OptionValueDone) by (destruct (d_st o); try discriminate Ev; reflexivity).
           left. rewrite En. split; [unfold nd_state; cbn [n_dec]; now apply out_end|]. cbn [n_pos]. split; [right; reflexivity|lia].
        -- assert (Ev' : d_st o <> OptionValueDone) by (intro X; rewrite X in Ev; discriminate).
           right. split; [split; [unfold nd_state; cbn [n_dec]; apply out_st; [assumption|congruence]|]; cbn [n_dec n_pos opt_out k_od k_goto opt_dec]; (split; [exact Io|]; split; [exact Bo|]; split; [exact Ep'|]; auto)|].
           unfold mu. cbn [n_pos n_dec opt_out k_od k_goto opt_dec]. rewrite En, Nat.ltb_irrefl.
           replace (n_pos x <? length c)%nat with true by (symmetry; now apply Nat.ltb_lt). pose proof (erank_bound o Bo). lia.
      * right. split; [split; [unfold nd_state; cbn [n_dec]; apply out_st; [assumption|congruence]|]; cbn [n_dec n_pos opt_out k_od k_goto opt_dec]; (split; [exact Io|]; split; [exact Bo|]; split; [exact Ep'|]; split; [exact Hn|congruence])|].
        unfold mu. cbn [n_pos n_dec opt_out k_od k_goto opt_dec].
        replace (n_pos x <? length c)%nat with true by (symmetry; now apply Nat.ltb_lt).
        replace (n_pos x + n <? length c)%nat with true by (symmetry; apply Nat.ltb_lt; lia).
        pose proof (dr_le2 (d_st o)). lia.
    + unfold nd_iter, dec_iterate, dec_step. unfold nd_state in S. rewrite S. unfold remainder. rewrite Es in *. rewrite chunk_last_nonempty, EC. reflexivity.
Qed.

(** * All iterations *)

Inductive isteps (c : list N) : nat -> ndec -> ndec -> Prop :=
| is0 : forall x, isteps c 0 x x
| isS : forall n x x1 y, alive c x -> nd_iter c true x = Ok x1 -> isteps c n x1 y -> isteps c (S n) x y.

(** an assertion is ahead *)
Definition doomed (c : list N) (x : ndec) : Prop := exists n y, (n <= mu c x)%nat /\ isteps c n x y /\ alive c y /\ nd_iter c true y = Fault.
(** the end of the options is ahead *)
Definition safe (c : list N) (x : ndec) : Prop := exists n y, (n <= S (mu c x))%nat /\ isteps c n x y /\ ended c y.

Lemma fate : forall c, bytes_ok c -> forall m x, (mu c x <= m)%nat -> alive c x -> doomed c x \/ safe c x.
Proof.
  intros c Hok. induction m as [|m IH]; intros x Hm A; destruct (alive_step c x Hok A) as [F|(x1 & E & [D|(A1 & L)])].
  - left. exists 0%nat, x. split; [lia|]. split; [constructor|auto].
  - right. exists 1%nat, x1. split; [lia|]. split; [econstructor; eauto; constructor|exact D].
  - lia.
  - left. exists 0%nat, x. split; [lia|]. split; [constructor|auto].
  - right. exists 1%nat, x1. split; [lia|]. split; [econstructor; eauto; constructor|exact D].
  - destruct (IH x1 ltac:(lia) A1) as [(n & y & P & Q & R & T)|(n & y & P & Q & R)].
    + left. exists (S n), y. split; [lia|]. split; [econstructor; eauto|auto].
    + right. exists (S n), y. split; [lia|]. split; [econstructor; eauto|auto].
Qed.

Lemma isteps_run : forall c n x y, isteps c n x y -> alive c y \/ ended c y ->
  exists es, nsteps c true stop_done n (n_dec x) (n_pos x) es (n_dec y) (n_pos y).
Proof.
  intros c n x y H D. induction H as [x|n x x1 y A E H IH]; [eexists; constructor|].
  destruct (IH D) as (es & Q).
  assert (P : alive c x1 \/ ended c x1) by (inversion H; subst; auto).
  destruct (notify_of_iter c x x1 E P) as (fs & fin & F). eexists. eapply nsS; [exact F| |exact Q].
  unfold stop_done. destruct P as [(S & _)|(S & _)]; unfold nd_state in S; rewrite S; reflexivity.
Qed.

Lemma run_doomed : forall c x fuel, doomed c x -> (mu c x < fuel)%nat -> dec_run fuel c (n_dec x) (n_pos x) = Fault.
Proof.
  intros c x fuel (n & y & L & H & A & F) Hf. destruct (isteps_run c n x y H (or_introl A)) as (es & Q).
  eapply run_fault; [exact Q|now apply notify_fault|lia].
Qed.

Lemma run_safe : forall c x fuel, safe c x -> (mu c x + 5 < fuel)%nat -> exists r, dec_run fuel c (n_dec x) (n_pos x) = Ok r.
Proof.
  intros c x fuel (n & y & L & H & D) Hf. destruct (isteps_run c n x y H (or_intror D)) as (es & Q). destruct D as (S & P & Lp).
  destruct P as [P|P].
  - eexists. eapply (run_pieces _ _ _ n _ _ _ _ 3 _ _ _ Q); [|lia]. intros k. apply run_done_payload; [exact S|exact P|exact Lp].
  - destruct (ostate_eqb (d_st (k_od (n_dec y))) OPayload) eqn:E.
    + assert (E' : d_st (k_od (n_dec y)) = OPayload) by (destruct (d_st (k_od (n_dec y))); try discriminate E; reflexivity).
      eexists. eapply (run_pieces _ _ _ n _ _ _ _ 3 _ _ _ Q); [|lia]. intros k. apply run_done_payload; [exact S|exact E'|exact Lp].
    + rewrite P in Q. eexists. eapply (run_pieces _ _ _ n _ _ _ _ 1 _ _ _ Q); [|lia]. intros k. apply run_done_end; [exact S|]. intro X. rewrite X in E. discriminate.
Qed.

(** * The iterator *)

Lemma after_end : forall c x, ended c x -> exists y, nd_iter c true x = Ok y /\ it_valid y = false /\ nd_state y <> OptionsDone.
Proof.
  intros c x (S & P & L). unfold nd_state in S.
  assert (Q : exists s, (s = RPayload \/ s = RDone) /\ dec_step c true (n_dec x) (n_pos x) = Ok (k_goto s (n_dec x), n_pos x)).
  { unfold dec_step. rewrite S. destruct (ostate_eqb (d_st (k_od (n_dec x))) OPayload) eqn:E; [eauto|].
    destruct P as [P|P]; [rewrite P in E; discriminate|]. rewrite P, Nat.eqb_refl. cbn [andb]. eauto. }
  destruct Q as (s & Hs & Q). exists (ND (k_goto s (n_dec x)) (n_pos x)). split.
  - unfold nd_iter, dec_iterate. rewrite Q. cbn [bind]. replace (n_pos x <=? length c)%nat with true by (symmetry; now apply Nat.leb_le). reflexivity.
  - unfold it_valid, nd_state. cbn [n_dec k_goto k_st]. destruct Hs as [-> | ->]; split; try reflexivity; discriminate.
Qed.

Lemma alive_valid : forall c x, alive c x -> it_valid x = true.
Proof. intros c x (S & _). unfold it_valid. rewrite S. reflexivity. Qed.
Lemma ended_valid : forall c x, ended c x -> it_valid x = false.
Proof. intros c x (S & _). unfold it_valid. rewrite S. reflexivity. Qed.

(** operator++ is up to three iterations, and leaves the options behind when they end *)
Lemma next_alive : forall c x, bytes_ok c -> alive c x ->
  (it_next c true x = Fault /\ doomed c x) \/
  exists x1, it_next c true x = Ok x1 /\
    ((it_valid x1 = false /\ safe c x) \/ (alive c x1 /\ (mu c x1 < mu c x)%nat /\ (doomed c x1 -> doomed c x) /\ (safe c x1 -> safe c x))).
Proof.
  intros c x Hok A. unfold it_next, nd_next, nd_from. pose proof A as (S & _). rewrite S. cbn [rstate_eqb].
  destruct (alive_step c x Hok A) as [F|(x1 & E1 & [D1|(A1 & L1)])].
  - left. rewrite F. split; [reflexivity|]. exists 0%nat, x. split; [lia|]. split; [constructor|auto].
  - right. rewrite E1. cbn [bind]. destruct (after_end c x1 D1) as (y & -> & V & N). cbn [bind].
    replace (rstate_eqb (nd_state y) OptionsDone) with false by (destruct (nd_state y); try reflexivity; congruence). cbn [bind].
    unfold it_valid in V. rewrite V. cbn [fst snd]. exists y. split; [reflexivity|]. left. split; [exact V|].
    exists 1%nat, x1. split; [lia|]. split; [econstructor; eauto; constructor|exact D1].
  - rewrite E1. cbn [bind]. destruct (alive_step c x1 Hok A1) as [F|(x2 & E2 & [D2|(A2 & L2)])].
    + left. rewrite F. split; [reflexivity|]. exists 1%nat, x1. split; [lia|]. split; [econstructor; eauto; constructor|auto].
    + right. rewrite E2. cbn [bind]. destruct (after_end c x2 D2) as (y & Ey & V & N). destruct D2 as (S2 & D2). rewrite S2. cbn [rstate_eqb]. rewrite Ey. cbn [bind].
      unfold it_valid in V. rewrite V. cbn [fst snd]. exists y. split; [reflexivity|]. left. split; [exact V|].
      exists 2%nat, x2. split; [lia|]. split; [do 2 (econstructor; eauto); constructor|split; assumption].
    + rewrite E2. cbn [bind]. pose proof A2 as (S2 & _). rewrite S2. cbn [rstate_eqb bind]. rewrite S2. cbn [rstate_eqb fst snd].
      destruct (alive_step c x2 Hok A2) as [F|(x3 & E3 & [D3|(A3 & L3)])].
      * left. rewrite F. split; [reflexivity|]. exists 2%nat, x2. split; [lia|]. split; [do 2 (econstructor; eauto); constructor|auto].
      * right. exists x3. split; [exact E3|]. left. split; [now apply (ended_valid c)|].
        exists 3%nat, x3. split; [lia|]. split; [do 3 (econstructor; eauto); constructor|exact D3].
      * right. exists x3. split; [exact E3|]. right. split; [exact A3|]. split; [lia|]. split.
        -- intros (n & y & P & Q & R). exists (3 + n)%nat, y. split; [lia|]. split; [do 3 (eapply isS; eauto)|exact R].
        -- intros (n & y & P & Q & R). exists (3 + n)%nat, y. split; [lia|]. split; [do 3 (eapply isS; eauto)|exact R].
Qed.

Lemma skip_any : forall c, bytes_ok c -> forall fuel x, alive c x -> (mu c x + 1 < fuel)%nat ->
  (it_skip fuel c true x = Fault /\ doomed c x) \/ exists y, it_skip fuel c true x = Ok y /\ safe c x.
Proof.
  intros c Hok. induction fuel as [|k IH]; intros x A L; [lia|]. cbn [it_skip]. rewrite (alive_valid c x A).
  destruct (next_alive c x Hok A) as [(-> & D)|(x1 & -> & [(V & G)|(A1 & L1 & D & G)])]; cbn [bind].
  - left. auto.
  - right. destruct k as [|k]; [lia|]. cbn [it_skip]. rewrite V. eauto.
  - destruct (IH x1 A1 ltac:(lia)) as [(E & X)|(y & E & X)]; rewrite E; [left|right]; eauto.
Qed.

Lemma opaque_any : forall c x, it_opaque c x = Fault \/ exists v f, it_opaque c x = Ok (v, f) /\ piece c v.
Proof.
  intros c x. unfold it_opaque, dec_option, od_length.
  destruct (get_value_cases (raw_length (k_od (n_dec x))) (d_b1 (k_od (n_dec x))) (d_b2 (k_od (n_dec x)))) as [(l & ->)| ->]; cbn [bind]; [right|left; reflexivity].
  unfold remainder. destruct (_ <=? _)%nat; do 2 eexists; (split; [reflexivity|]).
  - exists (firstn (n_pos x) c), (skipn (N.to_nat l) (skipn (n_pos x) c)). now rewrite firstn_skipn, firstn_skipn.
  - exists (firstn (n_pos x) c), []. now rewrite app_nil_r, firstn_skipn.
Qed.

Lemma piece_nil : forall c, piece c [].
Proof. intro c. exists c, []. now rewrite app_nil_r. Qed.

Lemma loop_any : forall c reads, bytes_ok c -> forall fuel x, alive c x -> (mu c x + 1 < fuel)%nat ->
  rs_loop reads fuel c x = Fault \/ exists l, rs_loop reads fuel c x = Ok l /\ safe c x /\ Forall (fun o => piece c (snd o)) l.
Proof.
  intros c reads Hok. induction fuel as [|k IH]; intros x A L; [lia|]. cbn [rs_loop]. rewrite (alive_valid c x A).
  assert (O : (if reads (it_number x) then bind (it_opaque c x) (fun v => Ok (fst v)) else Ok []) = Fault \/
    exists v, (if reads (it_number x) then bind (it_opaque c x) (fun v => Ok (fst v)) else Ok []) = Ok v /\ piece c v).
  { destruct (reads (it_number x)); [|right; exists []; split; [reflexivity|apply piece_nil]].
    destruct (opaque_any c x) as [-> |(v & f & -> & P)]; cbn [bind fst]; eauto. }
  destruct O as [-> |(v & -> & P)]; cbn [bind]; [auto|].
  destruct (next_alive c x Hok A) as [(-> & D)|(x1 & -> & [(V & G)|(A1 & L1 & D & G)])]; cbn [bind]; [auto|..].
  - right. destruct k as [|k]; [lia|]. cbn [rs_loop]. rewrite V. cbn [bind]. eexists. split; [reflexivity|]. split; [exact G|]. repeat constructor. exact P.
  - destruct (IH x1 A1 ltac:(lia)) as [-> |(l & -> & X & F)]; cbn [bind]; [auto|]. right. eexists. split; [reflexivity|]. split; [auto|].
    constructor; assumption.
Qed.

(** * The beginning *)

Lemma iter_mem : forall c last x y, bytes_ok c -> dec_mem' (n_dec x) -> nd_iter c last x = Ok y -> dec_mem' (n_dec y).
Proof.
  intros c last x y Hok M H. unfold nd_iter, dec_iterate in H.
  destruct (dec_step c last (n_dec x) (n_pos x)) as [[d1 p1]| |] eqn:E; cbn [bind] in H; try discriminate.
  destruct (p1 <=? length c)%nat; cbn [bind] in H; [|discriminate]. injection H as <-. cbn [fst snd n_dec]. eapply dec_step_mem; eauto.
Qed.

Lemma until_mem : forall c last s k x y, bytes_ok c -> dec_mem' (n_dec x) -> nd_until c last s k x = Ok y -> dec_mem' (n_dec y).
Proof.
  intros c last s k. induction k as [|k IH]; intros x y Hok M H; cbn [nd_until] in H; [discriminate|].
  destruct (rstate_eqb (nd_state x) s); [injection H as <-; exact M|].
  destruct (nd_iter c last x) as [x1| |] eqn:E; cbn [bind] in H; try discriminate. eapply IH; [exact Hok| |exact H]. eapply iter_mem; eauto.
Qed.

Lemma header_mem : forall c last x h y, bytes_ok c -> dec_mem' (n_dec x) -> nd_header c last x = Ok (h, y) -> dec_mem' (n_dec y).
Proof.
  intros c last x h y Hok M H. unfold nd_header in H.
  destruct (nd_until c last HeaderDone 10 x) as [x1| |] eqn:E1; cbn [bind] in H; try discriminate.
  destruct (nd_iter c last x1) as [x2| |] eqn:E2; cbn [bind] in H; try discriminate.
  assert (M1 := until_mem _ _ _ _ _ _ Hok M E1). assert (M2 := iter_mem _ _ _ _ Hok M1 E2).
  destruct (rstate_eqb (nd_state x2) TokenDone); [|injection H as _ <-; exact M2].
  destruct (nd_iter c last x2) as [x3| |] eqn:E3; cbn [bind] in H; try discriminate. injection H as _ <-. eapply iter_mem; eauto.
Qed.

Lemma token_mem : forall c last x t y, bytes_ok c -> dec_mem' (n_dec x) -> nd_token c last x = Ok (t, y) -> dec_mem' (n_dec y).
Proof.
  intros c last x t y Hok M H. unfold nd_token in H. destruct (nd_tkl c last x) as [[l z]| |] eqn:E; cbn [bind fst snd] in H; try discriminate.
  injection H as _ <-. unfold nd_tkl in E.
  assert (G : bind (nd_from c last TokenStart x) (fun x1 => bind (nd_until c last TokenDone 10 x1) (fun x2 =>
     bind (nd_iter c last x2) (fun x3 => Ok (dec_tkl (n_dec x), x3)))) = Ok (l, z) -> dec_mem' (n_dec z)).
  { clear E. intro E. unfold nd_from in E. destruct (rstate_eqb TokenStart (nd_state x)); [|discriminate].
    destruct (nd_iter c last x) as [x1| |] eqn:E1; cbn [bind] in E; try discriminate.
    destruct (nd_until c last TokenDone 10 x1) as [x2| |] eqn:E2; cbn [bind] in E; try discriminate.
    destruct (nd_iter c last x2) as [x3| |] eqn:E3; cbn [bind] in E; try discriminate. injection E as _ <-.
    assert (M1 := iter_mem _ _ _ _ Hok M E1). assert (M2 := until_mem _ _ _ _ _ _ Hok M1 E2). eapply iter_mem; eauto. }
  destruct (nd_state x); try exact (G E); injection E as _ <-; exact M.
Qed.

(** what rs_begin leaves when header and token are there *)
Lemma begin_any : forall junk d h tok rest, idle d -> bytes_ok (hdr_bytes h ++ tok ++ rest) -> h0 h mod 16 = len tok -> (length tok <= 8)%nat ->
  exists k x, rs_begin junk (hdr_bytes h ++ tok ++ rest) d = Ok (k, x) /\ c_hdr k = h /\ ctx_token k = Ok tok /\
    nd_state x = OptionsStart /\ n_pos x = (4 + length tok)%nat /\ dec_mem (n_dec x).
Proof.
  intros junk d h tok rest Hd Hok Ht H8. assert (Bt : bytes_ok tok) by (apply bytes_ok_app in Hok; destruct Hok as (_ & Hok); apply bytes_ok_app in Hok; tauto).
  rewrite <- tkl_mod in Ht. destruct (header_token true d h tok rest Hd Bt Ht H8) as (x1 & x & A & B & (S & P & _)).
  destruct (begin_ok junk _ _ _ _ _ _ A B H8 Ht) as (k & K1 & K2 & K3). exists k, x. split; [exact K1|]. split; [exact K2|]. split; [exact K3|]. split; [exact S|]. split; [exact P|].
  assert (M0 : dec_mem' (n_dec (ND d 0))). { destruct Hd as ([Q|Q] & M); (split; [exact M|]); cbn [n_dec]; rewrite Q; discriminate. }
  assert (M1 := header_mem _ _ _ _ _ Hok M0 A). exact (proj1 (token_mem _ _ _ _ _ Hok M1 B)).
Qed.

Lemma new_any : forall c x, bytes_ok c -> nd_state x = OptionsStart -> dec_mem (n_dec x) ->
  (n_pos x = length c -> exists y, it_new c true x = Ok y /\ it_valid y = false) /\
  ((n_pos x < length c)%nat ->
   let f := ND (opt_fresh (n_dec x)) (n_pos x) in alive c f /\
   ((it_new c true x = Fault /\ doomed c f) \/
    exists y, it_new c true x = Ok y /\
      ((it_valid y = false /\ safe c f) \/ (alive c y /\ (mu c y < mu c f)%nat /\ (doomed c y -> doomed c f) /\ (safe c y -> safe c f))))).
Proof.
  intros c x Hok S M. split.
  - intro P. unfold it_new, nd_begin, nd_from. rewrite S. cbn [rstate_eqb]. unfold nd_state in S.
    assert (E : nd_iter c true x = Ok (ND (k_goto OptionsDone (n_dec x)) (length c))).
    { unfold nd_iter, dec_iterate, dec_step. rewrite S. unfold remainder. rewrite P, skipn_end. cbn [length Nat.eqb andb bind]. rewrite Nat.leb_refl. reflexivity. }
    rewrite E. cbn [bind]. unfold nd_state at 1. cbn [n_dec k_st k_goto rstate_eqb].
    destruct (after_end c (ND (k_goto OptionsDone (n_dec x)) (length c))) as (y & -> & V & _).
    + split; [reflexivity|]. cbn [n_pos]. auto.
    + cbn [bind fst snd]. eauto.
  - intros L f.
    assert (A : alive c f).
    { unfold alive, f. cbn [n_dec n_pos opt_fresh opt_dec k_od]. split; [reflexivity|]. split; [exact I|]. split; [apply M|].
      split; [discriminate|]. split; [lia|discriminate]. }
    split; [exact A|]. unfold it_new, nd_begin, nd_from. rewrite S. cbn [rstate_eqb].
    assert (E : nd_iter c true x = nd_iter c true f).
    { unfold nd_iter. rewrite (iterate_start c (n_dec x) (n_pos x) S L). reflexivity. }
    rewrite E. destruct (alive_step c f Hok A) as [F|(x1 & E1 & [D1|(A1 & L1)])].
    + left. rewrite F. split; [reflexivity|]. exists 0%nat, f. split; [lia|]. split; [constructor|auto].
    + right. rewrite E1. cbn [bind]. pose proof D1 as (S1 & _). rewrite S1. cbn [rstate_eqb]. destruct (after_end c x1 D1) as (y & -> & V & _). cbn [bind fst snd].
      exists y. split; [reflexivity|]. left. split; [exact V|]. exists 1%nat, x1. split; [lia|]. split; [econstructor; eauto; constructor|exact D1].
    + rewrite E1. cbn [bind]. pose proof A1 as (S1 & _). rewrite S1. cbn [rstate_eqb bind fst snd].
      destruct (alive_step c x1 Hok A1) as [F|(x2 & E2 & [D2|(A2 & L2)])].
      * left. rewrite F. split; [reflexivity|]. exists 1%nat, x1. split; [lia|]. split; [econstructor; eauto; constructor|auto].
      * right. exists x2. split; [exact E2|]. left. split; [now apply (ended_valid c)|].
        exists 2%nat, x2. split; [lia|]. split; [do 2 (econstructor; eauto); constructor|exact D2].
      * right. exists x2. split; [exact E2|]. right. split; [exact A2|]. split; [lia|]. split.
        -- intros (n & y & P & Q & R). exists (2 + n)%nat, y. split; [lia|]. split; [do 2 (eapply isS; eauto)|exact R].
        -- intros (n & y & P & Q & R). exists (2 + n)%nat, y. split; [lia|]. split; [do 2 (eapply isS; eauto)|exact R].
Qed.
