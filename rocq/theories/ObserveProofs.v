From Verif Require Import Base UIntModel UIntSpec UIntProofs UIntProps HeaderModel HeaderSpec HeaderProofs OptEncModel OptSpec StreambufModel DecoderModel DecoderSpec
  OptEncProofs StreambufProofs NetbufModel NetbufSpec NetbufProofs NetbufProps ContextModel ObserveModel ObserveSpec.
Local Open Scope N_scope.

(** ---- encoder calls only append ---- *)

Definition grows (b b' : nbenc) : Prop := exists t, s_out (n_sink b') = s_out (n_sink b) ++ t.
Definition sgrows (s s' : sink) : Prop := exists t, s_out s' = s_out s ++ t.

Lemma sgrows_refl : forall s, sgrows s s.
Proof. intro s. exists []. symmetry. apply app_nil_r. Qed.
Lemma sgrows_trans : forall a b c, sgrows a b -> sgrows b c -> sgrows a c.
Proof. intros a b c [t H] [u K]. exists (t ++ u). rewrite K, H, app_assoc. reflexivity. Qed.
Lemma sputn_grows : forall v s n s', sputn v s = (n, s') -> sgrows s s'.
Proof. intros v s n s' H. unfold sputn in H. pose proof (f_equal snd H) as K. cbn [snd] in K. subst s'. eexists. reflexivity. Qed.
Lemma sputc_grows : forall c s s', sputc c s = Some s' -> sgrows s s'.
Proof. intros c s s' H. unfold sputc in H. destruct (s_room s); [discriminate|]. injection H as <-. eexists. reflexivity. Qed.

Lemma loop_grows : forall f d o e s e' s', nbe_loop f d o e s = Ok (e', s') -> sgrows s s'.
Proof.
  induction f as [|f IH]; intros d o e s e' s' H; [discriminate|]. cbn [nbe_loop] in H.
  destruct (_ && _); [|injection H as _ <-; apply sgrows_refl].
  destruct (generate_iterate o e) as [[[c|] e1]| |]; cbn [bind fst snd] in H; try discriminate.
  - destruct (sputc c s) as [s1|] eqn:S; [|discriminate]. eapply sgrows_trans; [eapply sputc_grows, S|eapply IH, H].
  - eapply IH, H.
Qed.

Lemma header_grows : forall f n l b x b', nbe_option_header_fuel f n l b = Ok (x, b') -> sgrows (n_sink b) (n_sink b').
Proof.
  intros f n l b x b' H. unfold nbe_option_header_fuel in H.
  destruct (assert_not_state RHeader b); cbn [bind] in H; try discriminate.
  destruct (assert_not_state RToken b); cbn [bind] in H; try discriminate.
  destruct (assert_not_state RPayload b); cbn [bind] in H; try discriminate.
  destruct (nbe_loop _ _ _ _ _) as [[e s]| |] eqn:L; cbn [bind fst snd] in H; try discriminate. apply loop_grows in L.
  destruct (ostate_eqb _ _); injection H as _ <-; exact L.
Qed.

Lemma option_grows : forall n v b x b', nbe_option n v true b = Ok (x, b') -> sgrows (n_sink b) (n_sink b').
Proof.
  intros n v b x b' H. unfold nbe_option, nbe_option_fuel in H. destruct (nbe_option_header_fuel _ _ _ b) as [[y b1]| |] eqn:E; cbn [bind fst snd] in H; try discriminate.
  apply header_grows in E. destruct y; [|injection H as _ <-; exact E]. eapply sgrows_trans; [exact E|].
  unfold nbe_option_value in H. destruct (sputn v (n_sink b1)) as [k s] eqn:S. apply sputn_grows in S. destruct (k =? length v)%nat.
  - destruct (oenc_fast_forward _); cbn [bind] in H; try discriminate. injection H as _ <-. exact S.
  - injection H as _ <-. exact S.
Qed.

Lemma call_grows : forall c b x b', nbe_call c b = Ok (x, b') -> sgrows (n_sink b) (n_sink b').
Proof.
  intros c b x b' H. destruct c as [h|t|n v|n|n v|p|k]; cbn [nbe_call] in H.
  - unfold nbe_header in H. destruct (assert_state RHeader b); cbn [bind] in H; try discriminate.
    destruct (4 <=? s_room (n_sink b))%nat; injection H as _ <-; [eexists; reflexivity|apply sgrows_refl].
  - unfold nbe_token in H. destruct (assert_state RHeaderDone b); cbn [bind] in H; try discriminate.
    destruct (sputn t (n_sink b)) eqn:S. injection H as _ <-. eapply sputn_grows, S.
  - eapply option_grows, H.
  - eapply header_grows, H.
  - unfold nbe_option_int in H. destruct (layer2_set 4 v); cbn [bind] in H; try discriminate. eapply option_grows, H.
  - unfold nbe_payload in H. destruct (nbe_payload_header b) as [[y b1]| |] eqn:E; cbn [bind fst snd] in H; try discriminate.
    assert (G : sgrows (n_sink b) (n_sink b1)).
    { unfold nbe_payload_header in E. repeat match type of E with bind ?t _ = _ => destruct t; cbn [bind] in E; try discriminate end.
      destruct (nbe_marker_written b); [injection E as _ <-; apply sgrows_refl|]. destruct (sputc 255 (n_sink b)) eqn:S; injection E as _ <-; [eapply sputc_grows, S|apply sgrows_refl]. }
    destruct y; [|injection H as _ <-; exact G]. destruct (sputn p (n_sink b1)) eqn:S. injection H as _ <-. eapply sgrows_trans; [exact G|eapply sputn_grows, S].
  - injection H as _ <-. exists []. symmetry. apply app_nil_r.
Qed.

Lemma run_grows : forall cs b xs b', nbe_run cs b = Ok (xs, b') -> sgrows (n_sink b) (n_sink b').
Proof.
  induction cs as [|c cs IH]; intros b xs b' H; cbn [nbe_run] in H; [injection H as _ <-; apply sgrows_refl|].
  destruct (nbe_call c b) as [[x b1]| |] eqn:E; cbn [bind fst snd] in H; try discriminate.
  destruct (nbe_run cs b1) as [[ys b2]| |] eqn:E2; cbn [bind fst snd] in H; try discriminate. injection H as _ <-.
  eapply sgrows_trans; [eapply call_grows, E|eapply IH, E2].
Qed.

(** ---- the part of a notification for_each writes itself ---- *)

Lemma seq_value : forall seq, 0 < seq -> seq < 2 ^ 31 ->
  exists v, layer2_set 4 seq = Ok v /\ be v = seq /\ minimal v /\ bytes_ok v /\ (0 < length v <= 4)%nat.
Proof.
  intros seq H0 H. assert (H64 : seq < 2 ^ 64) by (eapply N.lt_trans; [exact H|reflexivity]).
  destruct (C02_uint_minimal seq H64) as (v & E & B1 & B2 & B3 & _).
  destruct (C03_layer2_set 4 seq H64) as [(_ & w & L & _ & Lw)|[G _]].
  2:{ change (256 ^ N.of_nat 4) with 4294967296 in G. change (2 ^ 31) with 2147483648 in H. lia. }
  assert (w = v) by (unfold layer2_set in L; rewrite E in L; cbn [bind] in L; destruct (4 <? length v)%nat; congruence). subst w.
  exists v. split; [exact L|]. repeat split; try assumption. destruct v; [cbn in B2; lia|cbn; lia].
Qed.

Lemma notify_hdr : forall mid n, (n <= 8)%nat -> mid < 2 ^ 31 - 1 ->
  exists h, hdr_set_tkl (N.of_nat n) (hdr_set_mid (mid mod 65536) (hdr_new_code NON (response_code_of 2 5))) = Ok h /\ hdr_ok h /\
    hdr_bytes h = wire (Fields 1 1 (N.of_nat n) 69 (mid mod 65536)).
Proof.
  intros mid n Hn Hm.
  assert (Hnew : hdr_ok (hdr_new_code NON (response_code_of 2 5))) by (apply hdr_ok_iff; repeat split; vm_compute; reflexivity).
  destruct (hop_run_fields [HMid (mid mod 65536); HTkl (N.of_nat n)] _ Hnew) as (h & E & Hok & Hf).
  { repeat constructor; cbn; lia. }
  cbn [hop_run hop_step bind] in E. exists h. split; [destruct (hdr_set_tkl _ _); cbn [bind] in E; congruence|]. split; [exact Hok|].
  destruct (wire_fields_of _ Hok) as [Hw _]. rewrite <- Hw, Hf. cbn [last_of p_type p_code p_mid p_tkl]. reflexivity.
Qed.

(** the encoder after header, token and Observe option *)
Lemma notify_front : forall debug room mid tok seq, (17 <= room)%nat -> (length tok <= 8)%nat -> mid < 2 ^ 31 - 1 -> 0 < seq -> seq < 2 ^ 31 ->
  exists h r1 r2, hdr_set_tkl (N.of_nat (length tok)) (hdr_set_mid (mid mod 65536) (hdr_new_code NON (response_code_of 2 5))) = Ok h /\
    nbe_header h (nbe_init debug room) = Ok r1 /\ nbe_token tok (snd r1) = Ok r2 /\ exists b3 v, nbe_option_sint 6 seq (snd r2) = Ok (true, b3) /\
    be v = seq /\ minimal v /\ bytes_ok v /\ (0 < length v <= 4)%nat /\
    let front := wire (Fields 1 1 (len tok) 69 (mid mod 65536)) ++ tok ++ opts_bytes 0 [(6, v)] in
    n_sink b3 = Sink (room - length front) front /\ (length front <= 17)%nat /\
    e_cur (n_enc b3) = 6 /\ fresh b3 /\ can_option b3 /\ n_debug b3 = debug /\ n_marker b3 = false.
Proof.
  intros debug room mid tok seq Hr Ht Hm H0 H31.
  destruct (notify_hdr mid (length tok) Ht Hm) as (h & Eh & _ & Hw). destruct (seq_value seq H0 H31) as (v & L & V1 & V2 & V3 & V4).
  exists h. eexists. eexists. split; [exact Eh|].
  unfold nbe_header, nbe_init. unfold assert_state at 1. cbn [n_debug n_state rstate_eqb]. rewrite orb_true_r. cbn [bind n_sink s_room].
  destruct (Nat.leb_spec 4 room); [|lia]. rewrite sputn_all by (cbn [hdr_bytes length]; lia). change (length (hdr_bytes h)) with 4%nat. cbn [snd].
  split; [reflexivity|]. cbn [snd].
  unfold nbe_token, assert_state. cbn [n_set_state n_set_sink n_set_enc n_debug n_state n_sink].
  assert (A : negb debug || rstate_eqb (if debug then RHeaderDone else RHeader) RHeaderDone = true) by (destruct debug; reflexivity). rewrite A. cbn [bind].
  rewrite sputn_all by lia. split; [reflexivity|]. cbn [snd].
  unfold nbe_option_sint. destruct (N.ltb_spec seq (2 ^ 31)); [|lia]. unfold nbe_option_int. rewrite L. cbn [bind].
  assert (G : nb_guard (6 - 0) (len v)) by (unfold nb_guard, enc_short, len; lia).
  assert (OH : length (opt_head (6 - 0) (len v)) = 1%nat).
  { unfold opt_head, ext, len. destruct (N.ltb_spec (6 - 0) 13); [|lia]. destruct (N.ltb_spec (N.of_nat (length v)) 13); [reflexivity|lia]. }
  match goal with |- context [nbe_option 6 v true ?b] => destruct (option_good 6 v b 0 0 (room - 4 - length tok)%nat (hdr_bytes h ++ tok)) as (p & b3 & E1 & E2 & E3 & E4 & E5 & E6) end;
    try reflexivity; try assumption.
  - left. reflexivity.
  - unfold can_option. cbn. destruct debug; auto.
  - lia.
  - unfold len. lia.
  - rewrite app_length. lia.
  - exists b3, v. split; [exact E1|]. split; [exact V1|]. split; [exact V2|]. split; [exact V3|]. split; [exact V4|].
    cbv zeta. cbn [opts_bytes]. rewrite app_nil_r. change (N.of_nat (length tok)) with (len tok) in Hw. rewrite <- Hw.
    split.
    + rewrite E3. rewrite !app_length. change (length (hdr_bytes h)) with 4%nat. rewrite <- !app_assoc. replace (room - (4 + (length tok + (length (opt_head (6 - 0) (len v)) + length v))))%nat with (room - 4 - length tok - (length (opt_head (6 - 0) (len v)) + length v))%nat by lia. reflexivity.
    + rewrite !app_length. change (length (hdr_bytes h)) with 4%nat. rewrite OH. split; [lia|]. rewrite E2. split; [reflexivity|].
      split; [right; rewrite E2; reflexivity|]. split; [exact E6|]. split; [rewrite E4; reflexivity|rewrite E5; reflexivity].
Qed.

Lemma notify_prefix : forall A debug room emit mid (s : session A) mid' s' out,
  (17 <= room)%nat -> (length (os_tok s) <= 8)%nat -> os_seq s < 2 ^ 31 ->
  notify_one debug room emit mid s = Ok (mid', s', out) ->
  mid' = mid + 1 /\ s' = Session (os_seq s + 1) (os_addr s) (os_tok s) /\ os_seq s + 1 < 2 ^ 31 /\ fst out = os_addr s /\
  notification mid (os_tok s) (os_seq s + 1) (snd out).
Proof.
  intros A debug room emit mid [seq a tok] mid' s' out Hr Ht Hs H. cbn [os_seq os_addr os_tok] in *.
  unfold notify_one in H. cbn [os_seq os_addr os_tok] in H. assert (P1 : 2 ^ 31 = 2147483648) by reflexivity. assert (P2 : 2 ^ 32 = 4294967296) by reflexivity. rewrite ?P1, ?P2 in *.
  rewrite (N.mod_small (seq + 1)) in H by lia. destruct (N.ltb_spec mid (2147483648 - 1)) as [Hm|]; [|discriminate].
  destruct (N.lt_ge_cases (seq + 1) 2147483648) as [Hq|Hq].
  - destruct (notify_front debug room mid tok (seq + 1) Hr Ht ltac:(rewrite P1; exact Hm) ltac:(lia) ltac:(rewrite P1; exact Hq)) as (h & r1 & r2 & E1 & E2 & E3 & b3 & v & E4 & V1 & V2 & V3 & V4 & F1 & _).
    rewrite E1 in H. cbn [bind] in H. rewrite E2 in H. cbn [bind] in H. rewrite E3 in H. cbn [bind] in H. rewrite E4 in H. cbn [bind snd] in H.
    destruct (nbe_run _ b3) as [[xs b4]| |] eqn:E5; cbn [bind snd] in H; try discriminate. injection H as <- <- <-.
    repeat split; try lia. cbn [snd]. destruct (run_grows _ _ _ _ E5) as [t G]. rewrite F1 in G. cbn [s_out] in G.
    exists v, t. split; [exact V1|]. split; [exact V2|]. split; [exact V3|]. rewrite G, <- !app_assoc. reflexivity.
  - exfalso. destruct (hdr_set_tkl _ _); cbn [bind] in H; try discriminate. destruct (nbe_header _ _); cbn [bind] in H; try discriminate.
    destruct (nbe_token _ _); cbn [bind] in H; try discriminate. unfold nbe_option_sint in H. rewrite P1 in H.
    destruct (N.ltb_spec (seq + 1) 2147483648); [lia|discriminate].
Qed.

(** ---- histories ---- *)

Definition reg_of {A} (s : session A) : A * list N * N := (os_addr s, os_tok s, os_seq s).
Definition bump {A} (x : A * list N * N) : A * list N * N := let '(a, t, n) := x in (a, t, n + 1).

Lemma rounds_app : forall A i (a b : list (oop A)), rounds i (a ++ b) = rounds i a + rounds i b.
Proof. induction a as [|[]]; intros; cbn [app rounds]; rewrite ?IHa; lia. Qed.

Lemma subs_reg : forall A i (pre : list (oop A)) j c a code,
  subs i (pre ++ [OObserve j c a code]) = subs i pre ++ (if Nat.eqb j i && (code =? 0) then [(a, req_token c, 0)] else []).
Proof.
  induction pre as [|[j0 c0 a0 code0|j0] pre IH]; intros j c a code; cbn [app subs]; rewrite ?IH.
  - destruct (_ && _); reflexivity.
  - rewrite rounds_app. cbn [rounds]. rewrite N.add_0_r. destruct (Nat.eqb j0 i && _); reflexivity.
  - reflexivity.
Qed.

Lemma subs_notify : forall A i (pre : list (oop A)) j,
  subs i (pre ++ [ONotify j]) = if Nat.eqb j i then map bump (subs i pre) else subs i pre.
Proof.
  induction pre as [|[j0 c0 a0 code0|j0] pre IH]; intros j; cbn [app subs]; rewrite ?IH.
  - destruct (Nat.eqb j i); reflexivity.
  - rewrite rounds_app. cbn [rounds]. destruct (Nat.eqb j i); destruct (Nat.eqb j0 i && _); cbn [map bump]; rewrite ?N.add_0_r; try reflexivity.
  - reflexivity.
Qed.

Lemma matches_app : forall A R k (xs : list (A * list N)) es ys fs, matches R k xs es -> matches R (k + len (map (fun _ => 0) xs)) ys fs ->
  matches R k (xs ++ ys) (es ++ fs).
Proof.
  intros A R k xs. revert k. induction xs as [|[a bs] xs IH]; intros k [|[[a' t] n] es] ys fs H1 H2; cbn [matches] in H1; try contradiction.
  - cbn [app]. cbn in H2. rewrite N.add_0_r in H2. exact H2.
  - destruct H1 as (P & Q & S). cbn [app matches]. split; [exact P|]. split; [exact Q|]. apply IH; [exact S|].
    replace (k + 1 + len (map (fun _ => 0) xs)) with (k + len (map (fun _ => 0) ((a, bs) :: xs))); [exact H2|].
    unfold len. cbn [map length]. lia.
Qed.

Lemma sent_app : forall A (a b : list (oout A)), sent (a ++ b) = sent a ++ sent b.
Proof. induction a as [|[]]; intros; cbn [app sent]; rewrite ?IHa; reflexivity. Qed.
Lemma answered_app : forall A (a b : list (oout A)), answered (a ++ b) = answered a ++ answered b.
Proof. induction a as [|[]]; intros; cbn [app answered]; rewrite ?IHa; reflexivity. Qed.
Lemma sent_sends : forall A (l : list (A * list N)), sent (map (fun o => OSend (fst o) (snd o)) l) = l.
Proof. induction l as [|[a b] l IH]; [reflexivity|]. cbn [map sent fst snd]. rewrite IH. reflexivity. Qed.
Lemma answered_sends : forall A (l : list (A * list N)), answered (map (fun o => OSend (fst o) (snd o)) l) = [].
Proof. induction l as [|[a b] l IH]; [reflexivity|]. cbn [map answered fst snd]. exact IH. Qed.

(** what a registrar holds *)
Definition good_regs {A} (l : list (session A)) : Prop := Forall (fun s => (length (os_tok s) <= 8)%nat /\ os_seq s < 2 ^ 31) l.

(** each notification of the registrar is as [R] says *)
Definition one_ok {A} (debug : bool) (room : nat) (emit : session A -> list nbcall) (R : N -> list N -> N -> list N -> Prop) : Prop :=
  forall mid (s : session A) mid' s' out, (length (os_tok s) <= 8)%nat -> os_seq s < 2 ^ 31 ->
  notify_one debug room emit mid s = Ok (mid', s', out) ->
  mid' = mid + 1 /\ s' = Session (os_seq s + 1) (os_addr s) (os_tok s) /\ os_seq s + 1 < 2 ^ 31 /\ fst out = os_addr s /\
  R mid (os_tok s) (os_seq s + 1) (snd out).

Lemma each_matches : forall A debug room emit R, @one_ok A debug room emit R -> forall regs mid mid' regs' outs, good_regs regs -> for_each debug room emit mid regs = Ok (mid', regs', outs) ->
  mid' = mid + len (map (fun _ => 0) outs) /\ map reg_of regs' = map bump (map reg_of regs) /\ good_regs regs' /\
  matches R mid outs (map bump (map reg_of regs)).
Proof.
  intros A debug room emit R one. induction regs as [|s regs IH]; intros mid mid' regs' outs G H; cbn [for_each] in H.
  - injection H as <- <- <-. cbn. rewrite N.add_0_r. split; [reflexivity|]. split; [reflexivity|]. split; [constructor|exact I].
  - inversion G as [|x y [G1 G2] G3]; subst. destruct (notify_one _ _ _ _ _) as [[[m1 s1] o1]| |] eqn:E; cbn [bind] in H; try discriminate.
    destruct (for_each _ _ _ _ _) as [[[m2 r2] o2]| |] eqn:F; cbn [bind] in H; try discriminate. injection H as <- <- <-.
    destruct (one _ _ _ _ _ G1 G2 E) as (-> & -> & P & Q & T). destruct (IH _ _ _ _ G3 F) as (-> & I2 & I3 & I4).
    split; [unfold len; cbn [map length]; lia|]. split; [cbn [map]; rewrite I2; reflexivity|].
    split; [constructor; [cbn; auto|exact I3]|]. cbn [map matches]. destruct o1 as [a bs]. cbn [fst snd] in *. cbn [bump reg_of].
    split; [exact Q|]. split; [exact T|exact I4].
Qed.

Lemma run_matches : forall A debug room emit R, @one_ok A debug room emit R -> forall cap ops pre st outs st',
  (forall i, map reg_of (ob_regs st i) = subs i pre /\ good_regs (ob_regs st i)) ->
  (forall o, In o ops -> req_ok o) ->
  obs_run debug cap room emit ops st = Ok (outs, st') ->
  matches R (ob_mid st) (sent outs) (sends pre ops) /\ answered outs = answers ops /\
  (forall i, map reg_of (ob_regs st' i) = subs i (pre ++ ops) /\ good_regs (ob_regs st' i)) /\
  ob_mid st' = ob_mid st + len (map (fun _ => 0) (sent outs)).
Proof.
  intros A debug room emit R one cap. induction ops as [|o ops IH]; intros pre st outs st' I Hok H; cbn [obs_run] in H.
  - injection H as <- <-. cbn. rewrite app_nil_r, N.add_0_r. split; [exact Logic.I|]. split; [reflexivity|]. split; [exact I|reflexivity].
  - destruct (obs_step _ _ _ _ _ _) as [[o1 st1]| |] eqn:E; cbn [bind fst snd] in H; try discriminate.
    destruct (obs_run _ _ _ _ _ _) as [[o2 st2]| |] eqn:F; cbn [bind fst snd] in H; try discriminate. injection H as <- <-.
    assert (K : matches R (ob_mid st) (sent o1) (sends pre [o]) /\ ob_mid st1 = ob_mid st + len (map (fun _ => 0) (sent o1)) /\ answered o1 = answers [o] /\
      (forall i, map reg_of (ob_regs st1 i) = subs i (pre ++ [o]) /\ good_regs (ob_regs st1 i))).
    { pose proof (Hok o (or_introl eq_refl)) as Ho. destruct o as [i c a code|i]; cbn [obs_step] in E.
      - destruct Ho as [Ho1 Ho2]. destruct (evaluate_observe _ _ _ _ _) as [[rc regs]| |] eqn:V; cbn [bind fst snd] in E; try discriminate.
        injection E as <- <-. cbn [sent map sends app ob_mid ob_regs]. cbn. rewrite N.add_0_r. split; [exact Logic.I|]. split; [reflexivity|].
        assert (W : rc = (if code <=? 1 then 67 else 130) /\ regs = ob_regs st i ++ (if code =? 0 then [Session 0 a (req_token c)] else [])).
        { unfold evaluate_observe in V. destruct code as [|[p|p|]].
          - unfold do_register, ctx_token in V. destruct (N.leb_spec (hdr_tkl (c_hdr c)) 8); [|lia]. cbn [bind] in V. destruct (_ <? _)%nat; cbn [bind] in V; [|discriminate].
            injection V as <- <-. split; reflexivity.
          - injection V as <- <-. split; [reflexivity|symmetry; apply app_nil_r].
          - injection V as <- <-. split; [reflexivity|symmetry; apply app_nil_r].
          - injection V as <- <-. split; [reflexivity|symmetry; apply app_nil_r]. }
        destruct W as [W1 W2]. split; [rewrite W1; reflexivity|]. intro j. unfold set_regs. rewrite subs_reg, (Nat.eqb_sym i j). destruct (Nat.eqb_spec j i) as [->|].
        + cbn [andb]. rewrite W2. rewrite map_app. rewrite (proj1 (I i)). destruct (code =? 0); cbn [map reg_of os_addr os_tok os_seq].
          * split; [reflexivity|]. apply Forall_app. split; [apply I|]. constructor; [|constructor]. cbn [os_tok os_seq]. split; [|reflexivity].
            unfold req_token. rewrite firstn_length. lia.
          * split; [reflexivity|]. rewrite app_nil_r. apply I.
        + cbn [andb]. rewrite app_nil_r. apply I.
      - destruct (for_each _ _ _ _ _) as [[[m r] os]| |] eqn:V; cbn [bind] in E; try discriminate. injection E as <- <-.
        destruct (each_matches _ _ _ _ _ one _ _ _ _ _ (proj2 (I i)) V) as (-> & V2 & V3 & V4). rewrite sent_sends, answered_sends. cbn [sends ob_mid ob_regs answers].
        rewrite app_nil_r. rewrite (proj1 (I i)) in *. split; [exact V4|]. split; [reflexivity|]. split; [reflexivity|].
        intro j. unfold set_regs. rewrite subs_notify, (Nat.eqb_sym i j). destruct (Nat.eqb_spec j i) as [->|]; [|apply I]. split; [exact V2|exact V3]. }
    destruct K as (K1 & K2 & K3 & K4).
    destruct (IH (pre ++ [o]) st1 o2 st2 K4 (fun x X => Hok x (or_intror X)) F) as (J1 & J2 & J3 & J4).
    split.
    + rewrite sent_app. replace (sends pre (o :: ops)) with (sends pre [o] ++ sends (pre ++ [o]) ops) by (cbn [sends]; rewrite app_nil_r; reflexivity).
      apply matches_app; [exact K1|]. rewrite <- K2. exact J1.
    + split; [rewrite answered_app, K3, J2; destruct o; reflexivity|]. split.
      * intro i. destruct (J3 i) as [J5 J6]. split; [rewrite J5, <- app_assoc; reflexivity|exact J6].
      * rewrite J4, K2, sent_app, map_app. unfold len. rewrite app_length. lia.
Qed.

Lemma matches_length : forall A R (xs : list (A * list N)) k es, matches R k xs es -> length xs = length es.
Proof. induction xs as [|[a bs] xs IH]; intros k [|[[a' t] n] es] H; cbn [matches] in H; try contradiction; [reflexivity|]. cbn [length]. f_equal. eapply IH, H. Qed.
