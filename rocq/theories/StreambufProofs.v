From Verif Require Import Base UIntModel UIntProofs HeaderModel OptEncModel OptSpec StreambufModel OptEncProofs.
Local Open Scope N_scope.

Lemma sb_option_total : forall num l b, exists x b', sb_option num l b = Ok (x, b').
Proof.
  intros num l [e s]. unfold sb_option. cbn [sb_enc sb_sink].
  apply loop_total; cbn [oenc_next e_st hstate silent]; [exact I|lia].
Qed.

Lemma sb_option_append : forall num l b x b',
  sb_option num l b = Ok (x, b') ->
  exists t, s_out (sb_sink b') = s_out (sb_sink b) ++ t /\
    s_room (sb_sink b) = (s_room (sb_sink b') + length t)%nat /\
    (x = false -> s_room (sb_sink b') = O).
Proof. intros num l b x b' H. unfold sb_option in H. apply loop_append in H. exact H. Qed.

Lemma sputn_append : forall bs s,
  s_out (snd (sputn bs s)) = s_out s ++ firstn (s_room s) bs /\
  s_room s = (s_room (snd (sputn bs s)) + length (firstn (s_room s) bs))%nat /\
  fst (sputn bs s) = Nat.min (length bs) (s_room s).
Proof.
  intros bs [r out]. cbn [sputn fst snd s_out s_room]. rewrite firstn_length.
  split; [|split; lia]. f_equal.
  destruct (Nat.le_ge_cases (length bs) r).
  - rewrite Nat.min_l, !firstn_all2 by lia. reflexivity.
  - rewrite Nat.min_r by lia. reflexivity.
Qed.

(** the header call inside the guard *)
Lemma sb_option_good : forall num l st cur pos room out,
  cur <= num -> num < 65536 -> enc_short (num - cur) l \/ enc_long (num - cur) l ->
  (length (opt_head (num - cur) l) <= room)%nat ->
  exists p, sb_option num l (SB (OEnc st cur pos) (Sink room out)) =
    Ok (true, SB (OEnc OptionLengthDone num p)
                 (Sink (room - length (opt_head (num - cur) l)) (out ++ opt_head (num - cur) l))).
Proof.
  intros num l st cur pos room out Hc Hn Hg Hr. unfold sb_option.
  assert (Hl : l < 65536).
  { destruct Hg as [[H _]|[_ [H|H]]]; lia. }
  rewrite !N.mod_small by assumption. cbn [sb_enc sb_sink s_room oenc_next e_cur e_pos].
  replace (room + 8)%nat with (5 + (room + 3))%nat by lia.
  apply loop_good; auto. lia.
Qed.

Lemma sb_option_exact : forall num l st cur pos room out b',
  cur <= num -> num < 65536 -> l < 65536 ->
  sb_option num l (SB (OEnc st cur pos) (Sink room out)) = Ok (true, b') ->
  (s_out (sb_sink b') = out ++ opt_head (num - cur) l <->
   enc_short (num - cur) l \/ enc_long (num - cur) l).
Proof.
  intros num l st cur pos room out b' Hc Hn Hl H. split.
  - intro Ho.
    destruct (N.lt_ge_cases l 13) as [L|L].
    + assert (Hdec : enc_short (num - cur) l \/ ~ enc_short (num - cur) l).
      { unfold enc_short. destruct (N.le_gt_cases (num - cur) 241);
          destruct (N.le_gt_cases 269 (num - cur));
          destruct (N.le_gt_cases (num - cur) 65265); [left|left|left|left|left|right|right|right]; lia. }
      destruct Hdec as [|Hns]; [auto|]. exfalso.
      unfold sb_option in H. rewrite !N.mod_small in H by assumption.
      cbn [sb_enc sb_sink s_room oenc_next e_cur e_pos] in H.
      replace (room + 8)%nat with (5 + (room + 3))%nat in H by lia.
      refine (loop_bad _ _ _ _ _ _ _ _ Hc Hn Hl Hns _ H Ho).
      unfold enc_long. lia.
    + assert (Hdec : enc_long (num - cur) l \/ ~ enc_long (num - cur) l).
      { unfold enc_long. destruct (N.lt_ge_cases (num - cur) 13); [|right; lia].
        destruct (N.eq_dec l 26); [left; lia|].
        destruct (N.le_gt_cases 269 l); [|right; lia].
        destruct (N.le_gt_cases l 65265); [|right; lia].
        destruct (N.eq_dec ((l - 269) / 256) 13); [right; lia|].
        destruct (N.eq_dec ((l - 269) mod 256) 13); [left; lia|].
        destruct (N.eq_dec ((l - 269) mod 256) 14); [left; lia|right; lia]. }
      destruct Hdec as [|Hnl]; [auto|]. exfalso.
      unfold sb_option in H. rewrite !N.mod_small in H by assumption.
      cbn [sb_enc sb_sink s_room oenc_next e_cur e_pos] in H.
      replace (room + 8)%nat with (5 + (room + 3))%nat in H by lia.
      refine (loop_bad _ _ _ _ _ _ _ _ Hc Hn Hl _ Hnl H Ho).
      unfold enc_short. lia.
  - intro Hg.
    unfold sb_option in H. rewrite !N.mod_small in H by assumption.
    cbn [sb_enc sb_sink s_room oenc_next e_cur e_pos] in H.
    replace (room + 8)%nat with (5 + (room + 3))%nat in H by lia.
    unfold oenc_next in H. cbn [e_cur e_pos] in H.
    destruct (Nat.lt_ge_cases room (length (opt_head (num - cur) l))) as [Hr|Hr].
    + (* too small a buffer cannot return true *)
      exfalso.
      assert (Hgd : good_delta (num - cur)).
      { destruct Hg as [[_ G]|[G _]]; unfold good_delta; lia. }
      assert (Hgl : l <= 241 \/ (269 <= l /\ l <= 65265)).
      { destruct Hg as [[G _]|[_ G]]; lia. }
      destruct (phase1 (room + 3) num l cur pos room out Hc Hn Hgd) as [Hsmall Hp].
      rewrite (gh_root_nib l Hgl), (lor_nib _ _ (nib_le _) (nib_le _)) in *.
      cbn [length] in *. unfold opt_head in Hr. cbn [length] in Hr. rewrite app_length in Hr.
      destruct (Nat.lt_ge_cases room (S (length (ext (num - cur))))) as [Hr1|Hr1].
      { destruct (Hsmall Hr1) as (e2 & E). rewrite E in H. discriminate. }
      destruct (Hp (room - S (length (ext (num - cur))))%nat ltac:(lia)) as [_ Hlong].
      destruct Hg as [[Hl13 _]|[Hd Hl']].
      { assert (ext l = []) as El by (unfold ext; destruct (N.ltb_spec l 13); [reflexivity|lia]).
        rewrite El in Hr. cbn [length] in Hr. lia. }
      assert (Hn13 : 13 <= nib l).
      { unfold nib. destruct (N.ltb_spec l 13); [lia|]. destruct (l <? 269); lia. }
      destruct (Hlong Hn13) as (j & Hj & E). rewrite E in H.
      assert (Hed : ext (num - cur) = []) by (unfold ext; destruct (N.ltb_spec (num - cur) 13); [reflexivity|lia]).
      rewrite Hed in *. cbn [length] in *.
      destruct (j + (room + 3))%nat as [|f1] eqn:Ef; [lia|].
      destruct (room - 1)%nat as [|r1] eqn:Er.
      { rewrite (loop_full _ _ _ _ _ _ (gen_Length _ _ _)) in H. discriminate. }
      destruct Hl' as [->|(Hl1 & Hl2 & Hhi & Hlo)].
      { change (ext 26) with [13] in Hr. cbn [length] in Hr. lia. }
      rewrite (loop_some _ _ _ _ _ _ _ (gen_Length _ _ _)) in H. cbn [e_st ostate_eqb o_length] in H.
      change (N.of_nat 0) with 0 in H. change ((0 + 1) mod 256) with 1 in H.
      rewrite gh_16 in H by lia. change (1 =? 0) with false in H. change (1 =? 1) with true in H.
      cbn iota in H. change (1 =? 2) with false in H. rewrite andb_false_r, orb_false_r in H.
      destruct (N.eqb_spec ((l - 269) / 256) 13); [congruence|]. cbn [ostate_eqb] in H.
      assert (Hel : length (ext l) = 2%nat).
      { unfold ext. destruct (N.ltb_spec l 13); [lia|]. destruct (N.ltb_spec l 269); [lia|reflexivity]. }
      destruct r1 as [|r1]; [|lia].
      destruct f1 as [|f1]; [lia|].
      rewrite (loop_full _ _ _ _ _ _ (gen_Length _ _ _)) in H. discriminate.
    + destruct (loop_good (room + 3) num l cur pos room out Hc Hn Hg Hr ltac:(lia)) as (p & E).
      rewrite E in H. injection H as <-. reflexivity.
Qed.

(** lists of options *)
Definition opt_call (o : opt) : sbcall := COptArray (fst o) (snd o).

Lemma sb_array_good : forall num v st cur pos room out,
  cur <= num -> num < 65536 -> enc_short (num - cur) (len v) \/ enc_long (num - cur) (len v) ->
  (length (opt_head (num - cur) (len v) ++ v) <= room)%nat ->
  exists p, sb_option_array num v (SB (OEnc st cur pos) (Sink room out)) =
    Ok (true, SB (OEnc OptionLengthDone num p)
       (Sink (room - length (opt_head (num - cur) (len v) ++ v))
             (out ++ opt_head (num - cur) (len v) ++ v))).
Proof.
  intros num v st cur pos room out Hc Hn Hg Hr. rewrite app_length in *.
  unfold sb_option_array. fold (len v).
  destruct (sb_option_good num (len v) st cur pos room out Hc Hn Hg ltac:(lia)) as (p & E).
  exists p. rewrite E. cbn [bind fst snd sb_enc sb_sink].
  unfold sputn. cbn [s_room s_out snd]. rewrite Nat.min_l by lia.
  rewrite firstn_all2 by lia. rewrite app_assoc, Nat.sub_add_distr. reflexivity.
Qed.

Lemma last_number_cons : forall prev num v os,
  last_number prev ((num, v) :: os) = last_number num os.
Proof.
  intros prev num v os. unfold last_number. cbn [map fst].
  revert num. induction os as [|[n w] os IH]; intro num; [reflexivity|].
  cbn [map fst]. cbn [last] in *. destruct (map fst os) eqn:E; [reflexivity|].
  rewrite <- E in *. specialize (IH num). cbn [last] in IH. rewrite E in *. exact IH.
Qed.

Lemma sb_run_opts : forall os st prev pos room out,
  opts_within (fun d l => enc_short d l \/ enc_long d l) prev os ->
  (length (opts_bytes prev os) <= room)%nat ->
  exists st' p, sb_run (map opt_call os) (SB (OEnc st prev pos) (Sink room out)) =
    Ok (repeat true (length os),
        SB (OEnc st' (last_number prev os) p)
           (Sink (room - length (opts_bytes prev os)) (out ++ opts_bytes prev os))).
Proof.
  induction os as [|[num v] os IH]; intros st prev pos room out Hw Hr.
  - cbn [map sb_run opts_bytes length]. rewrite app_nil_r, Nat.sub_0_r. unfold last_number.
    cbn [map last]. eauto.
  - cbn [opts_within] in Hw. destruct Hw as (Hc & Hn & Hg & Hw).
    cbn [opts_bytes] in *. rewrite app_assoc in *.
    set (a := opt_head (num - prev) (len v) ++ v) in *.
    rewrite app_length in Hr.
    cbn [map sb_run]. unfold opt_call at 1. cbn [sb_call fst snd].
    destruct (sb_array_good num v st prev pos room out Hc Hn Hg ltac:(fold a; lia)) as (p & E).
    fold a in E. rewrite E. cbn [bind fst snd].
    destruct (IH OptionLengthDone num p (room - length a)%nat (out ++ a) Hw ltac:(lia)) as (st' & p' & E').
    exists st', p'. rewrite E'. cbn [bind fst snd length repeat].
    rewrite last_number_cons, app_length, <- app_assoc, Nat.sub_add_distr. reflexivity.
Qed.

(** ---- bounded buffers ---- *)

(** Two runs on buffers of different room: equal until the smaller is full. *)
Definition cut (b1 b2 : sbenc) : Prop :=
  (sb_enc b1 = sb_enc b2 /\ s_out (sb_sink b1) = s_out (sb_sink b2) /\
   (s_room (sb_sink b1) <= s_room (sb_sink b2))%nat) \/
  (s_room (sb_sink b1) = O /\ exists t, s_out (sb_sink b2) = s_out (sb_sink b1) ++ t).

Lemma loop_cut : forall f1 f2 o e r1 r2 out x1 b1 x2 b2,
  (r1 <= r2)%nat ->
  sb_option_loop f1 o e (Sink r1 out) = Ok (x1, b1) ->
  sb_option_loop f2 o e (Sink r2 out) = Ok (x2, b2) ->
  (x1 = true /\ x2 = true /\ sb_enc b1 = sb_enc b2 /\
     s_out (sb_sink b1) = s_out (sb_sink b2) /\
     (s_room (sb_sink b2) - s_room (sb_sink b1) = r2 - r1)%nat /\
     (s_room (sb_sink b1) <= s_room (sb_sink b2))%nat) \/
  (x1 = false /\ s_room (sb_sink b1) = O /\
     exists t, s_out (sb_sink b2) = s_out (sb_sink b1) ++ t /\ ((r1 < r2)%nat -> t <> [])
       /\ ((r1 = r2)%nat -> t = [])).
Proof.
  induction f1 as [|f1 IH]; intros f2 o e r1 r2 out x1 b1 x2 b2 Hr H1 H2; [discriminate|].
  destruct f2 as [|f2]; [discriminate|].
  cbn [sb_option_loop] in H1, H2.
  destruct (generate_iterate o e) as [[r e1]| |]; cbn [bind fst snd] in H1, H2; try discriminate.
  destruct r as [x|].
  - destruct r1 as [|r1]; cbn [sputc s_room s_out] in H1.
    + injection H1 as <- <-. right. cbn [sb_sink s_room s_out].
      split; [reflexivity|]. split; [reflexivity|].
      destruct r2 as [|r2]; cbn [sputc s_room s_out] in H2.
      * injection H2 as <- <-. exists []. rewrite app_nil_r. cbn [sb_sink s_out].
        repeat split; auto. lia.
      * destruct (ostate_eqb (e_st e1) OptionLengthDone).
        -- injection H2 as <- <-. exists [x]. cbn [sb_sink s_out].
           split; [reflexivity|]. split; [congruence|lia].
        -- destruct (loop_append _ _ _ _ _ _ H2) as (t & Ht & _). cbn [s_out] in Ht.
           exists (x :: t). rewrite Ht, <- app_assoc. cbn [app].
           split; [reflexivity|]. split; [congruence|lia].
    + destruct r2 as [|r2]; [lia|]. cbn [sputc s_room s_out] in H2.
      destruct (ostate_eqb (e_st e1) OptionLengthDone).
      * injection H1 as <- <-. injection H2 as <- <-. left. cbn [sb_sink sb_enc s_room s_out].
        repeat split; lia.
      * destruct (IH f2 o e1 r1 r2 _ _ _ _ _ ltac:(lia) H1 H2) as [L|R]; [left|right].
        -- destruct L as (A & B & C & D & E & F). repeat split; auto; lia.
        -- destruct R as (A & B & t & C & D & E). split; [exact A|]. split; [exact B|].
           exists t. split; [exact C|]. split; intro; [apply D|apply E]; lia.
  - destruct (ostate_eqb (e_st e1) OptionLengthDone).
    + injection H1 as <- <-. injection H2 as <- <-. left. cbn [sb_sink sb_enc s_room s_out].
      repeat split; lia.
    + eapply IH; eauto.
Qed.

Lemma sb_option_cut : forall num l b1 b2 x1 b1' x2 b2',
  sb_enc b1 = sb_enc b2 -> s_out (sb_sink b1) = s_out (sb_sink b2) ->
  (s_room (sb_sink b1) <= s_room (sb_sink b2))%nat ->
  sb_option num l b1 = Ok (x1, b1') -> sb_option num l b2 = Ok (x2, b2') ->
  (x1 = true /\ x2 = true /\ sb_enc b1' = sb_enc b2' /\
     s_out (sb_sink b1') = s_out (sb_sink b2') /\
     (s_room (sb_sink b2') - s_room (sb_sink b1') = s_room (sb_sink b2) - s_room (sb_sink b1))%nat /\
     (s_room (sb_sink b1') <= s_room (sb_sink b2'))%nat) \/
  (x1 = false /\ s_room (sb_sink b1') = O /\
     exists t, s_out (sb_sink b2') = s_out (sb_sink b1') ++ t /\
       ((s_room (sb_sink b1) < s_room (sb_sink b2))%nat -> t <> [])
       /\ ((s_room (sb_sink b1) = s_room (sb_sink b2))%nat -> t = [])).
Proof.
  intros num l [e1 [r1 o1]] [e2 [r2 o2]] x1 b1' x2 b2'. cbn [sb_enc sb_sink s_out s_room].
  intros -> -> Hr H1 H2. unfold sb_option in *. cbn [sb_enc sb_sink s_out s_room] in *.
  eapply loop_cut; eauto.
Qed.

Lemma sputn_room0 : forall bs s, s_room s = O -> snd (sputn bs s) = s.
Proof.
  intros bs [r out] H. cbn [s_room] in H. subst r. unfold sputn. cbn [s_room s_out snd].
  rewrite Nat.min_0_r. cbn [firstn]. rewrite app_nil_r. reflexivity.
Qed.

Lemma sputn_cut : forall bs b1 b2, cut b1 b2 ->
  cut (SB (sb_enc b1) (snd (sputn bs (sb_sink b1)))) (SB (sb_enc b2) (snd (sputn bs (sb_sink b2)))).
Proof.
  intros bs [e1 [r1 o1]] [e2 [r2 o2]] [(He & Ho & Hr)|(Hr & t & Ht)];
    cbn [sb_enc sb_sink s_out s_room] in *.
  - subst e2 o2.
    destruct (sputn_append bs (Sink r1 o1)) as (A1 & B1 & _).
    destruct (sputn_append bs (Sink r2 o1)) as (A2 & B2 & _).
    cbn [s_out s_room] in *.
    destruct (Nat.le_ge_cases (length bs) r1) as [Hl|Hl].
    + left. cbn [sb_enc sb_sink]. split; [reflexivity|].
      rewrite A1, A2, !firstn_all2 in * by lia. split; [reflexivity|]. lia.
    + right. cbn [sb_enc sb_sink]. rewrite A1, A2. rewrite firstn_length in B1.
      split; [lia|]. exists (skipn r1 (firstn r2 bs)).
      rewrite <- app_assoc. f_equal.
      rewrite <- (firstn_skipn r1 (firstn r2 bs)) at 1. f_equal.
      rewrite firstn_firstn. f_equal. lia.
  - right. cbn [sb_enc sb_sink]. rewrite (sputn_room0 bs (Sink r1 o1)) by exact Hr.
    cbn [s_room s_out]. split; [exact Hr|].
    destruct (sputn_append bs (Sink r2 o2)) as (A2 & _). cbn [s_out s_room] in A2.
    rewrite A2, Ht, <- app_assoc. eauto.
Qed.

Local Opaque sputn.

(** in a full buffer a call changes the encoder only *)
Lemma sb_option_room0 : forall num l b x b', s_room (sb_sink b) = O ->
  sb_option num l b = Ok (x, b') -> sb_sink b' = sb_sink b.
Proof.
  intros num l b x b' Hr H. destruct (sb_option_append _ _ _ _ _ H) as (t & A & B & _).
  rewrite Hr in B. destruct t; cbn [length] in B; [|lia]. rewrite app_nil_r in A.
  destruct (sb_sink b') as [r' o'], (sb_sink b) as [r o]. cbn [s_room s_out] in *. f_equal; lia || assumption.
Qed.

Lemma sb_array_append : forall num v b x b', sb_option_array num v b = Ok (x, b') ->
  exists t, s_out (sb_sink b') = s_out (sb_sink b) ++ t /\
    s_room (sb_sink b) = (s_room (sb_sink b') + length t)%nat.
Proof.
  intros num v b x b' H. unfold sb_option_array in H.
  destruct (sb_option_total num (N.of_nat (length v)) b) as (y & b1 & E). rewrite E in H.
  destruct (sb_option_append _ _ _ _ _ E) as (t & A & B & _). cbn [bind fst snd] in H.
  destruct y; injection H as <- <-.
  - cbn [sb_sink]. destruct (sputn_append v (sb_sink b1)) as (C & D & _).
    exists (t ++ firstn (s_room (sb_sink b1)) v). rewrite C, A, <- app_assoc, app_length. split; [reflexivity|lia].
  - eauto.
Qed.

Lemma sb_call_append : forall c b x b', sb_call c b = Ok (x, b') ->
  exists t, s_out (sb_sink b') = s_out (sb_sink b) ++ t /\
    s_room (sb_sink b) = (s_room (sb_sink b') + length t)%nat.
Proof.
  intros c b x b' H. destruct c as [h|t|n l|n v|n v|n v| |bs]; cbn [sb_call] in H.
  - injection H as <- <-. unfold sb_header, sb_write. cbn [sb_sink].
    destruct (sputn_append (hdr_bytes h) (sb_sink b)) as (A & B & _). eauto.
  - injection H as <- <-. unfold sb_token, sb_write. cbn [sb_sink].
    destruct (sputn_append t (sb_sink b)) as (A & B & _). eauto.
  - destruct (sb_option_append _ _ _ _ _ H) as (t & A & B & _). eauto.
  - eapply sb_array_append; eauto.
  - unfold sb_option_str in H.
    destruct (sb_option_total n (N.of_nat (length v)) b) as (y & b1 & E). rewrite E in H.
    destruct (sb_option_append _ _ _ _ _ E) as (t & A & B & _). cbn [bind fst snd] in H.
    destruct (sputn v (sb_sink b1)) as [m s1] eqn:Es. injection H as <- <-. cbn [sb_sink].
    destruct (sputn_append v (sb_sink b1)) as (C & D & _). rewrite Es in C, D. cbn [snd] in C, D.
    exists (t ++ firstn (s_room (sb_sink b1)) v). rewrite C, A, <- app_assoc, app_length. split; [reflexivity|lia].
  - unfold sb_option_int in H. destruct (layer2_set 4 v) as [w| |]; cbn [bind] in H; try discriminate.
    eapply sb_array_append; eauto.
  - unfold sb_payload in H. destruct b as [e [[|r] out]]; cbn [sb_sink sputc s_room s_out sb_enc] in H;
      injection H as <- <-; cbn [sb_sink s_out s_room].
    + exists []. rewrite app_nil_r. split; [reflexivity|cbn; lia].
    + exists [255]. split; [reflexivity|cbn; lia].
  - injection H as <- <-. unfold sb_write. cbn [sb_sink].
    destruct (sputn_append bs (sb_sink b)) as (A & B & _). eauto.
Qed.

Lemma sb_call_room0 : forall c b x b', s_room (sb_sink b) = O ->
  sb_call c b = Ok (x, b') -> sb_sink b' = sb_sink b.
Proof.
  intros c b x b' Hr H. destruct (sb_call_append _ _ _ _ H) as (t & A & B).
  rewrite Hr in B. destruct t; cbn [length] in B; [|lia]. rewrite app_nil_r in A.
  destruct (sb_sink b') as [r' o'], (sb_sink b) as [r o]. cbn [s_room s_out] in *. f_equal; lia || assumption.
Qed.

Lemma sb_array_cut : forall n v b1 b2 x1 b1' x2 b2',
  sb_enc b1 = sb_enc b2 -> s_out (sb_sink b1) = s_out (sb_sink b2) ->
  (s_room (sb_sink b1) <= s_room (sb_sink b2))%nat ->
  sb_option_array n v b1 = Ok (x1, b1') -> sb_option_array n v b2 = Ok (x2, b2') -> cut b1' b2'.
Proof.
  intros n v b1 b2 x1 b1' x2 b2' He Ho Hr H1 H2. unfold sb_option_array in *.
  destruct (sb_option_total n (N.of_nat (length v)) b1) as (y1 & c1 & E1).
  destruct (sb_option_total n (N.of_nat (length v)) b2) as (y2 & c2 & E2).
  rewrite E1 in H1. rewrite E2 in H2. cbn [bind fst snd] in *.
  destruct (sb_option_cut _ _ _ _ _ _ _ _ He Ho Hr E1 E2) as [L|R].
  - destruct L as (-> & -> & A & B & _ & C). injection H1 as <- <-. injection H2 as <- <-.
    apply sputn_cut. left. auto.
  - destruct R as (-> & A & t & B & _). injection H1 as <- <-. right. split; [exact A|].
    destruct y2; injection H2 as <- <-; [|eauto].
    cbn [sb_sink]. destruct (sputn_append v (sb_sink c2)) as (C & _). rewrite C, B, <- app_assoc. eauto.
Qed.

Lemma sb_call_cut : forall c b1 b2 x1 b1' x2 b2', cut b1 b2 ->
  sb_call c b1 = Ok (x1, b1') -> sb_call c b2 = Ok (x2, b2') -> cut b1' b2'.
Proof.
  intros c b1 b2 x1 b1' x2 b2' [(He & Ho & Hr)|(Hr & t & Ht)] H1 H2.
  2:{ right. rewrite (sb_call_room0 _ _ _ _ Hr H1). split; [exact Hr|].
      destruct (sb_call_append _ _ _ _ H2) as (u & A & _). rewrite A, Ht, <- app_assoc. eauto. }
  assert (Hcut : cut b1 b2) by (left; auto).
  destruct c as [h|t|n l|n v|n v|n v| |bs]; cbn [sb_call] in *.
  - injection H1 as <- <-. injection H2 as <- <-. apply sputn_cut, Hcut.
  - injection H1 as <- <-. injection H2 as <- <-. apply sputn_cut, Hcut.
  - destruct (sb_option_cut _ _ _ _ _ _ _ _ He Ho Hr H1 H2) as [L|R].
    + left. tauto.
    + right. destruct R as (_ & A & t & B & _). eauto.
  - eapply sb_array_cut; eauto.
  - unfold sb_option_str in *.
    destruct (sb_option_total n (N.of_nat (length v)) b1) as (y1 & c1 & E1).
    destruct (sb_option_total n (N.of_nat (length v)) b2) as (y2 & c2 & E2).
    rewrite E1 in H1. rewrite E2 in H2. cbn [bind fst snd] in *.
    assert (Hc : cut c1 c2).
    { destruct (sb_option_cut _ _ _ _ _ _ _ _ He Ho Hr E1 E2) as [L|R].
      - left. tauto.
      - right. destruct R as (_ & A & t & B & _). eauto. }
    apply (sputn_cut v) in Hc.
    destruct (sputn v (sb_sink c1)) as [n1 s1]. destruct (sputn v (sb_sink c2)) as [n2 s2].
    injection H1 as <- <-. injection H2 as <- <-. exact Hc.
  - unfold sb_option_int in *. destruct (layer2_set 4 v) as [w| |]; cbn [bind] in *; try discriminate.
    eapply sb_array_cut; eauto.
  - unfold sb_payload in *. destruct b1 as [e1 [r1 o1]], b2 as [e2 [r2 o2]].
    cbn [sb_enc sb_sink s_out s_room sputc] in *. subst e2 o2.
    destruct r1 as [|r1], r2 as [|r2]; try lia; cbn [sputc s_room s_out] in *;
      injection H1 as <- <-; injection H2 as <- <-.
    + left. auto.
    + right. cbn [sb_sink s_room s_out]. eauto.
    + left. cbn [sb_enc sb_sink s_room s_out]. repeat split. lia.
  - injection H1 as <- <-. injection H2 as <- <-. apply sputn_cut, Hcut.
Qed.

Lemma sb_run_cut : forall cs b1 b2 x1 b1' x2 b2', cut b1 b2 ->
  sb_run cs b1 = Ok (x1, b1') -> sb_run cs b2 = Ok (x2, b2') -> cut b1' b2'.
Proof.
  induction cs as [|c cs IH]; intros b1 b2 x1 b1' x2 b2' Hc H1 H2; cbn [sb_run] in *.
  - injection H1 as <- <-. injection H2 as <- <-. exact Hc.
  - destruct (sb_call c b1) as [[y1 c1]| |] eqn:E1; cbn [bind] in H1; try discriminate.
    destruct (sb_call c b2) as [[y2 c2]| |] eqn:E2; cbn [bind] in H2; try discriminate.
    cbn [fst snd] in *.
    destruct (sb_run cs c1) as [[z1 d1]| |] eqn:F1; cbn [bind] in H1; try discriminate.
    destruct (sb_run cs c2) as [[z2 d2]| |] eqn:F2; cbn [bind] in H2; try discriminate.
    cbn [fst snd] in *. injection H1 as <- <-. injection H2 as <- <-.
    eapply IH; [|exact F1|exact F2]. eapply sb_call_cut; eauto.
Qed.

Lemma sb_run_append : forall cs b x b', sb_run cs b = Ok (x, b') ->
  exists t, s_out (sb_sink b') = s_out (sb_sink b) ++ t /\
    s_room (sb_sink b) = (s_room (sb_sink b') + length t)%nat.
Proof.
  induction cs as [|c cs IH]; intros b x b' H; cbn [sb_run] in H.
  - injection H as <- <-. exists []. rewrite app_nil_r. split; [reflexivity|cbn; lia].
  - destruct (sb_call c b) as [[y1 c1]| |] eqn:E1; cbn [bind] in H; try discriminate.
    cbn [fst snd] in H.
    destruct (sb_run cs c1) as [[z1 d1]| |] eqn:F1; cbn [bind] in H; try discriminate.
    cbn [fst snd] in H. injection H as <- <-.
    destruct (sb_call_append _ _ _ _ E1) as (t & A & B).
    destruct (IH _ _ _ F1) as (u & C & D). exists (t ++ u).
    rewrite C, A, <- app_assoc, app_length. split; [reflexivity|lia].
Qed.

Lemma sb_run_caps : forall cs c1 c2 x1 b1 x2 b2, (c1 <= c2)%nat ->
  sb_run cs (sb_init c1) = Ok (x1, b1) -> sb_run cs (sb_init c2) = Ok (x2, b2) ->
  s_out (sb_sink b1) = firstn c1 (s_out (sb_sink b2)).
Proof.
  intros cs c1 c2 x1 b1 x2 b2 Hc H1 H2.
  assert (Hcut : cut b1 b2).
  { eapply sb_run_cut; [|exact H1|exact H2]. left. cbn. auto. }
  destruct (sb_run_append _ _ _ _ H1) as (t & A & B). cbn [sb_init sb_sink s_out s_room app] in *.
  destruct Hcut as [(_ & Ho & _)|(Hr & u & Hu)].
  - rewrite <- Ho, A. symmetry. apply firstn_all2. lia.
  - rewrite Hu, A. rewrite Hr in B. cbn [Nat.add] in B. subst c1.
    rewrite firstn_app, firstn_all, Nat.sub_diag. cbn [firstn]. symmetry. apply app_nil_r.
Qed.

(** result flags *)
Lemma sb_option_flag : forall num l e out r1 r2 x1 b1 x2 b2, (r1 < r2)%nat ->
  sb_option num l (SB e (Sink r1 out)) = Ok (x1, b1) ->
  sb_option num l (SB e (Sink r2 out)) = Ok (x2, b2) ->
  (x1 = true <-> s_out (sb_sink b1) = s_out (sb_sink b2)).
Proof.
  intros num l e out r1 r2 x1 b1 x2 b2 Hr H1 H2.
  assert (Hle : (s_room (sb_sink (SB e (Sink r1 out))) <= s_room (sb_sink (SB e (Sink r2 out))))%nat)
    by (cbn [sb_sink s_room]; lia).
  destruct (sb_option_cut num l (SB e (Sink r1 out)) (SB e (Sink r2 out)) _ _ _ _
              eq_refl eq_refl Hle H1 H2) as [L|R].
  - destruct L as (-> & _ & _ & A & _). split; auto.
  - destruct R as (-> & _ & t & A & B & _). cbn [sb_sink s_room] in B.
    split; [congruence|]. intro X. rewrite A in X. exfalso. apply (B Hr).
    rewrite <- (app_nil_r (s_out (sb_sink b1))) in X at 1. apply app_inv_head in X. auto.
Qed.

Lemma sb_str_flag : forall num v e out r1 r2 x1 b1 x2 b2, (r1 < r2)%nat -> v <> [] ->
  sb_option_str num v (SB e (Sink r1 out)) = Ok (x1, b1) ->
  sb_option_str num v (SB e (Sink r2 out)) = Ok (x2, b2) ->
  (x1 = true <-> s_out (sb_sink b1) = s_out (sb_sink b2)).
Proof.
  intros num v e out r1 r2 x1 b1 x2 b2 Hr Hv H1 H2. unfold sb_option_str in *.
  destruct (sb_option_total num (N.of_nat (length v)) (SB e (Sink r1 out))) as (y1 & c1 & E1).
  destruct (sb_option_total num (N.of_nat (length v)) (SB e (Sink r2 out))) as (y2 & c2 & E2).
  rewrite E1 in H1. rewrite E2 in H2. cbn [bind fst snd] in *.
  destruct (sputn_append v (sb_sink c1)) as (P1 & Q1 & R1).
  destruct (sputn_append v (sb_sink c2)) as (P2 & Q2 & R2).
  destruct (sputn v (sb_sink c1)) as [n1 s1]. destruct (sputn v (sb_sink c2)) as [n2 s2].
  cbn [fst snd] in *. injection H1 as <- <-. injection H2 as <- <-. cbn [sb_sink].
  assert (Hlen : (0 < length v)%nat) by (destruct v; [congruence|cbn; lia]).
  assert (Hle : (s_room (sb_sink (SB e (Sink r1 out))) <= s_room (sb_sink (SB e (Sink r2 out))))%nat)
    by (cbn [sb_sink s_room]; lia).
  destruct (sb_option_cut num _ (SB e (Sink r1 out)) (SB e (Sink r2 out)) _ _ _ _
              eq_refl eq_refl Hle E1 E2) as [L|R].
  - destruct L as (_ & _ & _ & A & B & _). cbn [sb_sink s_room] in B.
    rewrite P1, P2, A. split.
    + intro X. apply Nat.eqb_eq in X. rewrite !firstn_all2 by lia. reflexivity.
    + intro X. apply app_inv_head in X. apply (f_equal (@length N)) in X.
      rewrite !firstn_length in X. apply Nat.eqb_eq. lia.
  - destruct R as (_ & A & t & B & C & _). cbn [sb_sink s_room] in C.
    rewrite A in *. rewrite Nat.min_0_r in R1. subst n1. split.
    + intro X. apply Nat.eqb_eq in X. lia.
    + intro X. exfalso. rewrite P1, P2, B in X. cbn [firstn] in X. rewrite app_nil_r, <- app_assoc in X.
      rewrite <- (app_nil_r (s_out (sb_sink c1))) in X at 1. apply app_inv_head in X.
      symmetry in X. apply app_eq_nil in X. apply (C Hr), X.
Qed.
