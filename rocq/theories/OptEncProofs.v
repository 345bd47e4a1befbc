From Verif Require Import Base UIntModel UIntProofs HeaderModel OptEncModel OptSpec StreambufModel.
Local Open Scope N_scope.

(** generator_helper by range *)
Lemma gh_small : forall v p, v < 13 -> generator_helper v p = v.
Proof. intros v p H. unfold generator_helper. destruct (N.ltb_spec v 13); [reflexivity|lia]. Qed.

Lemma gh_8 : forall v p, 13 <= v -> v < 242 ->
  generator_helper v p = if p =? 0 then 13 else if p =? 1 then v - 13 else 255.
Proof.
  intros v p H H'. unfold generator_helper, EXT8_MAX.
  destruct (N.ltb_spec v 13); [lia|]. destruct (N.ltb_spec v 242); [|lia].
  rewrite N.mod_small by lia. reflexivity.
Qed.

Lemma gh_gap : forall v p, 242 <= v -> v < 269 ->
  generator_helper v p =
    if p =? 0 then 14 else if p =? 1 then 255 else if p =? 2 then v - 13 else 255.
Proof.
  intros v p H H'. unfold generator_helper, EXT8_MAX, EXT16_MAX.
  destruct (N.ltb_spec v 13); [lia|]. destruct (N.ltb_spec v 242); [lia|].
  destruct (N.ltb_spec v 65266); [|lia].
  rewrite N.shiftr_div_pow2. rewrite land255.
  change (2 ^ 8) with 256. destruct (p =? 0); [reflexivity|].
  destruct (p =? 1); [lia|]. destruct (p =? 2); [lia|reflexivity].
Qed.

Lemma gh_16 : forall v p, 269 <= v -> v < 65266 ->
  generator_helper v p =
    if p =? 0 then 14 else if p =? 1 then (v - 269) / 256
    else if p =? 2 then (v - 269) mod 256 else 255.
Proof.
  intros v p H H'. unfold generator_helper, EXT8_MAX, EXT16_MAX.
  destruct (N.ltb_spec v 13); [lia|]. destruct (N.ltb_spec v 242); [lia|].
  destruct (N.ltb_spec v 65266); [|lia].
  rewrite N.shiftr_div_pow2. rewrite land255.
  change (2 ^ 8) with 256.
  replace ((v + 65536 - 269) mod 65536) with (v - 269) by lia.
  destruct (p =? 0); [reflexivity|].
  destruct (p =? 1); [lia|]. destruct (p =? 2); [lia|reflexivity].
Qed.

Lemma gh_over : forall v p, 65266 <= v -> generator_helper v p = 255.
Proof.
  intros v p H. unfold generator_helper, EXT8_MAX, EXT16_MAX.
  destruct (N.ltb_spec v 13); [lia|]. destruct (N.ltb_spec v 242); [lia|].
  destruct (N.ltb_spec v 65266); [lia|reflexivity].
Qed.

(** the first byte *)
Lemma first_byte_sweep : forall d l, d < 15 -> l < 16 ->
  N.lor l ((N.shiftl d 4) mod 256) = d * 16 + l.
Proof.
  intros d l Hd Hl.
  assert (H : forallb (fun d => forallb (fun l => N.lor l ((N.shiftl d 4) mod 256) =? d * 16 + l)
               (upto 16)) (upto 15) = true) by (vm_compute; reflexivity).
  pose proof (sweep 15 _ H d Hd) as H1. pose proof (sweep 16 _ H1 l Hl) as H2.
  apply N.eqb_eq in H2. exact H2.
Qed.

(** loop equations *)
Lemma loop_none : forall f o e s e1,
  generate_iterate o e = Ok (None, e1) ->
  sb_option_loop (S f) o e s =
    if ostate_eqb (e_st e1) OptionLengthDone then Ok (true, SB e1 s)
    else sb_option_loop f o e1 s.
Proof. intros f o e s e1 H. cbn [sb_option_loop]. rewrite H. reflexivity. Qed.

Lemma loop_some : forall f o e b r out e1,
  generate_iterate o e = Ok (Some b, e1) ->
  sb_option_loop (S f) o e (Sink (S r) out) =
    if ostate_eqb (e_st e1) OptionLengthDone then Ok (true, SB e1 (Sink r (out ++ [b])))
    else sb_option_loop f o e1 (Sink r (out ++ [b])).
Proof. intros f o e b r out e1 H. cbn [sb_option_loop]. rewrite H. reflexivity. Qed.

Lemma loop_full : forall f o e b out e1,
  generate_iterate o e = Ok (Some b, e1) ->
  sb_option_loop (S f) o e (Sink 0 out) = Ok (false, SB e1 (Sink 0 out)).
Proof. intros f o e b out e1 H. cbn [sb_option_loop]. rewrite H. reflexivity. Qed.

(** states the header loop runs through *)
Definition hstate (s : ostate) : Prop :=
  match s with
  | FirstByte | FirstByteDone | OptionDelta | OptionDeltaDone | OptionLength
  | OptionDeltaAndLengthDone => True
  | _ => False
  end.

Definition silent (s : ostate) : nat :=
  match s with
  | FirstByte | FirstByteDone => 2
  | OptionDelta | OptionDeltaDone | OptionDeltaAndLengthDone => 1
  | _ => 0
  end.

Definition emits (s : ostate) : bool :=
  match s with FirstByte | OptionDelta | OptionLength => true | _ => false end.

Lemma gen_hstate : forall o e, hstate (e_st e) ->
  exists r e1, generate_iterate o e = Ok (r, e1) /\
    (hstate (e_st e1) \/ e_st e1 = OptionLengthDone) /\
    (if emits (e_st e) then r <> None /\ (silent (e_st e1) <= silent (e_st e))%nat
     else r = None /\ (silent (e_st e1) < silent (e_st e))%nat).
Proof.
  intros o [st cur pos] H. unfold generate_iterate. cbn [e_st e_cur e_pos] in *.
  destruct st; cbn [hstate] in H; try contradiction; cbn [emits];
    repeat match goal with
    | |- context [if ?c then Ok _ else _] => destruct c
    end; eexists; eexists; (split; [reflexivity|]); cbn [e_st hstate silent];
    (split; [auto|]); split; try congruence; lia.
Qed.

Lemma loop_total : forall fuel o e s, hstate (e_st e) ->
  (s_room s + silent (e_st e) < fuel)%nat ->
  exists b e', sb_option_loop fuel o e s = Ok (b, e').
Proof.
  induction fuel as [|f IH]; intros o e s Hh Hf; [lia|].
  destruct (gen_hstate o e Hh) as (r & e1 & E & Hst & Hr).
  destruct (emits (e_st e)).
  - destruct Hr as [Hr Hs]. destruct r as [b|]; [|congruence].
    destruct s as [[|room] out].
    + rewrite (loop_full _ _ _ _ _ _ E). eauto.
    + rewrite (loop_some _ _ _ _ _ _ _ E).
      destruct Hst as [Hst|Hst].
      * replace (ostate_eqb (e_st e1) OptionLengthDone) with false
          by (destruct (e_st e1); cbn [hstate] in Hst; (contradiction || reflexivity)).
        apply IH; [exact Hst|]. cbn [s_room] in *. lia.
      * rewrite Hst. cbn. eauto.
  - destruct Hr as [-> Hs]. rewrite (loop_none _ _ _ _ _ E).
    destruct Hst as [Hst|Hst].
    + replace (ostate_eqb (e_st e1) OptionLengthDone) with false
        by (destruct (e_st e1); cbn [hstate] in Hst; (contradiction || reflexivity)).
      apply IH; [exact Hst|]. lia.
    + rewrite Hst. cbn. eauto.
Qed.

(** the loop only appends; a refused byte means the buffer is full *)
Lemma loop_append : forall fuel o e s b e',
  sb_option_loop fuel o e s = Ok (b, e') ->
  exists t, s_out (sb_sink e') = s_out s ++ t /\
    s_room s = (s_room (sb_sink e') + length t)%nat /\
    (b = false -> s_room (sb_sink e') = O).
Proof.
  induction fuel as [|f IH]; intros o e s b e' H; [discriminate|].
  cbn [sb_option_loop] in H.
  destruct (generate_iterate o e) as [[r e1]| |]; cbn [bind fst snd] in H; try discriminate.
  destruct r as [x|].
  - destruct s as [[|room] out]; cbn [sputc s_room s_out] in H.
    + injection H as <- <-. exists []. cbn [sb_sink s_out s_room]. rewrite app_nil_r.
      repeat split; auto.
    + destruct (ostate_eqb (e_st e1) OptionLengthDone).
      * injection H as <- <-. exists [x]. cbn [sb_sink s_out s_room length].
        repeat split; [lia|congruence].
      * destruct (IH _ _ _ _ _ H) as (t & Ht & Hr & Hb). cbn [s_out s_room] in *.
        exists (x :: t). rewrite Ht, <- app_assoc. cbn [app length].
        repeat split; [lia|exact Hb].
  - destruct (ostate_eqb (e_st e1) OptionLengthDone).
    + injection H as <- <-. exists []. cbn [sb_sink]. rewrite app_nil_r.
      cbn [length]. repeat split; [lia|congruence].
    + eauto.
Qed.

(** one byte emitted: the first appended byte is that byte *)
Lemma loop_emits_head : forall f o e s b e' x e1,
  generate_iterate o e = Ok (Some x, e1) ->
  sb_option_loop (S f) o e s = Ok (true, b) -> e' = b ->
  exists t, s_out (sb_sink e') = s_out s ++ x :: t /\
    (e_st e1 = OptionLengthDone -> t = []) /\
    (e_st e1 <> OptionLengthDone ->
       exists r, s_room s = S r /\
       sb_option_loop f o e1 (Sink r (s_out s ++ [x])) = Ok (true, e')).
Proof.
  intros f o e s b e' x e1 E H ->. destruct s as [[|room] out].
  - rewrite (loop_full _ _ _ _ _ _ E) in H. discriminate.
  - rewrite (loop_some _ _ _ _ _ _ _ E) in H.
    destruct (ostate_eqb (e_st e1) OptionLengthDone) eqn:D.
    + injection H as <-. exists []. cbn [sb_sink s_out]. repeat split; auto.
      intro N. destruct (e_st e1); cbn in D; congruence.
    + destruct (loop_append _ _ _ _ _ _ H) as (t & Ht & _). cbn [s_out] in Ht.
      exists t. rewrite Ht, <- app_assoc. cbn [app]. split; [reflexivity|]. split.
      * intro X. rewrite X in D. discriminate.
      * intros _. exists room. split; [reflexivity|]. exact H.
Qed.

Lemma odelta_val : forall num l v st cur pos, cur <= num -> num < 65536 ->
  odelta (OBase num l v) (OEnc st cur pos) = num - cur.
Proof. intros. unfold odelta. cbn [o_number e_cur]. lia. Qed.

Lemma odelta_self : forall num l v st pos, num < 65536 ->
  odelta (OBase num l v) (OEnc st num pos) = 0.
Proof. intros. unfold odelta. cbn [o_number e_cur]. lia. Qed.


(** the generator in each header state *)
Lemma gen_FirstByte : forall o cur pos,
  generate_iterate o (OEnc FirstByte cur pos) =
  Ok (Some (N.lor (generator_helper (o_length o) 0)
       ((N.shiftl (generator_helper (odelta o (OEnc FirstByte cur pos)) 0) 4) mod 256)),
      OEnc FirstByteDone cur 0).
Proof. reflexivity. Qed.

Lemma gen_FBD : forall o cur pos,
  generate_iterate o (OEnc FirstByteDone cur pos) =
  Ok (None, OEnc (if 13 <=? generator_helper (odelta o (OEnc FirstByteDone cur pos)) 0 then OptionDelta
                  else if 13 <=? generator_helper (o_length o) 0 then OptionDeltaDone
                  else OptionDeltaAndLengthDone) cur pos).
Proof.
  intros. unfold generate_iterate. cbn [e_st e_cur e_pos].
  destruct (13 <=? _); [reflexivity|]. destruct (13 <=? _); reflexivity.
Qed.

Lemma gen_Delta : forall o cur pos,
  generate_iterate o (OEnc OptionDelta cur pos) =
  let d := odelta o (OEnc OptionDelta cur pos) in
  let p := (pos + 1) mod 256 in
  Ok (Some (generator_helper d p),
      OEnc (if (generator_helper d 0 =? 13) || ((generator_helper d 0 =? 14) && (p =? 2))
            then OptionDeltaDone else OptionDelta) cur p).
Proof.
  intros. unfold generate_iterate. cbn [e_st e_cur e_pos]. cbv zeta.
  destruct (_ =? 13); cbn [orb]; [reflexivity|].
  destruct ((_ =? 14) && _); reflexivity.
Qed.

Lemma gen_DeltaDone : forall o cur pos,
  generate_iterate o (OEnc OptionDeltaDone cur pos) =
  Ok (None, OEnc (if 13 <=? generator_helper (o_length o) 0 then OptionLength else OptionLengthDone)
                 (o_number o) pos).
Proof.
  intros. unfold generate_iterate. cbn [e_st e_cur e_pos].
  destruct (13 <=? generator_helper (o_length o) 0); reflexivity.
Qed.

Lemma gen_DLDone : forall o cur pos,
  generate_iterate o (OEnc OptionDeltaAndLengthDone cur pos) =
  Ok (None, OEnc OptionLengthDone (o_number o) pos).
Proof. reflexivity. Qed.

Lemma gen_Length : forall o cur pos,
  generate_iterate o (OEnc OptionLength cur pos) =
  let p := (pos + 1) mod 256 in
  let b := generator_helper (o_length o) p in
  Ok (Some b, OEnc (if (b =? 13) || ((b =? 14) && (p =? 2)) then OptionLengthDone else OptionLength)
                   cur p).
Proof.
  intros. unfold generate_iterate. cbn [e_st e_cur e_pos]. cbv zeta.
  destruct (_ =? 13); cbn [orb]; [reflexivity|].
  destruct ((_ =? 14) && _); reflexivity.
Qed.

Definition good_delta (d : N) : Prop := d <= 241 \/ (269 <= d /\ d <= 65265).

(** First byte and delta: either the buffer is too small, or the loop has
    emitted the first byte and the RFC delta extension, and is done
    (short length) or about to emit the length extension at position
    [|ext delta|]. *)
Lemma phase1 : forall f num l cur pos room out,
  cur <= num -> num < 65536 -> good_delta (num - cur) ->
  let lroot := generator_helper l 0 in
  let head := N.lor lroot (nib (num - cur) * 16) :: ext (num - cur) in
  (room < length head -> exists e', sb_option_loop (5 + f) (OBase num l []) (OEnc FirstByte cur pos) (Sink room out) = Ok (false, e'))%nat /\
  (forall r, room = (length head + r)%nat ->
     let k := N.of_nat (length (ext (num - cur))) in
     (lroot < 13 -> sb_option_loop (5 + f) (OBase num l []) (OEnc FirstByte cur pos) (Sink room out)
                    = Ok (true, SB (OEnc OptionLengthDone num k) (Sink r (out ++ head)))) /\
     (13 <= lroot -> exists j, (j <= 2)%nat /\
        sb_option_loop (5 + f) (OBase num l []) (OEnc FirstByte cur pos) (Sink room out)
        = sb_option_loop (j + f) (OBase num l []) (OEnc OptionLength num k) (Sink r (out ++ head)))).
Proof.
  intros f num l cur pos room out Hc Hn Hg. cbv zeta.
  set (o := OBase num l []).
  assert (Hd : forall st p, odelta o (OEnc st cur p) = num - cur)
    by (intros; apply odelta_val; assumption).
  set (d := num - cur) in *. set (lroot := generator_helper l 0).
  assert (Ho : o_length o = l) by reflexivity.
  assert (Hnum : o_number o = num) by reflexivity.
  assert (Hshift : forall n, n < 15 -> (N.shiftl n 4) mod 256 = n * 16).
  { intros n Hn'. rewrite N.shiftl_mul_pow2. change (2 ^ 4) with 16. apply N.mod_small. lia. }
  change (5 + f)%nat with (S (S (S (S (S f))))).
  destruct (N.lt_ge_cases d 13) as [Hs|Hs].
  - (* delta in the first byte *)
    assert (Hgh : forall p, generator_helper d p = d) by (intro; apply gh_small; exact Hs).
    assert (Hnib : nib d = d) by (unfold nib; destruct (N.ltb_spec d 13); [reflexivity|lia]).
    assert (Hext : ext d = []) by (unfold ext; destruct (N.ltb_spec d 13); [reflexivity|lia]).
    rewrite Hnib, Hext. cbn [length].
    pose proof (gen_FirstByte o cur pos) as G1. rewrite Hd, Hgh, Ho, Hshift in G1 by lia.
    fold lroot in G1.
    split.
    + intro Hr. destruct room; [|lia]. rewrite (loop_full _ _ _ _ _ _ G1). eauto.
    + intros r ->. cbn [Nat.add].
      rewrite (loop_some _ _ _ _ _ _ _ G1). cbn [e_st ostate_eqb].
      pose proof (gen_FBD o cur 0) as G2. rewrite Hd, Hgh, Ho in G2.
      destruct (N.leb_spec 13 d); [lia|]. fold lroot in G2.
      split; intro Hl.
      * destruct (N.leb_spec 13 lroot); [lia|].
        rewrite (loop_none _ _ _ _ _ G2). cbn [e_st ostate_eqb].
        rewrite (loop_none _ _ _ _ _ (gen_DLDone o cur 0)). cbn [e_st ostate_eqb].
        rewrite Hnum. reflexivity.
      * destruct (N.leb_spec 13 lroot); [|lia].
        rewrite (loop_none _ _ _ _ _ G2). cbn [e_st ostate_eqb].
        pose proof (gen_DeltaDone o cur 0) as G3. rewrite Ho, Hnum in G3. fold lroot in G3.
        destruct (N.leb_spec 13 lroot); [|lia].
        rewrite (loop_none _ _ _ _ _ G3). cbn [e_st ostate_eqb].
        exists 2%nat. split; [lia|]. reflexivity.
  - destruct (N.lt_ge_cases d 242) as [Hs8|Hs8].
    + (* one extension byte *)
      assert (Hgh : forall p, generator_helper d p = if p =? 0 then 13 else if p =? 1 then d - 13 else 255)
        by (intro; apply gh_8; assumption).
      assert (Hnib : nib d = 13)
        by (unfold nib; destruct (N.ltb_spec d 13); [lia|]; destruct (N.ltb_spec d 269); [reflexivity|lia]).
      assert (Hext : ext d = [d - 13])
        by (unfold ext; destruct (N.ltb_spec d 13); [lia|]; destruct (N.ltb_spec d 269); [reflexivity|lia]).
      rewrite Hnib, Hext. cbn [length].
      pose proof (gen_FirstByte o cur pos) as G1. rewrite Hd, Hgh, Ho, N.eqb_refl, Hshift in G1 by lia.
      fold lroot in G1.
      pose proof (gen_FBD o cur 0) as G2. rewrite Hd, Hgh, N.eqb_refl, Ho in G2.
      change (13 <=? 13) with true in G2. cbn iota in G2.
      pose proof (gen_Delta o cur 0) as G3. cbv zeta in G3. rewrite Hd, !Hgh in G3.
      change ((0 + 1) mod 256) with 1 in G3. change (1 =? 0) with false in G3.
      change (1 =? 1) with true in G3. change (0 =? 0) with true in G3.
      cbn iota in G3. change (13 =? 13) with true in G3. cbn [orb] in G3.
      pose proof (gen_DeltaDone o cur 1) as G4. rewrite Ho, Hnum in G4. fold lroot in G4.
      split.
      * intro Hr. destruct room as [|[|room]]; [| |lia].
        -- rewrite (loop_full _ _ _ _ _ _ G1). eauto.
        -- rewrite (loop_some _ _ _ _ _ _ _ G1). cbn [e_st ostate_eqb].
           rewrite (loop_none _ _ _ _ _ G2). cbn [e_st ostate_eqb].
           rewrite (loop_full _ _ _ _ _ _ G3). eauto.
      * intros r ->. cbn [Nat.add].
        rewrite (loop_some _ _ _ _ _ _ _ G1). cbn [e_st ostate_eqb].
        rewrite (loop_none _ _ _ _ _ G2). cbn [e_st ostate_eqb].
        rewrite (loop_some _ _ _ _ _ _ _ G3). cbn [e_st ostate_eqb].
        rewrite (loop_none _ _ _ _ _ G4). rewrite <- app_assoc. cbn [app].
        split; intro Hl; (destruct (N.leb_spec 13 lroot); [try lia|try lia]); cbn [e_st ostate_eqb].
        -- reflexivity.
        -- exists 1%nat. split; [lia|]. reflexivity.
    + (* two extension bytes *)
      assert (Hs16 : 269 <= d /\ d <= 65265) by (destruct Hg; lia).
      assert (Hgh : forall p, generator_helper d p =
         if p =? 0 then 14 else if p =? 1 then (d - 269) / 256 else if p =? 2 then (d - 269) mod 256 else 255)
        by (intro; apply gh_16; lia).
      assert (Hnib : nib d = 14)
        by (unfold nib; destruct (N.ltb_spec d 13); [lia|]; destruct (N.ltb_spec d 269); [lia|reflexivity]).
      assert (Hext : ext d = [(d - 269) / 256; (d - 269) mod 256])
        by (unfold ext; destruct (N.ltb_spec d 13); [lia|]; destruct (N.ltb_spec d 269); [lia|reflexivity]).
      rewrite Hnib, Hext. cbn [length].
      pose proof (gen_FirstByte o cur pos) as G1. rewrite Hd, Hgh, Ho, N.eqb_refl, Hshift in G1 by lia.
      fold lroot in G1.
      pose proof (gen_FBD o cur 0) as G2. rewrite Hd, Hgh, N.eqb_refl, Ho in G2.
      change (13 <=? 14) with true in G2. cbn iota in G2.
      pose proof (gen_Delta o cur 0) as G3. cbv zeta in G3. rewrite Hd, !Hgh in G3.
      change ((0 + 1) mod 256) with 1 in G3. change (1 =? 0) with false in G3.
      change (1 =? 1) with true in G3. change (0 =? 0) with true in G3.
      cbn iota in G3. change (14 =? 13) with false in G3. change (1 =? 2) with false in G3.
      cbn [orb] in G3. rewrite andb_false_r in G3. cbn iota in G3.
      pose proof (gen_Delta o cur 1) as G3'. cbv zeta in G3'. rewrite Hd, !Hgh in G3'.
      change ((1 + 1) mod 256) with 2 in G3'. change (2 =? 0) with false in G3'.
      change (2 =? 1) with false in G3'. change (0 =? 0) with true in G3'.
      cbn iota in G3'. change (14 =? 13) with false in G3'. change (14 =? 14) with true in G3'.
      change (2 =? 2) with true in G3'. cbn [orb andb] in G3'.
      pose proof (gen_DeltaDone o cur 2) as G4. rewrite Ho, Hnum in G4. fold lroot in G4.
      split.
      * intro Hr. destruct room as [|[|[|room]]]; [| | |lia].
        -- rewrite (loop_full _ _ _ _ _ _ G1). eauto.
        -- rewrite (loop_some _ _ _ _ _ _ _ G1). cbn [e_st ostate_eqb].
           rewrite (loop_none _ _ _ _ _ G2). cbn [e_st ostate_eqb].
           rewrite (loop_full _ _ _ _ _ _ G3). eauto.
        -- rewrite (loop_some _ _ _ _ _ _ _ G1). cbn [e_st ostate_eqb].
           rewrite (loop_none _ _ _ _ _ G2). cbn [e_st ostate_eqb].
           rewrite (loop_some _ _ _ _ _ _ _ G3). cbn [e_st ostate_eqb].
           rewrite (loop_full _ _ _ _ _ _ G3'). eauto.
      * intros r ->. cbn [Nat.add].
        rewrite (loop_some _ _ _ _ _ _ _ G1). cbn [e_st ostate_eqb].
        rewrite (loop_none _ _ _ _ _ G2). cbn [e_st ostate_eqb].
        rewrite (loop_some _ _ _ _ _ _ _ G3). cbn [e_st ostate_eqb].
        rewrite (loop_some _ _ _ _ _ _ _ G3'). cbn [e_st ostate_eqb].
        rewrite (loop_none _ _ _ _ _ G4). rewrite <- !app_assoc. cbn [app].
        split; intro Hl; (destruct (N.leb_spec 13 lroot); [try lia|try lia]); cbn [e_st ostate_eqb].
        -- reflexivity.
        -- exists 0%nat. split; [lia|]. reflexivity.
Qed.

Lemma nib_le : forall x, nib x <= 14.
Proof. intro x. unfold nib. destruct (N.ltb_spec x 13); [lia|]. destruct (x <? 269); lia. Qed.

Lemma gh_root_nib : forall x, x <= 241 \/ (269 <= x /\ x <= 65265) -> generator_helper x 0 = nib x.
Proof.
  intros x H. unfold nib. destruct (N.ltb_spec x 13) as [|H13]; [apply gh_small; assumption|].
  destruct (N.ltb_spec x 269).
  - rewrite gh_8 by lia. reflexivity.
  - rewrite gh_16 by lia. reflexivity.
Qed.

Lemma lor_nib : forall d l, d <= 14 -> l <= 14 -> N.lor l (d * 16) = d * 16 + l.
Proof.
  intros d l Hd Hl. rewrite N.lor_comm. change 16 with (2 ^ 4). apply lor_add.
  change (2 ^ 4) with 16. lia.
Qed.

Lemma shift4 : forall n, n < 15 -> (N.shiftl n 4) mod 256 = n * 16.
Proof.
  intros n Hn. rewrite N.shiftl_mul_pow2. change (2 ^ 4) with 16. apply N.mod_small. lia.
Qed.

(** Positive half: with room for it, the RFC header is emitted. *)
Lemma loop_good : forall f num l cur pos room out,
  cur <= num -> num < 65536 ->
  enc_short (num - cur) l \/ enc_long (num - cur) l ->
  let head := opt_head (num - cur) l in
  (length head <= room)%nat -> (2 <= f)%nat ->
  exists p, sb_option_loop (5 + f) (OBase num l []) (OEnc FirstByte cur pos) (Sink room out)
    = Ok (true, SB (OEnc OptionLengthDone num p) (Sink (room - length head) (out ++ head))).
Proof.
  intros f num l cur pos room out Hc Hn Hg. cbv zeta. intros Hroom Hf.
  assert (Hgd : good_delta (num - cur)).
  { destruct Hg as [[_ H]|[H _]]; unfold good_delta; lia. }
  assert (Hgl : l <= 241 \/ (269 <= l /\ l <= 65265)).
  { destruct Hg as [[H _]|[_ H]]; lia. }
  destruct (phase1 f num l cur pos room out Hc Hn Hgd) as [_ Hp].
  rewrite (gh_root_nib l Hgl), (lor_nib _ _ (nib_le _) (nib_le _)) in Hp.
  set (d := num - cur) in *.
  unfold opt_head in *. cbn [length] in Hroom. rewrite app_length in Hroom.
  specialize (Hp (room - S (length (ext d)))%nat).
  cbn [length] in Hp. specialize (Hp ltac:(lia)). destruct Hp as [Hshort Hlong].
  destruct Hg as [[Hl _]|[Hd Hl]].
  - assert (Hnl : nib l = l) by (unfold nib; destruct (N.ltb_spec l 13); [reflexivity|lia]).
    assert (Hel : ext l = []) by (unfold ext; destruct (N.ltb_spec l 13); [reflexivity|lia]).
    rewrite Hel, app_nil_r. eexists. rewrite Hshort by lia. reflexivity.
  - assert (Hed : ext d = []) by (unfold ext; destruct (N.ltb_spec d 13); [reflexivity|lia]).
    rewrite Hed in *. cbn [length app] in *.
    destruct Hl as [->|Hl].
    + destruct Hlong as (j & Hj & E); [change (nib 26) with 13; lia|].
      change (nib 26) with 13 in *. change (ext 26) with [13] in *. cbn [length] in Hroom.
      rewrite E. destruct (j + f)%nat as [|f'] eqn:Ef; [lia|].
      destruct (room - 1)%nat as [|r] eqn:Er; [lia|].
      rewrite (loop_some _ _ _ _ _ _ _ (gen_Length _ _ _)). cbn [e_st ostate_eqb o_length].
      change (N.of_nat 0) with 0. change (generator_helper 26 ((0 + 1) mod 256)) with 13.
      change (13 =? 13) with true. cbn [orb ostate_eqb].
      eexists. rewrite <- app_assoc. cbn [app length]. repeat f_equal. lia.
    + destruct Hl as (Hl1 & Hl2 & Hhi & Hlo).
      assert (Hnl : nib l = 14)
        by (unfold nib; destruct (N.ltb_spec l 13); [lia|]; destruct (N.ltb_spec l 269); [lia|reflexivity]).
      assert (Hel : ext l = [(l - 269) / 256; (l - 269) mod 256])
        by (unfold ext; destruct (N.ltb_spec l 13); [lia|]; destruct (N.ltb_spec l 269); [lia|reflexivity]).
      destruct Hlong as (j & Hj & E); [lia|].
      rewrite E, Hnl, Hel in *. cbn [length] in *.
      destruct (j + f)%nat as [|[|f']] eqn:Ef; [lia|lia|].
      destruct (room - 1)%nat as [|[|r]] eqn:Er; [lia|lia|].
      rewrite (loop_some _ _ _ _ _ _ _ (gen_Length _ _ _)). cbn [e_st ostate_eqb o_length].
      change (N.of_nat 0) with 0. change ((0 + 1) mod 256) with 1.
      rewrite gh_16 by lia. change (1 =? 0) with false. change (1 =? 1) with true. cbn iota.
      change (1 =? 2) with false. rewrite andb_false_r, orb_false_r.
      destruct (N.eqb_spec ((l - 269) / 256) 13); [congruence|]. cbn [ostate_eqb].
      rewrite (loop_some _ _ _ _ _ _ _ (gen_Length _ _ _)). cbn [e_st ostate_eqb o_length].
      change ((1 + 1) mod 256) with 2.
      rewrite gh_16 by lia. change (2 =? 0) with false. change (2 =? 1) with false.
      change (2 =? 2) with true. cbn iota. rewrite andb_true_r.
      replace (((l - 269) mod 256 =? 13) || ((l - 269) mod 256 =? 14)) with true.
      2:{ symmetry. apply orb_true_iff. rewrite !N.eqb_eq. exact Hlo. }
      cbn [ostate_eqb]. eexists. rewrite <- !app_assoc. cbn [app]. repeat f_equal. lia.
Qed.

(** Negative half: outside the guard the output is never the RFC header. *)
Lemma app_head_eq : forall {A} (out : list A) x t y u, out ++ x :: t = out ++ y :: u -> x = y /\ t = u.
Proof. intros A out x t y u H. apply app_inv_head in H. injection H as -> ->. auto. Qed.

Lemma lor_255 : forall x, x < 256 -> N.lor 255 x = 255.
Proof.
  intros x Hx. assert (H : forallb (fun x => N.lor 255 x =? 255) (upto 256) = true)
    by (vm_compute; reflexivity).
  pose proof (sweep 256 _ H x Hx) as H1. apply N.eqb_eq in H1. exact H1.
Qed.

Lemma lor_ge240 : forall l, l < 256 -> 240 <= N.lor l 240.
Proof.
  intros x Hx. assert (H : forallb (fun x => 240 <=? N.lor x 240) (upto 256) = true)
    by (vm_compute; reflexivity).
  pose proof (sweep 256 _ H x Hx) as H1. apply N.leb_le in H1. exact H1.
Qed.

Lemma gh_range : forall v p, v < 65536 -> generator_helper v p < 256.
Proof.
  intros v p Hv. destruct (N.lt_ge_cases v 13); [rewrite gh_small; lia|].
  destruct (N.lt_ge_cases v 242).
  { rewrite gh_8 by lia. destruct (p =? 0); [lia|]. destruct (p =? 1); lia. }
  destruct (N.lt_ge_cases v 269).
  { rewrite gh_gap by lia. destruct (p =? 0); [lia|]. destruct (p =? 1); [lia|]. destruct (p =? 2); lia. }
  destruct (N.lt_ge_cases v 65266).
  { rewrite gh_16 by lia. destruct (p =? 0); [lia|]. destruct (p =? 1); [lia|]. destruct (p =? 2); lia. }
  rewrite gh_over by lia. lia.
Qed.

Lemma gh_root_cases : forall v, v < 65536 ->
  generator_helper v 0 <= 14 \/ generator_helper v 0 = 255.
Proof.
  intros v Hv. destruct (N.lt_ge_cases v 13); [rewrite gh_small; lia|].
  destruct (N.lt_ge_cases v 242); [rewrite gh_8 by lia; left; vm_compute; congruence|].
  destruct (N.lt_ge_cases v 269); [rewrite gh_gap by lia; left; vm_compute; congruence|].
  destruct (N.lt_ge_cases v 65266); [rewrite gh_16 by lia; left; vm_compute; congruence|].
  rewrite gh_over by lia. auto.
Qed.

Lemma loop_bad : forall f num l cur pos room out e',
  cur <= num -> num < 65536 -> l < 65536 ->
  ~ enc_short (num - cur) l -> ~ enc_long (num - cur) l ->
  sb_option_loop (5 + f) (OBase num l []) (OEnc FirstByte cur pos) (Sink room out) = Ok (true, e') ->
  s_out (sb_sink e') <> out ++ opt_head (num - cur) l.
Proof.
  intros f num l cur pos room out e' Hc Hn Hl Hns Hnl H Hout.
  set (d := num - cur) in *.
  assert (Hd : forall st p, odelta (OBase num l []) (OEnc st cur p) = d)
    by (intros; apply odelta_val; assumption).
  pose proof (nib_le d) as Bd. pose proof (nib_le l) as Bl.
  (* first byte *)
  assert (Hfirst : exists t, s_out (sb_sink e') = out ++ N.lor (generator_helper l 0)
      ((N.shiftl (generator_helper d 0) 4) mod 256) :: t).
  { change (5 + f)%nat with (S (4 + f)) in H.
    destruct (loop_emits_head _ _ _ _ _ _ _ _ (gen_FirstByte _ _ _) H eq_refl) as (t & Ht & _).
    rewrite Hd in Ht. cbn [o_length s_out] in Ht. eauto. }
  destruct Hfirst as (t & Ht). rewrite Hout in Ht. unfold opt_head in Ht.
  apply app_head_eq in Ht. destruct Ht as [Hx _].
  pose proof (gh_range l 0 Hl) as Rl.
  assert (Hd16 : d < 65536) by (unfold d; lia).
  assert (Hgd : good_delta d).
  { unfold good_delta. destruct (N.lt_ge_cases d 242); [lia|].
    destruct (N.lt_ge_cases d 269).
    - rewrite (gh_gap d 0) in Hx by lia. change (0 =? 0) with true in Hx. cbn iota in Hx.
      rewrite shift4 in Hx by lia.
      assert (nib d = 13) by (unfold nib; destruct (N.ltb_spec d 13); [lia|]; destruct (N.ltb_spec d 269); lia).
      destruct (gh_root_cases l Hl) as [G|G].
      + rewrite lor_nib in Hx by lia. lia.
      + rewrite G, lor_255 in Hx by lia. lia.
    - destruct (N.lt_ge_cases d 65266); [lia|].
      rewrite (gh_over d 0) in Hx by lia. change ((N.shiftl 255 4) mod 256) with 240 in Hx.
      pose proof (lor_ge240 _ Rl). lia. }
  assert (Hgl : l <= 241 \/ (269 <= l /\ l <= 65265)).
  { rewrite (gh_root_nib d Hgd), shift4 in Hx by lia.
    destruct (N.lt_ge_cases l 242); [lia|].
    destruct (N.lt_ge_cases l 269).
    - rewrite (gh_gap l 0) in Hx by lia. change (0 =? 0) with true in Hx. cbn iota in Hx.
      rewrite lor_nib in Hx by lia.
      assert (nib l = 13) by (unfold nib; destruct (N.ltb_spec l 13); [lia|]; destruct (N.ltb_spec l 269); lia).
      lia.
    - destruct (N.lt_ge_cases l 65266); [lia|].
      rewrite (gh_over l 0), lor_255 in Hx by lia. lia. }
  assert (Hl13 : 13 <= l) by (unfold enc_short, good_delta in *; lia).
  (* phase 2: the length extension *)
  destruct (phase1 f num l cur pos room out Hc Hn Hgd) as [Hsmall Hp].
  rewrite (gh_root_nib l Hgl), (lor_nib _ _ (nib_le _) (nib_le _)) in *. fold d in Hsmall, Hp.
  set (head := (nib d * 16 + nib l) :: ext d) in *.
  destruct (Nat.lt_ge_cases room (length head)) as [Hr|Hr].
  { destruct (Hsmall Hr) as (e2 & E2). rewrite E2 in H. discriminate. }
  destruct (Hp (room - length head)%nat ltac:(lia)) as [_ Hlong].
  assert (Hnl13 : 13 <= nib l).
  { unfold nib. destruct (N.ltb_spec l 13); [lia|]. destruct (l <? 269); lia. }
  destruct (Hlong Hnl13) as (j & Hj & E). rewrite E in H. clear E Hlong Hp Hsmall Hx.
  unfold opt_head in Hout. change (nib d * 16 + nib l :: ext d ++ ext l) with (head ++ ext l) in Hout.
  rewrite app_assoc in Hout. set (out1 := out ++ head) in *.
  set (r := (room - length head)%nat) in *. clearbody out1 r. clear head Hr room out pos.
  destruct (j + f)%nat as [|f1]; [discriminate|]. clear j Hj f.
  set (k := N.of_nat (length (ext d))) in *.
  assert (Hk : (k = 0 /\ d < 13) \/ k = 1 \/ k = 2).
  { unfold k, ext. destruct (N.ltb_spec d 13); [left; split; [reflexivity|assumption]|].
    destruct (d <? 269); right; [left|right]; reflexivity. }
  clearbody k.
  (* first length byte *)
  destruct (loop_emits_head _ _ _ _ _ _ _ _ (gen_Length _ _ _) H eq_refl) as (t1 & Ht1 & Hdone1 & Hmore1).
  cbn [o_length e_st s_out s_room] in *. rewrite Hout in Ht1.
  destruct Hgl as [Hgl|Hgl].
  - (* one byte expected *)
    assert (Hel : ext l = [l - 13])
      by (unfold ext; destruct (N.ltb_spec l 13); [lia|]; destruct (N.ltb_spec l 269); [reflexivity|lia]).
    rewrite Hel in *. apply app_head_eq in Ht1. destruct Ht1 as [Hb Ht1]. subst t1.
    rewrite (gh_8 l) in Hb by lia.
    destruct Hk as [[-> Hd13]|[->| ->]].
    + change ((0 + 1) mod 256) with 1 in *. change (1 =? 0) with false in Hb.
      change (1 =? 1) with true in Hb. cbn iota in Hb.
      assert (Hne : l <> 26) by (intro; apply Hnl; unfold enc_long; lia).
      rewrite (gh_8 l 1) in Hmore1 by lia. change (1 =? 0) with false in Hmore1.
      change (1 =? 1) with true in Hmore1. change (1 =? 2) with false in Hmore1.
      cbn iota in Hmore1. rewrite andb_false_r, orb_false_r in Hmore1.
      destruct (N.eqb_spec (l - 13) 13); [lia|].
      destruct (Hmore1 ltac:(congruence)) as (r1 & _ & H1).
      destruct f1 as [|f2]; [discriminate|].
      destruct (loop_emits_head _ _ _ _ _ _ _ _ (gen_Length _ _ _) H1 eq_refl) as (t2 & Ht2 & _).
      cbn [s_out] in Ht2. rewrite Hout, <- app_assoc in Ht2. apply app_inv_head in Ht2. discriminate.
    + change ((1 + 1) mod 256) with 2 in *. change (2 =? 0) with false in Hb.
      change (2 =? 1) with false in Hb. cbn iota in Hb. lia.
    + change ((2 + 1) mod 256) with 3 in *. change (3 =? 0) with false in Hb.
      change (3 =? 1) with false in Hb. cbn iota in Hb. lia.
  - (* two bytes expected *)
    assert (Hel : ext l = [(l - 269) / 256; (l - 269) mod 256])
      by (unfold ext; destruct (N.ltb_spec l 13); [lia|]; destruct (N.ltb_spec l 269); [lia|reflexivity]).
    rewrite Hel in *. apply app_head_eq in Ht1. destruct Ht1 as [Hb Ht1]. subst t1.
    set (p1 := (k + 1) mod 256) in *.
    set (b1 := generator_helper l p1) in *.
    destruct ((b1 =? 13) || ((b1 =? 14) && (p1 =? 2))) eqn:D1.
    { specialize (Hdone1 eq_refl). discriminate. }
    destruct (Hmore1 ltac:(congruence)) as (r1 & _ & H1). clear Hmore1 Hdone1.
    destruct f1 as [|f2]; [discriminate|].
    destruct (loop_emits_head _ _ _ _ _ _ _ _ (gen_Length _ _ _) H1 eq_refl) as (t2 & Ht2 & Hdone2 & Hmore2).
    cbn [s_out o_length e_st] in *. rewrite Hout, <- app_assoc in Ht2. cbn [app] in Ht2.
    apply app_head_eq in Ht2. destruct Ht2 as [_ Ht2].
    injection Ht2 as Hb2 Ht2. subst t2.
    set (p2 := (p1 + 1) mod 256) in *. set (b2 := generator_helper l p2) in *.
    destruct ((b2 =? 13) || ((b2 =? 14) && (p2 =? 2))) eqn:D2.
    + clear Hmore2 Hdone2. unfold b1, b2 in *. rewrite gh_16 in * by lia.
      destruct Hk as [[-> Hd13]|[->| ->]].
      * change p1 with 1 in *. change p2 with 2 in *.
        change (1 =? 0) with false in *. change (1 =? 1) with true in *.
        change (2 =? 0) with false in *. change (2 =? 1) with false in *.
        change (2 =? 2) with true in *. cbn iota in *.
        apply orb_false_iff in D1. destruct D1 as [D1 _]. apply N.eqb_neq in D1.
        rewrite andb_true_r in D2. apply orb_true_iff in D2. rewrite !N.eqb_eq in D2.
        apply Hnl. unfold enc_long. split; [exact Hd13|]. right. repeat split; try lia.
      * change p1 with 2 in *. change p2 with 3 in *.
        change (3 =? 0) with false in D2. change (3 =? 1) with false in D2.
        change (3 =? 2) with false in D2. cbn iota in D2. discriminate.
      * change p1 with 3 in *. change p2 with 4 in *.
        change (4 =? 0) with false in D2. change (4 =? 1) with false in D2.
        change (4 =? 2) with false in D2. cbn iota in D2. discriminate.
    + destruct (Hmore2 ltac:(congruence)) as (r2 & _ & H2).
      destruct f2 as [|f3]; [discriminate|].
      destruct (loop_emits_head _ _ _ _ _ _ _ _ (gen_Length _ _ _) H2 eq_refl) as (t3 & Ht3 & _).
      cbn [s_out] in Ht3. rewrite Hout, <- !app_assoc in Ht3. cbn [app] in Ht3.
      apply app_inv_head in Ht3. discriminate.
Qed.
