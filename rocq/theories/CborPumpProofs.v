(** Lemmas for C87: every datagram is answered by the CBOR server or stops it. *)
From Coq Require Import ZArith.
From Verif Require Import Base HeaderModel HeaderSpec HeaderProofs OptEncModel OptSpec StreambufModel StreambufProofs ContextModel AppModel NetbufModel NetbufProofs
  ObserveModel RespModel RespSpec RespProofs RespProps OptDecModel OptDecSpec OptDecProofs DecoderModel DecoderSpec DecoderProofs NetDecModel NetDecSpec NetDecProofs NetDecProps
  HeadCutSpec NetAnySpec NetAnyProofs NetAnyProps PumpModel PumpSpec PumpProofs PumpAnySpec PumpAnyProofs CborModel CborSpec CborRespModel CborRespSpec CborRespProofs CborRespProps
  CborAnySpec CborAnyProofs CborAnyProps CborPumpModel CborPumpSpec.
Local Open Scope N_scope.

Lemma stale_or : forall m d, not_stale m d \/ ~ not_stale m d.
Proof.
  intros m d. unfold not_stale. destruct (m_tok m); [|left; right; right; left; discriminate]. destruct (m_opts m); [|left; left; discriminate].
  destruct (m_pay m); [left; right; left; discriminate|].
  destruct (d_st (k_od d)); try (left; right; right; right; discriminate). right. tauto.
Qed.

Lemma new_nil : forall c x, nd_state x = OptionsStart -> n_pos x = length c -> exists y, it_new c true x = Ok y /\ it_valid y = false /\ nd_state y <> OptionsDone.
Proof.
  intros c x S P. unfold it_new, nd_begin, nd_from. rewrite S. cbn [rstate_eqb]. unfold nd_state in S.
  assert (E : nd_iter c true x = Ok (ND (k_goto OptionsDone (n_dec x)) (length c))).
  { unfold nd_iter, dec_iterate, dec_step. rewrite S. unfold remainder. rewrite P, skipn_end. cbn [length Nat.eqb andb bind]. rewrite Nat.leb_refl. reflexivity. }
  rewrite E. cbn [bind]. unfold nd_state at 1. cbn [n_dec k_st k_goto rstate_eqb].
  destruct (after_end c (ND (k_goto OptionsDone (n_dec x)) (length c))) as (y & -> & V & Q).
  - split; [reflexivity|]. cbn [n_pos]. auto.
  - cbn [bind fst snd]. eauto.
Qed.

(** a type that cannot be answered stops the server, if nothing else does *)
Lemma cbor_unanswered : forall debug fuel jh junk h tok rest behind d buf hd p, hdr_ok jh -> hdr_ok h -> idle d -> bytes_ok (hdr_bytes h ++ tok ++ rest) ->
  h0 h mod 16 = len tok -> (length tok <= 8)%nat -> ~ answerable h ->
  let c := hdr_bytes h ++ tok ++ rest in (dec_fuel c <= fuel)%nat -> cbor_server debug nb_size fuel jh junk c behind d buf hd p = Fault.
Proof.
  intros debug fuel jh junk h tok rest behind d buf hd p Hj Hh Hd B Ht H8 R c Hf.
  destruct (begin_any junk d h tok rest Hd B Ht H8) as (k & x & K1 & K2 & K3 & S & P & M). fold c in K1, B. unfold cbor_server. rewrite K1. cbn [bind fst snd].
  assert (F : forall b y, bind (nd_has_payload c true y) (fun g => let pl := nd_payload c (snd g) in
      bind (if fst g then cr_print (pl ++ behind) (length pl) buf hd p else Ok []) (fun o => bind (rs_head debug nb_size jh k code_valid) (fun q => Ok (o, s_out (n_sink q))))) = b ->
    nd_has_payload c true y <> NoFuel -> b = Fault).
  { intros b y E NF. rewrite (head_fault debug nb_size jh k code_valid h tok Hj Hh K2 K3 R) in E. destruct (nd_has_payload c true y) as [[g z]| |]; cbn [bind] in E; [|congruence|congruence].
    cbn [fst snd] in E. destruct g; cbn [bind] in E; [|congruence].
    assert (Q := print_ends (nd_payload c z ++ behind) (length (nd_payload c z)) buf hd p). destruct (cr_print _ _ _ _ _); cbn [bind] in E; congruence. }
  assert (Lc : length c = (4 + (length tok + length rest))%nat) by (unfold c; rewrite !app_length; reflexivity).
  destruct (options_skip fuel h tok rest x B S M P Hf) as [G|(z & G)]; fold c in G.
  - destruct (it_new c true x) as [y| |]; cbn [bind] in *; [|reflexivity|discriminate]. rewrite G. reflexivity.
  - destruct (it_new c true x) as [y| |] eqn:NE; cbn [bind] in *; try discriminate. rewrite G. cbn [bind]. eapply F; [reflexivity|].
    destruct (Nat.eq_dec (n_pos x) (length c)) as [Eq|Ne].
    + destruct (new_nil c x S Eq) as (y2 & E2 & V & Q). rewrite NE in E2. injection E2 as <-.
      assert (z = y) as -> by (destruct fuel; [discriminate|]; cbn [it_skip] in G; rewrite V in G; congruence).
      unfold nd_has_payload. replace (rstate_eqb (nd_state y) OptionsDone) with false by (destruct (nd_state y); try reflexivity; congruence). discriminate.
    + assert (Lt : (n_pos x < length c)%nat) by lia.
      assert (LV : leaves c (ND (opt_fresh (n_dec x)) (n_pos x)) z) by (apply (new_leaves c x fuel z B S M Lt); rewrite NE; exact G).
      destruct (leaves_payload c x z B S M Lt LV) as (w & -> & _). discriminate.
Qed.

Lemma told_once : forall m c r1 r2, told m c r1 -> told m c r2 -> r1 = r2.
Proof. intros m c r1 r2 (h & t & q & P & _ & _ & _ & ->) (h2 & t2 & q2 & P2 & _ & _ & _ & ->). destruct (parts_once _ _ _ _ _ _ _ P P2) as (<- & <- & _). reflexivity. Qed.

Lemma cbor_any : forall debug fuel jh junk chunk c d buf hd p, hdr_ok jh -> idle d -> bytes_ok c -> bytes_ok chunk -> length chunk = 4096%nat -> length buf = 4%nat -> (dec_fuel c <= fuel)%nat ->
  let run := bind (cbor_server debug nb_size fuel jh junk c (skipn (length c) chunk) d buf hd p) (fun r => Ok (snd r)) in
  (exists r, told chunk c r /\ run = Ok r) \/ ((forall r, ~ told chunk c r) /\ run = Fault).
Proof.
  intros debug fuel jh junk chunk c d buf hd p Hj Hd B Bm Lm Lb Hf run. destruct (parts_or c B) as [(h & tok & rest & P & Hh & Bt & Br)|L].
  2: { right. split; [intros r (h & tok & rest & P & _); exact (short_no_parts c h tok rest L P)|]. unfold run, cbor_server. rewrite begin_short by assumption. reflexivity. }
  pose proof P as (Ec & Ht & H8).
  assert (Hc : (4 + length tok <= nb_size)%nat) by (apply Nat.le_trans with 12%nat; [lia|apply Nat.leb_le; vm_compute; reflexivity]).
  assert (Dec : answerable h \/ ~ answerable h) by (unfold answerable; destruct (N.eq_dec (hdr_type h) CON), (N.eq_dec (hdr_type h) NON); tauto).
  assert (Bb : bytes_ok (skipn (length c) chunk)) by (rewrite <- (firstn_skipn (length c) chunk) in Bm; apply bytes_ok_app in Bm; tauto).
  destruct Dec as [R|R].
  2: { right. split; [intros r (h2 & tok2 & rest2 & P2 & R2 & _); destruct (parts_once _ _ _ _ _ _ _ P P2) as (<- & _); contradiction|].
       unfold run. rewrite Ec in *. rewrite cbor_unanswered; auto. }
  destruct rest as [|r0 rest].
  - (* header and token alone *)
    left. exists (answer_head 67 h tok). split.
    { exists h, tok, []. split; [exact P|]. split; [exact R|]. split; [apply nil_readable|]. split; [|reflexivity]. intros at_ E. discriminate E. }
    set (m := Msg h tok [] None). assert (Hm : msg_ok m).
    { unfold msg_ok, m. cbn [m_hdr m_tok m_opts m_pay]. repeat split; auto; try constructor. }
    assert (EM : c = msg_bytes m) by (rewrite Ec; unfold msg_bytes, m; cbn; rewrite !app_nil_r; reflexivity).
    unfold dec_fuel in Hf. destruct (stale_or m d) as [NS|NS].
    + unfold run. rewrite EM at 1. rewrite (C63_server debug nb_size fuel jh junk m (skipn (length c) chunk) d buf hd p Hj Hm Hd NS) by (cbn; auto; lia). reflexivity.
    + unfold run. rewrite EM at 1. assert (T0 : tok = []) by (unfold not_stale, m in NS; cbn in NS; destruct tok; [reflexivity|exfalso; apply NS; right; right; left; discriminate]).
      rewrite (C63_stale debug nb_size fuel jh junk m (skipn (length c) chunk) d buf hd p Hj Hm Hd NS) by (cbn; auto; lia).
      assert (NE : (0 < length (skipn (length c) chunk))%nat).
      { rewrite skipn_length, Lm, Ec, T0. apply Nat.ltb_lt. vm_compute. reflexivity. }
      destruct (skipn (length c) chunk) as [|g beh] eqn:EB; [cbn in NE; lia|].
      assert (Q : cr_print (g :: beh) 0 buf hd p = Ok [RType (g / 32)]).
      { apply C86_printed; auto. change (Ok [RType (g / 32)]) with (if (0 <? length (g :: beh))%nat then Ok [RType (g / 32)] else Fault). apply Pr_cut; [left; reflexivity|lia]. }
      rewrite Q. cbn [bind snd m_hdr m]. rewrite T0. reflexivity.
  - rewrite Ec in Hf. destruct (C86_server debug nb_size fuel jh junk h tok (r0 :: rest) (skipn (length c) chunk) d buf hd p Hj Hh Hd Bt Br ltac:(discriminate) Ht H8 Hc R Hf) as [(U & E)|(U & E)];
      rewrite <- Ec in E; unfold run; rewrite E; cbn [bind].
    + right. split; [|reflexivity]. intros r (h2 & tok2 & rest2 & P2 & _ & U2 & _). destruct (parts_once _ _ _ _ _ _ _ P P2) as (<- & <- & <-). exact (U2 U).
    + destruct (snd (parse 0 (4 + length tok) (r0 :: rest))) as [|at_| | | |] eqn:PE;
        try (left; eexists; split; [|cbn [bind snd]; reflexivity]; exists h, tok, (r0 :: rest); split; [exact P|]; split; [exact R|]; split; [exact U|]; split; [|reflexivity]; intros a X; rewrite PE in X; discriminate X).
      assert (Bp : bytes_ok (skipn at_ c ++ skipn (length c) chunk)).
      { apply bytes_ok_app. split; [|exact Bb]. rewrite <- (firstn_skipn at_ c) in B. apply bytes_ok_app in B. tauto. }
      destruct (cr_print (skipn at_ c ++ skipn (length c) chunk) (length (skipn at_ c)) buf hd p) as [o| |] eqn:CP; cbn [bind snd].
      * left. eexists. split; [|reflexivity]. exists h, tok, (r0 :: rest). split; [exact P|]. split; [exact R|]. split; [exact U|]. split; [|reflexivity].
        intros a X. rewrite PE in X. injection X as <-. exists o. apply (C86_printed _ _ buf hd p); auto.
      * right. split; [|reflexivity]. intros r (h2 & tok2 & rest2 & P2 & _ & _ & U2 & _). destruct (parts_once _ _ _ _ _ _ _ P P2) as (<- & <- & <-).
        destruct (U2 at_ PE) as (o & X). apply (C86_printed _ _ buf hd p) in X; auto. congruence.
      * exfalso. revert CP. apply print_ends.
Qed.
