(** Pulling options byte by byte out of the option encoder. *)
From Verif Require Import Base HeaderModel OptEncModel OptSpec StreambufModel OptEncProofs.
Local Open Scope N_scope.

(** turns of the state machine, none of them from OptionValueDone *)
Inductive path (o : obase) : oenc -> list N -> oenc -> Prop :=
| p_nil : forall e, path o e [] e
| p_none : forall e e1 bs e2, e_st e <> OptionValueDone -> generate_iterate o e = Ok (None, e1) -> path o e1 bs e2 -> path o e bs e2
| p_some : forall e b e1 bs e2, e_st e <> OptionValueDone -> generate_iterate o e = Ok (Some b, e1) -> path o e1 bs e2 -> path o e (b :: bs) e2.

Lemma gen_S : forall f o e r e1, generate_iterate o e = Ok (r, e1) ->
  generate (S f) o e = match r with Some b => Ok (b, e1) | None => generate f o e1 end.
Proof. intros f o e r e1 H. cbn [generate]. rewrite H. reflexivity. Qed.

Lemma gen_mono : forall f o e x k, generate f o e = Ok x -> generate (f + k) o e = Ok x.
Proof.
  induction f as [|f IH]; intros o e x k H; [discriminate|]. cbn [generate plus] in *.
  destruct (generate_iterate o e) as [[[b|] e1]| |]; cbn [bind fst snd] in *; try discriminate; auto.
Qed.

Lemma path_cons : forall o e b bs e2, path o e (b :: bs) e2 ->
  exists e1 k, (forall f, (k <= f)%nat -> generate f o e = Ok (b, e1)) /\ (forall f, (f < k)%nat -> generate f o e = NoFuel) /\
    path o e1 bs e2 /\ e_st e <> OptionValueDone.
Proof.
  intros o e b bs e2 H. remember (b :: bs) as L eqn:EL. induction H as [e|e e1 L e2 Hn E P IH|e c e1 L e2 Hn E P IH]; [discriminate| |].
  - destruct (IH EL) as (e3 & k & A & B & C & _). exists e3, (S k). split; [|split; [|split; [exact C|exact Hn]]].
    + intros [|f] Hf; [lia|]. rewrite (gen_S _ _ _ _ _ E). apply A. lia.
    + intros [|f] Hf; [reflexivity|]. rewrite (gen_S _ _ _ _ _ E). apply B. lia.
  - injection EL as -> ->. exists e1, 1%nat. split; [|split; [|split; [exact P|exact Hn]]].
    + intros [|f] Hf; [lia|]. rewrite (gen_S _ _ _ _ _ E). reflexivity.
    + intros [|f] Hf; [reflexivity|lia].
Qed.

Lemma path_silent : forall o e e2, path o e [] e2 ->
  exists k, (forall f, generate (k + f) o e = generate f o e2) /\ (forall f, (f < k)%nat -> generate f o e = NoFuel) /\
    (k = O -> e = e2) /\ (k <> O -> e_st e <> OptionValueDone).
Proof.
  intros o e e2 H. remember [] as L eqn:EL. induction H as [e|e e1 L e2 Hn E P IH|]; [|destruct (IH EL) as (k & A & B & _)|discriminate].
  - exists O. split; [reflexivity|]. split; [intros; lia|]. split; congruence.
  - exists (S k). split; [|split; [|split; [discriminate|intros _; exact Hn]]].
    + intros f. cbn [plus]. rewrite (gen_S _ _ _ _ _ E). apply A.
    + intros [|f] Hf; [reflexivity|]. rewrite (gen_S _ _ _ _ _ E). apply B. lia.
Qed.

Lemma pull_S : forall n fuel o e, e_st e <> OptionValueDone ->
  pull (S n) fuel o e = bind (generate fuel o e) (fun r => bind (pull n fuel o (snd r)) (fun q => Ok (fst r :: fst q, snd q))).
Proof. intros n fuel o e H. cbn [pull]. destruct (e_st e); try reflexivity. congruence. Qed.

Lemma pull_path : forall bs o e e1 v vs e2, path o e bs e1 ->
  (exists F, forall n fuel, (F <= n)%nat -> (F <= fuel)%nat -> pull n fuel o e1 = Ok (v :: vs, e2)) ->
  exists F, forall n fuel, (F <= n)%nat -> (F <= fuel)%nat -> pull n fuel o e = Ok (bs ++ v :: vs, e2).
Proof.
  induction bs as [|b bs IH]; intros o e e1 v vs e2 P (F & HF).
  - destruct (path_silent o e e1 P) as (k & A & B & C & D). destruct k as [|k].
    { rewrite (C eq_refl). exists F. exact HF. }
    exists (F + S k + 1)%nat. intros n fuel Hn Hf. destruct n as [|n]; [lia|]. rewrite pull_S by (apply D; discriminate).
    assert (N1 : e_st e1 <> OptionValueDone).
    { intro X. specialize (HF F F (le_n F) (le_n F)). destruct F; cbn [pull] in HF; rewrite X in HF; cbn [ostate_eqb] in HF; discriminate. }
    pose proof (HF (S n) fuel ltac:(lia) ltac:(lia)) as H1. rewrite pull_S in H1 by exact N1.
    pose proof (HF (S n) (fuel - S k)%nat ltac:(lia) ltac:(lia)) as H2. rewrite pull_S in H2 by exact N1.
    destruct (generate (fuel - S k) o e1) as [x| |] eqn:G; cbn [bind] in H2; try discriminate.
    pose proof (gen_mono _ _ _ _ (S k) G) as G2. replace (fuel - S k + S k)%nat with fuel in G2 by lia. rewrite G2 in H1.
    assert (G3 : generate fuel o e = Ok x).
    { replace fuel with (S k + (fuel - S k))%nat at 1 by lia. rewrite A. exact G. }
    rewrite G3. exact H1.
  - destruct (path_cons o e b bs e1 P) as (e3 & k & A & _ & P2 & N).
    destruct (IH o e3 e1 v vs e2 P2 (ex_intro _ F HF)) as (F2 & HF2).
    exists (F2 + k + 1)%nat. intros n fuel Hn Hf. destruct n as [|n]; [lia|]. rewrite pull_S by exact N.
    rewrite A by lia. cbn [bind fst snd]. rewrite HF2 by lia. reflexivity.
Qed.

Lemma pull_stuck : forall bs o e e1, path o e bs e1 -> e_st e1 <> OptionValueDone -> (forall n fuel, pull n fuel o e1 = NoFuel) ->
  forall n fuel, pull n fuel o e = NoFuel.
Proof.
  induction bs as [|b bs IH]; intros o e e1 P N HF n fuel.
  - destruct (path_silent o e e1 P) as (k & A & B & C & D). destruct k as [|k]; [rewrite (C eq_refl); apply HF|].
    assert (Ne : e_st e <> OptionValueDone) by (apply D; discriminate).
    destruct n as [|n]; [cbn [pull]; destruct (e_st e); try reflexivity; congruence|].
    rewrite pull_S by exact Ne. destruct (Nat.lt_ge_cases fuel (S k)) as [L|L].
    { rewrite B by exact L. reflexivity. }
    replace fuel with (S k + (fuel - S k))%nat at 1 by lia. rewrite A.
    pose proof (HF (S n) fuel) as H. rewrite pull_S in H by exact N.
    destruct (generate (fuel - S k) o e1) as [x| |] eqn:G; cbn [bind].
    + apply (gen_mono _ _ _ _ (S k)) in G. replace (fuel - S k + S k)%nat with fuel in G by lia. rewrite G in H. exact H.
    + exfalso. assert (G2 : forall f g, generate f o e1 = Fault -> generate (f + g) o e1 = Fault).
      { clear. intros f. generalize e1. induction f as [|f IH]; intros e g H; [discriminate|]. cbn [generate plus] in *.
        destruct (generate_iterate o e) as [[[b|] e2]| |]; cbn [bind fst snd] in *; try discriminate; auto. }
      apply (G2 _ (S k)) in G. replace (fuel - S k + S k)%nat with fuel in G by lia. rewrite G in H. discriminate.
    + reflexivity.
  - destruct (path_cons o e b bs e1 P) as (e3 & k & A & B & P2 & Ne).
    destruct n as [|n]; [cbn [pull]; destruct (e_st e); try reflexivity; congruence|].
    rewrite pull_S by exact Ne. destruct (Nat.lt_ge_cases fuel k) as [L|L]; [rewrite B by exact L; reflexivity|].
    rewrite A by exact L. cbn [bind fst snd]. rewrite (IH o e3 e1 P2 N HF). reflexivity.
Qed.

(** the header loop of the stream encoder is such a path; the value is not looked at *)
Lemma iterate_value : forall num l v v' e, hstate (e_st e) -> generate_iterate (OBase num l v) e = generate_iterate (OBase num l v') e.
Proof. intros num l v v' [st cur pos] H. destruct st; cbn [e_st hstate] in H; try contradiction; reflexivity. Qed.

Lemma loop_path : forall f num l v e s e1 s1, hstate (e_st e) ->
  sb_option_loop f (OBase num l []) e s = Ok (true, SB e1 s1) ->
  exists bs, s_out s1 = s_out s ++ bs /\ path (OBase num l v) e bs e1 /\ e_st e1 = OptionLengthDone.
Proof.
  induction f as [|f IH]; intros num l v e s e1 s1 Hh H; [discriminate|].
  destruct (gen_hstate (OBase num l []) e Hh) as (r & e2 & E & Hst & _).
  assert (E' : generate_iterate (OBase num l v) e = Ok (r, e2)) by (rewrite (iterate_value num l v [] e Hh); exact E).
  assert (Hn : e_st e <> OptionValueDone) by (intro X; rewrite X in Hh; exact Hh).
  destruct r as [b|].
  - destruct s as [[|room] out]; [rewrite (loop_full _ _ _ _ _ _ E) in H; discriminate|].
    rewrite (loop_some _ _ _ _ _ _ _ E) in H. destruct (ostate_eqb (e_st e2) OptionLengthDone) eqn:D.
    + injection H as <- <-. exists [b]. split; [reflexivity|]. split; [eapply p_some; [exact Hn|exact E'|constructor]|].
      destruct (e_st e2); try discriminate; reflexivity.
    + destruct Hst as [Hst|Hst]; [|rewrite Hst in D; discriminate].
      destruct (IH _ _ v _ _ _ _ Hst H) as (bs & A & B & C). exists (b :: bs). cbn [s_out] in *. rewrite A, <- app_assoc.
      split; [reflexivity|]. split; [eapply p_some; eauto|exact C].
  - rewrite (loop_none _ _ _ _ _ E) in H. destruct (ostate_eqb (e_st e2) OptionLengthDone) eqn:D.
    + injection H as <- <-. exists []. rewrite app_nil_r. split; [reflexivity|]. split; [eapply p_none; [exact Hn|exact E'|constructor]|].
      destruct (e_st e2); try discriminate; reflexivity.
    + destruct Hst as [Hst|Hst]; [|rewrite Hst in D; discriminate].
      destruct (IH _ _ v _ _ _ _ Hst H) as (bs & A & B & C). exists bs. split; [exact A|]. split; [eapply p_none; eauto|exact C].
Qed.

Lemma head_path : forall num l v cur pos, cur <= num -> num < 65536 -> enc_short (num - cur) l \/ enc_long (num - cur) l ->
  exists p, path (OBase num l v) (OEnc FirstByte cur pos) (opt_head (num - cur) l) (OEnc OptionLengthDone num p).
Proof.
  intros num l v cur pos Hc Hn Hg.
  destruct (loop_good 2 num l cur pos (length (opt_head (num - cur) l)) [] Hc Hn Hg (le_n _) (le_n _)) as (p & E).
  destruct (loop_path _ _ _ v (OEnc FirstByte cur pos) _ _ _ I E) as (bs & A & B & _). cbn [s_out app] in A. subst bs. eauto.
Qed.

(** the value *)
Lemma skipn_step : forall k (v : list N) p w, skipn k v = p :: w -> skipn (S k) v = w.
Proof.
  induction k as [|k IH]; intros [|x v] p w H; cbn [skipn] in *; try discriminate; [now injection H|]. destruct v; [destruct k; discriminate|]. apply (IH _ _ _ H).
Qed.

Lemma value_pull : forall w k v num p, (length v = k + S (length w))%nat -> skipn k v = p :: w -> (length v <= 256)%nat ->
  exists q, forall n fuel, (S (length w) <= n)%nat -> (1 <= fuel)%nat ->
    pull n fuel (OBase num (len v) v) (OEnc OptionValue num (N.of_nat k)) = Ok (p :: w, OEnc OptionValueDone num q).
Proof.
  induction w as [|b w IH]; intros k v num p Hl Hs Hb.
  - exists ((N.of_nat k + 1) mod 256). intros n fuel Hn Hf. destruct n as [|n]; [cbn in Hn; lia|]. destruct fuel as [|fuel]; [lia|].
    rewrite pull_S by discriminate.
    assert (E : generate_iterate (OBase num (len v) v) (OEnc OptionValue num (N.of_nat k)) =
      Ok (Some p, OEnc OptionValueDone num ((N.of_nat k + 1) mod 256))).
    { unfold generate_iterate. cbn [e_st e_cur e_pos o_value o_length]. rewrite Nat2N.id.
      assert (X : nth_error v k = Some p) by (rewrite <- (firstn_skipn k v), Hs, nth_error_app2 by (rewrite firstn_length; lia);
        rewrite firstn_length, Nat.min_l by lia; rewrite Nat.sub_diag; reflexivity).
      rewrite X. unfold len. replace (N.of_nat k + 1 =? N.of_nat (length v)) with true; [reflexivity|].
      symmetry. apply N.eqb_eq. cbn [length] in Hl. lia. }
    rewrite (gen_S _ _ _ _ _ E). cbn [bind fst snd]. destruct n; reflexivity.
  - destruct (IH (S k) v num b) as (q & H).
    { cbn [length] in *. lia. }
    { apply (skipn_step _ _ _ _ Hs). }
    { exact Hb. }
    exists q. intros n fuel Hn Hf. destruct n as [|n]; [cbn in Hn; lia|]. destruct fuel as [|fuel]; [lia|].
    rewrite pull_S by discriminate.
    assert (E : generate_iterate (OBase num (len v) v) (OEnc OptionValue num (N.of_nat k)) =
      Ok (Some p, OEnc OptionValue num (N.of_nat (S k)))).
    { unfold generate_iterate. cbn [e_st e_cur e_pos o_value o_length]. rewrite Nat2N.id.
      assert (X : nth_error v k = Some p) by (rewrite <- (firstn_skipn k v), Hs, nth_error_app2 by (rewrite firstn_length; lia);
        rewrite firstn_length, Nat.min_l by lia; rewrite Nat.sub_diag; reflexivity).
      rewrite X. unfold len. replace (N.of_nat k + 1 =? N.of_nat (length v)) with false.
      2:{ symmetry. apply N.eqb_neq. cbn [length] in Hl. lia. }
      rewrite N.mod_small by (cbn [length] in Hl; lia). repeat f_equal. lia. }
    rewrite (gen_S _ _ _ _ _ E). cbn [bind fst snd]. rewrite H; [reflexivity|cbn [length] in Hn; lia|lia].
Qed.

Lemma len_done : forall num l v p, 0 < l -> generate_iterate (OBase num l v) (OEnc OptionLengthDone num p) = Ok (None, OEnc OptionValue num 0).
Proof.
  intros num l v p H. unfold generate_iterate. cbn [e_st e_cur e_pos o_length]. destruct (N.eqb_spec l 0); [lia|reflexivity].
Qed.

Lemma pull_option : forall num v cur pos, cur <= num -> num < 65536 -> enc_short (num - cur) (len v) \/ enc_long (num - cur) (len v) ->
  v <> [] -> (length v <= 256)%nat ->
  exists F q, forall n fuel, (F <= n)%nat -> (F <= fuel)%nat ->
    pull n fuel (OBase num (len v) v) (OEnc FirstByte cur pos) = Ok (opt_head (num - cur) (len v) ++ v, OEnc OptionValueDone num q).
Proof.
  intros num v cur pos Hc Hn Hg Hv Hl. destruct (head_path num (len v) v cur pos Hc Hn Hg) as (p & P).
  destruct v as [|b w]; [congruence|]. set (v := b :: w) in *.
  destruct (value_pull w 0 v num b eq_refl eq_refl Hl) as (q & H).
  assert (P2 : path (OBase num (len v) v) (OEnc FirstByte cur pos) (opt_head (num - cur) (len v) ++ []) (OEnc OptionValue num 0)).
  { clear -P. remember (OEnc OptionLengthDone num p) as e1 eqn:E1. induction P as [e|e e1 bs e2 Hn E P IH|e b0 e1 bs e2 Hn E P IH].
    - subst e. cbn [app]. eapply p_none; [discriminate|apply len_done; unfold len, v; cbn [length]; lia|constructor].
    - eapply p_none; eauto.
    - cbn [app]. eapply p_some; eauto. }
  rewrite app_nil_r in P2.
  destruct (pull_path _ _ _ _ b w (OEnc OptionValueDone num q) P2) as (F & HF).
  { exists (S (length w)). intros n fuel A B. apply H; lia. }
  exists F, q. exact HF.
Qed.

(** nothing comes of an empty value *)
Lemma done_silent : forall o f cur pos, generate f o (OEnc OptionDone cur pos) = NoFuel.
Proof. induction f as [|f IH]; intros; [reflexivity|]. cbn [generate]. unfold generate_iterate. cbn [e_st bind fst snd]. apply IH. Qed.
Lemma empty_silent : forall num v n fuel p, pull n fuel (OBase num 0 v) (OEnc OptionLengthDone num p) = NoFuel.
Proof.
  intros num v n fuel p. destruct n as [|n]; [reflexivity|]. rewrite pull_S by discriminate.
  assert (E : generate fuel (OBase num 0 v) (OEnc OptionLengthDone num p) = NoFuel).
  { destruct fuel as [|[|fuel]]; try reflexivity. cbn [generate]. unfold generate_iterate. cbn [e_st e_cur e_pos o_length bind fst snd]. cbn.
    apply done_silent. }
  rewrite E. reflexivity.
Qed.
Lemma pull_empty : forall num cur pos n fuel, cur <= num -> num < 65536 -> enc_short (num - cur) 0 \/ enc_long (num - cur) 0 ->
  pull n fuel (OBase num 0 []) (OEnc FirstByte cur pos) = NoFuel.
Proof.
  intros num cur pos n fuel Hc Hn Hg. destruct (head_path num 0 [] cur pos Hc Hn Hg) as (p & P).
  eapply pull_stuck; [exact P|discriminate|]. intros. apply empty_silent.
Qed.

(** a value of more than 256 bytes has no end *)
Lemma long_silent : forall v num n fuel k, (256 < length v)%nat -> (k < 256)%nat ->
  pull n fuel (OBase num (len v) v) (OEnc OptionValue num (N.of_nat k)) = NoFuel.
Proof.
  intros v num n fuel. revert fuel. induction n as [|n IH]; intros fuel k Hl Hk; [reflexivity|].
  rewrite pull_S by discriminate. destruct fuel as [|fuel]; [reflexivity|].
  destruct (nth_error v k) as [b|] eqn:X; [|apply nth_error_None in X; lia].
  assert (E : generate_iterate (OBase num (len v) v) (OEnc OptionValue num (N.of_nat k)) =
      Ok (Some b, OEnc OptionValue num (N.of_nat (if (k =? 255)%nat then 0 else S k)))).
  { unfold generate_iterate. cbn [e_st e_cur e_pos o_value o_length]. rewrite Nat2N.id, X. unfold len.
    replace (N.of_nat k + 1 =? N.of_nat (length v)) with false by (symmetry; apply N.eqb_neq; lia).
    destruct (Nat.eqb_spec k 255) as [->|]; [reflexivity|]. rewrite N.mod_small by lia. repeat f_equal. lia. }
  rewrite (gen_S _ _ _ _ _ E). cbn [bind fst snd]. rewrite IH; [reflexivity|exact Hl|].
  destruct (Nat.eqb_spec k 255); lia.
Qed.
Lemma pull_long : forall num v cur pos n fuel, cur <= num -> num < 65536 -> enc_long (num - cur) (len v) -> (256 < length v)%nat ->
  pull n fuel (OBase num (len v) v) (OEnc FirstByte cur pos) = NoFuel.
Proof.
  intros num v cur pos n fuel Hc Hn Hg Hl. destruct (head_path num (len v) v cur pos Hc Hn (or_intror Hg)) as (p & P).
  eapply pull_stuck; [exact P|discriminate|]. intros m g.
  eapply pull_stuck; [eapply p_none; [discriminate|apply len_done; unfold len; lia|constructor]|discriminate|].
  intros. apply (long_silent v num _ _ 0); [exact Hl|lia].
Qed.

Lemma lnum_cons : forall os prev num v, last_number prev ((num, v) :: os) = last_number num os.
Proof.
  unfold last_number. cbn [map fst]. induction os as [|o os IH]; intros prev num v; [reflexivity|].
  cbn [map]. destruct os as [|o' os]; [reflexivity|]. cbn [map last] in *. apply (IH prev num v).
Qed.

Lemma pull_list : forall os st cur pos, opts_within (fun d l => (enc_short d l \/ enc_long d l) /\ 0 < l /\ l <= 256) cur os ->
  exists F st' q, forall n fuel, (F <= n)%nat -> (F <= fuel)%nat ->
    pull_options n fuel os (OEnc st cur pos) = Ok (opts_bytes cur os, OEnc st' (last_number cur os) q).
Proof.
  induction os as [|[num v] os IH]; intros st cur pos H.
  - exists O, st, pos. reflexivity.
  - cbn [opts_within] in H. destruct H as (A & B & (C & D & E) & H).
    assert (Hv : v <> []) by (intros ->; unfold len in D; cbn in D; lia).
    assert (Hl : (length v <= 256)%nat) by (unfold len in E; lia).
    destruct (pull_option num v cur pos A B C Hv Hl) as (F1 & q1 & P1).
    destruct (IH OptionValueDone num q1 H) as (F2 & st2 & q2 & P2).
    exists (F1 + F2)%nat, st2, q2. intros n fuel Hn Hf. cbn [pull_options]. unfold oenc_next. cbn [e_cur e_pos].
    fold (len v). rewrite (N.mod_small num) by exact B. rewrite (N.mod_small (len v)) by lia.
    rewrite P1 by lia. cbn [bind fst snd]. rewrite P2 by lia. cbn [bind fst snd opts_bytes]. rewrite <- app_assoc.
    rewrite lnum_cons. reflexivity.
Qed.
