(** The option encoder and the option it points to. *)
From Verif Require Import Base UIntModel HeaderModel OptEncModel OptSpec StreambufModel OptEncProofs PullProofs NetbufModel OptObjModel OptObjSpec.
Local Open Scope N_scope.

(** the storage *)
Lemma om_get_del : forall a b m, om_get a (om_del b m) = if Nat.eqb a b then None else om_get a m.
Proof.
  induction m as [|[c o] m IH]; cbn [om_del om_get filter fst] in *; [destruct (Nat.eqb a b); reflexivity|].
  unfold om_del in IH. destruct (Nat.eqb_spec b c) as [->|N]; cbn [negb om_get].
  - rewrite IH. destruct (Nat.eqb_spec a c) as [->|]; reflexivity.
  - destruct (Nat.eqb_spec a c) as [->|N2]; [|exact IH]. destruct (Nat.eqb_spec c b); [congruence|reflexivity].
Qed.
Lemma om_get_put : forall a b o m, om_get a (om_put b o m) = if Nat.eqb a b then Some o else om_get a m.
Proof. intros a b o m. unfold om_put. cbn [om_get]. rewrite om_get_del. destruct (Nat.eqb a b); reflexivity. Qed.

(** turns of the state machine on one option *)
Fixpoint iters (n : nat) (o : obase) (e : oenc) : res (list N * oenc) :=
  match n with
  | O => Ok ([], e)
  | S k => bind (generate_iterate o e) (fun r => bind (iters k o (snd r)) (fun t =>
      Ok ((match fst r with Some b => [b] | None => [] end) ++ fst t, snd t)))
  end.

Lemma iters_add : forall j i o e, iters (j + i) o e =
  bind (iters j o e) (fun r => bind (iters i o (snd r)) (fun t => Ok (fst r ++ fst t, snd t))).
Proof.
  induction j as [|j IH]; intros i o e; cbn [iters plus].
  - cbn [bind fst snd app]. destruct (iters i o e) as [[]| |]; reflexivity.
  - destruct (generate_iterate o e) as [[r e1]| |]; cbn [bind fst snd]; try reflexivity.
    rewrite IH. destruct (iters j o e1) as [[bs e2]| |]; cbn [bind fst snd]; try reflexivity.
    destruct (iters i o e2) as [[cs e3]| |]; cbn [bind fst snd]; try reflexivity. rewrite app_assoc. reflexivity.
Qed.

Lemma done_iters : forall o n cur pos st, st = OptionValueDone \/ st = OptionDone ->
  exists st', iters n o (OEnc st cur pos) = Ok ([], OEnc st' cur pos) /\ (st' = OptionValueDone \/ st' = OptionDone) /\
    (st' = OptionValueDone -> n = O).
Proof.
  induction n as [|n IH]; intros cur pos st H; [exists st; auto|].
  destruct (IH cur pos OptionDone (or_intror eq_refl)) as (st' & A & B & C).
  exists OptionDone. split; [|split; [auto|discriminate]].
  assert (D : forall k, iters k o (OEnc OptionDone cur pos) = Ok ([], OEnc OptionDone cur pos)).
  { clear. induction k as [|k IH]; [reflexivity|]. cbn [iters]. unfold generate_iterate. cbn [e_st bind fst snd]. rewrite IH. reflexivity. }
  destruct H as [->| ->]; [|apply D]. cbn [iters]. unfold generate_iterate. cbn [e_st e_cur e_pos bind fst snd]. rewrite D. reflexivity.
Qed.

Lemma path_iters : forall o e bs e2, path o e bs e2 -> exists k, iters k o e = Ok (bs, e2) /\
  forall j, (j < k)%nat -> exists b1 b2 e1, iters j o e = Ok (b1, e1) /\ bs = b1 ++ b2 /\ e_st e1 <> OptionValueDone.
Proof.
  intros o e bs e2 H. induction H as [e|e e1 bs e2 N E P (k & A & B)|e b e1 bs e2 N E P (k & A & B)].
  - exists O. split; [reflexivity|lia].
  - exists (S k). split; [cbn [iters]; rewrite E; cbn [bind fst snd]; rewrite A; reflexivity|].
    intros [|j] Hj; [exists [], bs, e; auto|]. destruct (B j ltac:(lia)) as (b1 & b2 & e3 & X & Y & Z).
    exists b1, b2, e3. cbn [iters]. rewrite E. cbn [bind fst snd]. rewrite X. auto.
  - exists (S k). split; [cbn [iters]; rewrite E; cbn [bind fst snd]; rewrite A; reflexivity|].
    intros [|j] Hj; [exists [], (b :: bs), e; auto|]. destruct (B j ltac:(lia)) as (b1 & b2 & e3 & X & Y & Z).
    exists (b :: b1), b2, e3. cbn [iters]. rewrite E. cbn [bind fst snd]. rewrite X. subst bs. auto.
Qed.

Lemma path_app : forall o e b1 e1 b2 e2, path o e b1 e1 -> path o e1 b2 e2 -> path o e (b1 ++ b2) e2.
Proof. intros o e b1 e1 b2 e2 H. induction H; intros P; cbn [app]; [exact P|eapply p_none; eauto|eapply p_some; eauto]. Qed.

Lemma value_path : forall w k v num p, (length v = k + S (length w))%nat -> skipn k v = p :: w -> (length v <= 256)%nat ->
  exists q, path (OBase num (len v) v) (OEnc OptionValue num (N.of_nat k)) (p :: w) (OEnc OptionValueDone num q).
Proof.
  induction w as [|b w IH]; intros k v num p Hl Hs Hb;
  (assert (X : nth_error v k = Some p) by (rewrite <- (firstn_skipn k v), Hs, nth_error_app2 by (rewrite firstn_length; lia);
      rewrite firstn_length, Nat.min_l by lia; rewrite Nat.sub_diag; reflexivity)).
  - exists ((N.of_nat k + 1) mod 256). eapply p_some; [discriminate| |constructor].
    unfold generate_iterate. cbn [e_st e_cur e_pos o_value o_length]. rewrite Nat2N.id, X. unfold len.
    replace (N.of_nat k + 1 =? N.of_nat (length v)) with true; [reflexivity|]. symmetry. apply N.eqb_eq. cbn [length] in Hl. lia.
  - destruct (IH (S k) v num b) as (q & P); [cbn [length] in *; lia|apply (skipn_step _ _ _ _ Hs)|exact Hb|].
    exists q. eapply p_some; [discriminate| |exact P].
    unfold generate_iterate. cbn [e_st e_cur e_pos o_value o_length]. rewrite Nat2N.id, X. unfold len.
    replace (N.of_nat k + 1 =? N.of_nat (length v)) with false.
    2:{ symmetry. apply N.eqb_neq. cbn [length] in Hl. lia. }
    rewrite N.mod_small by (cbn [length] in Hl; lia). repeat f_equal. lia.
Qed.

Lemma option_path : forall num v cur pos, cur <= num -> num < 65536 -> enc_range (num - cur) (len v) -> (length v <= 256)%nat ->
  exists q, path (OBase num (len v) v) (OEnc FirstByte cur pos) (opt_head (num - cur) (len v) ++ v) (OEnc OptionValueDone num q).
Proof.
  intros num v cur pos Hc Hn Hg Hl. destruct (head_path num (len v) v cur pos Hc Hn Hg) as (p & P).
  destruct v as [|b w].
  - exists p. eapply path_app; [exact P|]. eapply p_none; [discriminate| |constructor]. reflexivity.
  - destruct (value_path w 0 (b :: w) num b eq_refl eq_refl Hl) as (q & Q). exists q. eapply path_app; [exact P|].
    eapply p_none; [discriminate|apply len_done; unfold len; cbn [length]; lia|exact Q].
Qed.

(** a program in which the option is always there is as many turns on it *)
Lemma served_tail : forall o p m c cs, served o p m (c :: cs) ->
  served o (pointed p [c]) (fun a => there a (m a) [c]) cs.
Proof.
  intros o p m c cs H past rest E. destruct (H (c :: past) rest) as (a & A & B); [rewrite E; reflexivity|]. exists a. split; [exact A|exact B].
Qed.
Lemma served_ext : forall o p m m' cs, (forall a, m a = m' a) -> served o p m cs -> served o p m' cs.
Proof. intros o p m m' cs E H past rest X. destruct (H past rest X) as (a & A & B). exists a. rewrite <- E. auto. Qed.

Lemma run_served : forall o cs m e p, Forall between cs -> served o p (fun a => om_get a m) cs ->
  exists m' p', x_run cs m (OObj e p) = bind (iters (turns cs) o e) (fun r => Ok (fst r, m', OObj (snd r) p')).
Proof.
  intros o cs. induction cs as [|c cs IH]; intros m e p F S.
  - exists m, p. reflexivity.
  - apply Forall_cons_iff in F. destruct F as (Fc & F). pose proof (served_tail _ _ _ _ _ S) as T. cbn [pointed fold_left] in T.
    destruct c; try contradiction; cbn [x_run x_step bind fst snd x_pause x_resume x_enc x_ptr turns iters app].
    + destruct (S [] cs eq_refl) as (a & A & B). cbn [pointed there fold_left] in A, B. subst p. unfold x_iterate, x_base. cbn [x_ptr x_enc]. rewrite B. cbn [bind].
      destruct (generate_iterate o e) as [[r e1]| |] eqn:G; cbn [bind fst snd].
      * destruct (IH m e1 (Some a) F T) as (m' & p' & E). exists m', p'. rewrite E.
        destruct (iters (turns cs) o e1) as [[bs e2]| |]; reflexivity.
      * exists m, None. reflexivity.
      * exists m, None. reflexivity.
    + destruct (IH m e (Some a) F T) as (m' & p' & E). exists m', p'. unfold x_resume. cbn [x_enc]. rewrite E.
      destruct (iters (turns cs) o e) as [[bs e2]| |]; reflexivity.
    + destruct (IH m e None F T) as (m' & p' & E). exists m', p'. unfold x_pause. cbn [x_enc]. rewrite E.
      destruct (iters (turns cs) o e) as [[bs e2]| |]; reflexivity.
    + destruct (IH (om_put a o0 m) e p F) as (m' & p' & E).
      { eapply served_ext; [|exact T]. intros b. rewrite om_get_put. reflexivity. }
      exists m', p'. rewrite E. destruct (iters (turns cs) o e) as [[bs e2]| |]; reflexivity.
    + destruct (IH (om_del a m) e p F) as (m' & p' & E).
      { eapply served_ext; [|exact T]. intros b. rewrite om_get_del. reflexivity. }
      exists m', p'. rewrite E. destruct (iters (turns cs) o e) as [[bs e2]| |]; reflexivity.
Qed.

Lemma served_option : forall num v cur pos, cur <= num -> num < 65536 -> enc_range (num - cur) (len v) -> (length v <= 256)%nat ->
  exists k, forall m p cs, Forall between cs -> served (OBase num (len v) v) p (fun a => om_get a m) cs ->
    exists bs more m' x, x_run cs m (OObj (OEnc FirstByte cur pos) p) = Ok (bs, m', x) /\
      bs ++ more = opt_head (num - cur) (len v) ++ v /\
      (e_st (x_enc x) = OptionValueDone -> more = []) /\
      ((k <= turns cs)%nat -> more = [] /\ e_cur (x_enc x) = num).
Proof.
  intros num v cur pos A B C D. destruct (option_path num v cur pos A B C D) as (q & P).
  destruct (path_iters _ _ _ _ P) as (k & K & J). exists k. intros m p cs F Sv.
  destruct (run_served _ cs m (OEnc FirstByte cur pos) p F Sv) as (m' & p' & E).
  destruct (Nat.lt_ge_cases (turns cs) k) as [L|L].
  - destruct (J _ L) as (b1 & b2 & e1 & X & Y & Z). rewrite X in E. cbn [bind fst snd] in E.
    exists b1, b2, m', (OObj e1 p'). split; [exact E|]. split; [auto|]. cbn [x_enc]. split; [congruence|lia].
  - replace (turns cs) with (k + (turns cs - k))%nat in E by lia. rewrite iters_add, K in E. cbn [bind fst snd] in E.
    destruct (done_iters (OBase num (len v) v) (turns cs - k) num q OptionValueDone (or_introl eq_refl)) as (st' & X & _ & _).
    rewrite X in E. cbn [bind fst snd] in E. rewrite app_nil_r in E. eexists _, [], m', _. split; [exact E|]. split; [apply app_nil_r|]. auto.
Qed.

(** asked for a byte when the option is not there *)
Lemma run_app : forall cs ds m x, x_run (cs ++ ds) m x =
  bind (x_run cs m x) (fun s => bind (x_run ds (snd (fst s)) (snd s)) (fun t => Ok (fst (fst s) ++ fst (fst t), snd (fst t), snd t))).
Proof.
  induction cs as [|c cs IH]; intros ds m x; cbn [app x_run].
  - cbn [bind fst snd app]. destruct (x_run ds m x) as [[[]]| |]; reflexivity.
  - destruct (x_step c m x) as [[[b m1] x1]| |]; cbn [bind fst snd]; try reflexivity. rewrite IH.
    destruct (x_run cs m1 x1) as [[[bs m2] x2]| |]; cbn [bind fst snd]; try reflexivity.
    destruct (x_run ds m2 x2) as [[[cs2 m3] x3]| |]; cbn [bind fst snd]; try reflexivity. rewrite app_assoc. reflexivity.
Qed.

Lemma run_tracks : forall cs m x bs m' x', x_run cs m x = Ok (bs, m', x') ->
  x_ptr x' = pointed (x_ptr x) cs /\ forall a, om_get a m' = there a (om_get a m) cs.
Proof.
  induction cs as [|c cs IH]; intros m x bs m' x' H; [injection H as <- <- <-; auto|].
  cbn [x_run] in H. destruct (x_step c m x) as [[[b m1] x1]| |] eqn:E; cbn [bind fst snd] in H; try discriminate.
  destruct (x_run cs m1 x1) as [[[cs2 m2] x2]| |] eqn:R; cbn [bind fst snd] in H; try discriminate. injection H as _ <- <-.
  destruct (IH _ _ _ _ _ R) as (P & T). cbn [pointed there fold_left] in *.
  assert (X : x_ptr x1 = pointed (x_ptr x) [c] /\ forall a, om_get a m1 = there a (om_get a m) [c]).
  { destruct c; cbn [x_step] in E; cbn [pointed there fold_left].
    - unfold x_iterate in E. destruct (x_base m x) as [o| |]; cbn [bind] in E; try discriminate.
      destruct (generate_iterate o (x_enc x)) as [[r e]| |]; cbn [bind fst snd] in E; try discriminate. injection E as _ <- <-. auto.
    - injection E as _ <- <-. auto.
    - injection E as _ <- <-. auto.
    - injection E as _ <- <-. auto.
    - injection E as _ <- <-. auto.
    - injection E as _ <- <-. auto.
    - unfold x_fast_forward in E. destruct (oenc_fast_forward (x_enc x)); cbn [bind] in E; try discriminate. injection E as _ <- <-. auto.
    - injection E as _ <- <-. split; [reflexivity|]. intros. apply om_get_put.
    - injection E as _ <- <-. split; [reflexivity|]. intros. apply om_get_del. }
  destruct X as (X1 & X2). split; [rewrite P, X1; reflexivity|]. intros a. rewrite T, X2. reflexivity.
Qed.

Lemma iterate_total : forall o e, generate_iterate o e <> NoFuel.
Proof.
  intros o [st cur pos]. unfold generate_iterate. cbn [e_st e_cur e_pos].
  destruct st; repeat match goal with |- context [if ?c then _ else _] => destruct c | |- context [match nth_error ?l ?n with _ => _ end] => destruct (nth_error l n) end; discriminate.
Qed.
Lemma run_total : forall cs m x, x_run cs m x <> NoFuel.
Proof.
  induction cs as [|c cs IH]; intros m x; cbn [x_run]; [discriminate|].
  destruct (x_step c m x) as [[[b m1] x1]| |] eqn:E; cbn [bind fst snd]; try discriminate.
  - specialize (IH m1 x1). destruct (x_run cs m1 x1) as [[[]]| |]; cbn [bind]; congruence.
  - exfalso. destruct c; cbn [x_step] in E; try discriminate.
    + unfold x_iterate, x_base in E. destruct (x_ptr x) as [a|]; [|discriminate]. destruct (om_get a m) as [o|]; [|discriminate]. cbn [bind] in E.
      pose proof (iterate_total o (x_enc x)). destruct (generate_iterate o (x_enc x)) as [[]| |]; cbn [bind] in E; congruence.
    + unfold x_fast_forward, oenc_fast_forward in E. destruct (e_st (x_enc x)); discriminate.
Qed.

Lemma run_lost : forall past rest m x,
  (forall a, pointed (x_ptr x) past = Some a -> there a (om_get a m) past = None) ->
  x_run (past ++ XIterate :: rest) m x = Fault.
Proof.
  intros past rest m x H. rewrite run_app. pose proof (run_total past m x) as NF.
  destruct (x_run past m x) as [[[bs m1] x1]| |] eqn:R; cbn [bind fst snd]; [|reflexivity|congruence].
  destruct (run_tracks _ _ _ _ _ _ R) as (P & T). cbn [x_run x_step]. unfold x_iterate, x_base. rewrite P.
  destruct (pointed (x_ptr x) past) as [a|]; [|reflexivity]. rewrite T, (H a eq_refl). reflexivity.
Qed.

(** the encoders *)
Lemma pn_loop_eq : forall fuel d o m a e s, om_get a m = Some o ->
  pn_loop fuel d m (OObj e (Some a)) s = bind (nbe_loop fuel d o e s) (fun r => Ok (OObj (fst r) (Some a), snd r)).
Proof.
  induction fuel as [|f IH]; intros d o m a e s H; [reflexivity|]. cbn [pn_loop nbe_loop x_enc].
  destruct (negb (ostate_eqb (e_st e) d) && negb (s_room s =? 0)%nat); [|reflexivity].
  unfold x_iterate, x_base. cbn [x_ptr x_enc]. rewrite H. cbn [bind].
  destruct (generate_iterate o e) as [[[b|] e1]| |]; cbn [bind fst snd]; try reflexivity.
  - destruct (sputc b s); [apply IH; exact H|reflexivity].
  - apply IH; exact H.
Qed.

Lemma pn_header_eq : forall fuel a n l m p b,
  pn_option_header fuel a n l m p b =
  bind (nbe_option_header_fuel fuel n l b) (fun r => Ok (fst r, if fst r then Some a else None, snd r)).
Proof.
  intros fuel a n l m p b. unfold pn_option_header, nbe_option_header_fuel.
  destruct (assert_not_state RHeader b); cbn [bind]; try reflexivity.
  destruct (assert_not_state RToken b); cbn [bind]; try reflexivity.
  destruct (assert_not_state RPayload b); cbn [bind]; try reflexivity.
  set (o := OBase (n mod 65536) (l mod 65536) []). set (d := head_done (l mod 65536)).
  set (e := match e_st (n_enc b) with FirstByte | OptionDone => oenc_next (n_enc b) | _ => n_enc b end).
  assert (X : match e_st (n_enc b) with FirstByte | OptionDone => x_next a (OObj (n_enc b) p) | _ => x_resume a (OObj (n_enc b) p) end = OObj e (Some a)).
  { unfold e. destruct (e_st (n_enc b)); reflexivity. }
  rewrite X, (pn_loop_eq fuel d o) by (rewrite om_get_put, Nat.eqb_refl; reflexivity).
  destruct (nbe_loop fuel d o e (n_sink b)) as [[e1 s1]| |]; cbn [bind fst snd x_enc x_ptr x_pause]; try reflexivity.
  destruct (ostate_eqb (e_st e1) d); reflexivity.
Qed.

Definition forget {A B C} (r : res (A * B * C)) : res (A * C) := bind r (fun x => Ok (fst (fst x), snd x)).

Lemma pn_option_eq : forall a n v m p b, forget (pn_option a n v m p b) = nbe_option n v true b.
Proof.
  intros a n v m p b. unfold forget, pn_option, nbe_option, nbe_option_fuel. rewrite pn_header_eq.
  destruct (nbe_option_header_fuel (nbe_fuel b) n (N.of_nat (length v)) b) as [[[|] b1]| |]; cbn [bind fst snd]; try reflexivity.
  destruct (nbe_option_value v true b1) as [[]| |]; reflexivity.
Qed.

Lemma pn_call_eq : forall a c m p b, forget (pn_call a c m p b) = nbe_call c b.
Proof.
  intros a c m p b. destruct c; cbn [pn_call nbe_call].
  - unfold forget. destruct (nbe_header h b) as [[]| |]; reflexivity.
  - unfold forget. destruct (nbe_token t b) as [[]| |]; reflexivity.
  - apply pn_option_eq.
  - unfold forget, nbe_option_none, nbe_option_header. rewrite pn_header_eq.
    destruct (nbe_option_header_fuel (nbe_fuel b) number 0 b) as [[]| |]; reflexivity.
  - unfold nbe_option_int, forget. destruct (layer2_set 4 value) as [v| |]; cbn [bind]; try reflexivity. apply pn_option_eq.
  - unfold forget. destruct (nbe_payload p0 b) as [[]| |]; reflexivity.
  - reflexivity.
Qed.

Lemma pn_run_eq : forall cs m p b, forget (pn_run cs m p b) = nbe_run (map snd cs) b.
Proof.
  induction cs as [|[a c] cs IH]; intros m p b; [reflexivity|]. cbn [pn_run map snd nbe_run].
  rewrite <- (pn_call_eq a c m p b). unfold forget at 1 2. destruct (pn_call a c m p b) as [[[r p1] b1]| |]; cbn [bind fst snd]; try reflexivity.
  rewrite <- (IH m p1 b1). unfold forget. destruct (pn_run cs m p1 b1) as [[[]]| |]; reflexivity.
Qed.

Lemma ps_loop_eq : forall fuel o m a e s, om_get a m = Some o ->
  ps_loop fuel m (OObj e (Some a)) s = bind (sb_option_loop fuel o e s) (fun r => Ok (fst r, OObj (sb_enc (snd r)) (Some a), sb_sink (snd r))).
Proof.
  induction fuel as [|f IH]; intros o m a e s H; [reflexivity|]. cbn [ps_loop sb_option_loop].
  unfold x_iterate, x_base. cbn [x_ptr x_enc]. rewrite H. cbn [bind].
  destruct (generate_iterate o e) as [[[b|] e1]| |]; cbn [bind fst snd x_enc]; try reflexivity.
  - destruct (sputc b s) as [s1|]; [|reflexivity]. destruct (ostate_eqb (e_st e1) OptionLengthDone); [reflexivity|]. apply IH; exact H.
  - destruct (ostate_eqb (e_st e1) OptionLengthDone); [reflexivity|]. apply IH; exact H.
Qed.

Lemma ps_option_eq : forall a n l m p b, ps_option a n l m p b = bind (sb_option n l b) (fun r => Ok (fst r, Some a, snd r)).
Proof.
  intros a n l m p b. unfold ps_option, sb_option, x_next, x_next0. cbn [x_enc].
  rewrite (ps_loop_eq _ (OBase (n mod 65536) (l mod 65536) [])) by (rewrite om_get_put, Nat.eqb_refl; reflexivity).
  destruct (sb_option_loop _ _ _ _) as [[r [e s]]| |]; reflexivity.
Qed.

Lemma ps_array_eq : forall a n v m p b, forget (ps_option_array a n v m p b) = sb_option_array n v b.
Proof.
  intros. unfold forget, ps_option_array, sb_option_array. rewrite ps_option_eq.
  destruct (sb_option n (N.of_nat (length v)) b) as [[[|] b1]| |]; reflexivity.
Qed.

Lemma ps_call_eq : forall a c m p b, forget (ps_call a c m p b) = sb_call c b.
Proof.
  intros a c m p b. destruct c; cbn [ps_call sb_call]; try reflexivity.
  - rewrite ps_option_eq. unfold forget. destruct (sb_option number length b) as [[]| |]; reflexivity.
  - apply ps_array_eq.
  - unfold forget, ps_option_str, sb_option_str. rewrite ps_option_eq.
    destruct (sb_option number (N.of_nat (length v)) b) as [[r b1]| |]; cbn [bind fst snd]; try reflexivity.
  - unfold sb_option_int, forget. destruct (layer2_set 4 value) as [v| |]; cbn [bind]; try reflexivity. apply ps_array_eq.
  - unfold forget. destruct (sb_payload b); reflexivity.
Qed.

Lemma ps_run_eq : forall cs m p b, forget (ps_run cs m p b) = sb_run (map snd cs) b.
Proof.
  induction cs as [|[a c] cs IH]; intros m p b; [reflexivity|]. cbn [ps_run map snd sb_run].
  rewrite <- (ps_call_eq a c m p b). unfold forget at 1 2. destruct (ps_call a c m p b) as [[[r p1] b1]| |]; cbn [bind fst snd]; try reflexivity.
  rewrite <- (IH m p1 b1). unfold forget. destruct (ps_run cs m p1 b1) as [[[]]| |]; reflexivity.
Qed.
