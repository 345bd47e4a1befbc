From Coq Require Import ZArith.
From Verif Require Import Base DtlsModel DtlsSpec.
Local Open Scope Z_scope.

Lemma insist_iff : forall R (w : R -> bool) (p : R -> Prop), (forall r, w r = true <-> p r) ->
  forall rs n r, insist w rs = Ok (n, r) <-> settles p rs n r.
Proof.
  intros R w p H. induction rs as [|x rs IH]; intros n r.
  - split; [discriminate|]. intros (pre & post & E & _). now destruct pre.
  - cbn [insist]. destruct (w x) eqn:W.
    + split.
      * intro E. destruct (insist w rs) as [[m y]| |] eqn:EI; try discriminate. cbn in E. injection E as <- <-.
        destruct (proj1 (IH m y) eq_refl) as (pre & post & -> & F & NW & ->). exists (x :: pre), post. split; [reflexivity|]. split; [constructor; [now apply H|exact F]|].
        split; [exact NW|reflexivity].
      * intros (pre & post & E & F & NW & ->). destruct pre as [|y pre].
        { injection E as <- <-. exfalso. apply NW. now apply H. }
        injection E as <- E. inversion F as [|? ? F1 F2]; subst.
        assert (S1 : insist w (pre ++ r :: post) = Ok (S (length pre), r)) by (apply IH; exists pre, post; auto).
        rewrite S1. reflexivity.
    + assert (NW : ~ p x) by (intro C; apply H in C; congruence). split.
      * intro E. injection E as <- <-. exists [], rs. auto.
      * intros (pre & post & E & F & NR & ->). destruct pre as [|y pre].
        { injection E as <- <-. reflexivity. }
        injection E as <- E. inversion F; subst. contradiction.
Qed.

Lemma insist_fault : forall R (w : R -> bool) rs, insist w rs <> Fault.
Proof. intros R w. induction rs as [|x rs IH]; [discriminate|]. cbn [insist]. destruct (w x); [|discriminate]. destruct (insist w rs); try discriminate. congruence. Qed.

Lemma insist_some : forall R (w : R -> bool) rs, (exists n r, insist w rs = Ok (n, r)) \/ insist w rs = NoFuel.
Proof. intros R w rs. pose proof (insist_fault R w rs). destruct (insist w rs) as [[n r]| |]; [left; eauto|congruence|auto]. Qed.

Lemma want_iff : forall z, want z = true <-> again z.
Proof. intro z. unfold want, again. rewrite Bool.orb_true_iff, !Z.eqb_eq. tauto. Qed.
Lemma want_write_iff : forall z, want_write z = true <-> again_write z.
Proof. intro z. unfold want_write, again_write. apply Z.eqb_eq. Qed.
Lemma want_read_iff : forall size r, want (read_ret size r) = true <-> again_read r.
Proof.
  intros size [bs|e]; cbn [read_ret again_read]; [|apply want_iff].
  rewrite want_iff. unfold again, WANT_READ, WANT_WRITE. split; [intros [H|H]; lia|contradiction].
Qed.
Lemma settles_one : forall R (p : R -> Prop) rs n r m q, settles p rs n r -> settles p rs m q -> n = m /\ r = q.
Proof.
  intros R p rs n r m q (a & b & -> & F & NR & ->) (c & d & E & G & NQ & ->). revert c E G F. induction a as [|x a IH]; intros c E G F; destruct c as [|y c]; cbn in E.
  - injection E as -> _. auto.
  - injection E as -> _. inversion G; subst. contradiction.
  - injection E as -> _. inversion F; subst. contradiction.
  - injection E as -> E. inversion F; inversion G; subst. destruct (IH c E) as [A B]; auto.
Qed.

Lemma firstn_exact : forall X (a b : list X), firstn (length a) (a ++ b) = a.
Proof. intros X. induction a as [|x a IH]; intro b; [reflexivity|]. cbn [length firstn app]. now rewrite IH. Qed.

Lemma cstring_zero : forall b r, cstring (b ++ 0%N :: r) = Ok (upto_zero b).
Proof.
  induction b as [|x b IH]; intro r; [reflexivity|]. cbn [app cstring upto_zero]. destruct (x =? 0)%N; [reflexivity|]. now rewrite IH.
Qed.
Lemma filled_text : forall bs, cstring (filled bs) = Ok (upto_zero (firstn room bs)).
Proof.
  intro bs. unfold filled. assert (L : (length (firstn room bs) <= room)%nat) by apply firstn_le_length.
  assert (E : exists k, (BUFSIZE - length (firstn room bs) = S k)%nat).
  { exists (room - length (firstn room bs))%nat. unfold BUFSIZE, room in *. lia. }
  destruct E as (k & ->). cbn [repeat]. apply cstring_zero.
Qed.
Lemma filled_len : forall bs, firstn (Z.to_nat (Z.of_nat (length (firstn room bs)))) (filled bs) = firstn room bs.
Proof. intro bs. rewrite Nat2Z.id. apply firstn_exact. Qed.

Lemma dtls_echo_eq : forall t l bs,
  dtls_echo t l bs (Z.of_nat (length (firstn room bs))) =
  bind (insist want (t_write t)) (fun x =>
    let l1 := l ++ repeat (LWrite (firstn room bs)) (fst x) in
    let text := upto_zero (firstn room bs) in
    let n := Z.of_nat (length (firstn room bs)) in
    if snd x <? 0 then Ok (l1, [SRead n text], snd x, false)
    else dtls_close t l1 [SRead n text; SWritten (snd x) text]).
Proof. intros t l bs. unfold dtls_echo. rewrite filled_text. cbn [bind]. rewrite filled_len. reflexivity. Qed.

Lemma dtls_request_data : forall t l n x bs, settles again_read (t_read t) n (RData (x :: bs)) ->
  dtls_request t l = dtls_echo t (l ++ repeat (LRead room) n) (x :: bs) (Z.of_nat (length (firstn room (x :: bs)))).
Proof.
  intros t l n x bs S. unfold dtls_request. apply (insist_iff _ _ _ (want_read_iff room)) in S. rewrite S. cbn [bind fst snd read_ret].
  assert (E : exists k, room = Datatypes.S k) by (exists (N.to_nat 8190); unfold room; lia). destruct E as (k & E). rewrite E. cbn [firstn length].
  replace (Z.of_nat (Datatypes.S (length (firstn k bs))) <=? 0) with false by (symmetry; apply Z.leb_gt; lia). reflexivity.
Qed.

Lemma neg_le : forall e, (Z.neg e <=? 0) = true. Proof. reflexivity. Qed.

Lemma dtls_loop_ends : forall t r go, (exists l s, dtls_loop t = Ok (l, s, r, go)) <-> ends t r go.
Proof.
  intros t r go. split.
  - intros (l & s & E). unfold dtls_loop in E.
    destruct (Z.eqb_spec (t_accept t) 0) as [A|A]; cbn [negb] in E; [|injection E as _ _ <- <-; now apply E_accept].
    destruct (Z.eqb_spec (t_id t) 0) as [I|I]; cbn [negb] in E; [|injection E as _ _ <- <-; now apply E_id].
    destruct (insist want (t_shake t)) as [[n x]| |] eqn:ES; try discriminate. cbn [bind fst snd] in E. apply (insist_iff _ _ _ want_iff) in ES.
    destruct (Z.eqb_spec x HELLO_VERIFY) as [H|H]; [injection E as _ _ <- <-; subst x; eapply E_hello; eassumption|].
    destruct (Z.eqb_spec x 0) as [Z0|Z0]; cbn [negb] in E; [|injection E as _ _ <- <-; eapply E_shake; eassumption]. subst x.
    unfold dtls_request in E.
    destruct (insist (fun r0 => want (read_ret room r0)) (t_read t)) as [[k y]| |] eqn:ER; try discriminate. apply (insist_iff _ _ _ (want_read_iff room)) in ER.
    cbn [bind fst snd] in E. destruct y as [[|x bs]|e].
    + replace (read_ret room (RData [])) with 0 in E by (unfold read_ret; rewrite firstn_nil; reflexivity). cbn in E. injection E as _ _ <- <-. eapply E_nothing; eassumption.
    + pose proof ER as ER'. destruct (Z.leb_spec (read_ret room (RData (x :: bs))) 0) as [L|L].
      { exfalso. cbn [read_ret] in L. assert (Q : exists k, room = Datatypes.S k) by (exists (N.to_nat 8190); unfold room; lia). destruct Q as (q & Q). rewrite Q in L. cbn [firstn length] in L. lia. }
      cbn [read_ret] in E. rewrite dtls_echo_eq in E.
      destruct (insist want (t_write t)) as [[w z]| |] eqn:EW; try discriminate. cbn [bind fst snd] in E. apply (insist_iff _ _ _ want_iff) in EW.
      destruct (Z.ltb_spec z 0) as [Lz|Lz]; [injection E as _ _ <- <-; eapply E_write; eassumption|].
      unfold dtls_close in E. destruct (insist want_write (t_close t)) as [[c v]| |] eqn:EC; try discriminate. cbn [bind] in E. apply (insist_iff _ _ _ want_write_iff) in EC.
      injection E as _ _ <- <-. eapply E_done; eassumption.
    + cbn [read_ret] in E. rewrite neg_le in E. destruct (Z.eqb_spec (Z.neg e) SSL_TIMEOUT) as [T|T].
      { injection E as _ _ <- <-. eapply E_error; try eassumption. rewrite T. discriminate. }
      destruct (Z.eqb_spec (Z.neg e) CLOSE_NOTIFY) as [C|C]; [|injection E as _ _ <- <-; eapply E_error; eassumption].
      unfold dtls_close in E. destruct (insist want_write (t_close t)) as [[c v]| |] eqn:EC; try discriminate. cbn [bind] in E. apply (insist_iff _ _ _ want_write_iff) in EC.
      injection E as _ _ <- <-. eapply E_closed; eassumption.
  - assert (B : t_accept t = 0 -> t_id t = 0 -> forall n x, settles again (t_shake t) n x ->
       dtls_loop t = let l2 := [LFree; LReset; LAccept; LId (t_ip t); LBio] ++ repeat LShake n in
         if x =? HELLO_VERIFY then Ok (l2, [], 0, true) else if negb (x =? 0) then Ok (l2, [], x, true) else dtls_request t l2).
    { intros A I n x S. unfold dtls_loop. rewrite A, I. cbn [Z.eqb negb]. apply (insist_iff _ _ _ want_iff) in S. rewrite S. reflexivity. }
    assert (K : forall l s c z, settles again_write (t_close t) c z -> dtls_close t l s = Ok (l ++ repeat LClose c, s, 0, true)).
    { intros l s c z S. unfold dtls_close. apply (insist_iff _ _ _ want_write_iff) in S. rewrite S. reflexivity. }
    intro E. destruct E as [A|A I|n A I S|n r A I S H Z0|n k A I S R|n k e A I S R C|n k e c z A I S R C Q|n k x bs w r A I S R W L|n k x bs w r c z A I S R W L Q].
    + unfold dtls_loop. destruct (Z.eqb_spec (t_accept t) 0); [contradiction|]. cbn [negb]. eauto.
    + unfold dtls_loop. rewrite A. destruct (Z.eqb_spec (t_id t) 0); [contradiction|]. cbn [negb Z.eqb]. eauto.
    + rewrite (B A I n _ S). cbn. eauto.
    + rewrite (B A I n _ S). cbv zeta. apply Z.eqb_neq in H, Z0. rewrite H, Z0. cbn [negb]. eauto.
    + rewrite (B A I n _ S). cbn [Z.eqb negb HELLO_VERIFY]. cbv zeta. unfold dtls_request. apply (insist_iff _ _ _ (want_read_iff room)) in R. rewrite R. cbn [bind fst snd].
      replace (read_ret room (RData [])) with 0 by (unfold read_ret; rewrite firstn_nil; reflexivity). cbn. eauto.
    + rewrite (B A I n _ S). cbn [Z.eqb negb HELLO_VERIFY]. cbv zeta. unfold dtls_request. apply (insist_iff _ _ _ (want_read_iff room)) in R. rewrite R. cbn [bind fst snd read_ret].
      rewrite neg_le. apply Z.eqb_neq in C. rewrite C. destruct (Z.neg e =? SSL_TIMEOUT); eauto.
    + rewrite (B A I n _ S). cbn [Z.eqb negb HELLO_VERIFY]. cbv zeta. unfold dtls_request. apply (insist_iff _ _ _ (want_read_iff room)) in R. rewrite R. cbn [bind fst snd read_ret].
      rewrite neg_le, C. change (CLOSE_NOTIFY =? SSL_TIMEOUT) with false. rewrite Z.eqb_refl. cbn [bind]. rewrite (K _ _ c z Q). eauto.
    + rewrite (B A I n _ S). cbn [Z.eqb negb HELLO_VERIFY]. cbv zeta. rewrite (dtls_request_data t _ k x bs R), dtls_echo_eq. apply (insist_iff _ _ _ want_iff) in W. rewrite W. cbn [bind fst snd].
      cbv zeta. apply Z.ltb_lt in L. rewrite L. eauto.
    + rewrite (B A I n _ S). cbn [Z.eqb negb HELLO_VERIFY]. cbv zeta. rewrite (dtls_request_data t _ k x bs R), dtls_echo_eq. apply (insist_iff _ _ _ want_iff) in W. rewrite W. cbn [bind fst snd].
      cbv zeta. apply Z.ltb_ge in L. rewrite L. rewrite (K _ _ c z Q). eauto.
Qed.

Lemma dtls_loop_fault : forall t, dtls_loop t <> Fault.
Proof.
  intro t. unfold dtls_loop. destruct (negb _); [discriminate|]. destruct (negb _); [discriminate|].
  destruct (insist_some _ want (t_shake t)) as [(n & x & E)|E]; rewrite E; [|discriminate]. cbn [bind fst snd].
  destruct (x =? HELLO_VERIFY); [discriminate|]. destruct (negb _); [discriminate|]. unfold dtls_request.
  destruct (insist_some _ (fun r0 => want (read_ret room r0)) (t_read t)) as [(k & y & E1)|E1]; rewrite E1; [|discriminate]. cbn [bind fst snd].
  assert (K : forall l s, dtls_close t l s <> Fault).
  { intros l s. unfold dtls_close. destruct (insist_some _ want_write (t_close t)) as [(c & z & E2)|E2]; rewrite E2; discriminate. }
  destruct (Z.leb_spec (read_ret room y) 0).
  - destruct (_ =? _); [discriminate|]. destruct (_ =? _); [apply K|discriminate].
  - destruct y as [bs|e]; [|cbn [read_ret] in H; lia]. cbn [read_ret]. rewrite dtls_echo_eq.
    destruct (insist_some _ want (t_write t)) as [(w & z & E2)|E2]; rewrite E2; [|discriminate]. cbn [bind fst snd]. cbv zeta. destruct (z <? 0); [discriminate|apply K].
Qed.

Lemma dtls_loop_done : forall t n k x bs w r c z, t_accept t = 0 -> t_id t = 0 -> settles again (t_shake t) n 0 ->
  settles again_read (t_read t) k (RData (x :: bs)) -> settles again (t_write t) w r -> 0 <= r -> settles again_write (t_close t) c z ->
  dtls_loop t = Ok ([LFree; LReset; LAccept; LId (t_ip t); LBio] ++ repeat LShake n ++ repeat (LRead room) k ++
                      repeat (LWrite (firstn room (x :: bs))) w ++ repeat LClose c,
                    [SRead (Z.of_nat (length (firstn room (x :: bs)))) (upto_zero (firstn room (x :: bs))); SWritten r (upto_zero (firstn room (x :: bs)))], 0, true).
Proof.
  intros t n k x bs w r c z A I S R W L Q. unfold dtls_loop. rewrite A, I. cbn [Z.eqb negb]. apply (insist_iff _ _ _ want_iff) in S. rewrite S. cbn [bind fst snd].
  cbn [Z.eqb negb HELLO_VERIFY]. rewrite (dtls_request_data t _ k x bs R), dtls_echo_eq. apply (insist_iff _ _ _ want_iff) in W. rewrite W. cbn [bind fst snd]. cbv zeta.
  apply Z.ltb_ge in L. rewrite L. unfold dtls_close. apply (insist_iff _ _ _ want_write_iff) in Q. rewrite Q. cbn [bind fst snd].
  do 3 f_equal. f_equal. rewrite <- !app_assoc. reflexivity.
Qed.

Lemma ends_one : forall t r go r' go', ends t r go -> ends t r' go' -> r = r' /\ go = go'.
Proof.
  intros t r go r' go' A B. apply dtls_loop_ends in A, B. destruct A as (l & s & A). destruct B as (l' & s' & B). rewrite A in B. injection B as _ _ -> ->. auto.
Qed.

Lemma did_eq : forall t l l', did t l -> l' = l -> did t l'.
Proof. now intros t l l' H ->. Qed.
Lemma dtls_loop_calls : forall t l s r go, dtls_loop t = Ok (l, s, r, go) -> did t l.
Proof.
  intros t l s r go E. unfold dtls_loop in E.
  destruct (Z.eqb_spec (t_accept t) 0) as [A|A]; cbn [negb] in E; [|injection E as <- _ _ _; now apply D_accept].
  destruct (Z.eqb_spec (t_id t) 0) as [I|I]; cbn [negb] in E; [|injection E as <- _ _ _; now apply D_id].
  destruct (insist want (t_shake t)) as [[n x]| |] eqn:ES; try discriminate. cbn [bind fst snd] in E. apply (insist_iff _ _ _ want_iff) in ES.
  destruct (Z.eqb_spec x HELLO_VERIFY) as [H|H]; [injection E as <- _ _ _; apply (D_shake t n x); auto; subst x; discriminate|].
  destruct (Z.eqb_spec x 0) as [Z0|Z0]; cbn [negb] in E; [|injection E as <- _ _ _; now apply (D_shake t n x)]. subst x.
  unfold dtls_request in E. destruct (insist _ (t_read t)) as [[k y]| |] eqn:ER; try discriminate. cbn [bind fst snd] in E.
  apply (insist_iff _ _ _ (want_read_iff room)) in ER.
  assert (Cl : forall l1 s1, dtls_close t l1 s1 = Ok (l, s, r, go) -> exists c z, settles again_write (t_close t) c z /\ l = l1 ++ repeat LClose c).
  { intros l1 s1 X. unfold dtls_close in X. destruct (insist want_write (t_close t)) as [[c z]| |] eqn:EC; try discriminate. cbn [bind fst snd] in X.
    apply (insist_iff _ _ _ want_write_iff) in EC. injection X as <- _ _ _. eauto. }
  destruct y as [[|x bs]|e]; cbn [read_ret] in E.
  - rewrite firstn_nil in E. injection E as <- _ _ _. eapply did_eq; [apply (D_read t n k (RData [])); auto; split; discriminate|cbn [app]; rewrite <- ?app_assoc; reflexivity].
  - assert (Er : exists k, room = S k) by (exists (N.to_nat 8190); unfold room; lia). destruct Er as (k0 & Er).
    assert (P : Z.of_nat (length (firstn room (x :: bs))) <=? 0 = false) by (rewrite Er; cbn [firstn length]; apply Z.leb_gt; lia).
    rewrite P, dtls_echo_eq in E. destruct (insist want (t_write t)) as [[w v]| |] eqn:EW; try discriminate. cbn [bind fst snd] in E. cbv zeta in E.
    apply (insist_iff _ _ _ want_iff) in EW. destruct (Z.ltb_spec v 0) as [V|V].
    + injection E as <- _ _ _. eapply did_eq; [now apply (D_write t n k x bs w v)|cbn [app]; rewrite <- ?app_assoc; reflexivity].
    + destruct (Cl _ _ E) as (c & z & C & ->). eapply did_eq; [now apply (D_done t n k x bs w v c z)|cbn [app]; rewrite <- ?app_assoc; reflexivity].
  - rewrite neg_le in E. destruct (Z.eqb_spec (Z.neg e) SSL_TIMEOUT) as [T|T].
    + injection E as <- _ _ _. eapply did_eq; [apply (D_read t n k (RErr e)); auto|cbn [app]; rewrite <- ?app_assoc; reflexivity]. split; [|discriminate]. intros q Y. injection Y as <-. rewrite T. discriminate.
    + destruct (Z.eqb_spec (Z.neg e) CLOSE_NOTIFY) as [T2|T2].
      * destruct (Cl _ _ E) as (c & z & C & ->). eapply did_eq; [now apply (D_closed t n k e c z)|cbn [app]; rewrite <- ?app_assoc; reflexivity].
      * injection E as <- _ _ _. eapply did_eq; [apply (D_read t n k (RErr e)); auto|cbn [app]; rewrite <- ?app_assoc; reflexivity]. split; [|discriminate]. intros q Y. now injection Y as <-.
Qed.

(** * The daemon *)

Lemma tidy_app : forall ds o, tidy o (ds ++ [DShutdown]) -> tidy o ds.
Proof. induction ds as [|[r|l|] ds IH]; intros o H; cbn in *; intuition. Qed.

Lemma daemon_tidy : forall ts ss ret go ds r, daemon_loop ts ss ret go = Ok (ds, r) -> tidy true (ds ++ [DShutdown]).
Proof.
  induction ts as [|t ts IH]; intros ss ret go ds r E; cbn [daemon_loop] in E.
  - destruct (_ && _); injection E as <- <-; cbn; auto.
  - destruct (_ && _); [|injection E as <- <-; cbn; auto].
    destruct (dtls_loop t) as [[[[l s] ret1] go1]| |]; try discriminate. cbn [bind] in E. destruct (_ || _).
    + destruct ss as [|s' ss]; [discriminate|]. destruct (daemon_loop ts ss s' true) as [[ds1 r1]| |] eqn:E1; try discriminate. cbn [bind fst snd] in E. injection E as <- <-.
      cbn [app tidy]. repeat split. eapply IH; eassumption.
    + destruct (daemon_loop ts ss ret1 go1) as [[ds1 r1]| |] eqn:E1; try discriminate. cbn [bind fst snd] in E. injection E as <- <-.
      cbn [app tidy]. split; [reflexivity|]. eapply IH; eassumption.
Qed.

Lemma going_iff : forall ts ss s ds r, daemon_loop ts ss s true = Ok (ds, r) <-> going s ts ss ds r.
Proof.
  induction ts as [|t ts IH]; intros ss s ds r; cbn [daemon_loop]; rewrite Bool.andb_true_r; (destruct (Z.eqb_spec s 0) as [->|N];
    [|split; [intro E; injection E as <- <-; now constructor|intro G; inversion G; subst; [reflexivity|contradiction..]]]).
  - split; [intro E; injection E as <- <-; constructor|intro G; inversion G; subst; [contradiction|reflexivity]].
  - split.
    + destruct (dtls_loop t) as [[[[l s1] r1] go1]| |] eqn:D; try discriminate. cbn [bind]. destruct (_ || _) eqn:O.
      * destruct ss as [|s' ss]; [discriminate|]. destruct (daemon_loop ts ss s' true) as [[d y]| |] eqn:E1; try discriminate. cbn [bind fst snd]. intro E. injection E as <- <-.
        apply IH in E1. eapply G_bad; [exists s1; exact D| |exact E1]. apply Bool.orb_true_iff in O. destruct O as [O|O]; [right; now destruct go1|left].
        intros ->. discriminate.
      * apply Bool.orb_false_iff in O. destruct O as [O1 O2]. destruct go1; [|discriminate]. apply Bool.negb_false_iff, Z.eqb_eq in O2. subst r1.
        destruct (daemon_loop ts ss 0 true) as [[d y]| |] eqn:E1; try discriminate. cbn [bind fst snd]. intro E. injection E as <- <-. apply IH in E1.
        apply G_good; [exists s1; exact D|exact E1].
    + intro G. inversion G as [|? |? ? ? ? ? ? [s1 D] G1|? ? ? ? ? ? ? ? ? [s1 D] B G1]; subst; [contradiction| |]; rewrite D; cbn [bind].
      * cbn. apply IH in G1. rewrite G1. reflexivity.
      * apply IH in G1. assert (O : negb go || negb (q =? 0) = true).
        { destruct B as [B| ->]; [|reflexivity]. apply Z.eqb_neq in B. rewrite B. apply Bool.orb_true_r. }
        rewrite O, G1. reflexivity.
Qed.
Lemma daemon_runs : forall s ts ss ds r, daemon s ts ss = Ok (ds, r) <-> runs s ts ss ds r.
Proof.
  intros s ts ss ds r. unfold daemon, runs. split.
  - destruct (daemon_loop ts ss s true) as [[d y]| |] eqn:E1; try discriminate. cbn [bind fst snd]. intro E. injection E as <- <-. apply going_iff in E1.
    exists d. split; [exact E1|]. now destruct y.
  - intros (d & G & ->). apply going_iff in G. rewrite G. cbn [bind fst snd]. now destruct r.
Qed.
Lemma daemon_restarts : forall ts ss ds r, daemon 0 ts ss = Ok (ds, r) -> (forall z, In z ss -> z = 0) ->
  r = None /\ length (served ds) = length ts /\
  exists ok bad, length ok = length ts /\ bad = length (filter negb ok) /\ restarts ds = bad /\
    forall i t b, nth_error ts i = Some t -> nth_error ok i = Some b -> (b = true -> smooth t) /\ (b = false -> upset t).
Proof.
  intros ts ss ds r E H. apply daemon_runs in E. destruct E as (d & G & ->).
  assert (K : r = None /\ length (served d) = length ts /\ exists ok, length ok = length ts /\ restarts d = length (filter negb ok) /\
    forall i t b, nth_error ts i = Some t -> nth_error ok i = Some b -> (b = true -> smooth t) /\ (b = false -> upset t)).
  { remember 0 as s eqn:Es. induction G as [s ts ss N|ss|t ts ss l ds r C G IH|t ts ss l q go s ds r C B G IH].
    - contradiction.
    - split; [reflexivity|]. split; [reflexivity|]. exists []. split; [reflexivity|]. split; [reflexivity|]. intros [|i] t b X; discriminate.
    - destruct (IH Es H) as (-> & L & ok & Lo & R & F). split; [reflexivity|]. split; [cbn; now rewrite <- L|]. exists (true :: ok).
      split; [cbn; now rewrite Lo|]. split; [exact R|]. intros [|i] t0 b X Y; cbn in X, Y; [|eapply F; eassumption].
      injection X as <-. injection Y as <-. split; [|discriminate]. intros _. destruct C as [s1 C]. apply dtls_loop_ends. eauto.
    - assert (Hs : s = 0) by (apply H; now left). destruct (IH Hs (fun z Iz => eq_trans (H z (or_intror Iz)) (eq_sym Hs))) as (-> & L & ok & Lo & R & F).
      split; [reflexivity|]. split; [cbn; now rewrite <- L|]. exists (false :: ok).
      split; [cbn; now rewrite Lo|]. split; [unfold restarts in *; cbn; now rewrite R|]. intros [|i] t0 b X Y; cbn in X, Y; [|eapply F; eassumption].
      injection X as <-. injection Y as <-. split; [discriminate|]. intros _. destruct C as [s1 C]. exists q, go. split; [|exact B]. apply dtls_loop_ends. eauto. }
  destruct K as (-> & L & ok & Lo & R & F). split; [reflexivity|]. rewrite app_nil_r. split; [exact L|]. exists ok, (length (filter negb ok)). auto.
Qed.

(** * The echo *)

Lemma echoed_last : forall n k b m c ip r,
  echoed ([LFree; LReset; LAccept; LId ip; LBio] ++ repeat LShake n ++ repeat (LRead room) k ++ repeat (LWrite b) (S m) ++ repeat LClose c) r = firstn (Z.to_nat r) b.
Proof.
  intros. unfold echoed.
  assert (Z1 : forall y j, (forall b, y <> LWrite b) -> flat_map (fun c0 => match c0 with LWrite b => [b] | _ => [] end) (repeat y j) = []).
  { intros y j Hy. induction j as [|j IH]; [reflexivity|]. cbn [repeat flat_map]. rewrite IH, app_nil_r. destruct y; try reflexivity. exfalso. now apply (Hy bs). }
  assert (Z2 : forall b j, flat_map (fun c0 => match c0 with LWrite b0 => [b0] | _ => [] end) (repeat (LWrite b) j) = repeat b j).
  { intros b0 j. induction j as [|j IH]; [reflexivity|]. cbn [repeat flat_map app]. now rewrite IH. }
  rewrite !flat_map_app, (Z1 LShake), (Z1 (LRead room)), (Z1 LClose), Z2 by discriminate. cbn [flat_map app]. rewrite app_nil_r.
  replace (S m) with (m + 1)%nat by lia. rewrite repeat_app, rev_app_distr. reflexivity.
Qed.

(** * The server class *)

Lemma hs_once_iff : forall t l z go, hs_once t = Ok (l, z, go) <-> attempts t l z go.
Proof.
  intros t l z go. unfold hs_once. cbv zeta. split.
  - destruct (Z.eqb_spec (t_accept t) 0) as [A|A]; cbn [negb]; [|intro H; injection H as <- <- <-; now constructor].
    destruct (Z.eqb_spec (t_id t) 0) as [I|I]; cbn [negb]; [|intro H; injection H as <- <- <-; now apply T_id].
    destruct (insist want (t_shake t)) as [[n r]| |] eqn:E; cbn [bind fst snd]; try discriminate.
    apply (insist_iff _ want again want_iff) in E. destruct (Z.eqb_spec r HELLO_VERIFY) as [V|V]; [intro H; injection H as <- <- <-; apply (T_done t n r); auto|].
    destruct (Z.eqb_spec r 0) as [O|O]; cbn [negb]; intro H; injection H as <- <- <-; [subst r; now apply (T_done t n 0); auto|now apply (T_shake t n r)].
  - intros [A|A I|n y A I W V U|n y A I W U].
    + destruct (Z.eqb_spec (t_accept t) 0); [contradiction|reflexivity].
    + rewrite A. cbn [Z.eqb negb]. destruct (Z.eqb_spec (t_id t) 0); [contradiction|reflexivity].
    + rewrite A, I. cbn [Z.eqb negb]. apply (insist_iff _ want again want_iff) in W. rewrite W. cbn [bind fst snd].
      destruct (Z.eqb_spec y HELLO_VERIFY); [contradiction|]. destruct (Z.eqb_spec y 0); [contradiction|reflexivity].
    + rewrite A, I. cbn [Z.eqb negb]. apply (insist_iff _ want again want_iff) in W. rewrite W. cbn [bind fst snd].
      destruct U as [-> | ->]; reflexivity.
Qed.

Lemma hs_once_cases : forall t, (accepted t /\ exists l, hs_once t = Ok (l, 0, true)) \/ (exists z l go, failed t z /\ hs_once t = Ok (l, z, go) /\ go = false) \/
  ((forall z, ~ failed t z) /\ ~ accepted t /\ hs_once t = NoFuel).
Proof.
  intro t. unfold hs_once. destruct (Z.eqb_spec (t_accept t) 0) as [A|A]; cbn [negb].
  2: { right. left. exists (t_accept t). eexists _, _. split; [left; auto|auto]. }
  destruct (Z.eqb_spec (t_id t) 0) as [I|I]; cbn [negb].
  2: { right. left. exists (t_id t). eexists _, _. split; [right; left; auto|auto]. }
  destruct (insist_some _ want (t_shake t)) as [(n & z & E)|E]; rewrite E; cbn [bind fst snd].
  - apply (insist_iff _ _ _ want_iff) in E. destruct (Z.eqb_spec z HELLO_VERIFY) as [H|H].
    + left. split; [|eauto]. split; [exact A|]. split; [exact I|]. exists n, z. auto.
    + destruct (Z.eqb_spec z 0) as [Z0|Z0]; cbn [negb].
      * left. split; [|subst z; eauto]. split; [exact A|]. split; [exact I|]. exists n, z. auto.
      * right. left. exists z. eexists _, _. split; [|auto]. right. right. split; [exact A|]. split; [exact I|]. exists n. auto.
  - right. right. assert (K : forall n z, ~ settles again (t_shake t) n z).
    { intros n z X. apply (insist_iff _ _ _ want_iff) in X. congruence. }
    split; [|split; [|reflexivity]].
    + intros z [[B _]|[(_ & B & _)|(_ & _ & n & B & _)]]; [contradiction|contradiction|eapply K; eassumption].
    + intros (_ & _ & n & z & B & _). eapply K; eassumption.
Qed.
Lemma accepted_failed : forall t z, accepted t -> failed t z -> False.
Proof.
  intros t z (A & I & n & r & S & R) [[B _]|[(_ & B & _)|(_ & _ & m & B & C & D)]]; [contradiction|contradiction|].
  destruct (settles_one _ _ _ _ _ _ _ S B) as [_ ->]. tauto.
Qed.
Lemma failed_one : forall t z y, failed t z -> failed t y -> z = y.
Proof.
  intros t z y [[A ->]|[(A & B & ->)|(A & B & n & S & _)]] [[A' ->]|[(A' & B' & ->)|(A' & B' & n' & S' & _)]]; try contradiction; auto.
  now destruct (settles_one _ _ _ _ _ _ _ S S').
Qed.
Lemma failed_nonzero : forall t z, failed t z -> z <> 0.
Proof. intros t z [[A ->]|[(A & B & ->)|(A & B & n & _ & H & _)]]; assumption. Qed.
Lemma hs_all_iff : forall ts n z, hs_all ts = Ok (n, z) <->
  exists pre t post, ts = pre ++ t :: post /\ Forall accepted pre /\ failed t z /\ n = S (length pre).
Proof.
  induction ts as [|t ts IH]; intros n z; cbn [hs_all].
  - split; [discriminate|]. intros ([|] & u & post & E & _); discriminate.
  - destruct (hs_once_cases t) as [(A & l & E)|[(y & l & go & F & E & ->)|(NF & NA & E)]]; rewrite E; cbn [bind].
    + cbn [andb]. change (0 =? 0) with true. cbn match. split.
      * destruct (hs_all ts) as [[m y]| |] eqn:EI; try discriminate. cbn [bind fst snd]. intro X. injection X as <- <-.
        destruct (proj1 (IH m y) eq_refl) as (pre & u & post & -> & P & F & ->). exists (t :: pre), u, post. repeat split; auto.
      * intros ([|v pre] & u & post & X & P & F & ->); cbn in X; injection X as -> ->.
        -- exfalso. eapply accepted_failed; eassumption.
        -- inversion P; subst. assert (Y : hs_all (pre ++ u :: post) = Ok (S (length pre), z)) by (apply IH; exists pre, u, post; auto). rewrite Y. reflexivity.
    + cbn [andb]. split.
      * intro X. injection X as <- <-. exists [], t, ts. repeat split; auto.
      * intros ([|v pre] & u & post & X & P & G & ->); cbn in X; injection X as -> ->.
        -- rewrite (failed_one _ _ _ F G). reflexivity.
        -- inversion P; subst. exfalso. eapply accepted_failed; eassumption.
    + split; [discriminate|]. intros ([|v pre] & u & post & X & P & G & ->); cbn in X; injection X as -> ->; exfalso.
      * eapply NF; eassumption.
      * inversion P; subst. contradiction.
Qed.
Lemma srv_read_iff : forall buf rs, (forall b ok, srv_read buf rs = Ok (b, ok) <->
  exists n r, settles again_read rs n r /\ match r with
    | RData bs => b = firstn (length buf) bs ++ skipn (length bs) buf /\ ok = true
    | RErr e => b = buf /\ (ok = true <-> Z.neg e <> CLOSE_NOTIFY) end).
Proof.
  intros buf rs b ok. unfold srv_read.
  assert (K : forall bs : list N, skipn (length (firstn (length buf) bs)) buf = skipn (length bs) buf).
  { intro bs. rewrite firstn_length. destruct (Nat.le_gt_cases (length buf) (length bs)) as [L|L].
    - rewrite Nat.min_l by lia. now rewrite !skipn_all2 by lia.
    - now rewrite Nat.min_r by lia. }
  split.
  - destruct (insist _ rs) as [[n r]| |] eqn:E; try discriminate. apply (insist_iff _ _ _ (want_read_iff (length buf))) in E. cbn [bind fst snd]. intro X.
    injection X as <- <-. exists n, r. split; [exact E|]. destruct r as [bs|e]; cbn [read_ret].
    + rewrite K. split; [reflexivity|]. destruct (Z.leb_spec (Z.of_nat (length (firstn (length buf) bs))) 0); [|reflexivity].
      replace (Z.of_nat (length (firstn (length buf) bs))) with 0 by lia. reflexivity.
    + split; [reflexivity|]. cbn [Z.leb]. rewrite neg_le, Bool.negb_true_iff, Z.eqb_neq. tauto.
  - intros (n & r & S & H). apply (insist_iff _ _ _ (want_read_iff (length buf))) in S. rewrite S. cbn [bind fst snd]. destruct r as [bs|e]; cbn [read_ret].
    + destruct H as [-> ->]. rewrite K. f_equal. f_equal. destruct (Z.leb_spec (Z.of_nat (length (firstn (length buf) bs))) 0); [|reflexivity].
      replace (Z.of_nat (length (firstn (length buf) bs))) with 0 by lia. reflexivity.
    + destruct H as [-> H]. rewrite neg_le. f_equal. f_equal. destruct (Z.eqb_spec (Z.neg e) CLOSE_NOTIFY) as [Y|Y]; cbn [negb].
      * destruct ok; [|reflexivity]. exfalso. now apply (proj1 H eq_refl).
      * symmetry. now apply H.
Qed.

(** * The timer *)

Lemma tm_now_eq : forall rate t, tm_now rate t = ((t * rate) mod 2 ^ 32)%N.
Proof. intros rate t. unfold tm_now. apply N.mul_mod_idemp_l. discriminate. Qed.

Lemma tm_elapsed : forall rate t0 t1, (t0 <= t1)%N ->
  ((tm_now rate t1 + 2 ^ 32 - tm_now rate t0) mod 2 ^ 32 = ((t1 - t0) * rate) mod 2 ^ 32)%N.
Proof.
  intros rate t0 t1 L. rewrite !tm_now_eq. replace (t1 * rate)%N with (t0 * rate + (t1 - t0) * rate)%N by nia.
  generalize (t0 * rate)%N ((t1 - t0) * rate)%N. intros a e. clear.
  rewrite (N.add_mod a e) by discriminate. pose proof (N.mod_lt a (2 ^ 32) ltac:(discriminate)). pose proof (N.mod_lt e (2 ^ 32) ltac:(discriminate)).
  set (x := (a mod 2 ^ 32)%N) in *. set (y := (e mod 2 ^ 32)%N) in *. change (2 ^ 32)%N with 4294967296%N in *.
  destruct (N.lt_ge_cases (x + y) 4294967296).
  - rewrite (N.mod_small (x + y)) by lia. replace (x + y + 4294967296 - x)%N with (y + 1 * 4294967296)%N by lia. rewrite N.mod_add by discriminate. apply N.mod_small. lia.
  - replace (x + y)%N with (x + y - 4294967296 + 1 * 4294967296)%N by lia. rewrite N.mod_add by discriminate. rewrite (N.mod_small (x + y - 4294967296)) by lia.
    replace (x + y - 4294967296 + 4294967296 - x)%N with y by lia. apply N.mod_small. lia.
Qed.

Lemma tm_get_eq : forall rate t0 t1 i f, (t0 <= t1)%N ->
  tm_get rate t1 (tm_set rate t0 i f) = delay_state (fun ms => (ms <? ((t1 - t0) * rate) mod 2 ^ 32)%N) i f.
Proof. intros rate t0 t1 i f L. unfold tm_get, tm_set, delay_state. cbn [dl_timer dl_int dl_fin]. rewrite tm_elapsed by exact L. reflexivity. Qed.
