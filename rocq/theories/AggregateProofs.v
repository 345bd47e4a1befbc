From Verif Require Import Base HeaderModel OptEncModel OptSpec OptDecModel OptDecSpec OptDecProofs.
From Verif Require Import DecoderModel DecoderSpec DecoderProofs DispatchModel SubjectModel SubjectSpec SubjectProofs AggregateModel AggregateSpec.
Local Open Scope N_scope.

(** * The aggregate observer *)

Lemma agg_invoke_eq : forall S W (os pre : list (N * handler S W)) c p w,
  agg_invoke (length pre) os c p w =
  if sizes os <=? p then Ok (map (fun i => (i, c)) (seq (length pre) (length os)), p - sizes os,
                            fold_left (effect (pre ++ os)) (map (fun i => (i, c)) (seq (length pre) (length os))) w)
  else Fault.
Proof.
  intros S W. induction os as [|[sz h] os IH]; intros pre c p w.
  - cbn. rewrite N.sub_0_r. destruct p; reflexivity.
  - cbn [agg_invoke length seq map fold_left]. unfold agg_one.
    assert (E : effect (pre ++ (sz, h) :: os) w (length pre, c) = (let '(s, w0) := h_new h w in snd (h_call h c s w0))).
    { unfold effect. cbn [fst snd]. rewrite nth_error_app2 by lia. rewrite Nat.sub_diag. reflexivity. }
    change (sizes ((sz, h) :: os)) with (sz + sizes os). rewrite E.
    specialize (IH (pre ++ [(sz, h)]) c).
    rewrite app_length in IH. cbn [length] in IH. rewrite Nat.add_1_r in IH. rewrite <- app_assoc in IH. cbn [app] in IH.
    destruct (N.leb_spec sz p) as [L|L].
    + destruct (h_new h w) as [s0 w0]. destruct (h_call h c s0 w0) as [s1 w1]. cbn [bind snd]. rewrite IH.
      destruct (N.leb_spec (sizes os) (p - sz)); destruct (N.leb_spec (sz + sizes os) p); try lia; cbn [bind]; [|reflexivity].
      rewrite <- N.sub_add_distr. reflexivity.
    + cbn [bind]. destruct (N.leb_spec (sz + sizes os) p); [lia|reflexivity].
Qed.

Lemma agg_run_eq : forall S W (os : list (N * handler S W)) cs p w,
  agg_run os cs p w =
  if N.of_nat (length (filter heard cs)) * sizes os <=? p
  then Ok (everyone (length os) cs, p - N.of_nat (length (filter heard cs)) * sizes os, fold_left (effect os) (everyone (length os) cs) w)
  else Fault.
Proof.
  intros S W os. induction cs as [|c cs IH]; intros p w.
  - cbn. rewrite N.sub_0_r. destruct p; reflexivity.
  - cbn [agg_run]. unfold everyone. cbn [filter].
    assert (X : heard c = true -> agg_call os c p w = agg_invoke (length (@nil (N * handler S W))) os c p w) by (destruct c; try reflexivity; discriminate).
    assert (Y : heard c = false -> agg_call os c p w = Ok ([], p, w)) by (destruct c; try reflexivity; discriminate).
    destruct (heard c).
    + rewrite X by reflexivity. rewrite agg_invoke_eq. cbn [length app].
      replace (N.of_nat (Datatypes.S (length (filter heard cs))) * sizes os) with (sizes os + N.of_nat (length (filter heard cs)) * sizes os) by lia.
      set (k := N.of_nat (length (filter heard cs)) * sizes os) in *.
      destruct (N.leb_spec (sizes os) p).
      * cbn [bind]. rewrite IH. fold k. destruct (N.leb_spec k (p - sizes os)); destruct (N.leb_spec (sizes os + k) p); try lia; cbn [bind]; [|reflexivity].
        cbn [flat_map]. rewrite fold_left_app, <- N.sub_add_distr. reflexivity.
      * cbn [bind]. destruct (N.leb_spec (sizes os + k) p); [lia|reflexivity].
    + rewrite Y by reflexivity. cbn [bind]. rewrite IH. destruct (_ <=? _); reflexivity.
Qed.

Lemma told_everyone : forall n i cs, (i < n)%nat -> told i (everyone n cs) = filter heard cs.
Proof.
  intros n i cs L. unfold everyone, told. induction (filter heard cs) as [|c r IH]; [reflexivity|].
  cbn [flat_map]. rewrite filter_app, map_app, IH. change (c :: r) with ([c] ++ r). f_equal.
  clear IH. replace n with (i + Datatypes.S (n - Datatypes.S i))%nat by lia. rewrite seq_app, map_app, filter_app, map_app. cbn [seq map].
  assert (A : forall a k, (a + k <= i \/ i < a)%nat -> filter (fun x : nat * call => Nat.eqb (fst x) i) (map (fun j => (j, c)) (seq a k)) = []).
  { intros a k. revert a. induction k as [|k IHk]; intros a H; [reflexivity|]. cbn [seq map filter fst]. destruct (Nat.eqb_spec a i); [lia|]. apply IHk. lia. }
  rewrite A by lia. cbn [filter fst Nat.add]. rewrite Nat.eqb_refl. rewrite A by lia. reflexivity.
Qed.

Lemma fold_same : forall S W (os : list (N * handler S W)), (forall o c w, In o os -> let '(s, w0) := h_new (snd o) w in snd (h_call (snd o) c s w0) = w) ->
  forall l w, fold_left (effect os) l w = w.
Proof.
  intros S W os H. induction l as [|x l IH]; intro w; [reflexivity|]. cbn [fold_left].
  assert (E : effect os w x = w).
  { unfold effect. destruct (nth_error os (fst x)) as [[sz h]|] eqn:E; [|reflexivity]. apply nth_error_In in E. specialize (H _ (snd x) w E).
    cbn [snd] in H. destruct (h_new h w). exact H. }
  rewrite E. apply IH.
Qed.

(** * The factories *)

Lemma put_length : forall X i (x : X) l, length (put i x l) = length l.
Proof. intros X. induction i as [|i IH]; intros x [|y l]; cbn [put length]; try reflexivity. now rewrite IH. Qed.
Lemma put_same : forall X i (x : X) l, (i < length l)%nat -> nth_error (put i x l) i = Some x.
Proof. intros X. induction i as [|i IH]; intros x [|y l] H; cbn [length] in H; try lia; [reflexivity|]. cbn [put nth_error]. apply IH. lia. Qed.
Lemma put_other : forall X i j (x : X) l, i <> j -> nth_error (put i x l) j = nth_error l j.
Proof. intros X. induction i as [|i IH]; intros [|j] x [|y l] H; try reflexivity; [congruence|]. cbn [put nth_error]. apply IH. lia. Qed.

Lemma fa_helper_eq : forall K S (key : K) n (fs : list (maker K S * S)), (n <= length fs)%nat ->
  exists l fs1, fa_helper n key fs = (l, fs1) /\ length fs1 = length fs /\
    (forall j, (n <= j)%nat -> nth_error fs1 j = nth_error fs j) /\
    (forall j f s, (j < n)%nat -> nth_error fs j = Some (f, s) ->
       let '(b, s1) := f_can f key s in nth_error fs1 j = Some (f, if b then f_create f key s1 else s1)) /\
    l = rev (filter (fun j => match nth_error fs j with Some (f, s) => fst (f_can f key s) | None => false end) (seq 0 n)).
Proof.
  intros K S key. induction n as [|i IH]; intros fs L.
  - exists [], fs. cbn. repeat split; intros; lia.
  - cbn [fa_helper]. destruct (nth_error fs i) as [[f s]|] eqn:E; [|apply nth_error_None in E; lia].
    destruct (f_can f key s) as [b s1] eqn:EC.
    set (fs' := put i (f, if b then f_create f key s1 else s1) fs).
    assert (L' : (i <= length fs')%nat) by (unfold fs'; rewrite put_length; lia).
    destruct (IH fs' L') as (l & fs1 & E1 & E2 & E3 & E4 & E5). rewrite E1.
    eexists _, fs1. split; [reflexivity|]. split; [unfold fs' in E2; rewrite put_length in E2; exact E2|]. split; [|split].
    + intros j H. rewrite E3 by lia. apply put_other. lia.
    + intros j f0 s0 H H0. destruct (Nat.eq_dec j i) as [->|D].
      * rewrite E in H0. injection H0 as <- <-. rewrite EC. rewrite E3 by lia. apply put_same. lia.
      * apply E4; [lia|]. unfold fs'. rewrite put_other by lia. exact H0.
    + replace (Datatypes.S i) with (i + 1)%nat by lia. rewrite seq_app, filter_app, rev_app_distr. cbn [seq filter Nat.add]. rewrite E, EC. cbn [fst].
      subst l. f_equal; [destruct b; reflexivity|]. f_equal. apply filter_ext_in. intros j H. apply in_seq in H. unfold fs'. rewrite put_other by lia. reflexivity.
Qed.

(** * A served queue *)

Lemma sub_calls_mem : forall chunk last d pos cs d1, dec_mem' d -> sub_calls chunk last d pos = (cs, d1) -> dec_mem' d1.
Proof.
  intros chunk last d pos cs d1 M E.
  assert (V : forall rem d0 cs0 d2, dec_mem' d0 -> sub_value rem d0 = (cs0, d2) -> dec_mem' d2).
  { intros rem d0 cs0 d2 M0 E0. unfold sub_value in E0. destruct (_ <? _); injection E0 as <- <-; exact M0. }
  unfold sub_calls in E. destruct (k_st d) eqn:ST; try (injection E as <- <-; exact M).
  - destruct (dec_tkl d =? 0); injection E as <- <-; exact M.
  - unfold sub_option in E. destruct (d_st (k_od d)); try (injection E as <- <-; exact M).
    + destruct (hd_len (k_hold d) =? 0); [injection E as <- <-; exact M|]. destruct (sub_value _ d) as [cs0 d2] eqn:E0. injection E as <- <-. eapply V; eassumption.
    + eapply V; eassumption.
Qed.

Lemma sub_loop_mem : forall fuel chunk last d pos cs d1 n, bytes_ok chunk -> dec_mem' d -> sub_loop fuel chunk last d pos = Ok (cs, d1, n) -> dec_mem' d1.
Proof.
  induction fuel as [|f IH]; intros chunk last d pos cs d1 n B M E; [discriminate|]. cbn [sub_loop] in E. unfold sub_iterate, dec_iterate in E.
  destruct (sub_calls chunk last d pos) as [c0 d0] eqn:E0. assert (M0 := sub_calls_mem _ _ _ _ _ _ M E0).
  destruct (dec_step chunk last d0 pos) as [[d2 p2]| |] eqn:ES; try discriminate. cbn [bind] in E.
  assert (M2 := dec_step_mem _ _ _ _ _ _ B M0 ES).
  destruct (p2 <=? length chunk)%nat; [|discriminate]. cbn [bind] in E.
  destruct (Nat.eqb p2 (length chunk) || rstate_eqb (k_st d2) RDone); [injection E as <- <- <-; exact M2|].
  destruct (sub_loop f chunk last d2 p2) as [[[ds d3] p3]| |] eqn:EL; try discriminate. cbn [bind] in E. injection E as <- <- <-.
  eapply IH; eassumption.
Qed.

Lemma sub_dispatch_mem : forall chunk last d cs d1 n, bytes_ok chunk -> dec_mem d -> k_st d <> RToken -> sub_dispatch chunk last d = Ok (cs, d1, n) -> dec_mem d1.
Proof.
  intros chunk last d cs d1 n B M NT E. unfold sub_dispatch in E. apply sub_loop_mem in E; [exact (proj1 E)|exact B|]. split; [exact M|]. intro; congruence.
Qed.

Definition with_payload (m : msg) : Prop := msg_ok m /\ exists b r, m_pay m = Some (b :: r).

Lemma pm_one : forall A (a : A) c r d cs d1 n, sub_dispatch c true d = Ok (cs, d1, n) -> pm_process ((a, [c]) :: r) d = Ok (cs, r, d1).
Proof. intros A a c r d cs d1 n E. unfold pm_process, pm_helper. cbn [hd]. rewrite E. reflexivity. Qed.

Lemma pm_second : forall A (n : nat) (xs : list (A * msg)) d (again : bool), (length xs <= n)%nat -> Forall (fun x => with_payload (snd x)) xs -> dec_mem d ->
  k_st d = (if again then RDone else Uninitialized) ->
  exists d1, pm_times (length xs) (whole xs) d = Ok (every_second again (map snd xs), [], d1).
Proof.
  intros A. induction n as [|n IH]; intros [|[a m] xs] d again L F M K; cbn [length] in L; try lia.
  - exists d. reflexivity.
  - exists d. reflexivity.
  - inversion F as [|x l F1 F2]; subst. destruct F1 as [Hm HP]. cbn [snd] in Hm, HP.
    assert (B : bytes_ok (msg_bytes m)) by (apply msg_bytes_ok; exact Hm).
    assert (E1 : exists d1, sub_dispatch (msg_bytes m) true d = Ok ((if again then [OnComplete] else []) ++ msg_calls m, d1, length (msg_bytes m)) /\ k_st d1 = PayloadDone).
    { destruct again.
      - destruct (sub_third m d Hm K M HP) as (d1 & X & Y). exists d1. auto.
      - destruct (sub_message m d Hm (conj K M) HP) as (d1 & X & Y). exists d1. auto. }
    destruct E1 as (d1 & E1 & S1).
    assert (M1 : dec_mem d1). { eapply sub_dispatch_mem; [exact B|exact M| |exact E1]. rewrite K. destruct again; discriminate. }
    cbn [length pm_times whole map fst snd]. rewrite (pm_one A a _ _ d _ _ _ E1). cbn [bind].
    destruct xs as [|[a2 m2] xs].
    + exists d1. reflexivity.
    + inversion F2 as [|x l F3 F4]; subst. cbn [length pm_times whole map fst snd].
      rewrite (pm_one A a2 _ _ d1 _ _ _ (sub_again (msg_bytes m2) true d1 S1)). cbn [bind].
      destruct (IH xs (k_goto RDone d1) true) as (d2 & E2); [cbn [length] in L; lia|exact F4|exact M1|reflexivity|].
      unfold whole in E2. rewrite E2. cbn [bind]. exists d2. reflexivity.
Qed.
