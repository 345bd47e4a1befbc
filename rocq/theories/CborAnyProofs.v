From Coq Require Import ZArith.
From Verif Require Import Base UIntSpec UIntModel UIntProofs CborModel CborSpec CborProofs CborRespModel CborRespSpec CborRespProofs CborAnySpec.
Local Open Scope N_scope.

(** * Runs of the loop *)

Definition runs (mem : list N) (len : nat) (d : cdec) (pos : nat) (out : res (list cout)) : Prop :=
  exists f, cr_loop f mem len d pos = out /\ out <> NoFuel.

Lemma runs_stop : forall mem len d pos, (len < pos)%nat \/ (len <= pos)%nat /\ c_state d = CItemDone -> runs mem len d pos (Ok []).
Proof.
  intros mem len d pos H. exists 1%nat. split; [|discriminate]. destruct H as [H|[H S]]; [now apply past_step|now apply done_step].
Qed.

Lemma goes : forall len d pos, (pos < len)%nat \/ (pos <= len)%nat /\ c_state d <> CItemDone ->
  (pos <? len)%nat || ((pos =? len)%nat && negb (is_item_done d)) = true.
Proof.
  intros len d pos [H|[H S]].
  - apply Nat.ltb_lt in H. now rewrite H.
  - destruct (Nat.ltb_spec pos len); [reflexivity|]. replace pos with len by lia. rewrite Nat.eqb_refl.
    unfold is_item_done. destruct (c_state d); congruence || reflexivity.
Qed.

Lemma runs_none : forall mem len d pos, (pos < len)%nat \/ (pos <= len)%nat /\ c_state d <> CItemDone -> (length mem <= pos)%nat -> runs mem len d pos Fault.
Proof.
  intros mem len d pos G H. exists 1%nat. split; [|discriminate]. cbn [cr_loop]. rewrite goes by assumption.
  apply nth_error_None in H. now rewrite H.
Qed.

Lemma runs_step : forall mem len d pos b d0 adv o d1 pos1 out, (pos < len)%nat \/ (pos <= len)%nat /\ c_state d <> CItemDone ->
  nth_error mem pos = Some b -> c_iterate d b = Ok (d0, adv) -> cr_seen mem d0 (if adv : bool then S pos else pos) = Ok (o, d1, pos1) ->
  runs mem len d1 pos1 out -> runs mem len d pos (bind out (fun l => Ok (o ++ l))).
Proof.
  intros mem len d pos b d0 adv o d1 pos1 out G B I S (f & E & N). exists (Datatypes.S f). split.
  - cbn [cr_loop]. rewrite goes, B, I by assumption. cbn [bind fst snd]. rewrite S. cbn [bind]. now rewrite E.
  - destruct out; [discriminate|discriminate|congruence].
Qed.

Lemma runs_quiet : forall mem len d pos b d0 adv out, (pos < len)%nat \/ (pos <= len)%nat /\ c_state d <> CItemDone ->
  nth_error mem pos = Some b -> c_iterate d b = Ok (d0, adv) -> cr_seen mem d0 (if adv : bool then S pos else pos) = Ok ([], d0, if adv then S pos else pos) ->
  runs mem len d0 (if adv then S pos else pos) out -> runs mem len d pos out.
Proof.
  intros mem len d pos b d0 adv out G B I S R. replace out with (bind out (fun l => Ok ([] ++ l))) by (destruct out; reflexivity).
  eapply runs_step; eauto.
Qed.

Lemma runs_bad : forall mem len d pos b, (pos < len)%nat \/ (pos <= len)%nat /\ c_state d <> CItemDone ->
  nth_error mem pos = Some b -> (c_iterate d b = Fault \/ exists d0 adv, c_iterate d b = Ok (d0, adv) /\ cr_seen mem d0 (if adv : bool then S pos else pos) = Fault) ->
  runs mem len d pos Fault.
Proof.
  intros mem len d pos b G B H. exists 1%nat. split; [|discriminate]. cbn [cr_loop]. rewrite goes, B by assumption.
  destruct H as [->|(d0 & adv & -> & H)]; [reflexivity|]. cbn [bind fst snd]. now rewrite H.
Qed.

Lemma runs_once : forall mem len d pos o1 o2, runs mem len d pos o1 -> runs mem len d pos o2 -> o1 = o2.
Proof.
  intros mem len d pos o1 o2 (f1 & E1 & N1) (f2 & E2 & N2). destruct (Nat.le_gt_cases f1 f2) as [L|L].
  - rewrite <- E1, <- E2. symmetry. apply cr_more; [now rewrite E1|exact L].
  - rewrite <- E1, <- E2. apply cr_more; [now rewrite E2|lia].
Qed.

(** * The memory from a place *)

Lemma at_cons : forall (mem : list N) pos b r, skipn pos mem = b :: r -> nth_error mem pos = Some b /\ skipn (S pos) mem = r /\ (pos < length mem)%nat.
Proof.
  induction mem as [|a mem IH]; intros [|pos] b r H; try discriminate.
  - injection H as -> ->. repeat split. cbn. lia.
  - cbn [skipn] in H. destruct (IH pos b r H) as (A & B & C). cbn [nth_error skipn length]. repeat split; auto. lia.
Qed.

Lemma at_nil : forall (mem : list N) pos, skipn pos mem = [] -> (length mem <= pos)%nat.
Proof. intros mem pos H. assert (L := f_equal (@length N) H). rewrite skipn_length in L. cbn in L. lia. Qed.

Lemma skip_skip : forall (A : Type) (l : list A) a b, skipn a (skipn b l) = skipn (b + a) l.
Proof. induction l as [|x l IH]; intros a [|b]; cbn [skipn Nat.add]; try reflexivity; [destruct a; reflexivity|apply IH]. Qed.

(** * A head *)

Lemma type_of : forall d, c_type d = c_hdr d / 32.
Proof. intro d. unfold c_type. now rewrite N.shiftr_div_pow2. Qed.
Lemma raw_of : forall d, c_raw d = c_hdr d mod 32.
Proof. intro d. unfold c_raw. change 31 with (N.ones 5). now rewrite N.land_ones. Qed.

Lemma addlen_of : forall d, 24 <= c_hdr d mod 32 -> N.to_nat (c_addlen d) = arg_size (c_hdr d mod 32) \/ 27 <= c_hdr d mod 32 /\ 8 <= c_addlen d.
Proof.
  intros d H. unfold c_addlen. rewrite raw_of. assert (L := N.mod_lt (c_hdr d) 32 ltac:(discriminate)). set (a := c_hdr d mod 32) in *. clearbody a.
  assert (X : In a [24;25;26;27;28;29;30;31]) by (cbn; lia).
  destruct X as [<-|[<-|[<-|[<-|[<-|[<-|[<-|[<-|[]]]]]]]]]; ((left; reflexivity) || (right; split; vm_compute; discriminate)).
Qed.

(** the state after the argument, before it is looked at *)
Definition filled (mem : list N) (b : N) (d : cdec) (pos k : nat) : Prop :=
  c_hdr d = b /\ length (c_buf d) = 4%nat /\ firstn k (c_buf d) = firstn k (skipn pos mem).

(** storing the argument byte by byte *)
Lemma store : forall mem len b pos0, 24 <= b mod 32 -> forall n k d out, (k + n = arg_size (b mod 32))%nat -> (0 < n)%nat ->
  c_state d = CAdditional -> c_pos d = N.of_nat k -> filled mem b d pos0 k ->
  (pos0 + k + n <= len)%nat -> (pos0 + k + n <= length mem)%nat ->
  (forall d1, c_state d1 = (if b mod 32 <? 27 then CAdditionalDone else CAdditional) -> c_pos d1 = N.of_nat (k + n) -> filled mem b d1 pos0 (k + n) -> runs mem len d1 (pos0 + k + n) out) ->
  runs mem len d (pos0 + k) out.
Proof.
  intros mem len b pos0 Hb. induction n as [|n IH]; intros k d out Hk Hn Hs Hp (F1 & F2 & F3) Hl Hm K; [lia|].
  assert (K4 : (k < 4)%nat).
  { assert (arg_size (b mod 32) <= 4)%nat by (unfold arg_size; repeat destruct (_ <? _); repeat destruct (_ =? _); lia). lia. }
  destruct (skipn (pos0 + k) mem) as [|c r] eqn:M; [apply at_nil in M; lia|]. destruct (at_cons _ _ _ _ M) as (N1 & _ & _).
  destruct d as [buf hd p st]. cbn [c_state c_pos c_buf c_hdr] in *. subst st p hd.
  set (d1 := CDec (firstn k buf ++ [c] ++ skipn (S k) buf) b (N.of_nat (S k)) CAdditional).
  assert (IT : c_iterate (CDec buf b (N.of_nat k) CAdditional) c =
    Ok (if N.of_nat (S k) =? c_addlen d1 then c_set d1 CAdditionalDone else d1, true)).
  { unfold c_iterate. cbn [c_state c_pos c_buf c_hdr]. rewrite Nat2N.id. unfold BUF_LEN. apply Nat.ltb_lt in K4. rewrite K4. apply Nat.ltb_lt in K4.
    replace ((N.of_nat k + 1) mod 8) with (N.of_nat (S k)) by (rewrite N.mod_small by lia; lia). reflexivity. }
  assert (FL : filled mem b d1 pos0 (S k)).
  { split; [reflexivity|]. cbn [d1 c_buf]. split.
    - rewrite !app_length, firstn_length, skipn_length. cbn [length]. lia.
    - rewrite firstn_app, firstn_firstn, firstn_length. replace (S k - Nat.min k (length buf))%nat with 1%nat by lia. rewrite Nat.min_r by lia. rewrite F3.
      change (firstn 1 ([c] ++ skipn (S k) buf)) with [c].
      rewrite <- (firstn_skipn k (firstn (S k) (skipn pos0 mem))). rewrite firstn_firstn, Nat.min_l by lia. f_equal.
      rewrite skipn_firstn_comm, skip_skip, M. replace (S k - k)%nat with 1%nat by lia. reflexivity. }
  assert (HD : c_hdr d1 = b) by reflexivity.
  destruct n as [|n].
  - (* last *)
    assert (E : (N.of_nat (S k) =? c_addlen d1) = (b mod 32 <? 27)).
    { destruct (addlen_of d1) as [A|[A1 A2]]; rewrite HD in *; [exact Hb| |].
      - destruct (N.ltb_spec (b mod 32) 27).
        + apply N.eqb_eq. lia.
        + exfalso. revert A. unfold c_addlen. rewrite raw_of, HD. assert (Lt := N.mod_lt b 32 ltac:(discriminate)). set (a := b mod 32) in *. clearbody a.
          assert (X : In a [27;28;29;30;31]) by (cbn; lia). destruct X as [<-|[<-|[<-|[<-|[<-|[]]]]]]; vm_compute; discriminate.
      - destruct (N.ltb_spec (b mod 32) 27); [lia|]. apply N.eqb_neq. lia. }
    rewrite E in IT. eapply runs_quiet with (b := c) (adv := true); [right; split; [lia|discriminate]|exact N1|exact IT|destruct (_ <? _); reflexivity|].
    replace (S (pos0 + k)) with (pos0 + k + 1)%nat by lia. apply K.
    + destruct (_ <? _); reflexivity.
    + replace (k + 1)%nat with (S k) by lia. destruct (_ <? _); reflexivity.
    + replace (k + 1)%nat with (S k) by lia. destruct (_ <? _); exact FL.
  - assert (E : (N.of_nat (S k) =? c_addlen d1) = false).
    { apply N.eqb_neq. destruct (addlen_of d1) as [A|[A1 A2]]; rewrite HD in *; [exact Hb| |]; lia. }
    rewrite E in IT. eapply runs_quiet with (b := c) (adv := true); [right; split; [lia|discriminate]|exact N1|exact IT|reflexivity|].
    replace (S (pos0 + k)) with (pos0 + S k)%nat by lia. eapply (IH (S k) d1); try lia; try reflexivity; [exact FL|].
    intros d2 S2 P2 F4. replace (pos0 + S k + S n)%nat with (pos0 + k + S (S n))%nat by lia. apply K; [exact S2|rewrite P2; f_equal; lia|].
    replace (k + S (S n))%nat with (S k + S n)%nat by lia. exact F4.
Qed.

(** storing is cut off by the end of the payload *)
Lemma store_cut : forall mem len b pos0, 24 <= b mod 32 -> (len < pos0 + arg_size (b mod 32))%nat -> forall n k d, (len + 1 - (pos0 + k) = n)%nat ->
  c_state d = CAdditional -> c_pos d = N.of_nat k -> c_hdr d = b -> (k <= arg_size (b mod 32))%nat ->
  runs mem len d (pos0 + k) (if (Nat.max len (pos0 + k - 1) <? length mem)%nat || (len <? pos0 + k)%nat then Ok [] else Fault).
Proof.
  intros mem len b pos0 Hb Hlen. induction n as [|n IH]; intros k d Hn Hs Hp Hh Hk.
  - assert (E : (len <? pos0 + k)%nat = true) by (apply Nat.ltb_lt; lia). rewrite E, orb_true_r. apply runs_stop. left. lia.
  - assert (E : (len <? pos0 + k)%nat = false) by (apply Nat.ltb_ge; lia). rewrite E, orb_false_r. rewrite Nat.max_l by lia.
    destruct (skipn (pos0 + k) mem) as [|c r] eqn:M.
    { apply at_nil in M. destruct (Nat.ltb_spec len (length mem)); [lia|]. apply runs_none; [right; split; [lia|rewrite Hs; discriminate]|lia]. }
    destruct (at_cons _ _ _ _ M) as (N1 & _ & LM).
    destruct d as [buf hd p st]. cbn [c_state c_pos c_buf c_hdr] in *. subst st p hd.
    assert (A4 : (arg_size (b mod 32) <= 4)%nat) by (unfold arg_size; repeat destruct (_ <? _); repeat destruct (_ =? _); lia).
    assert (K4 : (k < 4)%nat) by lia.
    set (d1 := CDec (firstn k buf ++ [c] ++ skipn (S k) buf) b (N.of_nat (S k)) CAdditional).
    assert (IT : c_iterate (CDec buf b (N.of_nat k) CAdditional) c =
      Ok (if N.of_nat (S k) =? c_addlen d1 then c_set d1 CAdditionalDone else d1, true)).
    { unfold c_iterate. cbn [c_state c_pos c_buf c_hdr]. rewrite Nat2N.id. unfold BUF_LEN. apply Nat.ltb_lt in K4. rewrite K4. apply Nat.ltb_lt in K4.
      replace ((N.of_nat k + 1) mod 8) with (N.of_nat (S k)) by (rewrite N.mod_small by lia; lia). reflexivity. }
    assert (HD : c_hdr d1 = b) by reflexivity.
    destruct (N.eqb_spec (N.of_nat (S k)) (c_addlen d1)) as [Q|Q].
    + (* the argument is there, but not the byte after it *)
      destruct (addlen_of d1) as [A|[A1 A2]]; rewrite HD in *; [exact Hb| |lia].
      destruct (Nat.ltb_spec len (length mem)); [|exfalso; lia].
      eapply runs_quiet with (b := c) (adv := true); [right; split; [lia|discriminate]|exact N1|exact IT|reflexivity|]. apply runs_stop. left. lia.
    + eapply runs_quiet with (b := c) (adv := true); [right; split; [lia|discriminate]|exact N1|exact IT|reflexivity|].
      replace (S (pos0 + k)) with (pos0 + S k)%nat by lia.
      assert (KK : (S k <= arg_size (b mod 32))%nat) by lia.
      specialize (IH (S k) d1 ltac:(lia) eq_refl eq_refl eq_refl KK).
      replace (if (len <? length mem)%nat then Ok [] else Fault) with
        (if (Nat.max len (pos0 + S k - 1) <? length mem)%nat || (len <? pos0 + S k)%nat then Ok [] else Fault : res (list cout)); [exact IH|].
      destruct (Nat.ltb_spec len (pos0 + S k)).
      * rewrite orb_true_r. destruct (Nat.ltb_spec len (length mem)); [reflexivity|lia].
      * rewrite orb_false_r, Nat.max_l by lia. reflexivity.
Qed.

(** the first byte *)
Definition began (b : N) (d : cdec) : Prop := c_state d = CHeaderDone /\ c_hdr d = b /\ length (c_buf d) = 4%nat.

Lemma head_first : forall mem len d pos b out, length (c_buf d) = 4%nat ->
  c_state d = CHeaderStart /\ (pos <= len)%nat \/ c_state d = CItemDone /\ (pos < len)%nat -> nth_error mem pos = Some b ->
  (forall d1, began b d1 -> runs mem len d1 (S pos) out) -> runs mem len d pos (bind out (fun l => Ok ([RType (b / 32)] ++ l))).
Proof.
  assert (H : forall mem len d pos b out, length (c_buf d) = 4%nat -> c_state d = CHeaderStart -> (pos <= len)%nat -> nth_error mem pos = Some b ->
    (forall d1, began b d1 -> runs mem len d1 (S pos) out) -> runs mem len d pos (bind out (fun l => Ok ([RType (b / 32)] ++ l)))).
  { intros mem len [buf hd p st] pos b out L S P N K. cbn [c_buf c_state] in *. subst st.
    eapply runs_quiet with (adv := false); [right; split; [exact P|discriminate]|exact N|reflexivity|reflexivity|]. cbn [c_set c_buf c_hdr c_pos].
    eapply runs_step with (adv := true) (d1 := CDec buf b p CHeaderDone); [right; split; [exact P|discriminate]|exact N|reflexivity| |].
    - cbn [cr_seen c_state]. rewrite type_of. reflexivity.
    - apply K. repeat split. exact L. }
  intros mem len d pos b out L [[S P]|[S P]] N K; [eapply H; eauto|].
  destruct d as [buf hd p st]. cbn [c_buf c_state] in *. subst st.
  eapply runs_quiet with (adv := false); [left; exact P|exact N|reflexivity|reflexivity|]. cbn [c_set c_buf c_hdr c_pos].
  eapply H; eauto. lia.
Qed.

(** to the argument *)
Lemma head_args : forall mem len d pos b out, began b d -> 24 <= b mod 32 -> (S pos <= len)%nat -> (S pos < length mem)%nat ->
  (forall d1, c_state d1 = CAdditional -> c_pos d1 = 0 -> c_hdr d1 = b -> length (c_buf d1) = 4%nat -> runs mem len d1 (S pos) out) ->
  runs mem len d (S pos) out.
Proof.
  intros mem len [buf hd p st] pos b out (S1 & S2 & S3) Hb P M K. cbn [c_buf c_state c_hdr] in *. subst st hd.
  destruct (nth_error mem (S pos)) as [x|] eqn:N; [|apply nth_error_None in N; lia].
  eapply runs_quiet with (adv := false) (d0 := CDec buf b p CAdditionalStart); [right; split; [exact P|discriminate]|exact N| |reflexivity|].
  - unfold c_iterate, c_tiny. rewrite raw_of. cbn [c_state c_hdr]. destruct (N.ltb_spec (b mod 32) 24); [lia|]. reflexivity.
  - eapply runs_quiet with (adv := false) (d0 := CDec buf b 0 CAdditional); [right; split; [exact P|discriminate]|exact N|reflexivity|reflexivity|]. apply K; auto.
Qed.

(** the argument is complete at [e] *)
Definition complete (mem : list N) (b : N) (d : cdec) (pos : nat) : Prop :=
  (c_state d = CHeaderDone /\ b mod 32 < 24 \/ c_state d = CAdditionalDone /\ 24 <= b mod 32 < 27) /\ filled mem b d (S pos) (arg_size (b mod 32)).

Lemma head_whole : forall mem len d pos b r out, skipn pos mem = b :: r -> began b d -> b mod 32 < 27 ->
  (pos + (1 + arg_size (b mod 32)) <= len)%nat -> (arg_size (b mod 32) < length r)%nat ->
  (forall d1, complete mem b d1 pos -> runs mem len d1 (pos + (1 + arg_size (b mod 32))) out) -> runs mem len d (S pos) out.
Proof.
  intros mem len d pos b r out M B Hb L R K. destruct (at_cons _ _ _ _ M) as (N1 & N2 & N3).
  assert (LM : length mem = (S pos + length r)%nat) by (rewrite <- N2, skipn_length; lia).
  destruct (N.ltb_spec (b mod 32) 24) as [T|T].
  - assert (A0 : arg_size (b mod 32) = 0%nat) by (unfold arg_size; destruct (N.ltb_spec (b mod 32) 24); [reflexivity|lia]).
    specialize (K d). rewrite A0 in *. replace (pos + (1 + 0))%nat with (S pos) in K by lia. apply K.
    unfold complete, filled. rewrite A0. destruct B as (B1 & B2 & B3). split; [left; auto|]. repeat split; auto.
  - assert (A1 : (0 < arg_size (b mod 32))%nat).
    { unfold arg_size. destruct (N.ltb_spec (b mod 32) 24); [lia|]. destruct (_ =? _); [|destruct (_ =? _)]; lia. }
    apply (head_args mem len d pos b); auto; [lia|lia|]. intros d1 D1 D2 D3 D4. replace (S pos) with (S pos + 0)%nat at 1 by lia.
    apply (store mem len b (S pos) T (arg_size (b mod 32)) 0 d1); auto; try lia.
    + repeat split; auto.
    + intros d2 E1 E2 E3. replace (S pos + 0 + arg_size (b mod 32))%nat with (pos + (1 + arg_size (b mod 32)))%nat by lia. apply K.
      destruct (N.ltb_spec (b mod 32) 27); [|lia]. split; [right; auto|]. exact E3.
Qed.

(** a head that ends behind the byte after the payload *)
Lemma head_cut : forall mem len d pos b r, skipn pos mem = b :: r -> began b d -> (pos <= len)%nat -> (len < pos + (1 + arg_size (b mod 32)))%nat ->
  runs mem len d (S pos) (if (len <? length mem)%nat then Ok [] else Fault).
Proof.
  intros mem len d pos b r M B P L. destruct (at_cons _ _ _ _ M) as (N1 & N2 & N3).
  destruct (Nat.eq_dec pos len) as [->|Ne].
  - apply Nat.ltb_lt in N3. rewrite N3. apply runs_stop. left. lia.
  - assert (T : 24 <= b mod 32).
    { destruct (N.ltb_spec (b mod 32) 24) as [T|T]; [|exact T]. unfold arg_size in L. apply N.ltb_lt in T. rewrite T in L. lia. }
    destruct (Nat.le_gt_cases (length mem) (S pos)) as [S1|S1].
    + destruct (Nat.ltb_spec len (length mem)); [lia|]. apply runs_none; [right; split; [lia|destruct B as (-> & _); discriminate]|exact S1].
    + apply (head_args mem len d pos b); auto; [lia|]. intros d1 D1 D2 D3 D4.
      assert (Q := store_cut mem len b (S pos) T ltac:(lia) _ 0 d1 eq_refl D1 D2 D3 ltac:(lia)). rewrite Nat.add_0_r in Q.
      rewrite Nat.max_l in Q by lia. replace (len <? S pos)%nat with false in Q by (symmetry; apply Nat.ltb_ge; lia). rewrite orb_false_r in Q. exact Q.
Qed.

(** the buffer overruns *)
Lemma head_wide : forall mem len d pos b r, skipn pos mem = b :: r -> began b d -> 27 <= b mod 32 -> (pos + (1 + arg_size (b mod 32)) <= len)%nat ->
  runs mem len d (S pos) Fault.
Proof.
  intros mem len d pos b r M B Hb L. destruct (at_cons _ _ _ _ M) as (N1 & N2 & N3).
  assert (A4 : arg_size (b mod 32) = 4%nat).
  { unfold arg_size. destruct (N.ltb_spec (b mod 32) 24); [lia|]. destruct (N.eqb_spec (b mod 32) 24); [lia|]. destruct (N.eqb_spec (b mod 32) 25); [lia|]. reflexivity. }
  rewrite A4 in L. destruct (Nat.le_gt_cases (length mem) (S pos)) as [S1|S1].
  { apply runs_none; [right; split; [lia|destruct B as (-> & _); discriminate]|exact S1]. }
  apply (head_args mem len d pos b); auto; [lia|lia|]. intros d1 D1 D2 D3 D4.
  destruct (Nat.le_gt_cases (length mem) (S pos + 4)) as [S2|S2].
  - (* memory ends first: the loop over a payload of what is there plus one *)
    assert (Q : forall n k dd, (k + n = 4)%nat -> c_state dd = CAdditional -> c_pos dd = N.of_nat k -> c_hdr dd = b -> length (c_buf dd) = 4%nat ->
      runs mem len dd (S pos + k) Fault).
    { induction n as [|n IH]; intros k dd Hk X1 X2 X3 X4.
      - apply runs_none; [right; split; [lia|rewrite X1; discriminate]|lia].
      - destruct (nth_error mem (S pos + k)) as [c|] eqn:NC.
        2:{ apply nth_error_None in NC. apply runs_none; [right; split; [lia|rewrite X1; discriminate]|lia]. }
        destruct dd as [buf hd p st]. cbn [c_state c_pos c_buf c_hdr] in *. subst st p hd.
        set (d2 := CDec (firstn k buf ++ [c] ++ skipn (S k) buf) b (N.of_nat (S k)) CAdditional).
        assert (K4 : (k < 4)%nat) by lia.
        eapply runs_quiet with (adv := true) (d0 := d2); [right; split; [lia|discriminate]|exact NC| |reflexivity|].
        + unfold c_iterate. cbn [c_state c_pos c_buf c_hdr]. rewrite Nat2N.id. unfold BUF_LEN. apply Nat.ltb_lt in K4. rewrite K4. apply Nat.ltb_lt in K4.
          replace ((N.of_nat k + 1) mod 8) with (N.of_nat (S k)) by (rewrite N.mod_small by lia; lia). fold d2.
          replace (N.of_nat (S k) =? c_addlen d2) with false; [reflexivity|]. symmetry. apply N.eqb_neq. unfold c_addlen. rewrite raw_of. cbn [d2 c_hdr].
          assert (Lt := N.mod_lt b 32 ltac:(discriminate)). set (a := b mod 32) in *. clearbody a. assert (X : In a [27;28;29;30;31]) by (cbn; lia).
          destruct X as [<-|[<-|[<-|[<-|[<-|[]]]]]]; match goal with |- _ <> ?x => let y := eval vm_compute in x in change x with y end; lia.
        + replace (S (S pos + k)) with (S pos + S k)%nat by lia. apply IH; try reflexivity; [lia|].
          cbn [d2 c_buf]. rewrite !app_length, firstn_length, skipn_length. cbn [length]. lia. }
    replace (S pos) with (S pos + 0)%nat at 1 by lia. apply (Q 4%nat 0%nat); auto.
  - replace (S pos) with (S pos + 0)%nat at 1 by lia. apply (store mem len b (S pos) ltac:(lia) 4 0 d1); auto; try lia.
    + repeat split; auto.
    + intros d2 E1 E2 (E3 & _). destruct (N.ltb_spec (b mod 32) 27); [lia|]. replace (S pos + 0 + 4)%nat with (S pos + 4)%nat by lia.
      destruct (nth_error mem (S pos + 4)) as [c|] eqn:NC; [|apply nth_error_None in NC; lia].
      eapply runs_bad; [right; split; [lia|rewrite E1; discriminate]|exact NC|]. left. destruct d2 as [buf hd p st]. cbn [c_state c_pos] in *. subst st p. reflexivity.
Qed.

(** memory ends with the argument or before *)
Lemma head_edge : forall mem len d pos b r, skipn pos mem = b :: r -> began b d -> b mod 32 < 27 ->
  (pos + (1 + arg_size (b mod 32)) <= len)%nat -> (length r <= arg_size (b mod 32))%nat -> runs mem len d (S pos) Fault.
Proof.
  intros mem len d pos b r M B Hb L R. destruct (at_cons _ _ _ _ M) as (N1 & N2 & N3).
  assert (LM : length mem = (S pos + length r)%nat) by (rewrite <- N2, skipn_length; lia).
  destruct (Nat.le_gt_cases (length mem) (S pos)) as [S1|S1].
  { apply runs_none; [right; split; [lia|destruct B as (-> & _); discriminate]|exact S1]. }
  assert (T : 24 <= b mod 32).
  { destruct (N.ltb_spec (b mod 32) 24) as [T|T]; [|exact T]. unfold arg_size in R. apply N.ltb_lt in T. rewrite T in R. lia. }
  apply (head_args mem len d pos b); auto; [lia|]. intros d1 D1 D2 D3 D4. replace (S pos) with (S pos + 0)%nat at 1 by lia.
  (* up to the end of memory *)
  assert (Q : forall n k dd, (k + n = length r)%nat -> (c_state dd = CAdditional \/ c_state dd = CAdditionalDone /\ n = 0%nat) -> c_pos dd = N.of_nat k -> c_hdr dd = b ->
    runs mem len dd (S pos + k) Fault).
  { induction n as [|n IH]; intros k dd Hk X1 X2 X3.
    - apply runs_none; [right; split; [lia|]|lia]. destruct X1 as [->|[-> _]]; discriminate.
    - destruct X1 as [X1|[_ X1]]; [|discriminate]. destruct (nth_error mem (S pos + k)) as [c|] eqn:NC; [|apply nth_error_None in NC; lia].
      assert (A4 : (arg_size (b mod 32) <= 4)%nat) by (unfold arg_size; repeat destruct (_ <? _); repeat destruct (_ =? _); lia).
      destruct dd as [buf hd p st]. cbn [c_state c_pos c_buf c_hdr] in *. subst st p hd.
      set (d2 := CDec (firstn k buf ++ [c] ++ skipn (S k) buf) b (N.of_nat (S k)) CAdditional).
      assert (K4 : (k < 4)%nat) by lia.
      eapply runs_quiet with (adv := true) (d0 := if N.of_nat (S k) =? c_addlen d2 then c_set d2 CAdditionalDone else d2); [right; split; [lia|discriminate]|exact NC| | |].
      + unfold c_iterate. cbn [c_state c_pos c_buf c_hdr]. rewrite Nat2N.id. unfold BUF_LEN. apply Nat.ltb_lt in K4. rewrite K4. apply Nat.ltb_lt in K4.
        replace ((N.of_nat k + 1) mod 8) with (N.of_nat (S k)) by (rewrite N.mod_small by lia; lia). reflexivity.
      + destruct (_ =? _); reflexivity.
      + replace (S (S pos + k)) with (S pos + S k)%nat by lia. apply IH; [lia| |destruct (_ =? _); reflexivity|destruct (_ =? _); reflexivity].
        destruct (N.eqb_spec (N.of_nat (S k)) (c_addlen d2)) as [Eq|Eq]; [right|left; reflexivity]. split; [reflexivity|].
        assert (HD : c_hdr d2 = b) by reflexivity.
        destruct (addlen_of d2) as [A|[A1 A2]]; [rewrite HD; exact T|rewrite HD in A|exfalso; rewrite HD in A1; clear - A1 Hb; lia].
        clearbody d2. apply (f_equal N.to_nat) in Eq. rewrite Nat2N.id in Eq. rewrite <- Eq in A. rewrite <- A in R. clear - Hk R. lia. }
  apply (Q (length r) 0%nat d1); auto.
Qed.

(** * What follows a complete head *)

Lemma in_firstn_skipn : forall (A : Type) (x : A) a b l, In x (firstn a (skipn b l)) -> In x l.
Proof. intros A x a b l H. rewrite <- (firstn_skipn b l). apply in_or_app. right. rewrite <- (firstn_skipn a (skipn b l)). apply in_or_app. now left. Qed.

Lemma complete_arg : forall mem b d pos r, skipn pos mem = b :: r -> bytes_ok mem -> complete mem b d pos ->
  c_type d = b / 32 /\ c_uint16 d = Ok (arg_value (b mod 32) r mod 65536) /\ c_integer 16 d = Ok (plain_number (b / 32) (b mod 32) (arg_value (b mod 32) r)).
Proof.
  intros mem b d pos r M Hok (C & F1 & F2 & F3). destruct (at_cons _ _ _ _ M) as (_ & N2 & _). rewrite N2 in F3.
  rewrite type_of, F1. split; [reflexivity|]. unfold c_uint16, c_integer, c_tiny, plain_number, arg_value. rewrite raw_of, type_of, F1.
  destruct (N.ltb_spec (b mod 32) 24) as [T|T].
  - split; [|reflexivity]. rewrite (N.mod_small (b mod 32) 65536) by (clear - T; lia). reflexivity.
  - assert (Q : N.to_nat (c_addlen d) = arg_size (b mod 32)).
    { destruct (addlen_of d) as [A|[A _]]; rewrite F1 in *; [exact T|exact A|]. destruct C as [[_ C]|[_ C]]; lia. }
    rewrite Q. assert (A4 : (arg_size (b mod 32) <= 4)%nat) by (unfold arg_size; repeat destruct (_ <? _); repeat destruct (_ =? _); lia).
    unfold BUF_LEN. apply Nat.leb_le in A4. rewrite A4, F3.
    assert (Hr : bytes_ok (firstn (arg_size (b mod 32)) r)).
    { rewrite <- N2. apply Forall_forall. intros x X. apply (proj1 (Forall_forall _ _) Hok). apply in_firstn_skipn in X; exact X. }
    rewrite uint_get_be by (auto; lia). set (v := be _). change (2 ^ 16) with 65536. split; [reflexivity|].
    assert (L : sgn 16 (v mod 65536) = low16 v).
    { clearbody v. unfold sgn, low16. change (2 ^ 16) with 65536. change (2 ^ (16 - 1)) with 32768. change (2 ^ Z.of_N 16)%Z with 65536%Z.
      rewrite N.mod_mod by discriminate. pose proof (N.div_mod v 65536 ltac:(discriminate)) as Q1. pose proof (N.mod_lt v 65536 ltac:(discriminate)) as R.
      set (a := v / 65536) in *. set (c := v mod 65536) in *. clearbody a c. rewrite Q1.
      replace (Z.of_N (65536 * a + c) + 32768)%Z with ((Z.of_N c + 32768) + Z.of_N a * 65536)%Z by lia. rewrite Z.mod_add by discriminate.
      destruct (N.ltb_spec c 32768).
      - rewrite Z.mod_small by lia. lia.
      - replace (Z.of_N c + 32768)%Z with ((Z.of_N c - 32768) + 1 * 65536)%Z by lia. rewrite Z.mod_add by discriminate. rewrite Z.mod_small by lia. lia. }
    rewrite L. reflexivity.
Qed.

Lemma complete_step : forall mem len b d pos r o d2 pos2 out, skipn pos mem = b :: r -> complete mem b d pos -> let k := arg_size (b mod 32) in
  (k < length r)%nat -> (pos + (1 + k) <= len)%nat ->
  cr_seen mem (c_set d (if c_short d then CItemDone else CLongStart)) (pos + (1 + k)) = Ok (o, d2, pos2) ->
  runs mem len d2 pos2 out -> runs mem len d (pos + (1 + k)) (bind out (fun l => Ok (o ++ l))).
Proof.
  intros mem len b d pos r o d2 pos2 out M (C & F1 & F2 & F3) k R L S Q. destruct (at_cons _ _ _ _ M) as (_ & N2 & N3).
  destruct (nth_error mem (pos + (1 + k))) as [c|] eqn:NC.
  2:{ exfalso. apply nth_error_None in NC. rewrite <- N2, skipn_length in R. lia. }
  eapply runs_step with (adv := false); [right; split; [exact L|]|exact NC| |exact S|exact Q].
  - destruct C as [[-> _]|[-> _]]; discriminate.
  - unfold c_iterate. destruct C as [[-> C]|[-> C]]; [|reflexivity]. unfold c_tiny. rewrite raw_of, F1. apply N.ltb_lt in C. now rewrite C.
Qed.

Lemma complete_bad : forall mem len b d pos r, skipn pos mem = b :: r -> complete mem b d pos -> let k := arg_size (b mod 32) in
  (k < length r)%nat -> (pos + (1 + k) <= len)%nat ->
  cr_seen mem (c_set d (if c_short d then CItemDone else CLongStart)) (pos + (1 + k)) = Fault -> runs mem len d (pos + (1 + k)) Fault.
Proof.
  intros mem len b d pos r M (C & F1 & F2 & F3) k R L S. destruct (at_cons _ _ _ _ M) as (_ & N2 & N3).
  destruct (nth_error mem (pos + (1 + k))) as [c|] eqn:NC.
  2:{ exfalso. apply nth_error_None in NC. rewrite <- N2, skipn_length in R. lia. }
  eapply runs_bad; [right; split; [exact L|]|exact NC|right; eexists _, false; split; [|exact S]].
  - destruct C as [[-> _]|[-> _]]; discriminate.
  - unfold c_iterate. destruct C as [[-> C]|[-> C]]; [|reflexivity]. unfold c_tiny. rewrite raw_of, F1. apply N.ltb_lt in C. now rewrite C.
Qed.

Lemma short_of : forall d, c_short d = negb ((c_type d =? 2) || (c_type d =? 3) || (c_type d =? 4) || (c_type d =? 5)) \/ 8 <= c_type d.
Proof.
  intro d. unfold c_short. destruct (N.ltb_spec (c_type d) 8) as [L|L]; [left|right; exact L]. set (t := c_type d) in *. clearbody t.
  assert (X : In t [0;1;2;3;4;5;6;7]) by (cbn; lia). destruct X as [<-|[<-|[<-|[<-|[<-|[<-|[<-|[<-|[]]]]]]]]]; reflexivity.
Qed.

(** * The loop prints what the specification says *)

Definition stands (after : bool) (d : cdec) : Prop := length (c_buf d) = 4%nat /\ c_state d = if after then CItemDone else CHeaderStart.

Lemma bind_two : forall (out : res (list cout)) a b, bind (bind out (fun l => Ok (b ++ l))) (fun l => Ok (a ++ l)) = bind out (fun l => Ok ((a ++ b) ++ l)).
Proof. intros [l| |] a b; cbn [bind]; try reflexivity. now rewrite <- app_assoc. Qed.

Lemma printed_runs : forall mem len, bytes_ok mem -> forall after left r out, printed after left r out ->
  forall d pos, skipn pos mem = r -> (pos + left = len)%nat -> stands after d -> runs mem len d pos out.
Proof.
  intros mem len Hok after left r out P. induction P as [r|after left G|after left b r G H|after left b r H W|after left b r H W E
    |after left b r out k H W R T P IH|after left b r out k H W R T P IH|after left b r k n H W R T O|after left b r k n H W R T O|after left b r out k n H W R T O P IH];
    intros d pos M L (S1 & S2).
  - apply runs_stop. right. split; [lia|exact S2].
  - apply runs_none; [|now apply at_nil]. destruct after; [left; lia|right; split; [lia|rewrite S2; discriminate]].
  - assert (A := at_cons _ _ _ _ M). destruct A as (N1 & N2 & N3).
    replace (if (left <? length (b :: r))%nat then Ok [RType (b / 32)] else Fault) with
      (bind (if (len <? length mem)%nat then Ok [] else Fault) (fun l => Ok ([RType (b / 32)] ++ l))).
    + apply head_first; auto.
      * destruct after; [right|left]; split; auto; lia.
      * intros d1 D1. eapply head_cut; eauto; lia.
    + assert (LM : length mem = (pos + length (b :: r))%nat) by (rewrite <- M, skipn_length; lia).
      destruct (Nat.ltb_spec left (length (b :: r))), (Nat.ltb_spec len (length mem)); cbn [bind app]; try reflexivity; lia.
  - assert (A := at_cons _ _ _ _ M). destruct A as (N1 & N2 & N3).
    change (runs mem len d pos (bind (Fault : res (list cout)) (fun l => Ok ([RType (b / 32)] ++ l)))). apply head_first; auto.
    + destruct after; [right|left]; split; auto; lia.
    + intros d1 D1. eapply head_wide; eauto; lia.
  - assert (A := at_cons _ _ _ _ M). destruct A as (N1 & N2 & N3).
    change (runs mem len d pos (bind (Fault : res (list cout)) (fun l => Ok ([RType (b / 32)] ++ l)))). apply head_first; auto.
    + destruct after; [right|left]; split; auto; lia.
    + intros d1 D1. eapply head_edge; eauto; lia.
  - assert (A := at_cons _ _ _ _ M). destruct A as (N1 & N2 & N3).
    change ([RType (b / 32); RNest]) with ([RType (b / 32)] ++ [RNest]). rewrite <- bind_two. apply head_first; auto.
    + destruct after; [right|left]; split; auto; lia.
    + intros d1 D1. eapply head_whole; eauto; [lia|]. intros d2 D2. destruct (complete_arg _ _ _ _ _ M Hok D2) as (A1 & A2 & A3).
      eapply complete_step; eauto; [lia| |apply IH].
      * unfold cr_seen. replace (c_short d2) with false by (unfold c_short; rewrite A1; destruct T as [-> | ->]; reflexivity). cbn [c_set c_state].
        replace (c_container _) with true; [reflexivity|]. unfold c_container. change (c_type (c_set d2 CLongStart)) with (c_type d2). rewrite A1. destruct T as [-> | ->]; reflexivity.
      * unfold k. rewrite <- skip_skip, M. reflexivity.
      * fold k. lia.
      * split; [|reflexivity]. destruct D2 as (_ & _ & D2 & _). exact D2.
  - assert (A := at_cons _ _ _ _ M). destruct A as (N1 & N2 & N3).
    match goal with |- runs _ _ _ _ (bind _ (fun l => Ok ([?x; ?y] ++ l))) => change ([x; y]) with ([x] ++ [y]) end. rewrite <- bind_two. apply head_first; auto.
    + destruct after; [right|left]; split; auto; lia.
    + intros d1 D1. eapply head_whole; eauto; [lia|]. intros d2 D2. destruct (complete_arg _ _ _ _ _ M Hok D2) as (A1 & A2 & A3).
      assert (B8 : b / 32 < 8). { apply N.div_lt_upper_bound; [discriminate|]. apply (proj1 (Forall_forall _ _) Hok). eapply nth_error_In; eauto. }
      assert (SH : c_short d2 = true).
      { destruct (short_of d2) as [->|X]; rewrite A1 in *; [|lia]. cbn [In] in T. 
        destruct (N.eqb_spec (b / 32) 2), (N.eqb_spec (b / 32) 3), (N.eqb_spec (b / 32) 4), (N.eqb_spec (b / 32) 5); try reflexivity; exfalso; apply T; auto. }
      eapply complete_step; eauto; [lia| |apply IH].
      * rewrite SH. unfold cr_seen. cbn [c_set c_state]. change (c_integer 16 (c_set d2 CItemDone)) with (c_integer 16 d2). rewrite A3. reflexivity.
      * unfold k. rewrite <- skip_skip, M. reflexivity.
      * fold k. lia.
      * split; [|reflexivity]. destruct D2 as (_ & _ & D2 & _). exact D2.
  - assert (A := at_cons _ _ _ _ M). destruct A as (N1 & N2 & N3).
    change (runs mem len d pos (bind (Fault : res (list cout)) (fun l => Ok ([RType (b / 32)] ++ l)))). apply head_first; auto.
    + destruct after; [right|left]; split; auto; lia.
    + intros d1 D1. eapply head_whole; eauto; [lia|]. intros d2 D2. destruct (complete_arg _ _ _ _ _ M Hok D2) as (A1 & A2 & A3).
      eapply complete_bad; eauto; [lia|].
      unfold cr_seen. replace (c_short d2) with false by (unfold c_short; rewrite A1, T; reflexivity). cbn [c_set c_state].
      change (c_container (c_set d2 CLongStart)) with (c_container d2). change (c_uint16 (c_set d2 CLongStart)) with (c_uint16 d2). change (c_type (c_set d2 CLongStart)) with (c_type d2).
      unfold c_container. rewrite A1, T, A2. cbn [bind]. change (3 =? M_MAP) with false. change (3 =? M_ITEMS) with false. change (3 =? M_STRING) with true. cbv iota. cbn [orb bind].
      fold k. fold n. destruct (Nat.leb_spec (pos + (1 + k) + N.to_nat n) (length mem)); [|reflexivity]. exfalso.
      assert (LM : length mem = (pos + length (b :: r))%nat) by (rewrite <- M, skipn_length; lia). rewrite skipn_length in O. cbn [length] in LM. lia.
  - assert (A := at_cons _ _ _ _ M). destruct A as (N1 & N2 & N3).
    match goal with |- runs _ _ _ _ (Ok (?a ++ ?x)) => replace (Ok (a ++ x)) with (bind (bind (Ok []) (fun l => Ok (x ++ l))) (fun l => Ok (a ++ l))) by (cbn [bind]; rewrite app_nil_r; reflexivity) end.
    apply head_first; auto.
    + destruct after; [right|left]; split; auto; lia.
    + intros d1 D1. eapply head_whole; eauto; [lia|]. intros d2 D2. destruct (complete_arg _ _ _ _ _ M Hok D2) as (A1 & A2 & A3).
      assert (LM : length mem = (pos + length (b :: r))%nat) by (rewrite <- M, skipn_length; lia).
      eapply complete_step; eauto; [lia| |apply runs_stop; left].
      * unfold cr_seen. replace (c_short d2) with false by (unfold c_short; rewrite A1; destruct T as [-> |[-> _]]; reflexivity). cbn [c_set c_state].
        change (c_container (c_set d2 CLongStart)) with (c_container d2). change (c_uint16 (c_set d2 CLongStart)) with (c_uint16 d2). change (c_type (c_set d2 CLongStart)) with (c_type d2).
        unfold c_container. rewrite A1, A2. cbn [bind]. replace ((b / 32 =? M_MAP) || (b / 32 =? M_ITEMS)) with false by (destruct T as [-> |[-> _]]; reflexivity).
        fold k. fold n. change M_STRING with 3. destruct (N.eqb_spec (b / 32) 3) as [E3|E3]; cbn [bind]; [|reflexivity].
        destruct T as [T|[_ T]]; [rewrite E3 in T; discriminate|].
        rewrite skipn_length in T. cbn [length] in LM.
        destruct (Nat.leb_spec (pos + (1 + k) + N.to_nat n) (length mem)); [|exfalso; lia]. cbn [bind].
        rewrite <- skip_skip, M. reflexivity.
      * fold k. lia.
  - assert (A := at_cons _ _ _ _ M). destruct A as (N1 & N2 & N3).
    rewrite <- bind_two. apply head_first; auto.
    + destruct after; [right|left]; split; auto; lia.
    + intros d1 D1. eapply head_whole; eauto; [lia|]. intros d2 D2. destruct (complete_arg _ _ _ _ _ M Hok D2) as (A1 & A2 & A3).
      assert (LM : length mem = (pos + length (b :: r))%nat) by (rewrite <- M, skipn_length; lia).
      eapply complete_step; eauto; [lia| |apply IH].
      * unfold cr_seen. replace (c_short d2) with false by (unfold c_short; rewrite A1; destruct T as [-> |[-> _]]; reflexivity). cbn [c_set c_state].
        change (c_container (c_set d2 CLongStart)) with (c_container d2). change (c_uint16 (c_set d2 CLongStart)) with (c_uint16 d2). change (c_type (c_set d2 CLongStart)) with (c_type d2).
        unfold c_container. rewrite A1, A2. cbn [bind]. replace ((b / 32 =? M_MAP) || (b / 32 =? M_ITEMS)) with false by (destruct T as [-> |[-> _]]; reflexivity).
        fold k. fold n. change M_STRING with 3. destruct (N.eqb_spec (b / 32) 3) as [E3|E3]; cbn [bind]; [|reflexivity].
        destruct T as [T|[_ T]]; [rewrite E3 in T; discriminate|].
        rewrite skipn_length in T. cbn [length] in LM.
        destruct (Nat.leb_spec (pos + (1 + k) + N.to_nat n) (length mem)); [|exfalso; lia]. cbn [bind].
        rewrite <- skip_skip, M. reflexivity.
      * fold k. fold n. rewrite <- !skip_skip, M. reflexivity.
      * fold k. fold n. lia.
      * split; [|reflexivity]. destruct D2 as (_ & _ & D2 & _). exact D2.
Qed.

(** * Something is always printed *)

Lemma printed_any : forall m left after r, (left < m)%nat -> bytes_ok r -> exists out, printed after left r out.
Proof.
  induction m as [|m IH]; intros left after r H Hok; [lia|].
  assert (G : after = true /\ left = 0%nat \/ (after = false \/ (0 < left)%nat)) by (destruct after; [destruct left; [left; auto|right; right; lia]|right; left; auto]).
  destruct G as [[-> ->]|G]; [eexists; apply Pr_end|].
  destruct r as [|b r]; [eexists; apply Pr_none; exact G|].
  destruct (Nat.le_gt_cases (1 + arg_size (b mod 32)) left) as [L|L]; [|eexists; apply Pr_cut; auto].
  destruct (N.ltb_spec (b mod 32) 27) as [W|W]; [|eexists; apply Pr_wide; auto].
  destruct (Nat.le_gt_cases (length r) (arg_size (b mod 32))) as [E|E]; [eexists; apply Pr_edge; auto|].
  assert (Hr : forall k, bytes_ok (skipn k r)).
  { intro k. inversion Hok as [|? ? _ X]. apply Forall_forall. intros z I. apply (proj1 (Forall_forall _ _) X). rewrite <- (firstn_skipn k r). apply in_or_app. now right. }
  destruct (in_dec N.eq_dec (b / 32) [2; 3; 4; 5]) as [T|T].
  - assert (C : (b / 32 = 4 \/ b / 32 = 5) \/ (b / 32 = 2 \/ b / 32 = 3)) by (cbn [In] in T; destruct T as [T|[T|[T|[T|[]]]]]; rewrite <- T; auto). clear T. destruct C as [C|C].
    + destruct (IH (left - (1 + arg_size (b mod 32)))%nat false (skipn (arg_size (b mod 32)) r) ltac:(lia) (Hr _)) as (out & P). eexists. eapply Pr_nest; eauto.
    + set (k := arg_size (b mod 32)) in *. set (n := arg_value (b mod 32) r mod 65536).
      assert (D : b / 32 = 3 /\ (length (skipn k r) < N.to_nat n)%nat \/ (b / 32 = 2 \/ b / 32 = 3 /\ (N.to_nat n <= length (skipn k r))%nat)).
      { destruct C as [C|C]; [right; left; exact C|]. destruct (Nat.le_gt_cases (N.to_nat n) (length (skipn k r))); auto. }
      destruct D as [[D1 D2]|D]; [eexists; eapply Pr_outside; eauto|].
      destruct (Nat.le_gt_cases (N.to_nat n) (left - (1 + k))) as [F|F]; [|eexists; eapply Pr_over; eauto].
      assert (Hn : bytes_ok (skipn (N.to_nat n) (skipn k r))) by (rewrite skip_skip; apply Hr).
      destruct (IH (left - (1 + k) - N.to_nat n)%nat false _ ltac:(lia) Hn) as (out & P). eexists. eapply Pr_string; eauto.
  - destruct (IH (left - (1 + arg_size (b mod 32)))%nat true (skipn (arg_size (b mod 32)) r) ltac:(lia) (Hr _)) as (out & P). eexists. eapply Pr_number; eauto.
Qed.

Lemma print_exact : forall mem len buf hd p out, bytes_ok mem -> length buf = 4%nat -> printed false len mem out <-> cr_print mem len buf hd p = out.
Proof.
  intros mem len buf hd p out Hok Hb.
  assert (F : forall o, printed false len mem o -> cr_print mem len buf hd p = o).
  { intros o P. assert (R : runs mem len (c_init buf hd p) 0 o) by (eapply printed_runs; eauto; split; [exact Hb|reflexivity]).
    destruct R as (f & E & N). eapply print_of; eauto. }
  split; [apply F|]. intros <-. destruct (printed_any (S len) len false mem ltac:(lia) Hok) as (o & P). now rewrite (F o P).
Qed.
