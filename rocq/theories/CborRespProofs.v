From Coq Require Import ZArith.
From Verif Require Import Base UIntSpec UIntModel UIntProofs CborModel CborSpec CborProofs CborRespModel CborRespSpec.
Local Open Scope N_scope.

(** * Fuel *)

Lemma cr_more : forall f mem len d pos, cr_loop f mem len d pos <> NoFuel -> forall f2, (f <= f2)%nat ->
  cr_loop f2 mem len d pos = cr_loop f mem len d pos.
Proof.
  induction f as [|f IH]; intros mem len d pos H f2 L; [destruct H; reflexivity|].
  destruct f2 as [|f2]; [lia|]. cbn [cr_loop] in *. destruct (_ || _); [|reflexivity].
  destruct (nth_error mem pos); [|reflexivity].
  destruct (c_iterate d n) as [[d0 adv]| |]; cbn [bind] in *; try reflexivity.
  destruct (cr_seen _ _ _) as [[[o d1] p1]| |]; cbn [bind] in *; try reflexivity.
  rewrite (IH mem len d1 p1) with (f2 := f2); [reflexivity| |lia].
  intro E. rewrite E in H. apply H. reflexivity.
Qed.

Definition rank2 (s : cstate) : nat :=
  match s with CHeader | CAdditional => 1 | CHeaderStart | CAdditionalStart | CLongStart => 2 | CItemDone => 3 | _ => 4 end.
Definition live2 (s : cstate) : Prop := s <> CLong /\ s <> CLongDone /\ s <> CLongStart.

Lemma cr_ends : forall f mem len d pos, live2 (c_state d) -> (8 * (S len - pos) + rank2 (c_state d) < f)%nat ->
  cr_loop f mem len d pos <> NoFuel.
Proof.
  induction f as [|f IH]; intros mem len d pos HL HF; [lia|]. cbn [cr_loop].
  destruct (_ || _) eqn:G; [|discriminate].
  assert (DP : (pos <= len)%nat).
  { apply orb_true_iff in G. destruct G as [G|G]; [apply Nat.ltb_lt in G; lia|].
    apply andb_true_iff in G. destruct G as [G _]. apply Nat.eqb_eq in G. lia. }
  clear G. destruct (nth_error mem pos) as [b|]; [|discriminate].
  assert (K : forall d1 adv, c_state d1 <> CLong -> c_state d1 <> CLongDone ->
    (8 * (S len - (if adv : bool then S pos else pos)) + (if adv then 4 else rank2 (c_state d1)) < f)%nat ->
    bind (Ok (d1, adv)) (fun r => bind (cr_seen mem (fst r) (if snd r : bool then S pos else pos)) (fun x =>
      let '(o, d2, pos1) := x in bind (cr_loop f mem len d2 pos1) (fun l => Ok (o ++ l)))) <> NoFuel).
  { intros d1 adv L1 L2 H1. cbn [bind fst snd].
    assert (R : forall d2 p2 o, live2 (c_state d2) -> (8 * (S len - p2) + rank2 (c_state d2) < f)%nat ->
      bind (cr_loop f mem len d2 p2) (fun l => Ok ((o : list cout) ++ l)) <> NoFuel).
    { intros d2 p2 o A B E. destruct (cr_loop f mem len d2 p2) eqn:Q; try discriminate E. revert Q. apply IH; assumption. }
    assert (RK : forall s, (rank2 s <= 4)%nat) by (destruct s; cbn; lia).
    unfold cr_seen. destruct (c_state d1) eqn:E; try congruence;
      try (cbn [bind]; apply R; rewrite E; [split; [discriminate|split; discriminate]|destruct adv; cbn [rank2] in *; lia]).
    - assert (X : (8 * (S len - (if adv then S pos else pos)) + 2 < f)%nat).
      { destruct adv; cbn [rank2] in H1; lia. }
      destruct (c_container d1); [cbn [bind]; apply R; cbn [c_set c_state rank2]; [split; [discriminate|split; discriminate]|exact X]|].
      destruct (c_uint16 d1) as [n| |] eqn:U; cbn [bind]; try discriminate.
      2:{ exfalso. unfold c_uint16 in U. destruct (c_tiny d1); [discriminate|]. destruct (_ <=? _)%nat; discriminate. }
      destruct (c_type d1 =? M_STRING); [destruct (_ <=? _)%nat; [|discriminate]|]; cbn [bind]; apply R; cbn [c_set c_state rank2];
        try (split; [discriminate|split; discriminate]); lia.
    - destruct (c_integer 16 d1) as [z| |] eqn:U; cbn [bind]; try discriminate.
      + apply R; rewrite E; [split; [discriminate|split; discriminate]|destruct adv; cbn [rank2] in *; lia].
      + exfalso. unfold c_integer in U. destruct (c_tiny d1); [discriminate|]. destruct (_ <=? _)%nat; discriminate. }
  destruct d as [buf hd p st]. cbn [c_state] in *. destruct HL as (H1 & H2 & H3). unfold c_iterate.
  destruct st; try congruence; cbn [c_state c_buf c_hdr c_pos rank2] in *.
  - apply K; cbn [c_set c_state rank2]; try discriminate; lia.
  - apply K; cbn [c_state rank2]; try discriminate; lia.
  - apply K; destruct (c_tiny _); try destruct (c_short _); cbn [c_set c_state rank2]; try discriminate; lia.
  - apply K; cbn [c_state rank2]; try discriminate; lia.
  - destruct (_ <? _)%nat; [|discriminate].
    apply K; try destruct (_ =? _); cbn [c_set c_state rank2]; try discriminate; lia.
  - apply K; destruct (c_short _); cbn [c_set c_state rank2]; try discriminate; lia.
  - apply K; cbn [c_set c_state rank2]; try discriminate; lia.
Qed.

(** * One head *)

Definition em (s : cstate) (t : N) : list cout :=
  match s with CHeaderStart | CHeader | CItemDone => [RType t] | _ => [] end.
Definition keeps (d d1 : cdec) : Prop :=
  match c_state d with CHeaderStart | CHeader | CItemDone => True | _ => c_hdr d1 = c_hdr d end.

Lemma mem_byte : forall (chunk : list N) g beh pos, (pos <= length chunk)%nat -> nth_error (chunk ++ g :: beh) pos = Some (nth pos chunk g).
Proof.
  intros chunk g beh pos H. destruct (Nat.eq_dec pos (length chunk)) as [->|E].
  - rewrite nth_error_app2, Nat.sub_diag by lia. rewrite nth_overflow by lia. reflexivity.
  - rewrite nth_error_app1 by lia. apply nth_error_nth'. lia.
Qed.

Definition go_on (f : nat) (mem : list N) (len : nat) (o : list cout) (d : cdec) (pos : nat) : res (list cout) :=
  bind (cr_seen mem d pos) (fun x => let '(o1, d1, pos1) := x in bind (cr_loop f mem len d1 pos1) (fun l => Ok (o ++ o1 ++ l))).

Lemma go_on_cons : forall f mem len o0 o d pos,
  bind (go_on f mem len o d pos) (fun l => Ok (o0 ++ l)) = go_on f mem len (o0 ++ o) d pos.
Proof.
  intros. unfold go_on. destruct (cr_seen mem d pos) as [[[o1 d1] p1]| |]; cbn [bind]; try reflexivity.
  destruct (cr_loop f mem len d1 p1); cbn [bind]; try reflexivity. now rewrite <- app_assoc.
Qed.

Lemma sim : forall f chunk g beh d pos d1 pos1, c_loop f chunk g d pos = Ok (d1, pos1, false) ->
  keeps d d1 /\ exists k, forall f2, cr_loop (k + f2) (chunk ++ g :: beh) (length chunk) d pos =
    go_on f2 (chunk ++ g :: beh) (length chunk) (em (c_state d) (c_type d1)) d1 pos1.
Proof.
  induction f as [|f IH]; intros chunk g beh d pos d1 pos1 H; [discriminate|]. cbn [c_loop] in H.
  destruct (_ || _) eqn:G; [|discriminate].
  assert (DP : (pos <= length chunk)%nat).
  { apply orb_true_iff in G. destruct G as [G|G]; [apply Nat.ltb_lt in G; lia|].
    apply andb_true_iff in G. destruct G as [G _]. apply Nat.eqb_eq in G. lia. }
  destruct (c_iterate d (nth pos chunk g)) as [[d0 adv]| |] eqn:I; cbn [bind] in H; try discriminate.
  assert (ST : forall k, cr_loop (S k) (chunk ++ g :: beh) (length chunk) d pos =
    bind (cr_seen (chunk ++ g :: beh) d0 (if adv then S pos else pos)) (fun x =>
      let '(o, d2, pos2) := x in bind (cr_loop k (chunk ++ g :: beh) (length chunk) d2 pos2) (fun l => Ok (o ++ l)))).
  { intro k. cbn [cr_loop]. rewrite G, mem_byte by assumption. rewrite I. reflexivity. }
  assert (LAST : c_state d0 = CLongStart \/ c_state d0 = CItemDone -> Ok (d0, if adv then S pos else pos, false) = Ok (d1, pos1, false) ->
    em (c_state d) (c_type d1) = [] /\ keeps d d1 ->
    keeps d d1 /\ exists k, forall f2, cr_loop (k + f2) (chunk ++ g :: beh) (length chunk) d pos =
      go_on f2 (chunk ++ g :: beh) (length chunk) (em (c_state d) (c_type d1)) d1 pos1).
  { intros _ E [A B]. split; [exact B|]. injection E as <- <-. exists 1%nat. intro f2. change (1 + f2)%nat with (S f2). rewrite ST, A. reflexivity. }
  assert (NEXT : forall o, cr_seen (chunk ++ g :: beh) d0 (if adv then S pos else pos) = Ok (o, d0, if adv then S pos else pos) ->
    c_loop f chunk g d0 (if adv then S pos else pos) = Ok (d1, pos1, false) ->
    (keeps d0 d1 -> keeps d d1 /\ o ++ em (c_state d0) (c_type d1) = em (c_state d) (c_type d1)) ->
    keeps d d1 /\ exists k, forall f2, cr_loop (k + f2) (chunk ++ g :: beh) (length chunk) d pos =
      go_on f2 (chunk ++ g :: beh) (length chunk) (em (c_state d) (c_type d1)) d1 pos1).
  { intros o S1 E K. destruct (IH chunk g beh _ _ _ _ E) as (K0 & k & Q). destruct (K K0) as [K1 K2]. split; [exact K1|].
    exists (S k). intro f2. change (S k + f2)%nat with (S (k + f2)). rewrite ST, S1. cbn [bind]. rewrite Q, go_on_cons, K2. reflexivity. }
  clear IH ST G. destruct d as [buf hd p st]. unfold c_iterate in I. cbn [c_state c_buf c_hdr c_pos] in I.
  destruct st; cbn [c_state] in *.
  - injection I as <- <-. cbn [c_state c_set] in *. apply (NEXT []); [reflexivity|exact H|]. intros _. split; [exact Logic.I|reflexivity].
  - injection I as <- <-. cbn [c_state c_set] in *. eapply NEXT; [reflexivity|exact H|]. intros K. split; [exact Logic.I|].
    unfold keeps in K. cbn [c_state c_hdr] in K. unfold c_type. rewrite K. reflexivity.
  - injection I as <- <-. destruct (c_tiny _); [destruct (c_short _)|]; cbn [c_state c_set] in *.
    + apply LAST; [auto|exact H|]. injection H as <- <-. split; reflexivity.
    + apply LAST; [auto|exact H|]. injection H as <- <-. split; reflexivity.
    + apply (NEXT []); [reflexivity|exact H|]. intros K. split; [exact K|reflexivity].
  - injection I as <- <-. cbn [c_state c_set] in *. apply (NEXT []); [reflexivity|exact H|]. intros K. split; [exact K|reflexivity].
  - destruct (_ <? _)%nat; [|discriminate]. injection I as <- <-. destruct (_ =? _); cbn [c_state c_set c_buf c_hdr c_pos] in *;
      (apply (NEXT []); [reflexivity|exact H|]; intros K; split; [exact K|reflexivity]).
  - injection I as <- <-. destruct (c_short _); cbn [c_state c_set] in *; (apply LAST; [auto|exact H|]; injection H as <- <-; split; reflexivity).
  - injection I as <- <-. cbn [c_state] in *. apply LAST; [auto|exact H|]. injection H as <- <-. split; reflexivity.
  - injection I as <- <-. cbn [c_state] in *. apply (NEXT []); [reflexivity|exact H|]. intros K. split; [exact K|reflexivity].
  - injection I as <- <-. cbn [c_state] in *. apply (NEXT []); [reflexivity|exact H|]. intros K. split; [exact K|reflexivity].
  - injection I as <- <-. cbn [c_state c_set] in *. apply (NEXT []); [reflexivity|exact H|]. intros _. split; [exact Logic.I|reflexivity].
Qed.

Lemma arg16 : forall m v d, holds m v d -> v < 2 ^ 32 -> c_uint16 d = Ok (v mod 65536) /\ c_integer 16 d = Ok (number m v).
Proof.
  intros m v d H Hv. unfold c_uint16, c_integer, number. destruct (h_arg _ _ _ H) as [(A & B & C)|(A & B & C & D & E)]; rewrite B.
  - rewrite C. destruct (N.ltb_spec v 24); [|lia]. split; [|reflexivity]. rewrite N.mod_small by lia. reflexivity.
  - destruct (N.ltb_spec v 24); [lia|]. unfold BUF_LEN. destruct (Nat.leb_spec (N.to_nat (c_addlen d)) 4); [|lia].
    rewrite E, (h_type _ _ _ H). rewrite uint_get_be by (try apply be_bytes_ok; lia).
    rewrite be_bytes_be, N2Nat.id, (N.mod_small v (256 ^ _)) by assumption. change (2 ^ 16) with 65536. split; [reflexivity|].
    f_equal. assert (L : sgn 16 (v mod 65536) = low16 v).
    { unfold sgn, low16. change (2 ^ 16) with 65536. change (2 ^ (16 - 1)) with 32768. change (2 ^ Z.of_N 16)%Z with 65536%Z.
      rewrite N.mod_mod by discriminate. pose proof (N.div_mod v 65536 ltac:(discriminate)) as Q. pose proof (N.mod_lt v 65536 ltac:(discriminate)) as R.
      set (a := v / 65536) in *. set (b := v mod 65536) in *. clearbody a b. rewrite Q.
      replace (Z.of_N (65536 * a + b) + 32768)%Z with ((Z.of_N b + 32768) + Z.of_N a * 65536)%Z by lia. rewrite Z.mod_add by discriminate.
      destruct (N.ltb_spec b 32768).
      - rewrite Z.mod_small by lia. lia.
      - replace (Z.of_N b + 32768)%Z with ((Z.of_N b - 32768) + 1 * 65536)%Z by lia. rewrite Z.mod_add by discriminate. rewrite Z.mod_small by lia. lia. }
    rewrite L. reflexivity.
Qed.

(** * Items *)

Definition ready (d : cdec) : Prop := length (c_buf d) = 4%nat /\ (c_state d = CHeaderStart \/ c_state d = CItemDone).

Lemma process_fuel : forall chunk g d pos, exists fu, c_process chunk g d pos = c_loop fu chunk g d pos.
Proof. intros. exists (c_fuel chunk pos). reflexivity. Qed.

Lemma head_step : forall pre post g beh d m v, m < 8 -> v < 2 ^ 32 -> ready d ->
  forall chunk, chunk = pre ++ rfc_head m v ++ post ->
  exists d1, holds m v d1 /\ exists k, forall f2, cr_loop (k + f2) (chunk ++ g :: beh) (length chunk) d (length pre) =
    go_on f2 (chunk ++ g :: beh) (length chunk) [RType m] d1 (length pre + length (rfc_head m v)).
Proof.
  intros pre post g beh d m v Hm Hv (Hb & Hs) chunk EC.
  destruct (process_head pre post g d m v Hm Hv Hb Hs) as (d1 & E & H). rewrite <- EC in E. clear EC. exists d1. split; [exact H|].
  destruct (process_fuel chunk g d (length pre)) as (fu & PF). rewrite PF in E. destruct (sim _ _ _ beh _ _ _ _ E) as (_ & k & Q). exists k. intro f2. rewrite Q, (h_type _ _ _ H).
  destruct Hs as [-> | ->]; reflexivity.
Qed.

Lemma nest_step : forall f mem len m v d pos, holds m v d -> m = 4 \/ m = 5 ->
  go_on f mem len [RType m] d pos = bind (cr_loop f mem len (c_set d CHeaderStart) pos) (fun l => Ok ([RType m; RNest] ++ l)).
Proof.
  intros f mem len m v d pos H Hm. unfold go_on, cr_seen. rewrite (h_state _ _ _ H).
  replace (end_state m) with CLongStart by (destruct Hm as [-> | ->]; reflexivity).
  unfold c_container. rewrite (h_type _ _ _ H).
  replace ((m =? M_MAP) || (m =? M_ITEMS)) with true by (destruct Hm as [-> | ->]; reflexivity). reflexivity.
Qed.

Lemma number_step : forall f mem len m v d pos, holds m v d -> v < 2 ^ 32 -> short_m m = true ->
  go_on f mem len [RType m] d pos = bind (cr_loop f mem len d pos) (fun l => Ok ([RType m; RNumber (number m v)] ++ l)).
Proof.
  intros f mem len m v d pos H Hv Hm. unfold go_on, cr_seen. rewrite (h_state _ _ _ H). unfold end_state. rewrite Hm.
  destruct (arg16 m v d H Hv) as [_ ->]. reflexivity.
Qed.

Lemma string_step : forall f mem len m v d pos, holds m v d -> v < 2 ^ 32 -> m = 2 \/ m = 3 ->
  (m = 3 -> (pos + N.to_nat (v mod 65536) <= length mem)%nat) ->
  go_on f mem len [RType m] d pos =
    bind (cr_loop f mem len (c_set d CHeaderStart) (pos + N.to_nat (v mod 65536))) (fun l =>
      Ok (([RType m] ++ (if m =? 3 then [RText (firstn (N.to_nat (v mod 65536)) (skipn pos mem))] else []) ++ [RSkip (v mod 65536)]) ++ l)).
Proof.
  intros f mem len m v d pos H Hv Hm Hr. unfold go_on, cr_seen. rewrite (h_state _ _ _ H).
  replace (end_state m) with CLongStart by (destruct Hm as [-> | ->]; reflexivity).
  unfold c_container. rewrite (h_type _ _ _ H).
  replace ((m =? M_MAP) || (m =? M_ITEMS)) with false by (destruct Hm as [-> | ->]; reflexivity).
  destruct (arg16 m v d H Hv) as [-> _]. cbn [bind]. change M_STRING with 3.
  destruct (N.eqb_spec m 3) as [E|E]; cbn [bind app]; [|reflexivity].
  destruct (Nat.leb_spec (pos + N.to_nat (v mod 65536)) (length mem)); [|specialize (Hr E); lia]. reflexivity.
Qed.

Lemma bind_app : forall (r : res (list cout)) a b, bind (bind r (fun l => Ok (a ++ l))) (fun l => Ok (b ++ l)) = bind r (fun l => Ok ((b ++ a) ++ l)).
Proof. intros [l| |] a b; cbn [bind]; try reflexivity. now rewrite <- app_assoc. Qed.
Lemma bind_app' : forall (r : res (list cout)) a b, bind r (fun l => Ok (b ++ a ++ l)) = bind r (fun l => Ok ((b ++ a) ++ l)).
Proof. intros [l| |] a b; cbn [bind]; try reflexivity. now rewrite <- app_assoc. Qed.

Lemma skip_pre : forall (pre rest : list N), skipn (length pre) (pre ++ rest) = rest.
Proof. intros. rewrite skipn_app, skipn_all, Nat.sub_diag. reflexivity. Qed.

(** one item *)
Lemma item_step : forall i pre post g beh d, item_ok i -> (match i with CS _ s => N.of_nat (length s) < 65536 | _ => True end) -> ready d ->
  let chunk := pre ++ item_bytes i ++ post in
  exists d1, ready d1 /\ is_item_done d1 = ends_plain [i] /\ exists k, forall f2, cr_loop (k + f2) (chunk ++ g :: beh) (length chunk) d (length pre) =
    bind (cr_loop f2 (chunk ++ g :: beh) (length chunk) d1 (length pre + length (item_bytes i))) (fun l => Ok (said i ++ l)).
Proof.
  intros i pre post g beh d Hi Hs Hd. cbn zeta. destruct i as [m v|m s]; cbn [item_ok item_bytes said ends_plain] in *.
  - destruct Hi as (M8 & M2 & M3 & V). destruct (head_step pre post g beh d m v M8 V Hd _ eq_refl) as (d1 & H & k & Q).
    assert (C : (m = 4 \/ m = 5) \/ short_m m = true /\ (m =? 4) || (m =? 5) = false).
    { assert (X : In m [0;1;4;5;6;7]) by (cbn; lia). destruct X as [<-|[<-|[<-|[<-|[<-|[<-|[]]]]]]]; auto. }
    destruct C as [C|[C1 C2]].
    + exists (c_set d1 CHeaderStart). replace ((m =? 4) || (m =? 5)) with true by (destruct C as [-> | ->]; reflexivity).
      split; [split; [exact (h_buf _ _ _ H)|left; reflexivity]|]. split; [reflexivity|]. exists k. intro f2. rewrite Q. eapply nest_step; eauto.
    + exists d1. rewrite C2. assert (E : c_state d1 = CItemDone) by (rewrite (h_state _ _ _ H); unfold end_state; now rewrite C1).
      split; [split; [exact (h_buf _ _ _ H)|right; exact E]|]. split; [unfold is_item_done; rewrite E; reflexivity|].
      exists k. intro f2. rewrite Q. eapply number_step; eauto.
  - destruct Hi as (M & V). assert (M8 : m < 8) by lia.
    destruct (head_step pre (s ++ post) g beh d m (N.of_nat (length s)) M8 V Hd _ eq_refl) as (d1 & H & k & Q).
    rewrite <- (app_assoc (rfc_head m (N.of_nat (length s))) s post).
    set (hb := rfc_head m (N.of_nat (length s))) in *. set (chunk := pre ++ hb ++ s ++ post) in *.
    exists (c_set d1 CHeaderStart). split; [split; [exact (h_buf _ _ _ H)|left; reflexivity]|]. split; [reflexivity|].
    exists k. intro f2. rewrite Q. rewrite (string_step _ _ _ m (N.of_nat (length s))) by
      (auto; intros _; unfold chunk; rewrite N.mod_small, Nat2N.id by assumption; rewrite !app_length; lia).
    rewrite N.mod_small, Nat2N.id by assumption. rewrite app_length, Nat.add_assoc.
    replace (firstn (length s) (skipn (length pre + length hb) (chunk ++ g :: beh))) with s; [reflexivity|].
    unfold chunk. rewrite <- app_length. replace ((pre ++ hb ++ s ++ post) ++ g :: beh) with ((pre ++ hb) ++ s ++ post ++ g :: beh) by (rewrite <- !app_assoc; reflexivity).
    rewrite skip_pre, firstn_app, Nat.sub_diag, firstn_all, app_nil_r. reflexivity.
Qed.

Lemma ends_cons : forall i its, ends_plain (i :: its) = match its with [] => ends_plain [i] | _ => ends_plain its end.
Proof. intros i [|j its]; [reflexivity|]. destruct i; reflexivity. Qed.

Lemma items_step : forall its pre post g beh d, Forall item_ok its -> short_strings its -> ready d ->
  let chunk := pre ++ items_bytes its ++ post in
  exists d1, ready d1 /\ is_item_done d1 = (match its with [] => is_item_done d | _ => ends_plain its end) /\
  exists k, forall f2, cr_loop (k + f2) (chunk ++ g :: beh) (length chunk) d (length pre) =
    bind (cr_loop f2 (chunk ++ g :: beh) (length chunk) d1 (length pre + length (items_bytes its))) (fun l => Ok (flat_map said its ++ l)).
Proof.
  induction its as [|i its IH]; intros pre post g beh d Ho Hs Hd; cbn zeta.
  - exists d. split; [exact Hd|]. split; [reflexivity|]. exists 0%nat. intro f2. cbn [items_bytes flat_map length app Nat.add]. rewrite Nat.add_0_r.
    destruct (cr_loop f2 _ _ d (length pre)); reflexivity.
  - inversion Ho as [|? ? O1 O2]; subst. inversion Hs as [|? ? S1 S2]; subst.
    cbn [items_bytes flat_map]. fold (items_bytes its). rewrite <- (app_assoc (item_bytes i)).
    destruct (item_step i pre (items_bytes its ++ post) g beh d O1 S1 Hd) as (d1 & R1 & D1 & k1 & Q1).
    destruct (IH (pre ++ item_bytes i) post g beh d1 O2 S2 R1) as (d2 & R2 & D2 & k2 & Q2). clear IH.
    rewrite <- (app_assoc pre) in Q2. rewrite (app_length pre (item_bytes i)) in Q2.
    set (chunk := pre ++ item_bytes i ++ items_bytes its ++ post) in *.
    exists d2. split; [exact R2|]. split; [rewrite ends_cons, D2; destruct its; [exact D1|reflexivity]|].
    exists (k1 + k2)%nat. intro f2. rewrite <- Nat.add_assoc, Q1, Q2, bind_app, app_length, Nat.add_assoc. reflexivity.
Qed.

(** * The end *)

Lemma ghost_step : forall chunk g beh d f, c_state d = CHeaderStart ->
  cr_loop (S (S (S f))) (chunk ++ g :: beh) (length chunk) d (length chunk) = Ok [RType (N.shiftr g 5)].
Proof.
  intros chunk g beh [buf hd p st] f Hs. cbn [c_state] in Hs. subst st. cbn [cr_loop].
  rewrite Nat.eqb_refl, orb_true_r. rewrite mem_byte by lia. rewrite nth_overflow by lia.
  cbn [c_iterate c_state bind fst snd c_set cr_seen c_buf c_hdr c_pos is_item_done negb andb app].
  destruct (Nat.ltb_spec (S (length chunk)) (length chunk)); [lia|]. destruct (Nat.eqb_spec (S (length chunk)) (length chunk)); [lia|].
  rewrite Nat.eqb_refl, orb_true_r. rewrite mem_byte by lia. rewrite nth_overflow by lia. reflexivity.
Qed.

Lemma done_step : forall mem len d f pos, c_state d = CItemDone -> (len <= pos)%nat -> cr_loop (S f) mem len d pos = Ok [].
Proof.
  intros mem len [buf hd p st] f pos Hs Hl. cbn [c_state] in Hs. subst st. cbn [cr_loop is_item_done c_state negb].
  rewrite andb_false_r. destruct (Nat.ltb_spec pos len); [lia|]. reflexivity.
Qed.
Lemma past_step : forall mem len d f pos, (len < pos)%nat -> cr_loop (S f) mem len d pos = Ok [].
Proof.
  intros mem len d f pos Hl. cbn [cr_loop]. destruct (Nat.ltb_spec pos len); [lia|]. destruct (Nat.eqb_spec pos len); [lia|]. reflexivity.
Qed.

Lemma init_ready : forall buf hd p, length buf = 4%nat -> ready (c_init buf hd p).
Proof. intros. split; [assumption|left; reflexivity]. Qed.

Lemma print_of : forall mem len buf hd p k x, cr_loop k mem len (c_init buf hd p) 0 = x -> x <> NoFuel -> cr_print mem len buf hd p = x.
Proof.
  intros mem len buf hd p k x E N. unfold cr_print.
  assert (A : cr_loop (cr_fuel len) mem len (c_init buf hd p) 0 <> NoFuel).
  { apply cr_ends; [split; [discriminate|split; discriminate]|]. unfold cr_fuel, c_init. cbn [c_state rank2]. lia. }
  destruct (Nat.le_gt_cases k (cr_fuel len)) as [L|L].
  - rewrite (cr_more k); [exact E| |exact L]. now rewrite E.
  - rewrite <- E. symmetry. apply cr_more; [exact A|lia].
Qed.

Lemma print_items : forall its g beh buf hd p, Forall item_ok its -> short_strings its -> length buf = 4%nat ->
  cr_print (items_bytes its ++ g :: beh) (length (items_bytes its)) buf hd p =
    Ok (flat_map said its ++ if ends_plain its then [] else [RType (N.shiftr g 5)]).
Proof.
  intros its g beh buf hd p Ho Hs Hb.
  destruct (items_step its [] [] g beh (c_init buf hd p) Ho Hs (init_ready _ _ _ Hb)) as (d1 & (R1 & R2) & D & k & Q).
  cbn [app length Nat.add] in Q. rewrite app_nil_r in Q. eapply (print_of _ _ _ _ _ (k + 3)); [|discriminate].
  rewrite Q. destruct (ends_plain its) eqn:E.
  - assert (S : c_state d1 = CItemDone) by (destruct its; [discriminate|]; unfold is_item_done in D; destruct (c_state d1); congruence).
    rewrite done_step by (auto; lia). cbn [bind]. reflexivity.
  - assert (S : c_state d1 = CHeaderStart).
    { destruct R2 as [R2|R2]; [exact R2|]. unfold is_item_done in D. rewrite R2 in D. destruct its; [discriminate D|congruence]. }
    rewrite ghost_step by exact S. reflexivity.
Qed.

(** a text string that announces more than the payload has *)
Lemma print_over : forall its n s beh buf hd p, Forall item_ok its -> short_strings its -> length buf = 4%nat -> n < 2 ^ 32 ->
  N.of_nat (length s) < n mod 65536 <= N.of_nat (length (s ++ beh)) ->
  cr_print ((items_bytes its ++ rfc_head 3 n ++ s) ++ beh) (length (items_bytes its ++ rfc_head 3 n ++ s)) buf hd p =
    Ok (flat_map said its ++ [RType 3; RText (firstn (N.to_nat (n mod 65536)) (s ++ beh)); RSkip (n mod 65536)]).
Proof.
  intros its n s beh buf hd p Ho Hs Hb Hn Hl. destruct beh as [|g beh]; [rewrite app_nil_r in Hl; lia|].
  destruct (items_step its [] (rfc_head 3 n ++ s) g beh (c_init buf hd p) Ho Hs (init_ready _ _ _ Hb)) as (d1 & R & D & k & Q).
  cbn [app length Nat.add] in Q.
  destruct (head_step (items_bytes its) s g beh d1 3 n ltac:(lia) Hn R _ eq_refl) as (d2 & H & k2 & Q2).
  set (chunk := items_bytes its ++ rfc_head 3 n ++ s) in *.
  eapply (print_of _ _ _ _ _ (k + (k2 + 1))); [|discriminate]. rewrite Q, Q2. rewrite app_length in Hl.
  assert (LC : length chunk = (length (items_bytes its) + length (rfc_head 3 n) + length s)%nat) by (unfold chunk; rewrite !app_length; lia).
  rewrite (string_step _ _ _ 3 n) by (auto; intros _; rewrite app_length, LC; lia).
  rewrite past_step by lia. change (3 =? 3) with true. cbn [bind app]. do 3 f_equal.
  replace (skipn _ (chunk ++ g :: beh)) with (s ++ g :: beh); [reflexivity|].
  unfold chunk. rewrite <- app_length.
  replace ((items_bytes its ++ rfc_head 3 n ++ s) ++ g :: beh) with ((items_bytes its ++ rfc_head 3 n) ++ s ++ g :: beh) by (rewrite <- !app_assoc; reflexivity).
  now rewrite skip_pre.
Qed.

(** * Faults *)

Lemma sim_fault : forall f chunk g beh d pos, c_loop f chunk g d pos = Fault ->
  exists k, forall f2, cr_loop (k + f2) (chunk ++ g :: beh) (length chunk) d pos = Fault.
Proof.
  induction f as [|f IH]; intros chunk g beh d pos H; [discriminate|]. cbn [c_loop] in H.
  destruct (_ || _) eqn:G; [|discriminate].
  assert (DP : (pos <= length chunk)%nat).
  { apply orb_true_iff in G. destruct G as [G|G]; [apply Nat.ltb_lt in G; lia|].
    apply andb_true_iff in G. destruct G as [G _]. apply Nat.eqb_eq in G. lia. }
  destruct (c_iterate d (nth pos chunk g)) as [[d0 adv]| |] eqn:I; cbn [bind] in H; try discriminate.
  - assert (NS : c_state d0 <> CLongStart /\ c_state d0 <> CItemDone) by (split; intro E; rewrite E in H; discriminate).
    assert (L : c_loop f chunk g d0 (if adv then S pos else pos) = Fault) by (destruct (c_state d0); try exact H; destruct NS; congruence).
    destruct (IH chunk g beh _ _ L) as (k & Q). exists (S k). intro f2. change (S k + f2)%nat with (S (k + f2)). cbn [cr_loop].
    rewrite G, mem_byte by assumption. rewrite I. cbn [bind fst snd].
    assert (E : exists o, cr_seen (chunk ++ g :: beh) d0 (if adv then S pos else pos) = Ok (o, d0, if adv then S pos else pos)).
    { unfold cr_seen. destruct NS. destruct (c_state d0); try congruence; eauto. }
    destruct E as (o & ->). cbn [bind]. rewrite Q. reflexivity.
  - exists 1%nat. intro f2. cbn [Nat.add cr_loop]. rewrite G, mem_byte by assumption. rewrite I. reflexivity.
Qed.

Lemma print_overflow : forall its b post g beh buf hd p, Forall item_ok its -> short_strings its -> length buf = 4%nat ->
  b < 256 -> 27 <= b mod 32 -> (5 <= length post)%nat ->
  cr_print ((items_bytes its ++ b :: post) ++ g :: beh) (length (items_bytes its ++ b :: post)) buf hd p = Fault.
Proof.
  intros its b post g beh buf hd p Ho Hs Hb Hb1 Hb2 Hl.
  destruct (items_step its [] (b :: post) g beh (c_init buf hd p) Ho Hs (init_ready _ _ _ Hb)) as (d1 & (R1 & R2) & D & k & Q).
  cbn [app length Nat.add] in Q. set (chunk := items_bytes its ++ b :: post) in *.
  pose proof (process_fault (items_bytes its) post g d1 b Hb1 Hb2 Hl R1 R2) as F. fold chunk in F.
  destruct (process_fuel chunk g d1 (length (items_bytes its))) as (fu & PF). rewrite PF in F.
  destruct (sim_fault _ _ _ beh _ _ F) as (k2 & Q2). apply (print_of _ _ _ _ _ (k + (k2 + 0))); [|discriminate].
  rewrite Q, Q2. reflexivity.
Qed.

(** a text string whose end is outside the memory *)
Lemma print_outside : forall its n s g beh buf hd p, Forall item_ok its -> short_strings its -> length buf = 4%nat -> n < 2 ^ 32 ->
  N.of_nat (length (s ++ g :: beh)) < n mod 65536 ->
  cr_print ((items_bytes its ++ rfc_head 3 n ++ s) ++ g :: beh) (length (items_bytes its ++ rfc_head 3 n ++ s)) buf hd p = Fault.
Proof.
  intros its n s g beh buf hd p Ho Hs Hb Hn Hl.
  destruct (items_step its [] (rfc_head 3 n ++ s) g beh (c_init buf hd p) Ho Hs (init_ready _ _ _ Hb)) as (d1 & R & D & k & Q).
  cbn [app length Nat.add] in Q.
  destruct (head_step (items_bytes its) s g beh d1 3 n ltac:(lia) Hn R _ eq_refl) as (d2 & H & k2 & Q2).
  set (chunk := items_bytes its ++ rfc_head 3 n ++ s) in *.
  apply (print_of _ _ _ _ _ (k + (k2 + 1))); [|discriminate]. rewrite Q, Q2. rewrite app_length in Hl.
  assert (LC : length chunk = (length (items_bytes its) + length (rfc_head 3 n) + length s)%nat) by (unfold chunk; rewrite !app_length; lia).
  unfold go_on, cr_seen. rewrite (h_state _ _ _ H). change (end_state 3) with CLongStart. unfold c_container. rewrite (h_type _ _ _ H).
  change ((3 =? M_MAP) || (3 =? M_ITEMS)) with false. destruct (arg16 3 n d2 H Hn) as [-> _]. cbn [bind]. change (3 =? M_STRING) with true.
  destruct (Nat.leb_spec (length (items_bytes its) + length (rfc_head 3 n) + N.to_nat (n mod 65536)) (length (chunk ++ g :: beh))) as [L|L]; [|reflexivity].
  rewrite app_length, LC in L. lia.
Qed.

(** the length of a string counts modulo 65536 *)
Lemma print_wrap : forall its n s its2 g beh buf hd p, Forall item_ok its -> short_strings its -> Forall item_ok its2 -> short_strings its2 ->
  length buf = 4%nat -> n < 2 ^ 32 -> n mod 65536 = N.of_nat (length s) ->
  cr_print ((items_bytes its ++ rfc_head 3 n ++ s ++ items_bytes its2) ++ g :: beh) (length (items_bytes its ++ rfc_head 3 n ++ s ++ items_bytes its2)) buf hd p =
    Ok (flat_map said (its ++ CS 3 s :: its2) ++ if ends_plain its2 then [] else [RType (N.shiftr g 5)]).
Proof.
  intros its n s its2 g beh buf hd p Ho Hs Ho2 Hs2 Hb Hn Hl.
  destruct (items_step its [] (rfc_head 3 n ++ s ++ items_bytes its2) g beh (c_init buf hd p) Ho Hs (init_ready _ _ _ Hb)) as (d1 & R & D & k & Q).
  cbn [app length Nat.add] in Q.
  destruct (head_step (items_bytes its) (s ++ items_bytes its2) g beh d1 3 n ltac:(lia) Hn R _ eq_refl) as (d2 & H & k2 & Q2).
  assert (R2 : ready (c_set d2 CHeaderStart)) by (split; [exact (h_buf _ _ _ H)|left; reflexivity]).
  destruct (items_step its2 (items_bytes its ++ rfc_head 3 n ++ s) [] g beh (c_set d2 CHeaderStart) Ho2 Hs2 R2) as (d3 & (R3 & R4) & D3 & k3 & Q3).
  rewrite app_nil_r, <- (app_assoc (items_bytes its) (rfc_head 3 n ++ s)), <- (app_assoc (rfc_head 3 n)) in Q3.
  assert (LC : length (items_bytes its ++ rfc_head 3 n ++ s) = (length (items_bytes its) + length (rfc_head 3 n) + length s)%nat) by (rewrite !app_length; lia).
  rewrite LC in Q3.
  assert (LT : length (items_bytes its ++ rfc_head 3 n ++ s ++ items_bytes its2) = (length (items_bytes its) + length (rfc_head 3 n) + length s + length (items_bytes its2))%nat) by (rewrite !app_length; lia).
  assert (TX : firstn (length s) (skipn (length (items_bytes its) + length (rfc_head 3 n)) ((items_bytes its ++ rfc_head 3 n ++ s ++ items_bytes its2) ++ g :: beh)) = s).
  { rewrite <- app_length. replace ((items_bytes its ++ rfc_head 3 n ++ s ++ items_bytes its2) ++ g :: beh) with ((items_bytes its ++ rfc_head 3 n) ++ s ++ items_bytes its2 ++ g :: beh) by (rewrite <- !app_assoc; reflexivity).
    rewrite skip_pre, firstn_app, Nat.sub_diag, firstn_all, app_nil_r. reflexivity. }
  set (chunk := items_bytes its ++ rfc_head 3 n ++ s ++ items_bytes its2) in *.
  eapply (print_of _ _ _ _ _ (k + (k2 + (k3 + 3)))); [|discriminate]. rewrite Q, Q2.
  rewrite (string_step _ _ _ 3 n) by (auto; intros _; rewrite app_length, LT; lia).
  change (3 =? 3) with true. rewrite Hl, Nat2N.id, TX, Q3, <- LT.
  assert (E : cr_loop 3 (chunk ++ g :: beh) (length chunk) d3 (length chunk) = Ok (if ends_plain its2 then [] else [RType (N.shiftr g 5)])).
  { destruct (ends_plain its2) eqn:E.
    - assert (S : c_state d3 = CItemDone) by (destruct its2; [discriminate|]; unfold is_item_done in D3; destruct (c_state d3); congruence).
      apply done_step; [exact S|lia].
    - assert (S : c_state d3 = CHeaderStart).
      { destruct R4 as [R4|R4]; [exact R4|]. unfold is_item_done in D3. rewrite R4 in D3. destruct its2; [discriminate D3|congruence]. }
      apply ghost_step; exact S. }
  rewrite E. cbn [bind]. rewrite flat_map_app. cbn [flat_map said]. change (3 =? 3) with true. cbn [app]. rewrite <- !app_assoc. reflexivity.
Qed.

(** * Nothing after the payload *)

Lemma iter_adv : forall d b d1, c_iterate d b = Ok (d1, true) -> c_state d1 <> CItemDone /\ c_state d1 <> CLongStart.
Proof.
  intros [buf hd p st] b d1 H. unfold c_iterate in H. destruct st; cbn [c_state] in H; try discriminate.
  - injection H as <-. split; discriminate.
  - destruct (_ <? _)%nat; [|discriminate]. injection H as <-. destruct (_ =? _); split; discriminate.
Qed.

Lemma no_room : forall f chunk d pos l, cr_loop f chunk (length chunk) d pos = Ok l ->
  (pos < length chunk)%nat \/ (pos = length chunk /\ is_item_done d = false) -> exists a n, l = a ++ [RSkip n].
Proof.
  induction f as [|f IH]; intros chunk d pos l H HP; [discriminate|]. cbn [cr_loop] in H.
  replace ((pos <? length chunk)%nat || (pos =? length chunk)%nat && negb (is_item_done d)) with true in H.
  2:{ symmetry. apply orb_true_iff. destruct HP as [HP|[-> HP]]; [left; apply Nat.ltb_lt; exact HP|right; rewrite Nat.eqb_refl, HP; reflexivity]. }
  destruct (nth_error chunk pos) as [b|] eqn:NE; [|discriminate].
  assert (LP : (pos < length chunk)%nat) by (apply nth_error_Some; rewrite NE; discriminate). clear HP NE.
  destruct (c_iterate d b) as [[d1 adv]| |] eqn:I; cbn [bind fst snd] in H; try discriminate.
  destruct (cr_seen chunk d1 (if adv then S pos else pos)) as [[[o d2] p2]| |] eqn:E; cbn [bind] in H; try discriminate.
  destruct (cr_loop f chunk (length chunk) d2 p2) as [l2| |] eqn:Q; cbn [bind] in H; try discriminate. injection H as <-.
  assert (GO : (p2 < length chunk)%nat \/ (p2 = length chunk /\ is_item_done d2 = false) -> exists a n, o ++ l2 = a ++ [RSkip n]).
  { intro G. destruct (IH _ _ _ _ Q G) as (a & n & ->). exists (o ++ a), n. now rewrite app_assoc. }
  assert (PN : is_item_done d1 = false -> let p := if adv then S pos else pos in (p < length chunk)%nat \/ (p = length chunk /\ is_item_done d1 = false)).
  { intros X p. destruct (Nat.eq_dec p (length chunk)); [right; auto|left; subst p; destruct adv; lia]. }
  unfold cr_seen in E. destruct (c_state d1) eqn:S1;
    try (injection E as <- <- <-; apply GO, PN; unfold is_item_done; rewrite S1; reflexivity).
  - destruct adv; [destruct (iter_adv _ _ _ I); congruence|].
    destruct (c_container d1); [injection E as <- <- <-; apply GO; left; exact LP|].
    destruct (c_uint16 d1) as [n| |]; cbn [bind] in E; try discriminate.
    assert (F : exists o1, o = o1 ++ [RSkip n] /\ d2 = c_set d1 CHeaderStart /\ p2 = (pos + N.to_nat n)%nat).
    { destruct (c_type d1 =? M_STRING); [destruct (_ <=? _)%nat|]; cbn [bind] in E; try discriminate; injection E as <- <- <-; [eexists [_]|exists []]; split; try split; reflexivity. }
    destruct F as (o1 & -> & -> & ->).
    destruct (Nat.lt_trichotomy (pos + N.to_nat n) (length chunk)) as [L|[L|L]]; [apply GO; auto|apply GO; auto|].
    destruct f as [|f]; [discriminate|]. rewrite past_step in Q by exact L. injection Q as <-. exists o1, n. now rewrite app_nil_r.
  - destruct adv; [destruct (iter_adv _ _ _ I); congruence|]. destruct (c_integer 16 d1); cbn [bind] in E; try discriminate.
    injection E as <- <- <-. apply GO. left. exact LP.
Qed.

(** more memory after the payload changes nothing *)
Lemma mem_more : forall f mem more len d pos l, cr_loop f mem len d pos = Ok l -> cr_loop f (mem ++ more) len d pos = Ok l.
Proof.
  induction f as [|f IH]; intros mem more len d pos l H; [discriminate|]. cbn [cr_loop] in *. destruct (_ || _); [|exact H].
  destruct (nth_error mem pos) as [b|] eqn:NE; [|discriminate].
  assert (LP : (pos < length mem)%nat) by (apply nth_error_Some; rewrite NE; discriminate).
  rewrite nth_error_app1, NE by exact LP. destruct (c_iterate d b) as [[d1 adv]| |] eqn:I; cbn [bind fst snd] in *; try discriminate.
  destruct (cr_seen mem d1 (if adv then S pos else pos)) as [[[o d2] p2]| |] eqn:E; cbn [bind] in H; try discriminate.
  assert (E2 : cr_seen (mem ++ more) d1 (if adv then S pos else pos) = Ok (o, d2, p2)).
  { unfold cr_seen in *. destruct (c_state d1); try exact E. destruct (c_container d1); [exact E|].
    destruct (c_uint16 d1) as [n| |]; cbn [bind] in *; try discriminate. destruct (c_type d1 =? M_STRING); [|exact E].
    destruct (Nat.leb_spec ((if adv then S pos else pos) + N.to_nat n) (length mem)) as [L|L]; cbn [bind] in E; [|discriminate].
    rewrite app_length. destruct (Nat.leb_spec ((if adv then S pos else pos) + N.to_nat n) (length mem + length more)); [|lia]. cbn [bind].
    rewrite <- E. do 4 f_equal. rewrite skipn_app. rewrite firstn_app, skipn_length.
    replace (N.to_nat n - (length mem - (if adv then S pos else pos)))%nat with 0%nat by lia. rewrite app_nil_r. reflexivity. }
  rewrite E2. cbn [bind]. destruct (cr_loop f mem len d2 p2) as [l2| |] eqn:Q; cbn [bind] in H; try discriminate.
  rewrite (IH _ more _ _ _ _ Q). exact H.
Qed.

Lemma print_no_room : forall chunk buf hd p l, cr_print chunk (length chunk) buf hd p = Ok l -> exists a n, l = a ++ [RSkip n].
Proof.
  intros chunk buf hd p l H. unfold cr_print in H. eapply no_room; [exact H|]. destruct chunk; [right; split; reflexivity|left; cbn; lia].
Qed.

Lemma ends_said : forall its, ends_plain its = true -> exists a z, flat_map said its = a ++ [RNumber z].
Proof.
  induction its as [|i its IH]; intro H; [discriminate|]. rewrite ends_cons in H. destruct its as [|j its].
  - destruct i as [m v|m s]; cbn [ends_plain] in H; [|discriminate]. apply negb_true_iff in H. cbn [flat_map said]. rewrite H, app_nil_r. exists [RType m], (number m v). reflexivity.
  - destruct (IH H) as (a & z & E). cbn [flat_map] in *. rewrite E. exists (said i ++ a), z. now rewrite app_assoc.
Qed.

Lemma print_items_alone : forall its buf hd p, Forall item_ok its -> short_strings its -> length buf = 4%nat ->
  cr_print (items_bytes its) (length (items_bytes its)) buf hd p = Fault.
Proof.
  intros its buf hd p Ho Hs Hb. destruct (cr_print (items_bytes its) (length (items_bytes its)) buf hd p) as [l| |] eqn:E; [exfalso|reflexivity|exfalso].
  - destruct (print_no_room _ _ _ _ _ E) as (a & n & L). unfold cr_print in E. apply (mem_more _ _ [0]) in E. change (cr_print (items_bytes its ++ [0]) (length (items_bytes its)) buf hd p = Ok l) in E.
    rewrite print_items in E by assumption. injection E as <-. destruct (ends_plain its) eqn:P.
    + destruct (ends_said its P) as (c & z & Q). rewrite Q, app_nil_r in L. apply app_inj_tail in L. destruct L. discriminate.
    + apply app_inj_tail in L. destruct L. discriminate.
  - revert E. apply cr_ends; [repeat split; discriminate|]. unfold cr_fuel, c_init. cbn [c_state rank2]. lia.
Qed.

Lemma print_ends : forall mem len buf hd p, cr_print mem len buf hd p <> NoFuel.
Proof. intros. apply cr_ends; [repeat split; discriminate|]. unfold cr_fuel, c_init. cbn [c_state rank2]. lia. Qed.
