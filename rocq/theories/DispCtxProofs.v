(** Contexts handed out by dispatchers. *)
From Verif Require Import Base HeaderModel UriModel UriSpec UriProofs DispatchModel DispatchSpec DispatchProofs RouteProofs ContextModel CtxSubModel
  DispCtxModel DispCtxSpec.
Local Open Scope N_scope.

(** * The store *)

Lemma put_length : forall a c w, (a < length (w_ctx w))%nat -> length (w_ctx (ctx_put a c w)) = length (w_ctx w).
Proof. intros a c w H. cbn [ctx_put w_ctx]. rewrite app_length. cbn [length]. rewrite firstn_length, skipn_length. lia. Qed.
Lemma put_same : forall a c w, (a < length (w_ctx w))%nat -> ctx_at a (ctx_put a c w) = c.
Proof.
  intros a c w H. unfold ctx_at. cbn [ctx_put w_ctx]. rewrite app_nth2; rewrite firstn_length, Nat.min_l by lia; [|lia].
  rewrite Nat.sub_diag. reflexivity.
Qed.
Lemma nth_firstn_lt : forall A (l : list A) n a d, (a < n)%nat -> nth a (firstn n l) d = nth a l d.
Proof. induction l as [|x l IH]; intros [|n] [|a] d H; try lia; try reflexivity. cbn [firstn nth]. apply IH. lia. Qed.
Lemma nth_skipn_add : forall A n (l : list A) a d, nth a (skipn n l) d = nth (n + a) l d.
Proof. induction n as [|n IH]; intros [|x l] a d; try reflexivity; [destruct a; reflexivity|]. cbn [skipn Nat.add nth]. apply IH. Qed.
Lemma put_other : forall a b c w, (a < length (w_ctx w))%nat -> b <> a -> ctx_at b (ctx_put a c w) = ctx_at b w.
Proof.
  intros a b c w H N0. unfold ctx_at. cbn [ctx_put w_ctx]. destruct (Nat.lt_ge_cases b a) as [L|L].
  - rewrite app_nth1 by (rewrite firstn_length; lia). now apply nth_firstn_lt.
  - rewrite app_nth2; rewrite firstn_length, Nat.min_l by lia; [|lia].
    destruct (b - a)%nat as [|x] eqn:E; [lia|]. cbn [nth]. rewrite nth_skipn_add. f_equal. lia.
Qed.
Lemma copy_new : forall m w, ctx_at (length (w_ctx w)) (ctx_copy m w) = ctx_at m w.
Proof. intros m w. unfold ctx_at at 1. cbn [ctx_copy w_ctx]. rewrite app_nth2, Nat.sub_diag by lia. reflexivity. Qed.
Lemma copy_old : forall m b w, (b < length (w_ctx w))%nat -> ctx_at b (ctx_copy m w) = ctx_at b w.
Proof. intros m b w H. unfold ctx_at. cbn [ctx_copy w_ctx]. now rewrite app_nth1 by lia. Qed.
Lemma copy_length : forall m w, length (w_ctx (ctx_copy m w)) = Datatypes.S (length (w_ctx w)).
Proof. intros. cbn [ctx_copy w_ctx]. rewrite app_length. cbn. lia. Qed.

(** * Pointers *)

Definition dead (a : nat) (w : world) : Prop := (a < length (w_ctx w))%nat /\ ctx_at a w = None.
(** every pointer dangles, or leads to [b]; and so it was at every call *)
Definition good (b : option nat) (w : world) : Prop :=
  (forall k a, w_ptr w k = Some a -> Some a = b \/ dead a w) /\ Forall dangling (w_log w).
(** nothing that was there is changed, except at [b] *)
Definition frame (b : option nat) (w w' : world) : Prop :=
  (length (w_ctx w) <= length (w_ctx w'))%nat /\ forall a, (a < length (w_ctx w))%nat -> Some a <> b -> ctx_at a w' = ctx_at a w.

Lemma frame_refl : forall b w, frame b w w.
Proof. intros. split; [lia|reflexivity]. Qed.
Lemma frame_trans : forall b w1 w2 w3, frame b w1 w2 -> frame b w2 w3 -> frame b w1 w3.
Proof. intros b w1 w2 w3 (A & B) (C & D). split; [lia|]. intros a H N0. rewrite D, B by (lia || assumption). reflexivity. Qed.
Lemma frame_weak : forall b w w', frame None w w' -> frame b w w'.
Proof. intros b w w' (A & B). split; [exact A|]. intros a H _. apply B; [exact H|discriminate]. Qed.

(** the rounds of a dispatcher *)
Definition round (cs : list call) : Prop := (exists c, cs = [c]) \/ exists n l v, cs = [OnOption n l; OnValue n v true].

Definition tame {S} (f : factory S) : Prop := exists K : S -> Prop,
  (forall b w cs s0 w0 s1 w1, (b < length (w_ctx w))%nat -> good (Some b) w -> round cs ->
     h_new (f b) w = (s0, w0) -> calls (f b) cs s0 w0 = (s1, w1) ->
     good (Some b) w1 /\ frame (Some b) w w1 /\ (h_interested (f b) s1 w1 = Always -> K s1)) /\
  (forall b w c s s1 w1, good None w -> K s -> h_call (f b) c s w = (s1, w1) -> good None w1 /\ frame None w w1 /\ K s1).

(** a context made in the loop and gone *)
Lemma good_copy : forall m w, good None w -> good (Some (length (w_ctx w))) (ctx_copy m w).
Proof.
  intros m w (A & B). split; [|exact B]. intros k a H. right. destruct (A k a H) as [X|(X & Y)]; [discriminate|].
  split; [rewrite copy_length; lia|]. rewrite copy_old by exact X. exact Y.
Qed.
Lemma good_gone : forall a w, (a < length (w_ctx w))%nat -> good (Some a) w -> good None (ctx_put a None w).
Proof.
  intros a w H (A & B). split; [|exact B]. intros k x Hx. right. cbn [ctx_put w_ptr] in Hx. destruct (A k x Hx) as [X|(X & Y)].
  - injection X as ->. split; [rewrite put_length by exact H; exact H|now apply put_same].
  - destruct (Nat.eq_dec x a) as [->|N0]; split; try (rewrite put_length by exact H; exact X); [now apply put_same|].
    rewrite put_other by assumption. exact Y.
Qed.
Lemma frame_gone : forall m w w1, frame (Some (length (w_ctx w))) (ctx_copy m w) w1 -> frame None w (ctx_put (length (w_ctx w)) None w1).
Proof.
  intros m w w1 (A & B). rewrite copy_length in A. split; [rewrite put_length by lia; lia|].
  intros a H _. rewrite put_other by lia. rewrite B; [now apply copy_old|rewrite copy_length; lia|]. intros X. injection X as ->. lia.
Qed.


(** the kept object stays as it is *)
Definition kept_ok {S} (h : handler S world) (s : S) : Prop := exists K : S -> Prop, K s /\
  forall c s w s1 w1, good None w -> K s -> h_call h c s w = (s1, w1) -> good None w1 /\ frame None w w1 /\ K s1.
Definition ch_ok {S} (ch : slot S world) : Prop := match ch with Kept _ h s => kept_ok h s | _ => True end.

Lemma c_offer_good : forall S sep me cs (fs : list (factory S)) sts i ch w ns sts' ch' w',
  Forall tame fs -> round cs -> ch_ok ch -> good None w -> c_offer sep me cs i fs sts ch w = (ns, sts', ch', w') ->
  ch_ok ch' /\ good None w' /\ frame None w w'.
Proof.
  intros S sep me cs. induction fs as [|f fs IH]; intros sts i ch w ns sts' ch' w' Hf Hr Hc Hg E.
  - cbn [c_offer] in E. injection E as <- <- <- <-. auto using frame_refl.
  - destruct sts as [|st sts]; cbn [c_offer] in E; [injection E as <- <- <- <-; auto using frame_refl|].
    inversion Hf as [|? ? (K & T1 & T2) Hf']; subst. set (a := length (w_ctx w)) in *.
    assert (La : (a < length (w_ctx (ctx_copy me w)))%nat) by (rewrite copy_length; unfold a; lia).
    destruct (tried st).
    + destruct (h_new (f a) (ctx_copy me w)) as [s0 w0] eqn:E0. destruct (calls (f a) cs s0 w0) as [s1 w1] eqn:E1.
      destruct (T1 a _ cs s0 w0 s1 w1 La (good_copy me w Hg) Hr E0 E1) as (G & F & KA).
      assert (L1 : (a < length (w_ctx w1))%nat) by (destruct F as (F & _); lia).
      set (ch1 := if is_always (h_interested (f a) s1 w1) then Kept i (f a) s1 else match ch with Kept _ _ _ => if sep then ch else Lost | _ => ch end) in E.
      destruct (c_offer sep me cs (Datatypes.S i) fs sts ch1 (ctx_put a None w1)) as [[[n2 st2] ch2] w2] eqn:E2.
      injection E as <- <- <- <-.
      assert (C1 : ch_ok ch1).
      { unfold ch1. destruct (h_interested (f a) s1 w1) eqn:V; cbn [is_always]; [|destruct ch, sep; exact Hc || exact I..].
        exists K. split; [apply KA; reflexivity|]. intros c s wx sx wy. apply T2. }
      destruct (IH _ _ _ _ _ _ _ _ Hf' Hr C1 (good_gone a w1 L1 G) E2) as (X & Y & Z). split; [exact X|]. split; [exact Y|].
      eapply frame_trans; [apply frame_gone with (m := me); exact F|exact Z].
    + destruct (c_offer sep me cs (Datatypes.S i) fs sts ch (ctx_put a None (ctx_copy me w))) as [[[n2 st2] ch2] w2] eqn:E2.
      injection E as <- <- <- <-.
      destruct (IH _ _ _ _ _ _ _ _ Hf' Hr Hc (good_gone a _ La (good_copy me w Hg)) E2) as (X & Y & Z). split; [exact X|]. split; [exact Y|].
      eapply frame_trans; [apply frame_gone with (m := me); apply frame_refl|exact Z].
Qed.

Lemma c_call_good : forall S sep me (fs : list (factory S)) c d w ns d' w',
  Forall tame fs -> ch_ok (d_chosen d) -> good None w -> c_call sep me fs c d w = (ns, d', w') ->
  ch_ok (d_chosen d') /\ good None w' /\ frame None w w'.
Proof.
  intros S sep me fs c [sts ch] w ns d' w' Hf Hc Hg E. cbn [d_chosen] in Hc.
  assert (R : forall cs, round cs -> c_round sep me fs cs (Disp sts ch) w = (ns, d', w') -> ch_ok (d_chosen d') /\ good None w' /\ frame None w w').
  { intros cs Hr X. unfold c_round in X. cbn [d_states d_chosen] in X.
    destruct (c_offer sep me cs 0 fs sts ch w) as [[[n2 st2] ch2] w2] eqn:E2. injection X as <- <- <-. cbn [d_chosen].
    exact (c_offer_good _ _ _ _ _ _ _ _ _ _ _ _ _ Hf Hr Hc Hg E2). }
  assert (O : forall c, round [c]) by (intros x; left; eauto).
  assert (P : forall i h s, ch = Kept i h s -> d_forward (Disp sts ch) i h s c w = (ns, d', w') -> ch_ok (d_chosen d') /\ good None w' /\ frame None w w').
  { intros i h s -> X. unfold d_forward in X. destruct (h_call h c s w) as [s1 w1] eqn:E1. injection X as <- <- <-. cbn [d_chosen].
    destruct Hc as (K & K1 & K2). destruct (K2 _ _ _ _ _ Hg K1 E1) as (A & B & C). split; [exists K; auto|auto]. }
  unfold c_call in E. cbn [d_chosen] in E.
  destruct c; try (eapply R; [apply O|exact E]); destruct ch as [|i h s|]; try (eapply P; [reflexivity|exact E]);
    try (eapply R; [apply O|exact E]); try (injection E as <- <- <-; cbn [d_chosen]; auto using frame_refl).
  eapply R; [right; eauto|exact E].
Qed.

Lemma c_run_good : forall S sep me (fs : list (factory S)) cs d w ns d' w',
  Forall tame fs -> ch_ok (d_chosen d) -> good None w -> c_run sep me fs cs d w = (ns, d', w') ->
  ch_ok (d_chosen d') /\ good None w' /\ frame None w w'.
Proof.
  intros S sep me fs. induction cs as [|c cs IH]; intros d w ns d' w' Hf Hc Hg E; cbn [c_run] in E.
  - injection E as <- <- <-. auto using frame_refl.
  - destruct (c_call sep me fs c d w) as [[n1 d1] w1] eqn:E1. destruct (c_run sep me fs cs d1 w1) as [[n2 d2] w2] eqn:E2.
    injection E as <- <- <-. destruct (c_call_good _ _ _ _ _ _ _ _ _ _ Hf Hc Hg E1) as (A & B & C).
    destruct (IH _ _ _ _ _ Hf A B E2) as (D & F & G). split; [exact D|]. split; [exact F|]. eapply frame_trans; eassumption.
Qed.

(** * The observers of the library *)

Lemma tame_context : tame ctx_factory.
Proof.
  exists (fun _ => False). split; [|tauto]. intros b w cs s0 w0 s1 w1 Hb Hg _ E0 E1. cbn [ctx_factory h_new] in E0. injection E0 as <- <-.
  assert (X : good (Some b) w1 /\ frame (Some b) w w1).
  { assert (G : forall cs s w s1 w1, (b < length (w_ctx w))%nat -> good (Some b) w -> calls (ctx_factory b) cs s w = (s1, w1) -> good (Some b) w1 /\ frame (Some b) w w1).
    { clear. induction cs as [|c cs IH]; intros s w s1 w1 Hb Hg E; cbn [calls] in E; [injection E as <- <-; auto using frame_refl|].
      set (w2 := snd (h_call (ctx_factory b) c s w)).
      assert (P : forall y, good (Some b) (ctx_put b (Some y) w) /\ frame (Some b) w (ctx_put b (Some y) w) /\ (b < length (w_ctx (ctx_put b (Some y) w)))%nat).
      { intros y. destruct Hg as (A & B). split; [|split].
        - split; [|exact B]. intros k a H. cbn [ctx_put w_ptr] in H. destruct (A k a H) as [X|(X & Y)]; [left; exact X|].
          destruct (Nat.eq_dec a b) as [->|N0]; [left; reflexivity|right]. split; [rewrite put_length by exact Hb; exact X|].
          rewrite put_other by assumption. exact Y.
        - split; [rewrite put_length by exact Hb; lia|]. intros a H N0. apply put_other; [exact Hb|congruence].
        - rewrite put_length by exact Hb. exact Hb. }
      assert (Q : good (Some b) w2 /\ frame (Some b) w w2 /\ (b < length (w_ctx w2))%nat).
      { unfold w2. cbn [ctx_factory h_call snd]. destruct (ctx_at b w) as [x|]; [|auto using frame_refl].
        destruct (cdh_call c x) as [y| |]; [apply P|auto using frame_refl|auto using frame_refl]. }
      destruct (h_call (ctx_factory b) c s w) as [s2 w2'] eqn:E2. cbn [snd] in w2. subst w2. destruct Q as (Q1 & Q2 & Q3).
      destruct (IH _ _ _ _ Q3 Q1 E) as (I1 & I2). split; [exact I1|]. eapply frame_trans; eassumption. }
    eapply G; eassumption. }
  split; [apply X|]. split; [apply X|]. cbn [ctx_factory h_interested]. destruct (ctx_at b w1) as [x|]; [|discriminate].
  unfold cdh_interested. destruct (ctx_have_header x); [|discriminate]. destruct (0 <? hdr_tkl (c_hdr x)); [|discriminate].
  destruct (c_present x); discriminate.
Qed.

(** in a round, a URI handler does not get to its observer *)
Lemma uri_fresh : forall S p (inner : handler S world) cs s w, round cs ->
  exists v, calls (uri_handler p inner) cs (Currently, s) w = ((v, s), w).
Proof.
  intros S p inner cs s w [(c & ->)|(n & l & v & ->)]; cbn [calls uri_handler h_call is_always].
  - destruct c; try (eexists; reflexivity). destruct (number =? URI_PATH); eexists; reflexivity.
  - destruct (n =? URI_PATH); eexists; reflexivity.
Qed.

Lemma tame_uri : forall S p (f : factory S) (K : S -> Prop),
  (forall b w s0 w0, (b < length (w_ctx w))%nat -> good (Some b) w -> h_new (f b) w = (s0, w0) -> good (Some b) w0 /\ frame (Some b) w w0 /\ K s0) ->
  (forall b w c s s1 w1, good None w -> K s -> h_call (f b) c s w = (s1, w1) -> good None w1 /\ frame None w w1 /\ K s1) ->
  tame (uri_factory p f).
Proof.
  intros S p f K H1 H2. exists (fun x => K (snd x)). split.
  - intros b w cs s0 w0 s1 w1 Hb Hg Hr E0 E1. unfold uri_factory in *. cbn [uri_handler h_new] in E0.
    destruct (h_new (f b) w) as [s w2] eqn:E. injection E0 as <- <-. fold (uri_handler p (f b)) in E1.
    destruct (uri_fresh S p (f b) cs s w2 Hr) as (v & X). rewrite X in E1. injection E1 as <- <-.
    destruct (H1 _ _ _ _ Hb Hg E) as (A & B & C). auto.
  - intros b w c [v s] s1 w1 Hg Hk E. cbn [snd] in Hk. unfold uri_factory in E. cbn [uri_handler h_call] in E.
    assert (P : (let '(s2, w2) := h_call (f b) c s w in ((v, s2), w2)) = (s1, w1) -> good None w1 /\ frame None w w1 /\ K (snd s1)).
    { destruct (h_call (f b) c s w) as [s2 w2] eqn:E2. intros X. injection X as <- <-. exact (H2 _ _ _ _ _ _ Hg Hk E2). }
    assert (Q : forall v2, ((v2, s), w) = (s1, w1) -> good None w1 /\ frame None w w1 /\ K (snd s1))
      by (intros v2 X; injection X as <- <-; auto using frame_refl).
    destruct c; try (eapply Q; exact E); [destruct (is_always v)|destruct (is_always v); [|destruct (number =? URI_PATH)]|destruct v];
      try (apply P; exact E); eapply Q; exact E.
Qed.

Lemma tame_static : forall p k, tame (uri_factory p (static_factory k)).
Proof.
  intros p k. apply tame_uri with (K := fun _ => True).
  - intros b w s0 w0 Hb (A & B) E. cbn [static_factory h_new] in E. injection E as <- <-. split; [|split; [split; [cbn; lia|reflexivity]|exact I]].
    split; [|exact B]. intros j a H. cbn [w_ptr] in H. destruct (Nat.eqb j k); [left; congruence|]. destruct (A j a H) as [X|X]; [left; exact X|right; exact X].
  - intros b w c s s1 w1 (A & B) _ E. cbn [static_factory h_call] in E. injection E as <- <-. split; [|split; [split; [cbn; lia|reflexivity]|exact I]].
    split; [intros j a H; destruct (A j a H) as [X|X]; [discriminate|right; exact X]|].
    cbn [w_log]. apply Forall_app. split; [exact B|]. constructor; [|constructor]. unfold dangling. cbn [snd].
    destruct (w_ptr w k) as [a|] eqn:Ek; [|reflexivity]. destruct (A k a Ek) as [X|(_ & X)]; [discriminate|exact X].
Qed.

Lemma tame_nest : forall S sep p (fs : list (factory S)), Forall tame fs -> tame (uri_factory p (fdh_factory sep fs)).
Proof.
  intros S sep p fs Hf. apply tame_uri with (K := fun x => ch_ok (d_chosen (snd x))).
  - intros b w s0 w0 Hb (A & B) E. cbn [fdh_factory h_new] in E. injection E as <- <-. split; [|split; [split; [rewrite copy_length; lia|intros; now apply copy_old]|exact I]].
    split; [|exact B]. intros k a H. destruct (A k a H) as [X|(X & Y)]; [left; exact X|right]. split; [rewrite copy_length; lia|]. now rewrite copy_old.
  - intros b w c [me d] s1 w1 Hg Hk E. cbn [fdh_factory h_call fst snd] in *. destruct (c_call sep me fs c d w) as [[ns d1] w2] eqn:E1.
    injection E as <- <-. cbn [snd]. destruct (c_call_good _ _ _ _ _ _ _ _ _ _ Hf Hk Hg E1) as (X & Y & Z). auto.
Qed.

Lemma left_calls : forall S T (h : handler S world) cs s w s1 w1, calls h cs s w = (s1, w1) ->
  calls (left_handler h : handler (S + T) world) cs (inl s) w = (inl s1, w1).
Proof.
  induction cs as [|c cs IH]; intros s w s1 w1 E; cbn [calls] in *; [congruence|]. cbn [left_handler h_call].
  destruct (h_call h c s w) as [s2 w2]. apply IH. exact E.
Qed.
Lemma right_calls : forall S T (h : handler T world) cs s w s1 w1, calls h cs s w = (s1, w1) ->
  calls (right_handler h : handler (S + T) world) cs (inr s) w = (inr s1, w1).
Proof.
  induction cs as [|c cs IH]; intros s w s1 w1 E; cbn [calls] in *; [congruence|]. cbn [right_handler h_call].
  destruct (h_call h c s w) as [s2 w2]. apply IH. exact E.
Qed.

Lemma tame_left : forall S T (f : factory S), tame f -> tame (fun a => (left_handler (f a) : handler (S + T) world)).
Proof.
  intros S T f (K & H1 & H2). exists (fun x => match x with inl s => K s | inr _ => False end). split.
  - intros b w cs s0 w0 s1 w1 Hb Hg Hr E0 E1. cbn [left_handler h_new] in E0. destruct (h_new (f b) w) as [s w2] eqn:E. injection E0 as <- <-.
    destruct (calls (f b) cs s w2) as [s3 w3] eqn:E3. fold (@left_handler S T world (f b)) in E1. rewrite (left_calls S T _ _ _ _ _ _ E3) in E1. injection E1 as <- <-.
    exact (H1 _ _ _ _ _ _ _ Hb Hg Hr E E3).
  - intros b w c [s|s] s1 w1 Hg Hk E; [|contradiction]. cbn [left_handler h_call] in E. destruct (h_call (f b) c s w) as [s2 w2] eqn:E2. injection E as <- <-.
    exact (H2 _ _ _ _ _ _ Hg Hk E2).
Qed.
Lemma tame_right : forall S T (f : factory T), tame f -> tame (fun a => (right_handler (f a) : handler (S + T) world)).
Proof.
  intros S T f (K & H1 & H2). exists (fun x => match x with inr s => K s | inl _ => False end). split.
  - intros b w cs s0 w0 s1 w1 Hb Hg Hr E0 E1. cbn [right_handler h_new] in E0. destruct (h_new (f b) w) as [s w2] eqn:E. injection E0 as <- <-.
    destruct (calls (f b) cs s w2) as [s3 w3] eqn:E3. fold (@right_handler S T world (f b)) in E1. rewrite (right_calls S T _ _ _ _ _ _ E3) in E1. injection E1 as <- <-.
    exact (H1 _ _ _ _ _ _ _ Hb Hg Hr E E3).
  - intros b w c [s|s] s1 w1 Hg Hk E; [contradiction|]. cbn [right_handler h_call] in E. destruct (h_call (f b) c s w) as [s2 w2] eqn:E2. injection E as <- <-.
    exact (H2 _ _ _ _ _ _ Hg Hk E2).
Qed.

Lemma offered_tame : forall S (f : factory S), offered S f -> tame f.
Proof.
  intros S f H. induction H as [|p k|S sep p fs _ IH|S T f _ IH|S T f _ IH].
  - apply tame_context.
  - apply tame_static.
  - apply tame_nest. apply Forall_forall. exact IH.
  - now apply tame_left.
  - now apply tame_right.
Qed.

Lemma app_good : forall S sep (fs : list (factory S)) cs c ns d w, Forall (offered S) fs -> app_run sep fs cs c = (ns, d, w) ->
  good None w /\ ctx_at 0 w = Some c /\ ctx_at 1 w = Some c /\ (2 <= length (w_ctx w))%nat /\ ch_ok (d_chosen d).
Proof.
  intros S sep fs cs c ns d w Hf E. unfold app_run, app_world in E. cbn in E.
  match type of E with c_run _ ?m _ _ ?d0 ?w0 = _ => set (d1 := d0) in E; set (w1 := w0) in E end.
  assert (Ht : Forall tame fs) by (apply Forall_forall; intros f Hin; apply offered_tame; rewrite Forall_forall in Hf; auto).
  assert (Hc : ch_ok (d_chosen d1)) by exact I.
  assert (Hg : good None w1) by (split; [discriminate|constructor]).
  destruct (c_run_good _ _ _ _ _ _ _ _ _ _ Ht Hc Hg E) as (C & G & (L & F)).
  split; [exact G|]. assert (L1 : length (w_ctx w1) = 2%nat) by reflexivity. rewrite L1 in *. rewrite !F by (lia || discriminate). auto.
Qed.
