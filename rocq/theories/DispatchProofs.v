From Verif Require Import Base HeaderModel UriModel UriSpec UriProofs DispatchModel DispatchSpec.
Local Open Scope N_scope.

Lemma last_always_app : forall a b, last_always (a ++ b) = match last_always b with Some j => Some j | None => last_always a end.
Proof.
  induction a as [|x a IH]; intro b; [cbn [app last_always]; destruct (last_always b); reflexivity|]. cbn [app last_always]. destruct x as [| i [] |]; try apply IH.
  rewrite IH. destruct (last_always b); reflexivity.
Qed.
Lemma last_always_got : forall i k cs, last_always (map (Got i k) cs) = None.
Proof. induction cs as [|c cs IH]; [reflexivity|]. exact IH. Qed.

(** what a round leaves *)
Lemma offer_spec : forall S W sep cs fs sts i ch (w : W) ns sts' ch' w',
  length fs = length sts -> offer (S := S) sep cs i fs sts ch w = (ns, sts', ch', w') ->
  length sts' = length fs /\
  (forall j k c, In (Got j k c) ns -> k = false /\ (i <= j)%nat /\ In c cs /\ exists st, nth_error sts (j - i) = Some st /\ tried st = true) /\
  (forall j v, In (Said j v) ns -> (i <= j)%nat /\ nth_error sts' (j - i) = Some (Some v)) /\
  (forall j st, nth_error sts j = Some st -> tried st = false -> nth_error sts' j = Some st) /\
  ~ In Bad ns.
Proof.
  induction fs as [|f fs IH]; intros sts i ch w ns sts' ch' w' L H.
  - destruct sts; [|discriminate]. cbn [offer] in H. injection H as <- <- <- <-. repeat split; auto; try (intros; contradiction).
    all: intros; destruct j; discriminate.
  - destruct sts as [|st sts]; [discriminate|]. injection L as L. cbn [offer] in H. destruct (tried st) eqn:T.
    + destruct (h_new f w) as [s0 w0]. destruct (calls f cs s0 w0) as [s1 w1]. destruct (offer _ _ _ fs sts _ _) as [[[ms sts2] ch2] w2] eqn:E.
      injection H as <- <- <- <-. destruct (IH _ _ _ _ _ _ _ _ L E) as (A & B & C & D & F). split; [cbn; lia|]. split.
      { intros j k c G. apply in_app_or in G. destruct G as [G|[G|G]]; [|discriminate|].
        - apply in_map_iff in G. destruct G as (c' & G & G'). injection G as <- <- <-. repeat split; auto. exists st. rewrite Nat.sub_diag. auto.
        - destruct (B j k c G) as (B1 & B2 & B3 & st' & B4 & B5). repeat split; auto; [lia|]. exists st'. split; [|exact B5].
          replace (j - i)%nat with (Datatypes.S (j - Datatypes.S i)) by lia. exact B4. }
      split.
      { intros j v G. apply in_app_or in G. destruct G as [G|[G|G]].
        - apply in_map_iff in G. destruct G as (? & G & _). discriminate.
        - injection G as <- <-. rewrite Nat.sub_diag. auto.
        - destruct (C j v G) as (C1 & C2). split; [lia|]. replace (j - i)%nat with (Datatypes.S (j - Datatypes.S i)) by lia. exact C2. }
      split.
      { intros j st' G Q. destruct j as [|j]; cbn [nth_error] in *; [congruence|]. apply D; assumption. }
      intro G. apply in_app_or in G. destruct G as [G|[G|G]]; [|discriminate|auto]. apply in_map_iff in G. destruct G as (? & G & _). discriminate.
    + destruct (offer _ _ _ fs sts _ _) as [[[ms sts2] ch2] w2] eqn:E. injection H as <- <- <- <-. destruct (IH _ _ _ _ _ _ _ _ L E) as (A & B & C & D & F).
      split; [cbn; lia|]. split.
      { intros j k c G. destruct (B j k c G) as (B1 & B2 & B3 & st' & B4 & B5). repeat split; auto; [lia|]. exists st'. split; [|exact B5].
        replace (j - i)%nat with (Datatypes.S (j - Datatypes.S i)) by lia. exact B4. }
      split.
      { intros j v G. destruct (C j v G) as (C1 & C2). split; [lia|]. replace (j - i)%nat with (Datatypes.S (j - Datatypes.S i)) by lia. exact C2. }
      split; [|exact F]. intros j st' G Q. destruct j as [|j]; cbn [nth_error] in *; [congruence|]. apply D; assumption.
Qed.

(** the chosen handler after a round, in separate memory *)
Definition holds {S W} (fs : list (handler S W)) (ch : slot S W) (o : option nat) : Prop :=
  match o with None => ch = Empty | Some i => exists h s, ch = Kept i h s /\ nth_error fs i = Some h end.

Lemma offer_chosen : forall S W cs (fs0 : list (handler S W)) fs sts i ch w ns sts' ch' w' o,
  length fs = length sts -> offer true cs i fs sts ch w = (ns, sts', ch', w') ->
  (forall j, nth_error fs j = nth_error fs0 (i + j)) -> holds fs0 ch o ->
  holds fs0 ch' (match last_always ns with Some j => Some j | None => o end).
Proof.
  intros S W cs fs0. induction fs as [|f fs IH]; intros sts i ch w ns sts' ch' w' o L H N0 K.
  - destruct sts; [|discriminate]. cbn [offer] in H. injection H as <- <- <- <-. exact K.
  - destruct sts as [|st sts]; [discriminate|]. injection L as L. cbn [offer] in H.
    assert (N1 : forall j, nth_error fs j = nth_error fs0 (Datatypes.S i + j)).
    { intro j. specialize (N0 (Datatypes.S j)). cbn [nth_error] in N0. rewrite N0. f_equal. lia. }
    destruct (tried st) eqn:T.
    + destruct (h_new f w) as [s0 w0]. destruct (calls f cs s0 w0) as [s1 w1]. destruct (offer _ _ _ fs sts _ _) as [[[ms sts2] ch2] w2] eqn:E.
      injection H as <- <- <- <-. rewrite last_always_app, last_always_got. cbn [last_always].
      assert (Kf : holds fs0 (Kept i f s1) (Some i)).
      { exists f, s1. split; [reflexivity|]. specialize (N0 0%nat). rewrite Nat.add_0_r in N0. symmetry. exact N0. }
      destruct (h_interested f s1 w1); cbn [is_always] in E.
      * specialize (IH _ _ _ _ _ _ _ _ (Some i) L E N1 Kf). destruct (last_always ms); exact IH.
      * assert (K' : holds fs0 (match ch with Kept _ _ _ => ch | _ => ch end) o) by (destruct ch; exact K). specialize (IH _ _ _ _ _ _ _ _ o L E N1 K'). destruct (last_always ms); exact IH.
      * assert (K' : holds fs0 (match ch with Kept _ _ _ => ch | _ => ch end) o) by (destruct ch; exact K). specialize (IH _ _ _ _ _ _ _ _ o L E N1 K'). destruct (last_always ms); exact IH.
      * assert (K' : holds fs0 (match ch with Kept _ _ _ => ch | _ => ch end) o) by (destruct ch; exact K). specialize (IH _ _ _ _ _ _ _ _ o L E N1 K'). destruct (last_always ms); exact IH.
    + destruct (offer _ _ _ fs sts _ _) as [[[ms sts2] ch2] w2] eqn:E. injection H as <- <- <- <-. eapply IH; eassumption.
Qed.

Lemma d_call_inv : forall S W (fs : list (handler S W)) c d w ns d' w' o,
  length (d_states d) = length fs -> holds fs (d_chosen d) o -> d_call true fs c d w = (ns, d', w') ->
  length (d_states d') = length fs /\ holds fs (d_chosen d') (match last_always ns with Some j => Some j | None => o end).
Proof.
  intros S W fs c d w ns d' w' o L K H.
  assert (O : forall cs, d_offer true fs cs d w = (ns, d', w') -> length (d_states d') = length fs /\ holds fs (d_chosen d') (match last_always ns with Some j => Some j | None => o end)).
  { intros cs E. unfold d_offer in E. destruct (offer true cs 0 fs (d_states d) (d_chosen d) w) as [[[ms sts] ch] w1] eqn:E1. injection E as <- <- <-.
    cbn [d_states d_chosen]. split; [eapply offer_spec; [|exact E1]; auto|]. eapply offer_chosen; [|exact E1| |exact K]; auto. }
  assert (F : forall i h s, d_chosen d = Kept i h s -> d_forward d i h s c w = (ns, d', w') -> length (d_states d') = length fs /\ holds fs (d_chosen d') (match last_always ns with Some j => Some j | None => o end)).
  { intros i h s C E. unfold d_forward in E. destruct (h_call h c s w) as [s1 w1]. injection E as <- <- <-. cbn [d_states d_chosen last_always]. split; [exact L|].
    rewrite C in K. destruct o as [o|]; [|discriminate]. destruct K as (h' & s' & K1 & K2). injection K1 as <- <- <-. exists h, s1. auto. }
  assert (B : d_chosen d = Lost -> length (d_states d') = length fs /\ holds fs (d_chosen d') (match last_always ns with Some j => Some j | None => o end)).
  { intro C. rewrite C in K. destruct o as [o|]; [destruct K as (? & ? & K & _)|]; discriminate. }
  unfold d_call in H. destruct c; try (eapply O; eassumption); destruct (d_chosen d) as [|i h s|] eqn:C; try (eapply O; eassumption); try (eapply F; [reflexivity|exact H]); try (apply B; reflexivity).
  injection H as <- <- <-. cbn [last_always]. rewrite C. split; [exact L|exact K].
Qed.

Lemma d_run_inv : forall S W (fs : list (handler S W)) cs d w ns d' w' o,
  length (d_states d) = length fs -> holds fs (d_chosen d) o -> d_run true fs cs d w = (ns, d', w') ->
  length (d_states d') = length fs /\ holds fs (d_chosen d') (match last_always ns with Some j => Some j | None => o end).
Proof.
  intros S W fs. induction cs as [|c cs IH]; intros d w ns d' w' o L K H; cbn [d_run] in H.
  - injection H as <- <- <-. auto.
  - destruct (d_call true fs c d w) as [[n1 d1] w1] eqn:E1. destruct (d_run true fs cs d1 w1) as [[n2 d2] w2] eqn:E2. injection H as <- <- <-.
    destruct (d_call_inv _ _ _ _ _ _ _ _ _ _ L K E1) as [L1 K1]. destruct (IH _ _ _ _ _ _ L1 K1 E2) as [L2 K2]. split; [exact L2|].
    rewrite last_always_app. destruct (last_always n2); exact K2.
Qed.

Lemma d_run_app : forall S W sep (fs : list (handler S W)) a b d w,
  d_run sep fs (a ++ b) d w = let '(n1, d1, w1) := d_run sep fs a d w in let '(n2, d2, w2) := d_run sep fs b d1 w1 in (n1 ++ n2, d2, w2).
Proof.
  induction a as [|c a IH]; intros b d w; cbn [app d_run].
  - destruct (d_run sep fs b d w) as [[n2 d2] w2]. reflexivity.
  - destruct (d_call sep fs c d w) as [[n1 d1] w1]. rewrite IH. destruct (d_run sep fs a d1 w1) as [[n2 d2] w2]. destruct (d_run sep fs b d2 w2) as [[n3 d3] w3]. rewrite app_assoc. reflexivity.
Qed.

(** the chosen handler gets everything *)
Lemma kept_run : forall S W sep (fs : list (handler S W)) cs d w i h s, Forall middle cs -> d_chosen d = Kept i h s ->
  d_run sep fs cs d w = (map (Got i true) cs, Disp (d_states d) (Kept i h (fst (calls h cs s w))), snd (calls h cs s w)).
Proof.
  intros S W sep fs. induction cs as [|c cs IH]; intros d w i h s F C.
  - cbn [d_run map calls fst snd]. rewrite <- C. destruct d. reflexivity.
  - inversion F as [|? ? Hc Hr]; subst. cbn [d_run calls map].
    assert (E : d_call sep fs c d w = d_forward d i h s c w) by (unfold d_call; rewrite C; destruct c; try contradiction; reflexivity).
    rewrite E. unfold d_forward. destruct (h_call h c s w) as [s1 w1]. rewrite (IH (Disp (d_states d) (Kept i h s1)) w1 i h s1 Hr eq_refl). reflexivity.
Qed.

(** states follow the answers *)
Lemma d_call_states : forall S W sep (fs : list (handler S W)) c d w ns d' w',
  length (d_states d) = length fs -> d_call sep fs c d w = (ns, d', w') ->
  length (d_states d') = length fs /\
  (forall j v, In (Said j v) ns -> nth_error (d_states d') j = Some (Some v)) /\
  (forall j, nth_error (d_states d) j = Some (Some Never) -> nth_error (d_states d') j = Some (Some Never)) /\
  (forall j, nth_error (d_states d) j = Some (Some Never) -> forall c', ~ In (Got j false c') ns) /\
  (forall i k c', In (Got i k c') ns -> k = true -> middle c').
Proof.
  intros S W sep fs c d w ns d' w' L H.
  assert (O : forall cs, d_offer sep fs cs d w = (ns, d', w') -> length (d_states d') = length fs /\
    (forall j v, In (Said j v) ns -> nth_error (d_states d') j = Some (Some v)) /\
    (forall j, nth_error (d_states d) j = Some (Some Never) -> nth_error (d_states d') j = Some (Some Never)) /\
    (forall j, nth_error (d_states d) j = Some (Some Never) -> forall c', ~ In (Got j false c') ns) /\
    (forall i k c', In (Got i k c') ns -> k = true -> middle c')).
  { intros cs E. unfold d_offer in E. destruct (offer sep cs 0 fs (d_states d) (d_chosen d) w) as [[[ms sts] ch] w1] eqn:E1. injection E as <- <- <-.
    destruct (offer_spec _ _ _ _ _ _ _ _ _ _ _ _ _ (eq_sym L) E1) as (A & B & C & D & _). cbn [d_states]. split; [exact A|]. split.
    { intros j v G. destruct (C j v G) as [_ G']. rewrite Nat.sub_0_r in G'. exact G'. } split.
    { intros j G. apply (D j (Some Never)); [exact G|reflexivity]. } split.
    { intros j G c' G'. destruct (B _ _ _ G') as (_ & _ & _ & st & X & Y). rewrite Nat.sub_0_r, G in X. injection X as <-. discriminate. }
    intros i k c' G K. destruct (B _ _ _ G) as (X & _). congruence. }
  assert (F : forall i h s, middle c -> d_forward d i h s c w = (ns, d', w') -> length (d_states d') = length fs /\
    (forall j v, In (Said j v) ns -> nth_error (d_states d') j = Some (Some v)) /\
    (forall j, nth_error (d_states d) j = Some (Some Never) -> nth_error (d_states d') j = Some (Some Never)) /\
    (forall j, nth_error (d_states d) j = Some (Some Never) -> forall c', ~ In (Got j false c') ns) /\
    (forall i k c', In (Got i k c') ns -> k = true -> middle c')).
  { intros i h s M E. unfold d_forward in E. destruct (h_call h c s w) as [s1 w1]. injection E as <- <- <-. cbn [d_states]. split; [exact L|].
    split; [intros j v [G|[]]; discriminate|]. split; [auto|]. split; [intros j _ c' [G|[]]; discriminate|]. intros i' k c' [G|[]] _. injection G as <- <- <-. exact M. }
  unfold d_call in H. destruct c; try (eapply O; eassumption); destruct (d_chosen d) as [|i h s|] eqn:C; try (eapply O; eassumption); try (eapply F; [exact I|exact H]);
    injection H as <- <- <-; (split; [exact L|]); cbn [In]; repeat split; intros; intuition discriminate.
Qed.

Lemma d_run_states : forall S W sep (fs : list (handler S W)) cs d w ns d' w',
  length (d_states d) = length fs -> d_run sep fs cs d w = (ns, d', w') ->
  length (d_states d') = length fs /\
  (forall j, nth_error (d_states d) j = Some (Some Never) -> nth_error (d_states d') j = Some (Some Never) /\ forall c', ~ In (Got j false c') ns) /\
  (forall j, In (Said j Never) ns -> nth_error (d_states d') j = Some (Some Never)) /\
  (forall i k c', In (Got i k c') ns -> k = true -> middle c').
Proof.
  intros S W sep fs. induction cs as [|c cs IH]; intros d w ns d' w' L H; cbn [d_run] in H.
  - injection H as <- <- <-. split; [exact L|]. split; [intros j G; split; [exact G|intros c' []]|]. split; [intros j []|intros i k c' []].
  - destruct (d_call sep fs c d w) as [[n1 d1] w1] eqn:E1. destruct (d_run sep fs cs d1 w1) as [[n2 d2] w2] eqn:E2. injection H as <- <- <-.
    destruct (d_call_states _ _ _ _ _ _ _ _ _ _ L E1) as (L1 & A1 & B1 & C1 & D1). destruct (IH _ _ _ _ _ L1 E2) as (L2 & A2 & B2 & D2).
    split; [exact L2|]. split.
    { intros j G. destruct (A2 j (B1 j G)) as [A A']. split; [exact A|]. intros c' K. apply in_app_or in K. destruct K as [K|K]; [exact (C1 j G c' K)|exact (A' c' K)]. }
    split.
    { intros j G. apply in_app_or in G. destruct G as [G|G]; [apply A2, A1, G|apply B2, G]. }
    intros i k c' G K. apply in_app_or in G. destruct G as [G|G]; eauto.
Qed.

(** before anybody is chosen: everybody not uninterested, in order *)
Lemma offer_got : forall S W sep cs fs sts i ch (w : W) ns sts' ch' w',
  length fs = length sts -> offer (S := S) sep cs i fs sts ch w = (ns, sts', ch', w') ->
  filter is_got ns = flat_map (fun x => if tried (snd x) then map (Got (fst x) false) cs else []) (combine (seq i (length fs)) sts).
Proof.
  induction fs as [|f fs IH]; intros sts i ch w ns sts' ch' w' L H.
  - destruct sts; [|discriminate]. cbn [offer] in H. injection H as <- <- <- <-. reflexivity.
  - destruct sts as [|st sts]; [discriminate|]. injection L as L. cbn [offer] in H. cbn [length seq combine flat_map fst snd]. destruct (tried st) eqn:T.
    + destruct (h_new f w) as [s0 w0]. destruct (calls f cs s0 w0) as [s1 w1]. destruct (offer _ _ _ fs sts _ _) as [[[ms sts2] ch2] w2] eqn:E.
      injection H as <- <- <- <-. rewrite filter_app. cbn [filter is_got]. rewrite (IH _ _ _ _ _ _ _ _ L E). f_equal.
      clear. induction cs as [|c cs IH]; [reflexivity|]. cbn [map filter is_got]. rewrite IH. reflexivity.
    + destruct (offer _ _ _ fs sts _ _) as [[[ms sts2] ch2] w2] eqn:E. injection H as <- <- <- <-. cbn [app]. eapply IH; eassumption.
Qed.

(** one address for all: the last object made decides *)
Lemma offer_shared : forall S W cs (fs : list (handler S W)) sts i ch w ns sts' ch' w',
  length fs = length sts -> offer false cs i fs sts ch w = (ns, sts', ch', w') ->
  match ns with [] => ch' = ch
  | _ => match last ns Bad with
         | Said j Always => exists h s, ch' = Kept j h s
         | Said _ _ => ch' = (match ch, last_always ns with Empty, None => Empty | _, _ => Lost end)
         | _ => False
         end
  end.
Proof.
  intros S W cs. induction fs as [|f fs IH]; intros sts i ch w ns sts' ch' w' L H.
  - destruct sts; [|discriminate]. cbn [offer] in H. injection H as <- <- <- <-. reflexivity.
  - destruct sts as [|st sts]; [discriminate|]. injection L as L. cbn [offer] in H. destruct (tried st) eqn:T.
    + destruct (h_new f w) as [s0 w0]. destruct (calls f cs s0 w0) as [s1 w1]. destruct (offer _ _ _ fs sts _ _) as [[[ms sts2] ch2] w2] eqn:E.
      injection H as <- <- <- <-. specialize (IH _ _ _ _ _ _ _ _ L E).
      set (v := h_interested f s1 w1) in *.
      destruct (map (Got i false) cs ++ Said i v :: ms) as [|x xs] eqn:EQ; [destruct (map (Got i false) cs); discriminate|]. rewrite <- EQ. clear EQ x xs.
      assert (LA : last (map (Got i false) cs ++ Said i v :: ms) Bad = match ms with [] => Said i v | _ => last ms Bad end).
      { destruct ms as [|m ms]; [apply last_last|]. generalize (map (Got i false) cs) as l. induction l as [|y l IHl]; [reflexivity|].
        cbn [app]. rewrite <- IHl. destruct l; reflexivity. }
      rewrite LA. rewrite last_always_app, last_always_got. cbn [last_always].
      destruct ms as [|m ms].
      * destruct v; cbn [is_always last_always] in *; try (rewrite IH; destruct ch; reflexivity). exists f, s1. exact IH.
      * destruct (last (m :: ms) Bad) as [|j w9|]; try exact IH. destruct w9; try exact IH; rewrite IH; clear IH; destruct (last_always (m :: ms)); destruct v, ch; reflexivity.
    + destruct (offer _ _ _ fs sts _ _) as [[[ms sts2] ch2] w2] eqn:E. injection H as <- <- <- <-. eapply IH; eassumption.
Qed.
