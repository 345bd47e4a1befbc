(** Routing by a table that also holds context handlers. *)
From Verif Require Import Base HeaderModel UriModel UriSpec UriProofs DispatchModel DispatchSpec DispatchProofs RouteProofs ContextModel CtxSubModel
  DispCtxModel DispCtxSpec DispCtxProofs.
Local Open Scope N_scope.

(** what was told to whom *)
Definition told (w : world) : list (nat * call) := map fst (w_log w).

Lemma kinds_offered : forall ks, Forall (offered _) (map kind_factory ks).
Proof.
  induction ks as [|[|p k] ks IH]; cbn [map]; constructor; try exact IH.
  - exact (OfLeft unit (interested * unit) ctx_factory OfContext).
  - exact (OfRight unit (interested * unit) _ (OfObserver p k)).
Qed.

(** * A round and a context handler *)

Lemma ctx_log : forall a cs s w s1 w1, calls (ctx_factory a) cs s w = (s1, w1) -> w_log w1 = w_log w.
Proof.
  intros a. induction cs as [|c cs IH]; intros s w s1 w1 E; cbn [calls] in E; [congruence|]. cbn [ctx_factory h_call] in E. apply IH in E. rewrite E.
  destruct (ctx_at a w) as [x|]; [|reflexivity]. destruct (cdh_call c x); reflexivity.
Qed.
Lemma ctx_not_always : forall a s w, is_always (h_interested (ctx_factory a) s w) = false.
Proof.
  intros a s w. cbn [ctx_factory h_interested]. destruct (ctx_at a w) as [x|]; [|reflexivity].
  unfold cdh_interested. destruct (ctx_have_header x); [|reflexivity]. destruct (0 <? hdr_tkl (c_hdr x)); [|reflexivity].
  destruct (c_present x); reflexivity.
Qed.

(** making the observer behind a path and telling it of a round *)
Lemma kind_observer : forall p k a w, h_new (kind_factory (KObserver p k) a) w =
  (inr (Currently, tt), World (w_ctx w) (fun j => if Nat.eqb j k then Some a else w_ptr w j) (w_log w)).
Proof. reflexivity. Qed.
Lemma kind_calls : forall p k a cs v w x w1, calls (uri_handler p (static_factory k a)) cs (v, tt) w = (x, w1) ->
  calls (kind_factory (KObserver p k) a) cs (inr (v, tt)) w = (inr x, w1).
Proof. intros. unfold kind_factory, uri_factory. now apply right_calls. Qed.

(** status of the observers in a table *)
Fixpoint statuses (P : option interested -> Prop) (ks : list kind) (sts : list (option interested)) : Prop :=
  match ks, sts with
  | [], [] => True
  | x :: ks', st :: sts' => match x with KContext => True | KObserver _ _ => P st end /\ statuses P ks' sts'
  | _, _ => False
  end.

Lemma ctx_step : forall sep me cs i ks st sts ch w, exists v st' n0 w2, is_always v = false /\ w_log w2 = w_log w /\
  c_offer sep me cs i (map kind_factory (KContext :: ks)) (st :: sts) ch w =
  (let ch0 := if tried st then match ch with Kept _ _ _ => if sep then ch else Lost | _ => ch end else ch in
   let '(ns, sts2, ch2, w3) := c_offer sep me cs (Datatypes.S i) (map kind_factory ks) sts ch0 w2 in
   (n0 ++ ns, st' :: sts2, ch2, w3)).
Proof.
  intros sep me cs i ks st sts ch w. cbn [map c_offer]. set (a := length (w_ctx w)). destruct (tried st) eqn:T.
  - unfold kind_factory at 1. cbn [left_handler h_new ctx_factory]. fold (ctx_factory a).
    destruct (calls (ctx_factory a) cs tt (ctx_copy me w)) as [s1 w1] eqn:E1.
    exists (h_interested (ctx_factory a) s1 w1), (Some (h_interested (ctx_factory a) s1 w1)),
      (map (Got i false) cs ++ [Said i (h_interested (ctx_factory a) s1 w1)]), (ctx_put a None w1).
    split; [apply ctx_not_always|]. split; [exact (ctx_log _ _ _ _ _ _ E1)|].
    change (kind_factory KContext a) with (left_handler (T := interested * unit) (ctx_factory a)).
    rewrite (left_calls unit (interested * unit) _ _ _ _ _ _ E1). cbn [h_interested left_handler]. rewrite ctx_not_always.
    destruct (c_offer sep me cs (Datatypes.S i) (map kind_factory ks) sts _ _) as [[[n2 st2] ch2] w2]. rewrite <- app_assoc. reflexivity.
  - exists Currently, st, [], (ctx_put a None (ctx_copy me w)). split; [reflexivity|]. split; [reflexivity|].
    destruct (c_offer sep me cs (Datatypes.S i) (map kind_factory ks) sts _ _) as [[[n2 st2] ch2] w2]. reflexivity.
Qed.

(** a round of calls that leave a new URI handler as it is *)
Lemma c_idle_round : forall me cs ks sts i ch w P, idle_calls cs -> statuses P ks sts -> P (Some Currently) ->
  exists ns sts' w', c_offer true me cs i (map kind_factory ks) sts ch w = (ns, sts', ch, w') /\ w_log w' = w_log w /\ statuses P ks sts'.
Proof.
  intros me cs. induction ks as [|x ks IH]; intros sts i ch w P Hc Hs HP.
  - destruct sts; [|contradiction]. exists [], [], w. auto.
  - destruct sts as [|st sts]; [contradiction|]. destruct Hs as (H0 & Hs). destruct x as [|p k].
    + destruct (ctx_step true me cs i ks st sts ch w) as (v & st' & n0 & w2 & _ & L & E). rewrite E. cbn zeta.
      replace (if tried st then match ch with Kept _ _ _ => ch | _ => ch end else ch) with ch by (destruct (tried st), ch; reflexivity).
      destruct (IH sts (Datatypes.S i) ch w2 P Hc Hs HP) as (ns & sts' & w' & E1 & L1 & S1). rewrite E1.
      do 3 eexists. split; [reflexivity|]. split; [congruence|]. split; [exact I|exact S1].
    + cbn [map c_offer]. set (a := length (w_ctx w)). destruct (tried st) eqn:T.
      * rewrite kind_observer. rewrite (kind_calls _ _ _ _ _ _ _ _ (idle_uri _ _ p (static_factory k a) cs tt _ Hc)).
        cbn [kind_factory right_handler h_interested uri_factory uri_handler fst is_always].
        replace (match ch with Kept _ _ _ => ch | _ => ch end) with ch by (destruct ch; reflexivity).
        match goal with |- context [c_offer true me cs (Datatypes.S i) (map kind_factory ks) sts ch ?w2] => set (w2' := w2) end.
        destruct (IH sts (Datatypes.S i) ch w2' P Hc Hs HP) as (ns & sts' & w' & E1 & L1 & S1). rewrite E1.
        do 3 eexists. split; [reflexivity|]. split; [rewrite L1; reflexivity|]. split; [exact HP|exact S1].
      * match goal with |- context [c_offer true me cs (Datatypes.S i) (map kind_factory ks) sts ch ?w2] => set (w2' := w2) end.
        destruct (IH sts (Datatypes.S i) ch w2' P Hc Hs HP) as (ns & sts' & w' & E1 & L1 & S1). rewrite E1.
        do 3 eexists. split; [reflexivity|]. split; [rewrite L1; reflexivity|]. split; [exact H0|exact S1].
Qed.

(** the observers have lost interest *)
Definition off (st : option interested) : Prop := tried st = false.
Lemma c_off_round : forall sep me cs ks sts i w, statuses off ks sts ->
  exists ns sts' w', c_offer sep me cs i (map kind_factory ks) sts Empty w = (ns, sts', Empty, w') /\ w_log w' = w_log w /\ statuses off ks sts'.
Proof.
  intros sep me cs. induction ks as [|x ks IH]; intros sts i w Hs.
  - destruct sts; [|contradiction]. exists [], [], w. auto.
  - destruct sts as [|st sts]; [contradiction|]. destruct Hs as (H0 & Hs). destruct x as [|p k].
    + destruct (ctx_step sep me cs i ks st sts Empty w) as (v & st' & n0 & w2 & _ & L & E). rewrite E. cbn zeta.
      replace (if tried st then Empty else Empty) with (@Empty (unit + (interested * unit)) world) by (destruct (tried st); reflexivity).
      destruct (IH sts (Datatypes.S i) w2 Hs) as (ns & sts' & w' & E1 & L1 & S1). rewrite E1.
      do 3 eexists. split; [reflexivity|]. split; [congruence|]. split; [exact I|exact S1].
    + cbn [map c_offer]. rewrite H0.
      match goal with |- context [c_offer sep me cs (Datatypes.S i) (map kind_factory ks) sts Empty ?w2] => set (w2' := w2) end.
      destruct (IH sts (Datatypes.S i) w2' Hs) as (ns & sts' & w' & E1 & L1 & S1). rewrite E1.
      do 3 eexists. split; [reflexivity|]. split; [rewrite L1; reflexivity|]. split; [exact H0|exact S1].
Qed.
Lemma c_off_run : forall sep me ks cs sts w, statuses off ks sts ->
  exists ns sts' w', c_run sep me (map kind_factory ks) cs (Disp sts Empty) w = (ns, Disp sts' Empty, w') /\ w_log w' = w_log w.
Proof.
  intros sep me ks. induction cs as [|c cs IH]; intros sts w Hs; [do 3 eexists; split; reflexivity|].
  assert (X : exists ns sts' w', c_call sep me (map kind_factory ks) c (Disp sts Empty) w = (ns, Disp sts' Empty, w') /\ w_log w' = w_log w /\ statuses off ks sts').
  { assert (R : forall l, exists ns sts' w', c_round sep me (map kind_factory ks) l (Disp sts Empty) w = (ns, Disp sts' Empty, w') /\ w_log w' = w_log w /\ statuses off ks sts').
    { intros l. unfold c_round. cbn [d_states d_chosen]. destruct (c_off_round sep me l ks sts 0 w Hs) as (ns & sts' & w' & E & L & F). rewrite E. eauto 6. }
    unfold c_call. cbn [d_chosen]. destruct c; try apply R. exists [], sts, w. auto. }
  destruct X as (ns & sts1 & w1 & E & L & F). cbn [c_run]. rewrite E. destruct (IH sts1 w1 F) as (ms & sts2 & w2 & E2 & L2). rewrite E2.
  do 3 eexists. split; [reflexivity|congruence].
Qed.

(** the round of the first path segment *)
Definition ready (st : option interested) : Prop := tried st = true.
Lemma c_segment_round : forall me l seg ks sts i ch w, statuses ready ks sts ->
  exists ns sts' ch' w', c_offer true me [OnOption URI_PATH l; OnValue URI_PATH seg true] i (map kind_factory ks) sts ch w = (ns, sts', ch', w') /\
    w_log w' = w_log w /\ statuses (fun _ => True) ks sts' /\
    (chooses_none ks seg -> ch' = ch /\ statuses off ks sts') /\
    (forall k, chooses ks seg k -> exists n p a, ch' = Kept n (kind_factory (KObserver p k) a) (inr (Always, tt))).
Proof.
  intros me l seg. induction ks as [|x ks IH]; intros sts i ch w Hs.
  - destruct sts; [|contradiction]. exists [], [], ch, w. repeat split; auto. intros k ([|? ?] & p & b & X & _); discriminate.
  - destruct sts as [|st sts]; [contradiction|]. destruct Hs as (H0 & Hs). destruct x as [|p k].
    + destruct (ctx_step true me [OnOption URI_PATH l; OnValue URI_PATH seg true] i ks st sts ch w) as (v & st' & n0 & w2 & _ & L & E). rewrite E. cbn zeta.
      replace (if tried st then match ch with Kept _ _ _ => ch | _ => ch end else ch) with ch by (destruct (tried st), ch; reflexivity).
      destruct (IH sts (Datatypes.S i) ch w2 Hs) as (ns & sts' & ch' & w' & E1 & L1 & S1 & N1 & M1). rewrite E1.
      do 4 eexists. split; [reflexivity|]. split; [congruence|]. split; [split; [exact I|exact S1]|]. split.
      * intros H. destruct N1 as (A & B); [intros q j Hin; apply (H q j); right; exact Hin|]. split; [exact A|split; [exact I|exact B]].
      * intros k0 ([|y a] & p0 & b & X & Y); [discriminate|]. injection X as Xy Xa. apply M1. exists a, p0, b. auto.
    + cbn [map c_offer]. set (a := length (w_ctx w)). rewrite H0.
      rewrite kind_observer, (kind_calls _ _ _ _ _ _ _ _ (segment_uri _ _ p (static_factory k a) l seg tt _)).
      set (v := if dispatcher_starts_with seg p then Always else Never).
      change (h_interested (kind_factory (KObserver p k) a) (inr (v, tt))) with (fun _ : world => v). cbn beta.
      set (ch1 := if is_always v then Kept i (kind_factory (KObserver p k) a) (inr (v, tt)) else match ch with Kept _ _ _ => ch | _ => ch end).
      match goal with |- context [c_offer true me _ (Datatypes.S i) (map kind_factory ks) sts ?c ?w2] => change c with ch1; set (w2' := w2) end.
      destruct (IH sts (Datatypes.S i) ch1 w2' Hs) as (ns & sts' & ch' & w' & E1 & L1 & S1 & N1 & M1). rewrite E1.
      do 4 eexists. split; [reflexivity|]. split; [rewrite L1; reflexivity|]. split; [split; [exact I|exact S1]|]. split.
      * intros H. assert (Hv : dispatcher_starts_with seg p = false).
        { destruct (dispatcher_starts_with seg p) eqn:X; [|reflexivity]. exfalso. apply (H p k); [left; reflexivity|now apply agrees_iff]. }
        destruct N1 as (A & B); [intros q j Hin; apply (H q j); right; exact Hin|]. unfold ch1, v in *. rewrite Hv in *. cbn [is_always] in A.
        split; [rewrite A; destruct ch; reflexivity|]. split; [reflexivity|exact B].
      * intros k0 ([|y pre] & p0 & b & X & Ha & Hb).
        { injection X as <- <- <-. destruct N1 as (A & _); [exact Hb|]. rewrite A. unfold ch1, v. rewrite (proj2 (agrees_iff seg p) Ha). cbn [is_always]. eauto. }
        injection X as Xy Xa. apply M1. exists pre, p0, b. auto.
Qed.

(** * Runs *)

Lemma c_run_app : forall S sep me (fs : list (factory S)) xs ys d w, c_run sep me fs (xs ++ ys) d w =
  let '(n1, d1, w1) := c_run sep me fs xs d w in let '(n2, d2, w2) := c_run sep me fs ys d1 w1 in (n1 ++ n2, d2, w2).
Proof.
  intros S sep me fs. induction xs as [|c xs IH]; intros ys d w; cbn [app c_run].
  - destruct (c_run sep me fs ys d w) as [[n2 d2] w2]. reflexivity.
  - destruct (c_call sep me fs c d w) as [[n0 d0] w0]. rewrite IH. destruct (c_run sep me fs xs d0 w0) as [[n1 d1] w1].
    destruct (c_run sep me fs ys d1 w1) as [[n2 d2] w2]. rewrite app_assoc. reflexivity.
Qed.

Lemma c_idle_run : forall me ks cs sts w, idle_calls cs -> statuses ready ks sts ->
  exists ns sts' w', c_run true me (map kind_factory ks) cs (Disp sts Empty) w = (ns, Disp sts' Empty, w') /\ w_log w' = w_log w /\ statuses ready ks sts'.
Proof.
  intros me ks cs sts w Hc. revert sts w. induction Hc as [|c cs H0 Hc IH]; intros sts w Hs; [do 3 eexists; split; [reflexivity|auto]|].
  assert (X : exists ns sts' w', c_call true me (map kind_factory ks) c (Disp sts Empty) w = (ns, Disp sts' Empty, w') /\ w_log w' = w_log w /\ statuses ready ks sts').
  { assert (R : forall l, idle_calls l -> exists ns sts' w', c_round true me (map kind_factory ks) l (Disp sts Empty) w = (ns, Disp sts' Empty, w') /\ w_log w' = w_log w /\ statuses ready ks sts').
    { intros l Hl. unfold c_round. cbn [d_states d_chosen]. destruct (c_idle_round me l ks sts 0 Empty w ready Hl Hs eq_refl) as (ns & sts' & w' & E & L & F). rewrite E. eauto 6. }
    unfold c_call. cbn [d_chosen]. destruct c; try (apply R; constructor; [exact H0|constructor]); [exists [], sts, w; auto|].
    apply R. constructor; [exact I|]. constructor; [exact H0|constructor]. }
  destruct X as (ns & sts1 & w1 & E & L & F). cbn [c_run]. rewrite E. destruct (IH sts1 w1 F) as (ms & sts2 & w2 & E2 & L2 & F2). rewrite E2.
  do 3 eexists. split; [reflexivity|]. split; [congruence|exact F2].
Qed.

Lemma c_kept_run : forall sep me fs p k a n cs sts w, Forall rest_calls cs ->
  exists ns w', c_run sep me fs cs (Disp sts (Kept n (kind_factory (KObserver p k) a) (inr (Always, tt)))) w =
    (ns, Disp sts (Kept n (kind_factory (KObserver p k) a) (inr (Always, tt))), w') /\ told w' = told w ++ map (fun c => (k, c)) cs.
Proof.
  intros sep me fs p k a n cs sts w H. revert w. induction H as [|c cs Hc H IH]; intros w.
  - do 2 eexists. split; [reflexivity|]. cbn [map]. now rewrite app_nil_r.
  - assert (X : exists ns w1, c_call sep me fs c (Disp sts (Kept n (kind_factory (KObserver p k) a) (inr (Always, tt)))) w =
      (ns, Disp sts (Kept n (kind_factory (KObserver p k) a) (inr (Always, tt))), w1) /\ told w1 = told w ++ [(k, c)]).
    { destruct c; try contradiction; unfold c_call, d_forward, told; cbn; do 2 eexists; (split; [reflexivity|]); cbn [w_log]; now rewrite map_app. }
    destruct X as (ns & w1 & E & L). cbn [c_run]. rewrite E. destruct (IH w1) as (ms & w2 & E2 & L2). rewrite E2.
    do 2 eexists. split; [reflexivity|]. rewrite L2, L. cbn [map]. now rewrite <- app_assoc.
Qed.

Lemma start_ready : forall ks, statuses ready ks (map (fun _ => None) (map kind_factory ks)).
Proof. induction ks as [|[|p k] ks IH]; cbn; auto. split; [reflexivity|exact IH]. Qed.

Lemma c_routed : forall ks h toks pre seg post pays c, request_code h -> Forall is_token_call toks -> Forall is_payload_call pays ->
  Forall (fun o => ~ is_segment o) pre -> seg <> [] ->
  exists ns d w, app_run true (map kind_factory ks) (msg_calls h toks (pre ++ (URI_PATH, seg) :: post) pays) c = (ns, d, w) /\
    (chooses_none ks seg -> told w = []) /\
    (forall k, chooses ks seg k -> told w = map (fun x => (k, x)) (options_calls post ++ pays)).
Proof.
  intros ks h toks pre seg post pays c Hh Ht Hp Hpre Hs.
  unfold msg_calls. rewrite options_app. change (options_calls ((URI_PATH, seg) :: post)) with (opt_calls (URI_PATH, seg) ++ options_calls post).
  set (l := N.of_nat (length seg) mod 65536).
  assert (Es : opt_calls (URI_PATH, seg) = [OnOption URI_PATH l; OnValue URI_PATH seg true]).
  { unfold opt_calls. cbn [fst snd]. destruct seg; [congruence|reflexivity]. }
  rewrite Es.
  match goal with |- context [app_run true _ ?x c] => replace x with ((OnHeader h :: toks ++ options_calls pre) ++
    ([OnOption URI_PATH l; OnValue URI_PATH seg true] ++ ((options_calls post ++ pays) ++ [OnComplete])))
    by (cbn [app]; rewrite <- !app_assoc; reflexivity) end.
  assert (Hi : idle_calls (OnHeader h :: toks ++ options_calls pre)).
  { constructor; [now apply request_iff|]. apply Forall_app. split; [now apply idle_tokens|now apply idle_options]. }
  assert (Hl : Forall rest_calls (options_calls post ++ pays)) by (apply Forall_app; split; [apply rest_options|now apply rest_payload]).
  unfold app_run. cbn [fdh_factory h_new app_world w_ctx length]. set (w0 := ctx_copy 0 _).
  rewrite c_run_app. destruct (c_idle_run 1 ks _ _ w0 Hi (start_ready ks)) as (n1 & s1 & w1 & E1 & L1 & R1). rewrite E1. cbn iota beta.
  destruct (c_segment_round 1 l seg ks s1 0 Empty w1 R1) as (n2 & s2 & ch2 & w2 & E2 & L2 & F2 & N2 & M2).
  assert (E3 : c_run true 1 (map kind_factory ks) [OnOption URI_PATH l; OnValue URI_PATH seg true] (Disp s1 Empty) w1 = (n2, Disp s2 ch2, w2)).
  { cbn [c_run c_call d_chosen]. unfold c_round. cbn [d_states d_chosen]. fold l. rewrite E2. cbn [app]. now rewrite app_nil_r. }
  rewrite c_run_app, E3. cbn iota beta.
  assert (T2 : told w2 = []) by (unfold told; rewrite L2, L1; reflexivity).
  destruct (c_run true 1 (map kind_factory ks) ((options_calls post ++ pays) ++ [OnComplete]) (Disp s2 ch2) w2) as [[n4 d4] w4] eqn:E4.
  do 3 eexists. split; [reflexivity|]. split.
  - intros H. destruct (N2 H) as (-> & O2). destruct (c_off_run true 1 ks ((options_calls post ++ pays) ++ [OnComplete]) s2 w2 O2) as (n5 & s5 & w5 & E5 & L5).
    assert (w4 = w5) by congruence. subst w4. unfold told in *. now rewrite L5.
  - intros k H. destruct (M2 k H) as (n & p & a & ->). rewrite c_run_app in E4.
    destruct (c_kept_run true 1 (map kind_factory ks) p k a n (options_calls post ++ pays) s2 w2 Hl) as (n5 & w5 & E5 & L5). rewrite E5 in E4. cbn iota beta in E4.
    cbn [c_run c_call] in E4. unfold c_round in E4. cbn [d_states d_chosen] in E4.
    destruct (c_idle_round 1 [OnComplete] ks s2 0 (Kept n (kind_factory (KObserver p k) a) (inr (Always, tt))) w5 (fun _ => True)
      ltac:(constructor; [exact I|constructor]) F2 I) as (n6 & s6 & w6 & E6 & L6 & _).
    rewrite E6 in E4. assert (w4 = w6) by congruence. subst w4. unfold told in *. rewrite L6, L5, T2. reflexivity.
Qed.

(** * What a context handler answers *)

Lemma ctx_answer : forall a junk w cs s w1, ctx_at a w = Some (ctx_new junk) -> (a < length (w_ctx w))%nat -> round cs ->
  Forall (fun c => match c with OnToken t _ => (length t <= 8)%nat | _ => True end) cs ->
  calls (ctx_factory a) cs tt w = (s, w1) -> h_interested (ctx_factory a) s w1 = answer (last cs OnComplete).
Proof.
  intros a junk w cs s w1 H L [(c & ->)|(n & l & v & ->)] Ht E; cbn [calls ctx_factory h_call] in E; rewrite H in E.
  - injection E as <- <-. inversion Ht as [|? ? Hc _]; subst. destruct c; cbn [cdh_call List.last answer ctx_factory h_interested];
      try (rewrite put_same by exact L; unfold cdh_interested, ctx_have_header; cbn [ctx_set_header ctx_new c_hdr]; reflexivity).
    + rewrite put_same by exact L. unfold cdh_interested, ctx_have_header. cbn [ctx_set_header ctx_new c_hdr c_present].
      destruct (0 <? hdr_version h); cbn [andb]; [|reflexivity].
      destruct (N.ltb_spec 0 (hdr_tkl h)) as [X|X]; destruct (N.eqb_spec (hdr_tkl h) 0) as [Y|Y]; try lia; reflexivity.
    + unfold ctx_set_token. apply Nat.leb_le in Hc. rewrite Hc. rewrite put_same by exact L. reflexivity.
  - cbn [cdh_call] in E. rewrite put_same in E by exact L. injection E as <- <-.
    cbn [List.last answer ctx_factory h_interested]. rewrite put_same; [reflexivity|]. rewrite put_length by exact L. exact L.
Qed.

Lemma c_offer_said : forall sep me junk cs ks sts i ch w ns sts' ch' w' j v,
  round cs -> Forall (fun c => match c with OnToken t _ => (length t <= 8)%nat | _ => True end) cs ->
  ch_ok ch -> good None w -> (me < length (w_ctx w))%nat -> ctx_at me w = Some (ctx_new junk) ->
  c_offer sep me cs i (map kind_factory ks) sts ch w = (ns, sts', ch', w') ->
  In (Said j v) ns -> (i <= j)%nat /\ (nth_error ks (j - i) = Some KContext -> v = answer (last cs OnComplete)).
Proof.
  intros sep me junk cs. induction ks as [|x ks IH]; intros sts i ch w ns sts' ch' w' j v Hr Ht Hc Hg Lm Hm E Hin.
  - cbn [map c_offer] in E. injection E as <- <- <- <-. contradiction.
  - destruct sts as [|st sts]; cbn [map c_offer] in E; [injection E as <- <- <- <-; contradiction|].
    set (a := length (w_ctx w)) in *.
    assert (La : (a < length (w_ctx (ctx_copy me w)))%nat) by (rewrite copy_length; unfold a; lia).
    pose proof (kinds_offered (x :: ks)) as Ho. cbn [map] in Ho. inversion Ho as [|? ? Ho1 Ho2]; subst.
    destruct (offered_tame _ _ Ho1) as (K & T1 & T2).
    assert (next : forall ch w2 ns, ch_ok ch -> good None w2 -> frame None w w2 ->
      (exists sts' ch' w', c_offer sep me cs (Datatypes.S i) (map kind_factory ks) sts ch w2 = (ns, sts', ch', w')) -> In (Said j v) ns ->
      (i <= j)%nat /\ (nth_error (x :: ks) (j - i) = Some KContext -> v = answer (last cs OnComplete))).
    { intros c2 w2 n2 C2 G2 (F1 & F2) (st2 & ch2 & w3 & E2) Hin2.
      destruct (IH sts (Datatypes.S i) c2 w2 n2 st2 ch2 w3 j v Hr Ht C2 G2) as (A & B);
        [lia|rewrite F2 by (exact Lm || discriminate); exact Hm|exact E2|exact Hin2|].
      split; [lia|]. replace (j - i)%nat with (Datatypes.S (j - Datatypes.S i)) by lia. cbn [nth_error]. exact B. }
    destruct (tried st) eqn:T.
    + destruct (h_new (kind_factory x a) (ctx_copy me w)) as [s0 w0] eqn:E0. destruct (calls (kind_factory x a) cs s0 w0) as [s1 w1] eqn:E1.
      destruct (T1 a _ cs s0 w0 s1 w1 La (good_copy me w Hg) Hr E0 E1) as (G & F & KA).
      assert (L1 : (a < length (w_ctx w1))%nat) by (destruct F as (F & _); lia).
      set (ch1 := if is_always (h_interested (kind_factory x a) s1 w1) then Kept i (kind_factory x a) s1 else match ch with Kept _ _ _ => if sep then ch else Lost | _ => ch end) in E.
      destruct (c_offer sep me cs (Datatypes.S i) (map kind_factory ks) sts ch1 (ctx_put a None w1)) as [[[n2 st2] ch2] w2] eqn:E2.
      injection E as <- <- <- <-.
      assert (C1 : ch_ok ch1).
      { unfold ch1. destruct (h_interested (kind_factory x a) s1 w1) eqn:V; cbn [is_always]; [|destruct ch, sep; exact Hc || exact I..].
        exists K. split; [apply KA; reflexivity|]. intros c s wx sx wy. apply T2. }
      apply in_app_or in Hin. destruct Hin as [Hin|[Hin|Hin]].
      * apply in_map_iff in Hin. destruct Hin as (? & X & _). discriminate.
      * injection Hin as <- <-. split; [lia|]. rewrite Nat.sub_diag. cbn [nth_error]. intros X. injection X as ->.
        cbn [kind_factory left_handler h_new ctx_factory] in E0. injection E0 as <- <-. fold (ctx_factory a) in E1.
        destruct (calls (ctx_factory a) cs tt (ctx_copy me w)) as [s3 w3] eqn:E3.
        change (kind_factory KContext a) with (left_handler (T := interested * unit) (ctx_factory a)) in *.
        fold (@left_handler unit (interested * unit) world (ctx_factory a)) in E1.
        rewrite (left_calls unit (interested * unit) _ _ _ _ _ _ E3) in E1. injection E1 as <- <-. cbn [left_handler h_interested].
        apply (ctx_answer a junk (ctx_copy me w) cs s3 w3); auto. unfold a. rewrite copy_new. exact Hm.
      * apply (next ch1 (ctx_put a None w1) n2 C1 (good_gone a w1 L1 G)); [exact (frame_gone me w w1 F)|eauto|exact Hin].
    + destruct (c_offer sep me cs (Datatypes.S i) (map kind_factory ks) sts ch (ctx_put a None (ctx_copy me w))) as [[[n2 st2] ch2] w2] eqn:E2.
      injection E as <- <- <- <-.
      apply (next ch (ctx_put a None (ctx_copy me w)) n2 Hc (good_gone a _ La (good_copy me w Hg))); [exact (frame_gone me w _ (frame_refl _ _))|eauto|exact Hin].
Qed.

(** * Observers without an eye for contexts *)

(** a handler that knows the log only, in a world with contexts *)
Definition blind {S} (h : handler S (list (nat * call * option ctx))) : handler S world :=
  Handler (fun w => let '(s, l) := h_new h (w_log w) in (s, World (w_ctx w) (w_ptr w) l))
          (fun c s w => let '(s1, l) := h_call h c s (w_log w) in (s1, World (w_ctx w) (w_ptr w) l))
          (fun s w => h_interested h s (w_log w)).
Definition blind_slot {S} (ch : slot S (list (nat * call * option ctx))) : slot S world :=
  match ch with Empty => Empty | Kept i h s => Kept i (blind h) s | Lost => Lost end.
Definition blind_disp {S} (d : disp S (list (nat * call * option ctx))) : disp S world := Disp (d_states d) (blind_slot (d_chosen d)).
Definition blinds {S} (hs : list (handler S (list (nat * call * option ctx)))) : list (factory S) := map (fun h _ => blind h) hs.

Lemma blind_calls : forall S (h : handler S _) cs s w, exists w', calls (blind h) cs s w = (fst (calls h cs s (w_log w)), w') /\
  w_log w' = snd (calls h cs s (w_log w)).
Proof.
  intros S h. induction cs as [|c cs IH]; intros s w; [exists w; auto|]. cbn [calls blind h_call]. destruct (h_call h c s (w_log w)) as [s1 l] eqn:E.
  fold (blind h). exact (IH s1 (World (w_ctx w) (w_ptr w) l)).
Qed.

Lemma blind_offer : forall S sep me cs (hs : list (handler S _)) sts i ch w,
  exists w', c_offer sep me cs i (blinds hs) sts (blind_slot ch) w =
    (let '(ns, sts', ch', l) := offer sep cs i hs sts ch (w_log w) in (ns, sts', blind_slot ch', w')) /\
    w_log w' = snd (offer sep cs i hs sts ch (w_log w)).
Proof.
  intros S sep me cs. induction hs as [|h hs IH]; intros sts i ch w; [exists w; auto|].
  destruct sts as [|st sts]; [exists w; auto|]. cbn [blinds map c_offer offer]. fold (blinds hs). destruct (tried st).
  - cbn [blind h_new]. fold (blind h). change (w_log (ctx_copy me w)) with (w_log w). destruct (h_new h (w_log w)) as [s0 l0].
    destruct (blind_calls S h cs s0 (World (w_ctx (ctx_copy me w)) (w_ptr (ctx_copy me w)) l0)) as (w1 & E1 & L1). fold (blind h). rewrite E1. cbn [w_log] in *.
    destruct (calls h cs s0 l0) as [s1 l1]. cbn [fst snd] in *. cbn [blind h_interested]. fold (blind h). rewrite L1.
    set (v := h_interested h s1 l1).
    set (ch1 := if is_always v then Kept i h s1 else match ch with Kept _ _ _ => if sep then ch else Lost | _ => ch end).
    destruct (IH sts (Datatypes.S i) ch1 (ctx_put (length (w_ctx w)) None w1)) as (w2 & E2 & L2).
    replace (if is_always v then Kept i (blind h) s1 else match blind_slot ch with Kept _ _ _ => if sep then blind_slot ch else Lost | _ => blind_slot ch end)
      with (blind_slot ch1) by (unfold ch1; destruct (is_always v), ch, sep; reflexivity).
    change (w_log (ctx_put (length (w_ctx w)) None w1)) with (w_log w1) in *. rewrite L1 in *. rewrite E2. exists w2.
    destruct (offer sep cs (Datatypes.S i) hs sts ch1 l1) as [[[ns sts2] ch2] l2]. split; [reflexivity|exact L2].
  - destruct (IH sts (Datatypes.S i) ch (ctx_put (length (w_ctx w)) None (ctx_copy me w))) as (w2 & E2 & L2). rewrite E2. exists w2.
    change (w_log (ctx_put (length (w_ctx w)) None (ctx_copy me w))) with (w_log w) in *.
    destruct (offer sep cs (Datatypes.S i) hs sts ch (w_log w)) as [[[ns sts2] ch2] l2]. split; [reflexivity|exact L2].
Qed.

Lemma blind_call : forall S sep me (hs : list (handler S _)) c d w,
  exists w', c_call sep me (blinds hs) c (blind_disp d) w = (let '(ns, d', l) := d_call sep hs c d (w_log w) in (ns, blind_disp d', w')) /\
    w_log w' = snd (d_call sep hs c d (w_log w)).
Proof.
  intros S sep me hs c [sts ch] w.
  assert (R : forall cs, exists w', c_round sep me (blinds hs) cs (blind_disp (Disp sts ch)) w =
    (let '(ns, d', l) := d_offer sep hs cs (Disp sts ch) (w_log w) in (ns, blind_disp d', w')) /\ w_log w' = snd (d_offer sep hs cs (Disp sts ch) (w_log w))).
  { intros cs. unfold c_round, d_offer, blind_disp. cbn [d_states d_chosen]. destruct (blind_offer S sep me cs hs sts 0 ch w) as (w' & E & L). rewrite E. exists w'.
    destruct (offer sep cs 0 hs sts ch (w_log w)) as [[[ns st2] ch2] l2]. split; [reflexivity|exact L]. }
  assert (P : forall i h s, exists w', d_forward (blind_disp (Disp sts ch)) i (blind h) s c w =
    (let '(ns, d', l) := d_forward (Disp sts ch) i h s c (w_log w) in (ns, blind_disp d', w')) /\ w_log w' = snd (d_forward (Disp sts ch) i h s c (w_log w))).
  { intros i h s. unfold d_forward. cbn [blind h_call]. destruct (h_call h c s (w_log w)) as [s1 l1]. eexists. split; reflexivity. }
  unfold c_call, d_call. cbn [blind_disp d_chosen]. destruct c; try apply R; destruct ch as [|i h s|]; cbn [blind_slot];
    first [apply R|apply P|(eexists; split; reflexivity)].
Qed.

Lemma blind_run : forall S sep me (hs : list (handler S _)) cs d w,
  exists w', c_run sep me (blinds hs) cs (blind_disp d) w = (let '(ns, d', l) := d_run sep hs cs d (w_log w) in (ns, blind_disp d', w')) /\
    w_log w' = snd (d_run sep hs cs d (w_log w)).
Proof.
  intros S sep me hs. induction cs as [|c cs IH]; intros d w; [exists w; auto|]. cbn [c_run d_run].
  destruct (blind_call S sep me hs c d w) as (w1 & E1 & L1). rewrite E1. destruct (d_call sep hs c d (w_log w)) as [[n1 d1] l1]. cbn [snd] in L1.
  destruct (IH d1 w1) as (w2 & E2 & L2). rewrite E2, L1 in *. exists w2. destruct (d_run sep hs cs d1 l1) as [[n2 d2] l2]. split; [reflexivity|exact L2].
Qed.

(** * Handlers that have lost interest *)

Lemma c_offer_untried : forall S sep me cs (fs : list (factory S)) sts i ch w ns sts' ch' w' j st,
  c_offer sep me cs i fs sts ch w = (ns, sts', ch', w') -> nth_error sts (j - i) = Some st -> tried st = false -> (i <= j)%nat ->
  nth_error sts' (j - i) = Some st /\ forall c, ~ In (Got j false c) ns.
Proof.
  intros S sep me cs. induction fs as [|f fs IH]; intros sts i ch w ns sts' ch' w' j st E Hn Ht Hi.
  - cbn [c_offer] in E. injection E as <- <- <- <-. split; [exact Hn|intros c []].
  - destruct sts as [|st0 sts]; cbn [c_offer] in E; [destruct (j - i)%nat; discriminate|].
    destruct (Nat.eq_dec j i) as [->|N0].
    + rewrite Nat.sub_diag in *. cbn [nth_error] in Hn. injection Hn as ->. rewrite Ht in E.
      destruct (c_offer sep me cs (Datatypes.S i) fs sts ch _) as [[[n2 st2] ch2] w2] eqn:E2. injection E as <- <- <- <-. split; [reflexivity|].
      intros c Hin. clear -E2 Hin.
      assert (G : forall (fs : list (factory S)) sts k ch w n2 st2 ch2 w2, c_offer sep me cs k fs sts ch w = (n2, st2, ch2, w2) -> forall j c, In (Got j false c) n2 -> (k <= j)%nat).
      { clear. induction fs as [|f fs IH]; intros sts k ch w n2 st2 ch2 w2 E j c Hin; [cbn in E; injection E as <- <- <- <-; contradiction|].
        destruct sts as [|st sts]; cbn [c_offer] in E; [injection E as <- <- <- <-; contradiction|]. destruct (tried st).
        - destruct (h_new (f (length (w_ctx w))) (ctx_copy me w)) as [s0 w0]. destruct (calls (f (length (w_ctx w))) cs s0 w0) as [s1 w1].
          destruct (c_offer sep me cs (Datatypes.S k) fs sts _ _) as [[[n3 st3] ch3] w3] eqn:E3. injection E as <- <- <- <-.
          apply in_app_or in Hin. destruct Hin as [Hin|[Hin|Hin]]; [|discriminate|].
          + apply in_map_iff in Hin. destruct Hin as (? & X & _). injection X as <- _. lia.
          + apply (IH _ _ _ _ _ _ _ _ E3) in Hin. lia.
        - destruct (c_offer sep me cs (Datatypes.S k) fs sts _ _) as [[[n3 st3] ch3] w3] eqn:E3. injection E as <- <- <- <-.
          apply (IH _ _ _ _ _ _ _ _ E3) in Hin. lia. }
      apply (G _ _ _ _ _ _ _ _ _ E2) in Hin. lia.
    + replace (j - i)%nat with (Datatypes.S (j - Datatypes.S i)) in * by lia. cbn [nth_error] in Hn. destruct (tried st0).
      * destruct (h_new (f (length (w_ctx w))) (ctx_copy me w)) as [s0 w0]. destruct (calls (f (length (w_ctx w))) cs s0 w0) as [s1 w1].
        destruct (c_offer sep me cs (Datatypes.S i) fs sts _ _) as [[[n3 st3] ch3] w3] eqn:E3. injection E as <- <- <- <-. cbn [nth_error].
        destruct (IH _ _ _ _ _ _ _ _ j st E3 Hn Ht ltac:(lia)) as (A & B). split; [exact A|]. intros c Hin.
        apply in_app_or in Hin. destruct Hin as [Hin|[Hin|Hin]]; [|discriminate|exact (B c Hin)].
        apply in_map_iff in Hin. destruct Hin as (? & X & _). injection X as <- _. lia.
      * destruct (c_offer sep me cs (Datatypes.S i) fs sts _ _) as [[[n3 st3] ch3] w3] eqn:E3. injection E as <- <- <- <-. cbn [nth_error].
        exact (IH _ _ _ _ _ _ _ _ j st E3 Hn Ht ltac:(lia)).
Qed.

Lemma c_run_untried : forall S sep me (fs : list (factory S)) cs d w ns d' w' j st,
  c_run sep me fs cs d w = (ns, d', w') -> nth_error (d_states d) j = Some st -> tried st = false ->
  forall c, ~ In (Got j false c) ns.
Proof.
  intros S sep me fs. induction cs as [|c cs IH]; intros d w ns d' w' j st E Hn Ht x Hin; cbn [c_run] in E; [injection E as <- <- <-; contradiction|].
  destruct (c_call sep me fs c d w) as [[n1 d1] w1] eqn:E1. destruct (c_run sep me fs cs d1 w1) as [[n2 d2] w2] eqn:E2. injection E as <- <- <-.
  assert (X : nth_error (d_states d1) j = Some st /\ forall c, ~ In (Got j false c) n1).
  { assert (R : forall l, c_round sep me fs l d w = (n1, d1, w1) -> nth_error (d_states d1) j = Some st /\ forall c, ~ In (Got j false c) n1).
    { intros l X. unfold c_round in X. destruct (c_offer sep me l 0 fs (d_states d) (d_chosen d) w) as [[[n3 st3] ch3] w3] eqn:E3. injection X as <- <- <-.
      rewrite <- (Nat.sub_0_r j) in Hn. destruct (c_offer_untried _ _ _ _ _ _ _ _ _ _ _ _ _ j st E3 Hn Ht (Nat.le_0_l j)) as (A & B).
      rewrite Nat.sub_0_r in A. auto. }
    assert (P : forall i h s, d_forward d i h s c w = (n1, d1, w1) -> nth_error (d_states d1) j = Some st /\ forall c, ~ In (Got j false c) n1).
    { intros i h s X. unfold d_forward in X. destruct (h_call h c s w) as [s1 w3]. injection X as <- <- <-. split; [exact Hn|]. intros y [Y|[]]. discriminate. }
    unfold c_call in E1. destruct c; try (eapply R; exact E1); destruct (d_chosen d) as [|i h s|]; try (eapply R; exact E1); try (eapply P; exact E1);
      (injection E1 as <- <- <-; split; [exact Hn|]; intros y Y; cbn [In] in Y; intuition discriminate). }
  destruct X as (X1 & X2). apply in_app_or in Hin. destruct Hin as [Hin|Hin]; [exact (X2 _ Hin)|]. exact (IH _ _ _ _ _ _ _ E2 X1 Ht _ Hin).
Qed.

Lemma c_offer_state : forall S sep me cs (fs : list (factory S)) sts i ch w ns sts' ch' w' j st,
  c_offer sep me cs i fs sts ch w = (ns, sts', ch', w') -> length sts = length fs -> (i <= j)%nat -> nth_error sts (j - i) = Some st -> tried st = true ->
  exists v, In (Said j v) ns /\ nth_error sts' (j - i) = Some (Some v).
Proof.
  intros S sep me cs. induction fs as [|f fs IH]; intros sts i ch w ns sts' ch' w' j st E Hl Hi Hn Ht.
  - destruct sts; [|discriminate]. destruct (j - i)%nat; discriminate.
  - destruct sts as [|st0 sts]; [discriminate|]. injection Hl as Hl. cbn [c_offer] in E. destruct (Nat.eq_dec j i) as [->|N0].
    + rewrite Nat.sub_diag in *. cbn [nth_error] in Hn. injection Hn as ->. rewrite Ht in E.
      destruct (h_new (f (length (w_ctx w))) (ctx_copy me w)) as [s0 w0]. destruct (calls (f (length (w_ctx w))) cs s0 w0) as [s1 w1].
      destruct (c_offer sep me cs (Datatypes.S i) fs sts _ _) as [[[n3 st3] ch3] w3] eqn:E3. injection E as <- <- <- <-.
      eexists. split; [apply in_or_app; right; left; reflexivity|reflexivity].
    + replace (j - i)%nat with (Datatypes.S (j - Datatypes.S i)) in * by lia. cbn [nth_error] in Hn. destruct (tried st0).
      * destruct (h_new (f (length (w_ctx w))) (ctx_copy me w)) as [s0 w0]. destruct (calls (f (length (w_ctx w))) cs s0 w0) as [s1 w1].
        destruct (c_offer sep me cs (Datatypes.S i) fs sts _ _) as [[[n3 st3] ch3] w3] eqn:E3. injection E as <- <- <- <-. cbn [nth_error].
        destruct (IH _ _ _ _ _ _ _ _ j st E3 Hl ltac:(lia) Hn Ht) as (v & A & B). exists v. split; [apply in_or_app; right; right; exact A|exact B].
      * destruct (c_offer sep me cs (Datatypes.S i) fs sts _ _) as [[[n3 st3] ch3] w3] eqn:E3. injection E as <- <- <- <-. cbn [nth_error].
        exact (IH _ _ _ _ _ _ _ _ j st E3 Hl ltac:(lia) Hn Ht).
Qed.
