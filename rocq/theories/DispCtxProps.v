(** C71: contexts handed out by dispatchers. *)
From Verif Require Import Base HeaderModel OptSpec UriModel UriSpec UriProofs DecoderModel DecoderSpec DispatchModel DispatchSpec DispatchProofs RouteProofs RouteProps
  ContextModel CtxSubModel CtxSubSpec DispCtxModel DispCtxSpec DispCtxProofs DispCtxRoute.
From Verif Require SubjectModel SubjectSpec SubjectProps DecoderProps.
Local Open Scope N_scope.

(** Neither the application's context nor the dispatcher's own one is ever changed,
    whatever observers are in the table and whatever is received. *)
Theorem C71_unfilled : forall S sep (fs : list (factory S)) cs c ns d w, Forall (offered S) fs -> app_run sep fs cs c = (ns, d, w) ->
  ctx_at 0 w = Some c /\ ctx_at 1 w = Some c.
Proof. intros S sep fs cs c ns d w Hf E. destruct (app_good _ _ _ _ _ _ _ _ Hf E) as (_ & A & B & _). auto. Qed.
Print Assumptions C71_unfilled.

(** Hence no table fills the context with a message, context handler or not. *)
Theorem C71_filled_refuted : forall S sep (fs : list (factory S)) m junk ns d w, Forall (offered S) fs -> 64 <= h0 (m_hdr m) ->
  app_run sep fs (SubjectSpec.msg_calls m) (ctx_new junk) = (ns, d, w) -> exists c, ctx_at 0 w = Some c /\ ~ holds m c.
Proof.
  intros S sep fs m junk ns d w Hf Hv E. destruct (C71_unfilled _ _ _ _ _ _ _ _ Hf E) as (A & _). exists (ctx_new junk). split; [exact A|].
  intros (H & _). cbn [ctx_new c_hdr] in H. rewrite <- H in Hv. cbn [h0] in Hv. lia.
Qed.
Print Assumptions C71_filled_refuted.

(** Whenever a static observer is told anything, its context pointer leads to an object
    that no longer exists. *)
Theorem C71_dangling : forall S sep (fs : list (factory S)) cs c ns d w, Forall (offered S) fs -> app_run sep fs cs c = (ns, d, w) ->
  Forall dangling (w_log w).
Proof. intros S sep fs cs c ns d w Hf E. destruct (app_good _ _ _ _ _ _ _ _ Hf E) as ((_ & A) & _). exact A. Qed.
Print Assumptions C71_dangling.

(** Routing is not disturbed by the context handlers in a table: the last observer whose
    path agrees is told the rest of the message, nobody else anything. *)
Theorem C71_routed : forall ks h toks pre seg post pays c, request_code h -> Forall is_token_call toks -> Forall is_payload_call pays ->
  Forall (fun o => ~ is_segment o) pre -> seg <> [] ->
  exists ns d w, app_run true (map kind_factory ks) (msg_calls h toks (pre ++ (URI_PATH, seg) :: post) pays) c = (ns, d, w) /\
    (chooses_none ks seg -> w_log w = []) /\
    (forall k, chooses ks seg k -> w_log w = map (fun x => (k, x, None)) (options_calls post ++ pays)).
Proof.
  intros ks h toks pre seg post pays c Hh Ht Hp Hpre Hs. destruct (c_routed ks h toks pre seg post pays c Hh Ht Hp Hpre Hs) as (ns & d & w & E & A & B).
  exists ns, d, w. split; [exact E|]. pose proof (C71_dangling _ _ _ _ _ _ _ _ (kinds_offered ks) E) as D.
  assert (X : forall l xs, Forall dangling l -> map fst l = xs -> l = map (fun e => (e, @None ctx)) xs).
  { clear. induction l as [|[e x] l IH]; intros xs D <-; [reflexivity|]. inversion D as [|? ? D1 D2]; subst. unfold dangling in D1. cbn [snd] in D1. subst x.
    cbn [map fst]. f_equal. now apply IH. }
  split; [intros H; exact (X _ _ D (A H))|]. intros k H. rewrite (X _ _ D (B k H)). rewrite map_map. reflexivity.
Qed.
Print Assumptions C71_routed.

(** From the bytes of a datagram on. *)
Lemma calls_of_message : forall m, msg_ok m -> SubjectSpec.msg_calls m =
  msg_calls (m_hdr m) (match m_tok m with [] => [] | t => [OnToken t true] end) (m_opts m) (match m_pay m with None => [] | Some b => [OnPayload b true] end).
Proof.
  intros m (_ & _ & _ & _ & Ho & _). unfold SubjectSpec.msg_calls, msg_calls. cbn [app]. f_equal. f_equal. f_equal.
  revert Ho. generalize 0 at 1. generalize (m_opts m) as os. induction os as [|[n v] os IH]; intros prev Ho; [reflexivity|].
  cbn [opts_ok] in Ho. destruct Ho as (_ & _ & Hl & _ & Ho). unfold options_calls in *. cbn [flat_map]. rewrite (IH n Ho). f_equal.
  unfold SubjectSpec.opt_call, opt_calls. cbn [fst snd]. unfold len in *. rewrite N.mod_small by exact Hl. reflexivity.
Qed.
Theorem C71_bytes : forall ks m b r pre seg post d0 c, msg_ok m -> SubjectSpec.fresh d0 -> m_pay m = Some (b :: r) -> request_code (m_hdr m) ->
  m_opts m = pre ++ (URI_PATH, seg) :: post -> Forall (fun o => ~ is_segment o) pre -> seg <> [] ->
  exists es d1 ns d w, SubjectModel.sub_dispatch (msg_bytes m) true d0 = Ok (es, d1, length (msg_bytes m)) /\
    app_run true (map kind_factory ks) es c = (ns, d, w) /\ ctx_at 0 w = Some c /\
    (chooses_none ks seg -> w_log w = []) /\
    (forall k, chooses ks seg k -> w_log w = map (fun x => (k, x, None)) (options_calls post ++ [OnPayload (b :: r) true])).
Proof.
  intros ks m b r pre seg post d0 c Hm Hd HP Hh Ho Hpre Hs. destruct (SubjectProps.C47_one_piece m d0 b r Hm Hd HP) as (d1 & E).
  rewrite (calls_of_message m Hm), HP, Ho in E.
  destruct (C71_routed ks (m_hdr m) (match m_tok m with [] => [] | t => [OnToken t true] end) pre seg post [OnPayload (b :: r) true] c Hh) as (ns & d & w & E1 & A & B);
    [destruct (m_tok m); repeat constructor|repeat constructor|exact Hpre|exact Hs|].
  do 5 eexists. split; [exact E|]. split; [exact E1|]. split; [exact (proj1 (C71_unfilled _ _ _ _ _ _ _ _ (kinds_offered ks) E1))|]. auto.
Qed.
Print Assumptions C71_bytes.

(** What a context handler answers depends on the present call alone: with a token it is
    never satisfied, without one it is after the header. *)
Theorem C71_answers : forall sep ks cs junk ns d w c ns' d' w' i v, app_run sep (map kind_factory ks) cs (ctx_new junk) = (ns, d, w) ->
  match c with OnToken t _ => (length t <= 8)%nat | _ => True end ->
  c_call sep 1 (map kind_factory ks) c d w = (ns', d', w') -> nth_error ks i = Some KContext -> In (Said i v) ns' -> v = answer c.
Proof.
  intros sep ks cs junk ns [sts ch] w c ns' d' w' i v E Ht Ec Hk Hin. destruct (app_good _ _ _ _ _ _ _ _ (kinds_offered ks) E) as (G & _ & M & L & C).
  cbn [d_chosen] in C.
  assert (R : forall cs, round cs -> Forall (fun c => match c with OnToken t _ => (length t <= 8)%nat | _ => True end) cs -> answer (last cs OnComplete) = answer c ->
    c_round sep 1 (map kind_factory ks) cs (Disp sts ch) w = (ns', d', w') -> v = answer c).
  { intros l Hr Hl Ha X. unfold c_round in X. cbn [d_states d_chosen] in X.
    destruct (c_offer sep 1 l 0 (map kind_factory ks) sts ch w) as [[[n3 st3] ch3] w3] eqn:E3. injection X as <- <- <-.
    destruct (c_offer_said sep 1 junk l ks sts 0 ch w n3 st3 ch3 w3 i v Hr Hl C G L M E3 Hin) as (_ & X). rewrite Nat.sub_0_r in X. rewrite (X Hk). exact Ha. }
  assert (O : forall x, round [x]) by (intros x; left; eauto).
  assert (P : forall j h s, d_forward (Disp sts ch) j h s c w = (ns', d', w') -> v = answer c).
  { intros j h s X. unfold d_forward in X. destruct (h_call h c s w) as [s1 w3]. injection X as <- <- <-. destruct Hin as [X|[]]. discriminate. }
  unfold c_call in Ec. cbn [d_chosen] in Ec.
  destruct c; try (match type of Ec with c_round _ _ _ [?x] _ _ = _ => exact (R [x] (O x) (Forall_cons x Ht (Forall_nil _)) eq_refl Ec) end); destruct ch as [|j hh s|];
    try (eapply P; exact Ec); try (match type of Ec with c_round _ _ _ [?x] _ _ = _ => exact (R [x] (O x) (Forall_cons x Ht (Forall_nil _)) eq_refl Ec) end);
    try (injection Ec as <- <- <-; cbn [In] in Hin; intuition discriminate).
  eapply R; [right; eauto| | |exact Ec]; [repeat constructor|reflexivity].
Qed.
Print Assumptions C71_answers.

(** It asks for more for as long as anything is offered if there is a token ... *)
Theorem C71_token : forall sep ks cs junk ns d w i v, nth_error ks i = Some KContext ->
  Forall (fun c => match c with OnHeader h => 0 < hdr_tkl h | OnToken t _ => (length t <= 8)%nat | _ => True end) cs ->
  app_run sep (map kind_factory ks) cs (ctx_new junk) = (ns, d, w) -> In (Said i v) ns -> v = Currently.
Proof.
  intros sep ks cs junk ns d w i v Hk H. revert ns d w. induction cs as [|c cs IH] using rev_ind; intros ns d w E Hin.
  - cbn in E. injection E as <- <- <-. contradiction.
  - apply Forall_app in H. destruct H as (H & Hc). inversion Hc as [|? ? Hc1 _]; subst.
    unfold app_run in E. cbn [fdh_factory h_new] in E. rewrite c_run_app in E.
    destruct (c_run sep (length (w_ctx (app_world (ctx_new junk)))) (map kind_factory ks) cs _ _) as [[n1 d1] w1] eqn:E1.
    assert (A : app_run sep (map kind_factory ks) cs (ctx_new junk) = (n1, d1, w1)) by exact E1.
    cbn [c_run] in E. destruct (c_call sep _ (map kind_factory ks) c d1 w1) as [[n2 d2] w2] eqn:E2. injection E as <- <- <-.
    rewrite app_nil_r in Hin. apply in_app_or in Hin. destruct Hin as [Hin|Hin]; [exact (IH H _ _ _ A Hin)|].
    assert (Hs : match c with OnToken t _ => (length t <= 8)%nat | _ => True end) by (destruct c; auto).
    rewrite (C71_answers sep ks cs junk n1 d1 w1 c n2 d2 w2 i v A Hs E2 Hk Hin). destruct c; try reflexivity. cbn [answer].
    replace (hdr_tkl h =? 0) with false by (symmetry; apply N.eqb_neq; lia). now rewrite Bool.andb_false_r.
Qed.
Print Assumptions C71_token.

(** ... and after the header of a message without one it is not made again. *)
Theorem C71_no_token : forall sep ks h cs junk ns d w i, nth_error ks i = Some KContext -> 0 < hdr_version h -> hdr_tkl h = 0 ->
  app_run sep (map kind_factory ks) (OnHeader h :: cs) (ctx_new junk) = (ns, d, w) ->
  exists n1 d1 w1 n2, app_run sep (map kind_factory ks) [OnHeader h] (ctx_new junk) = (n1, d1, w1) /\ ns = n1 ++ n2 /\
    In (Said i Never) n1 /\ forall c, ~ In (Got i false c) n2.
Proof.
  intros sep ks h cs junk ns d w i Hk Hv Ht E. unfold app_run in E. cbn [fdh_factory h_new] in E.
  change (OnHeader h :: cs) with ([OnHeader h] ++ cs) in E. rewrite c_run_app in E.
  destruct (c_run sep (length (w_ctx (app_world (ctx_new junk)))) (map kind_factory ks) [OnHeader h] _ _) as [[n1 d1] w1] eqn:E1.
  destruct (c_run sep _ (map kind_factory ks) cs d1 w1) as [[n2 d2] w2] eqn:E2. injection E as <- <- <-.
  exists n1, d1, w1, n2. split; [exact E1|]. split; [reflexivity|].
  cbn [c_run c_call] in E1. unfold c_round in E1. cbn [d_states d_chosen] in E1.
  match type of E1 with context [c_offer sep ?m ?l 0 ?fs ?sts Empty ?w0] => set (me := m) in *; set (st0 := sts) in *; set (w00 := w0) in * end.
  destruct (c_offer sep me [OnHeader h] 0 (map kind_factory ks) st0 Empty w00) as [[[n3 st3] ch3] w3] eqn:E3. rewrite app_nil_r in E1. injection E1 as <- <- <-.
  assert (Hn : nth_error st0 (i - 0) = Some None).
  { rewrite Nat.sub_0_r. unfold st0. rewrite map_map. rewrite (map_nth_error _ _ _ Hk). reflexivity. }
  destruct (c_offer_state _ _ _ _ _ _ _ _ _ _ _ _ _ i None E3 ltac:(unfold st0; rewrite !map_length; reflexivity) (Nat.le_0_l i) Hn eq_refl) as (v & A & B).
  assert (V : v = Never).
  { assert (G : good None w00) by (split; [discriminate|constructor]).
    destruct (c_offer_said sep me junk [OnHeader h] ks st0 0 Empty w00 n3 st3 ch3 w3 i v (or_introl (ex_intro _ _ eq_refl)) ltac:(repeat constructor) I G
      ltac:(unfold me, w00; cbn; lia) eq_refl E3 A) as (_ & X).
    rewrite Nat.sub_0_r in X. rewrite (X Hk). cbn [last answer]. apply N.ltb_lt in Hv. rewrite Hv, Ht. reflexivity. }
  subst v. split; [exact A|]. rewrite Nat.sub_0_r in B. exact (c_run_untried _ _ _ _ _ _ _ _ _ _ i (Some Never) E2 B eq_refl).
Qed.
Print Assumptions C71_no_token.

(** With observers that do not look at contexts, all is as in the model without them (C40). *)
Theorem C71_same : forall S sep me (hs : list (handler S _)) cs d w ns d' l, d_run sep hs cs d (w_log w) = (ns, d', l) ->
  exists w', c_run sep me (blinds hs) cs (blind_disp d) w = (ns, blind_disp d', w') /\ w_log w' = l.
Proof.
  intros S sep me hs cs d w ns d' l E. destruct (blind_run S sep me hs cs d w) as (w' & A & B). rewrite E in A, B. exists w'. auto.
Qed.
Print Assumptions C71_same.

(** The table of the dispatcher unit test (test/unit-tests/coap-dispatcher-test.cpp 99-131):
    a context handler, "v1" and "TEST" over "POS"; observer 7 gets the payload *)
Definition pos_table : list (factory (interested * unit)) := [uri_factory [80;79;83] (static_factory 7)].
Definition test_table : list (factory (unit + (interested * (nat * disp (interested * unit) world)))) :=
  [fun a => left_handler (ctx_factory a);
   fun a => right_handler (uri_factory [118;49] (fdh_factory true pos_table) a);
   fun a => right_handler (uri_factory [84;69;83;84] (fdh_factory true pos_table) a)].
Definition test_msg : msg := Msg (Hdr 66 1 18 52) [170;187] [(URI_PATH, [84;69;83;84]); (URI_PATH, [80;79;83])] (Some [16;17;18;19;20;21;22]).
Example C71_case : Forall (offered _) test_table /\
  let '(ns, d, w) := app_run true test_table (SubjectSpec.msg_calls test_msg) (ctx_new [9;9;9;9;9;9;9;9]) in
  ctx_at 0 w = Some (ctx_new [9;9;9;9;9;9;9;9]) /\ w_log w = [(7%nat, OnPayload [16;17;18;19;20;21;22] true, None)] /\
  In (Said 0 Currently) ns /\ ~ In (Said 0 Never) ns.
Proof.
  split.
  - repeat constructor; intros f [<-|[]]; apply OfObserver.
  - vm_compute. repeat split; auto. intuition discriminate.
Qed.

(** a flat table and a datagram *)
Definition flat_kinds : list kind := [KContext; KObserver [97] 0; KObserver [98] 1; KContext].
Definition flat_msg : msg := Msg (Hdr 65 1 0 9) [5] [(URI_PATH, [97]); (12, [0])] (Some [1;2]).
Example C71_bytes_case : msg_ok flat_msg /\ request_code (m_hdr flat_msg) /\ chooses flat_kinds [97] 0 /\
  (let '(ns, d, w) := app_run true (map kind_factory flat_kinds) (SubjectSpec.msg_calls flat_msg) (ctx_new [0;0;0;0;0;0;0;0]) in
   w_log w = [(0%nat, OnOption 12 1, None); (0%nat, OnValue 12 [0] true, None); (0%nat, OnPayload [1;2] true, None)] /\
   In (Said 3 Currently) ns) /\
  (let '(ns, d, w) := app_run true (map kind_factory flat_kinds) [OnHeader (Hdr 64 1 0 9); OnPayload [1] true] (ctx_new []) in
   In (Said 0 Never) ns /\ d_states d = [Some Never; Some Currently; Some Currently; Some Never]).
Proof.
  split; [|split; [reflexivity|split]].
  - unfold msg_ok, flat_msg, hdr_ok, bytes_ok. cbn [m_hdr m_tok m_opts m_pay hdr_bytes]. repeat split; try (cbn [length]; lia);
      repeat (apply Forall_cons || apply Forall_nil); vm_compute; (reflexivity || discriminate).
  - exists [KContext], [97], [KObserver [98] 1; KContext]. split; [reflexivity|]. split.
    + left. split; [repeat constructor; unfold ascii; cbn; lia|exists []; reflexivity].
    + intros q j [X|[X|[]]]; [|discriminate]. injection X as <- _. intros [(_ & t & Y)|(_ & t & Y)]; discriminate.
  - vm_compute. repeat split; auto 10.
Qed.
