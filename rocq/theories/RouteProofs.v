(** Dispatchers over URI path handlers. *)
From Verif Require Import Base HeaderModel UriModel UriSpec UriProofs DispatchModel DispatchSpec DispatchProofs.
Local Open Scope N_scope.

Definition uris {S W} (items : list (list N * handler S W)) : list (handler (interested * S) W) :=
  map (fun x => uri_handler (fst x) (snd x)) items.

Definition quiet_items {S W} (items : list (list N * handler S W)) : Prop :=
  Forall (fun x => exists s, quiet_new (snd x) s) items.

Lemma agrees_iff : forall s p, dispatcher_starts_with s p = true <-> agrees s p.
Proof. intros. apply dispatcher_prefix. Qed.

(** calls that leave a new URI handler and the world as they are *)
Definition idle_calls (cs : list call) : Prop :=
  Forall (fun c => match c with
    | OnHeader h => hdr_is_request h = true
    | OnValue n _ _ => n <> URI_PATH
    | _ => True end) cs.

Lemma idle_uri : forall S W p (inner : handler S W) cs s w, idle_calls cs ->
  calls (uri_handler p inner) cs (Currently, s) w = ((Currently, s), w).
Proof.
  intros S W p inner cs s w H. induction H as [|c cs Hc H IH]; [reflexivity|].
  cbn [calls]. destruct c; cbn [uri_handler h_call is_always]; try exact IH.
  - rewrite Hc. exact IH.
  - replace (number =? URI_PATH) with false by (symmetry; now apply N.eqb_neq). exact IH.
Qed.

(** a round of such calls *)
Lemma idle_round : forall S W cs (items : list (list N * handler S W)) sts i ch w, idle_calls cs -> quiet_items items ->
  length sts = length items ->
  exists ns sts', offer true cs i (uris items) sts ch w = (ns, sts', ch, w) /\ length sts' = length items /\
    (Forall (fun st => tried st = true) sts -> Forall (fun st => tried st = true) sts').
Proof.
  intros S W cs. induction items as [|[p h] items IH]; intros sts i ch w Hc Hq Hl.
  - destruct sts; [|discriminate]. exists [], []. repeat split; auto.
  - destruct sts as [|st sts]; [discriminate|]. injection Hl as Hl. inversion Hq as [|? ? (s & Hs) Hq']; subst. cbn [snd] in Hs.
    cbn [uris map offer fst snd]. fold (uris items). destruct (tried st) eqn:T.
    + cbn [uri_handler h_new]. rewrite Hs. fold (uri_handler p h). rewrite idle_uri by assumption. cbn [uri_handler h_interested fst is_always].
      replace (match ch with Kept _ _ _ => ch | _ => ch end) with ch by (destruct ch; reflexivity).
      destruct (IH sts (Datatypes.S i) ch w Hc Hq' Hl) as (ns & sts' & E & L & F). cbn iota. rewrite E.
      do 2 eexists. split; [reflexivity|]. split; [cbn; lia|]. intros X. inversion X; subst. constructor; [reflexivity|auto].
    + destruct (IH sts (Datatypes.S i) ch w Hc Hq' Hl) as (ns & sts' & E & L & F). rewrite E.
      do 2 eexists. split; [reflexivity|]. split; [cbn; lia|]. intros X. inversion X; subst. congruence.
Qed.

(** nobody is interested any more *)
Lemma never_round : forall S W sep cs (fs : list (handler S W)) sts i ch w, Forall (fun st => tried st = false) sts ->
  offer sep cs i fs sts ch w = ([], sts, ch, w).
Proof.
  intros S W sep cs. induction fs as [|f fs IH]; intros sts i ch w H; [destruct sts; reflexivity|].
  destruct H as [|st sts H0 H]; [reflexivity|]. cbn [offer]. rewrite H0, IH by assumption. reflexivity.
Qed.
Lemma never_run : forall S W sep (fs : list (handler S W)) cs sts w, Forall (fun st => tried st = false) sts ->
  d_run sep fs cs (Disp sts Empty) w = ([], Disp sts Empty, w).
Proof.
  intros S W sep fs. induction cs as [|c cs IH]; intros sts w H; [reflexivity|]. cbn [d_run].
  assert (E : d_call sep fs c (Disp sts Empty) w = ([], Disp sts Empty, w)).
  { unfold d_call, d_offer. destruct c; cbn [d_chosen d_states]; rewrite ?never_round by assumption; reflexivity. }
  rewrite E, IH by assumption. reflexivity.
Qed.

Lemma refuse_uri : forall S W p (inner : handler S W) h s w, hdr_is_request h = false ->
  calls (uri_handler p inner) [OnHeader h] (Currently, s) w = ((Never, s), w).
Proof. intros S W p inner h s w H. cbn [calls uri_handler h_call]. rewrite H. reflexivity. Qed.

Lemma segment_uri : forall S W p (inner : handler S W) l seg s w,
  calls (uri_handler p inner) [OnOption URI_PATH l; OnValue URI_PATH seg true] (Currently, s) w =
  ((if dispatcher_starts_with seg p then Always else Never, s), w).
Proof. reflexivity. Qed.

(** a response header puts everybody off *)
Lemma refuse_round : forall S W (items : list (list N * handler S W)) sts i w h, hdr_is_request h = false -> quiet_items items ->
  length sts = length items ->
  exists ns sts', offer true [OnHeader h] i (uris items) sts Empty w = (ns, sts', Empty, w) /\ Forall (fun st => tried st = false) sts'.
Proof.
  intros S W. induction items as [|[p f] items IH]; intros sts i w h Hh Hq Hl.
  - destruct sts; [|discriminate]. exists [], []. split; [reflexivity|constructor].
  - destruct sts as [|st sts]; [discriminate|]. injection Hl as Hl. inversion Hq as [|? ? (s & Hs) Hq']; subst. cbn [snd] in Hs.
    destruct (IH sts (Datatypes.S i) w h Hh Hq' Hl) as (ns & sts' & E & F).
    cbn [uris map offer fst snd]. fold (uris items). destruct (tried st) eqn:T.
    + cbn [uri_handler h_new]. rewrite Hs. fold (uri_handler p f). rewrite refuse_uri by assumption. cbn [uri_handler h_interested fst is_always]. rewrite E.
      do 2 eexists. split; [reflexivity|]. constructor; [reflexivity|assumption].
    + rewrite E. do 2 eexists. split; [reflexivity|]. constructor; assumption.
Qed.

(** the round of the first path segment *)
Lemma segment_round : forall S W (items : list (list N * handler S W)) sts i ch w l seg, quiet_items items ->
  length sts = length items -> Forall (fun st => tried st = true) sts ->
  exists ns sts' ch', offer true [OnOption URI_PATH l; OnValue URI_PATH seg true] i (uris items) sts ch w = (ns, sts', ch', w) /\
    length sts' = length items /\
    (no_match (map fst items) seg -> ch' = ch /\ Forall (fun st => tried st = false) sts') /\
    (forall j, last_match (map fst items) seg j -> exists p h s, nth_error items j = Some (p, h) /\ quiet_new h s /\
       ch' = Kept (i + j) (uri_handler p h) (Always, s)).
Proof.
  intros S W. induction items as [|[p f] items IH]; intros sts i ch w l seg Hq Hl Ht.
  - destruct sts; [|discriminate]. exists [], [], ch. split; [reflexivity|]. split; [reflexivity|]. split; [auto|].
    intros j ((q & Hj & _) & _). destruct j; discriminate.
  - destruct sts as [|st sts]; [discriminate|]. injection Hl as Hl. inversion Hq as [|? ? (s & Hs) Hq']; subst. cbn [snd] in Hs.
    inversion Ht as [|? ? T Ht']; subst.
    cbn [uris map offer fst snd]. fold (uris items). rewrite T.
    cbn [uri_handler h_new]. rewrite Hs. fold (uri_handler p f). rewrite segment_uri. cbn iota. unfold uri_handler at 1. cbn [h_interested fst].
    set (v := if dispatcher_starts_with seg p then Always else Never).
    set (ch1 := if is_always v then Kept i (uri_handler p f) (v, s) else match ch with Kept _ _ _ => ch | _ => ch end).
    destruct (IH sts (Datatypes.S i) ch1 w l seg Hq' Hl Ht') as (ns & sts' & ch' & E & L & N0 & M).
    match goal with |- context [offer true _ (Datatypes.S i) (uris items) sts ?c w] => change c with ch1 end. rewrite E.
    do 3 eexists. split; [reflexivity|]. split; [cbn; lia|]. split.
    + intros H. assert (Hp : ~ agrees seg p) by (apply H; left; reflexivity).
      assert (Hv : dispatcher_starts_with seg p = false) by (destruct (dispatcher_starts_with seg p) eqn:X; [exfalso; apply Hp; now apply agrees_iff|reflexivity]).
      destruct N0 as (A & B); [intros q Hin; apply H; right; exact Hin|]. subst ch'. unfold ch1, v. rewrite Hv. cbn [is_always].
      split; [destruct ch; reflexivity|]. constructor; [reflexivity|assumption].
    + intros j ((q & Hj & Hag) & Hlast). destruct j as [|j].
      * cbn [map nth_error fst] in Hj. injection Hj as <-. exists p, f, s. split; [reflexivity|]. split; [assumption|].
        destruct N0 as (A & _).
        { intros q Hin. apply In_nth_error in Hin. destruct Hin as (k & Hk). apply (Hlast (Datatypes.S k)); [lia|exact Hk]. }
        rewrite A. unfold ch1, v. rewrite (proj2 (agrees_iff seg p) Hag). cbn [is_always]. rewrite Nat.add_0_r. reflexivity.
      * destruct (M j) as (q2 & h2 & s2 & A & B & C).
        { split; [exists q; split; [exact Hj|exact Hag]|]. intros k q3 Hk Hq3. apply (Hlast (Datatypes.S k)); [lia|exact Hq3]. }
        exists q2, h2, s2. split; [exact A|]. split; [exact B|]. rewrite C. f_equal. lia.
Qed.

(** an interested URI handler passes options and payload on *)
Lemma pass_uri : forall S W p (inner : handler S W) cs s w,
  Forall (fun c => match c with OnOption _ _ | OnValue _ _ _ | OnPayload _ _ => True | _ => False end) cs ->
  calls (uri_handler p inner) cs (Always, s) w = ((Always, fst (calls inner cs s w)), snd (calls inner cs s w)).
Proof.
  intros S W p inner cs s w H. revert s w. induction H as [|c cs Hc H IH]; intros s w; [reflexivity|].
  cbn [calls]. destruct c; try contradiction; cbn [uri_handler h_call is_always];
    destruct (h_call inner _ s w) as [s1 w1] eqn:E; cbn iota beta zeta; fold (uri_handler p inner); rewrite IH; reflexivity.
Qed.

(** the same while nobody is chosen, however memory is shared *)
Lemma idle_round_empty : forall S W sep cs (items : list (list N * handler S W)) sts i w, idle_calls cs -> quiet_items items ->
  length sts = length items ->
  exists ns sts', offer sep cs i (uris items) sts Empty w = (ns, sts', Empty, w) /\ length sts' = length items /\
    (Forall (fun st => tried st = true) sts -> Forall (fun st => tried st = true) sts').
Proof.
  intros S W sep cs. induction items as [|[p h] items IH]; intros sts i w Hc Hq Hl.
  - destruct sts; [|discriminate]. exists [], []. repeat split; auto.
  - destruct sts as [|st sts]; [discriminate|]. injection Hl as Hl. inversion Hq as [|? ? (s & Hs) Hq']; subst. cbn [snd] in Hs.
    cbn [uris map offer fst snd]. fold (uris items).
    destruct (IH sts (Datatypes.S i) w Hc Hq' Hl) as (ns & sts' & E & L & F). destruct (tried st) eqn:T.
    + cbn [uri_handler h_new]. rewrite Hs. fold (uri_handler p h). rewrite idle_uri by assumption. cbn [uri_handler h_interested fst is_always].
      rewrite E. do 2 eexists. split; [reflexivity|]. split; [cbn; lia|]. intros X. inversion X; subst. constructor; [reflexivity|auto].
    + rewrite E. do 2 eexists. split; [reflexivity|]. split; [cbn; lia|]. intros X. inversion X; subst. congruence.
Qed.

(** the round of the first segment when all objects are made at one address *)
Lemma segment_round_shared : forall S W (items : list (list N * handler S W)) sts i ch w l seg, quiet_items items ->
  length sts = length items -> Forall (fun st => tried st = true) sts ->
  exists ns sts' ch', offer false [OnOption URI_PATH l; OnValue URI_PATH seg true] i (uris items) sts ch w = (ns, sts', ch', w) /\
    (no_match (map fst items) seg -> match ch with Empty => ch' = Empty | Lost => ch' = Lost | Kept _ _ _ => items <> [] -> ch' = Lost end) /\
    (forall j, last_match (map fst items) seg j -> (Datatypes.S j < length items)%nat -> ch' = Lost).
Proof.
  intros S W. induction items as [|[p f] items IH]; intros sts i ch w l seg Hq Hl Ht.
  - destruct sts; [|discriminate]. exists [], [], ch. split; [reflexivity|]. split; [destruct ch; auto; congruence|].
    intros j ((q & Hj & _) & _). destruct j; discriminate.
  - destruct sts as [|st sts]; [discriminate|]. injection Hl as Hl. inversion Hq as [|? ? (s & Hs) Hq']; subst. cbn [snd] in Hs.
    inversion Ht as [|? ? T Ht']; subst.
    cbn [uris map offer fst snd]. fold (uris items). rewrite T.
    cbn [uri_handler h_new]. rewrite Hs. fold (uri_handler p f). rewrite segment_uri. cbn iota. unfold uri_handler at 1. cbn [h_interested fst].
    set (v := if dispatcher_starts_with seg p then Always else Never).
    set (ch1 := if is_always v then Kept i (uri_handler p f) (v, s) else match ch with Kept _ _ _ => Lost | _ => ch end).
    destruct (IH sts (Datatypes.S i) ch1 w l seg Hq' Hl Ht') as (ns & sts' & ch' & E & N0 & M).
    match goal with |- context [offer false _ (Datatypes.S i) (uris items) sts ?c w] => change c with ch1 end. rewrite E.
    do 3 eexists. split; [reflexivity|]. split.
    + intros H. assert (Hp : ~ agrees seg p) by (apply H; left; reflexivity).
      assert (Hv : dispatcher_starts_with seg p = false) by (destruct (dispatcher_starts_with seg p) eqn:X; [exfalso; apply Hp; now apply agrees_iff|reflexivity]).
      assert (N1 : no_match (map fst items) seg) by (intros q Hin; apply H; right; exact Hin).
      specialize (N0 N1). unfold ch1, v in N0. rewrite Hv in N0. cbn [is_always] in N0. destruct ch; auto.
    + intros j ((q & Hj & Hag) & Hlast) Hlen. destruct j as [|j].
      * cbn [map nth_error fst] in Hj. injection Hj as <-.
        assert (N1 : no_match (map fst items) seg).
        { intros q Hin. apply In_nth_error in Hin. destruct Hin as (k & Hk). apply (Hlast (Datatypes.S k)); [lia|exact Hk]. }
        specialize (N0 N1). unfold ch1, v in N0. rewrite (proj2 (agrees_iff seg p) Hag) in N0. cbn [is_always] in N0. apply N0.
        intros ->. cbn in Hlen. lia.
      * apply (M j); [|cbn [length] in Hlen; lia].
        split; [exists q; split; [exact Hj|exact Hag]|]. intros k q3 Hk Hq3. apply (Hlast (Datatypes.S k)); [lia|exact Hq3].
Qed.

(** waiting for the first segment *)
Definition waiting {S W} (items : list (list N * handler S W)) (d : disp (interested * S) W) : Prop :=
  d_chosen d = Empty /\ length (d_states d) = length items /\ Forall (fun st => tried st = true) (d_states d).

Lemma waiting_start : forall S W (items : list (list N * handler S W)),
  waiting items (Disp (map (fun _ => None) (uris items)) Empty).
Proof.
  intros S W items. split; [reflexivity|]. cbn [d_states]. unfold uris. rewrite !map_length. split; [reflexivity|].
  apply Forall_forall. intros st H. rewrite map_map in H. apply in_map_iff in H. destruct H as (? & <- & _). reflexivity.
Qed.

Lemma waiting_call : forall S W (items : list (list N * handler S W)) sep c d w, quiet_items items -> waiting items d -> idle_calls [c] ->
  exists ns d', d_call sep (uris items) c d w = (ns, d', w) /\ waiting items d'.
Proof.
  intros S W items sep c [sts ch] w Hq (A & B & C) Hc. cbn [d_chosen d_states] in *. subst ch.
  assert (K : forall cs, idle_calls cs -> exists ns d', d_offer sep (uris items) cs (Disp sts Empty) w = (ns, d', w) /\ waiting items d').
  { intros cs H. unfold d_offer. cbn [d_states d_chosen]. destruct (idle_round_empty S W sep cs items sts 0 w H Hq B) as (ns & sts' & E & L & F).
    rewrite E. do 2 eexists. split; [reflexivity|]. split; [reflexivity|]. split; [exact L|exact (F C)]. }
  unfold d_call. cbn [d_chosen]. destruct c; try (apply K; exact Hc).
  - do 2 eexists. split; [reflexivity|]. split; [reflexivity|]. split; assumption.
  - apply K. inversion Hc; subst. constructor; [exact I|]. constructor; [assumption|constructor].
Qed.

Lemma waiting_run : forall S W (items : list (list N * handler S W)) sep cs d w, quiet_items items -> waiting items d -> idle_calls cs ->
  exists ns d', d_run sep (uris items) cs d w = (ns, d', w) /\ waiting items d'.
Proof.
  intros S W items sep cs d w Hq Hd Hc. revert d Hd. induction Hc as [|c cs H0 Hc IH]; intros d Hd.
  - exists [], d. split; [reflexivity|assumption].
  - destruct (waiting_call S W items sep c d w Hq Hd ltac:(constructor; [exact H0|constructor])) as (ns & d1 & E & Hd1).
    destruct (IH d1 Hd1) as (ms & d2 & E2 & Hd2). cbn [d_run]. rewrite E, E2. do 2 eexists. split; [reflexivity|assumption].
Qed.

(** what comes after the segment, up to the end of the message *)
Definition rest_calls (c : call) : Prop := match c with OnOption _ _ | OnValue _ _ _ | OnPayload _ _ => True | _ => False end.

Lemma segment_run : forall S W (items : list (list N * handler S W)) seg l later d w fin, quiet_items items -> waiting items d ->
  Forall rest_calls later -> fin = [] \/ fin = [OnComplete] ->
  exists ns d' w', d_run true (uris items) (OnOption URI_PATH l :: OnValue URI_PATH seg true :: later ++ fin) d w = (ns, d', w') /\
    (no_match (map fst items) seg -> w' = w) /\
    (forall i, last_match (map fst items) seg i -> exists p h s, nth_error items i = Some (p, h) /\ quiet_new h s /\
       w' = snd (calls h later s w)).
Proof.
  intros S W items seg l later [sts ch] w fin Hq (A & B & C) Hl Hf. cbn [d_chosen d_states] in *. subst ch.
  set (l2 := N.of_nat (length seg) mod 65536).
  destruct (segment_round S W items sts 0 Empty w l2 seg Hq B C) as (ns & sts' & ch' & E & L & N0 & M).
  assert (E1 : d_run true (uris items) [OnOption URI_PATH l; OnValue URI_PATH seg true] (Disp sts Empty) w = (ns, Disp sts' ch', w)).
  { cbn [d_run d_call d_chosen]. unfold d_offer. cbn [d_states d_chosen]. fold l2. rewrite E. cbn [app]. rewrite app_nil_r. reflexivity. }
  change (OnOption URI_PATH l :: OnValue URI_PATH seg true :: later ++ fin) with ([OnOption URI_PATH l; OnValue URI_PATH seg true] ++ (later ++ fin)).
  rewrite d_run_app, E1. cbn iota beta zeta.
  destruct (d_run true (uris items) (later ++ fin) (Disp sts' ch') w) as [[ms d2] w2] eqn:E2.
  do 3 eexists. split; [reflexivity|]. split.
  - intros H. destruct (N0 H) as (X & Y). subst ch'. rewrite never_run in E2 by exact Y. congruence.
  - intros i H. destruct (M i H) as (p & h & s & X1 & X2 & X3). exists p, h, s. split; [exact X1|]. split; [exact X2|].
    cbn [Nat.add] in X3. subst ch'.
    assert (Hmid : Forall middle later) by (eapply Forall_impl; [|exact Hl]; intros []; cbn; tauto).
    rewrite d_run_app, (kept_run _ _ true (uris items) later (Disp sts' (Kept i (uri_handler p h) (Always, s))) w i (uri_handler p h) (Always, s) Hmid eq_refl) in E2.
    rewrite pass_uri in E2 by exact Hl. cbn [fst snd d_states] in E2. set (wx := snd (calls h later s w)) in *.
    destruct Hf as [-> | ->].
    + cbn [d_run] in E2. congruence.
    + cbn [d_run d_call] in E2. unfold d_offer in E2. cbn [d_states d_chosen] in E2.
      destruct (idle_round S W [OnComplete] items sts' 0 (Kept i (uri_handler p h) (Always, fst (calls h later s w))) wx
         ltac:(constructor; [exact I|constructor]) Hq L) as (ks & sts2 & E3 & _).
      rewrite E3 in E2. congruence.
Qed.

(** * The pieces of a message *)

Lemma request_iff : forall h, hdr_is_request h = true <-> request_code h.
Proof. intros h. unfold hdr_is_request, request_code, hdr_code. rewrite N.shiftr_div_pow2. apply N.eqb_eq. Qed.

Lemma idle_tokens : forall cs, Forall is_token_call cs -> idle_calls cs.
Proof. intros cs H. eapply Forall_impl; [|exact H]. intros []; cbn; tauto. Qed.
Lemma idle_payload : forall cs, Forall is_payload_call cs -> idle_calls cs.
Proof. intros cs H. eapply Forall_impl; [|exact H]. intros []; cbn; tauto. Qed.
Lemma idle_options : forall os, Forall (fun o => ~ is_segment o) os -> idle_calls (options_calls os).
Proof.
  intros os H. induction H as [|[n v] os Hn H IH]; [constructor|]. unfold options_calls, opt_calls. cbn [flat_map fst snd app].
  constructor; [exact I|]. apply Forall_app. split; [|exact IH]. destruct v as [|b v]; [constructor|].
  constructor; [|constructor]. intros ->. apply Hn. split; [reflexivity|discriminate].
Qed.
Lemma rest_options : forall os, Forall rest_calls (options_calls os).
Proof.
  induction os as [|[n v] os IH]; [constructor|]. unfold options_calls, opt_calls. cbn [flat_map fst snd app].
  constructor; [exact I|]. apply Forall_app. split; [|exact IH]. destruct v; repeat constructor.
Qed.
Lemma rest_payload : forall cs, Forall is_payload_call cs -> Forall rest_calls cs.
Proof. intros cs H. eapply Forall_impl; [|exact H]. intros []; cbn; tauto. Qed.
Lemma options_app : forall a b, options_calls (a ++ b) = options_calls a ++ options_calls b.
Proof. intros. apply flat_map_app. Qed.

Lemma disp_calls : forall S W sep (fs : list (handler S W)) cs d w ns d' w', d_run sep fs cs d w = (ns, d', w') ->
  calls (disp_handler sep fs) cs d w = (d', w').
Proof.
  induction cs as [|c cs IH]; intros d w ns d' w' H; cbn [d_run calls] in *; [congruence|].
  cbn [disp_handler h_call]. destruct (d_call sep fs c d w) as [[n1 d1] w1]. destruct (d_run sep fs cs d1 w1) as [[n2 d2] w2] eqn:E.
  fold (disp_handler sep fs). rewrite (IH _ _ _ _ _ E). congruence.
Qed.

(** * The aggregate observer *)

Lemma agg_chosen : forall S W (items : list (list N * handler S W)) h cs s w,
  Forall (fun c => match c with OnHeader _ | OnToken _ _ => False | _ => True end) cs ->
  calls (agg_handler items) cs (Always, Some (h, s)) w =
  ((Always, Some (h, fst (calls h (values_only cs) s w))), snd (calls h (values_only cs) s w)).
Proof.
  intros S W items h cs s w H. revert s w. induction H as [|c cs Hc H IH]; intros s w; [reflexivity|].
  destruct c; try contradiction; cbn [calls agg_handler h_call snd values_only filter is_announce negb];
    try (destruct (number =? URI_PATH)); fold (agg_handler items); fold (values_only cs); cbn [snd fst]; cbn [calls];
    try (destruct (h_call h _ s w) as [s1 w1]); apply IH.
Qed.

Definition agg_idle {S W} (items : list (list N * handler S W)) (c : call) : Prop :=
  match c with OnValue n v _ => n = URI_PATH -> factory_find items v = None | _ => True end.

Lemma agg_waiting : forall S W (items : list (list N * handler S W)) cs v w, Forall (agg_idle items) cs ->
  exists v', calls (agg_handler items) cs (v, None) w = ((v', None), w) /\
    v' = (if existsb (fun c => match c with OnValue n _ _ => n =? URI_PATH | _ => false end) cs then Never else v).
Proof.
  intros S W items cs v w H. revert v. induction H as [|c cs Hc H IH]; intros v; [exists v; auto|].
  destruct c; cbn [calls agg_handler h_call snd existsb orb]; fold (agg_handler items); try apply IH.
  cbn [agg_idle] in Hc. destruct (N.eqb_spec number URI_PATH) as [E|E]; [|apply IH].
  rewrite (Hc E). destruct (IH Never) as (v' & A & B). exists v'. split; [exact A|]. rewrite B. cbn [orb].
  destruct (existsb _ cs); reflexivity.
Qed.
