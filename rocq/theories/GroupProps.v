(** C91: dispatchers put directly into a dispatcher, each over its own path handlers. *)
From Verif Require Import Base HeaderModel UriModel UriSpec UriProofs UriProps DispatchModel DispatchSpec DispatchProofs RouteProofs RouteProps GroupProofs.
Local Open Scope N_scope.

(** the option is a path segment that agrees with one of the prefixes *)
Definition agreeing {S W} (groups : list (list (list N * handler S W))) (o : N * list N) : Prop :=
  is_segment o /\ exists p, In p (map fst (concat groups)) /\ agrees (snd o) p.

Lemma deaf_options : forall S W (groups : list (list (list N * handler S W))) os, Forall (fun o => ~ agreeing groups o) os ->
  Forall (deaf (prefixes groups)) (options_calls os).
Proof.
  intros S W groups os H. induction H as [|[n v] os Hn H IH]; [constructor|]. unfold options_calls, opt_calls. cbn [flat_map fst snd app].
  constructor; [exact I|]. apply Forall_app. split; [|exact IH]. destruct v as [|b v]; [constructor|].
  constructor; [|constructor]. intros -> p Hp Ha. apply Hn. split; [split; [reflexivity|discriminate]|]. exists p. split; assumption.
Qed.
Lemma deaf_tokens : forall ps cs, Forall is_token_call cs -> Forall (deaf ps) cs.
Proof. intros ps cs H. eapply Forall_impl; [|exact H]. intros []; cbn; tauto. Qed.
Lemma deaf_payload : forall ps cs, Forall is_payload_call cs -> Forall (deaf ps) cs.
Proof. intros ps cs H. eapply Forall_impl; [|exact H]. intros []; cbn; tauto. Qed.

(** The groups of path handlers together: of any message, request or response, the
    first path segment that agrees with one of the prefixes decides, whatever
    segments there were before it; of all the prefixes that agree with it the last
    one wins, and its observer is told exactly the options after that segment and
    the payload. *)
Theorem C91_first_agreeing : forall S W (groups : list (list (list N * handler S W))) h toks pre seg post pays w i,
  quiet_groups groups -> Forall is_token_call toks -> Forall is_payload_call pays ->
  Forall (fun o => ~ agreeing groups o) pre -> seg <> [] -> last_match (map fst (concat groups)) seg i ->
  exists ns d w', d_run true (group_handlers groups) (msg_calls h toks (pre ++ (URI_PATH, seg) :: post) pays) (group_start groups) w = (ns, d, w') /\
    d_interested d = Always /\
    exists p inner s, nth_error (concat groups) i = Some (p, inner) /\ quiet_new inner s /\
      w' = snd (calls inner (options_calls post ++ pays) s w).
Proof.
  intros S W groups h toks pre seg post pays w i Hq Ht Hp Hpre Hs Hm.
  set (l := N.of_nat (length seg) mod 65536). set (later := options_calls post ++ pays).
  assert (Es : opt_calls (URI_PATH, seg) = [OnOption URI_PATH l; OnValue URI_PATH seg true]).
  { unfold opt_calls. cbn [fst snd]. destruct seg; [congruence|reflexivity]. }
  assert (Em : msg_calls h toks (pre ++ (URI_PATH, seg) :: post) pays =
    (OnHeader h :: toks ++ options_calls pre) ++ [OnOption URI_PATH l; OnValue URI_PATH seg true] ++ later ++ [OnComplete]).
  { unfold msg_calls, later. rewrite options_app. change (options_calls ((URI_PATH, seg) :: post)) with (opt_calls (URI_PATH, seg) ++ options_calls post).
    rewrite Es. cbn [app]. rewrite <- !app_assoc. reflexivity. }
  assert (Hd : Forall (deaf (prefixes groups)) (OnHeader h :: toks ++ options_calls pre)).
  { constructor; [exact I|]. apply Forall_app. split; [now apply deaf_tokens|now apply deaf_options]. }
  assert (Hl : Forall rest_calls later) by (apply Forall_app; split; [apply rest_options|now apply rest_payload]).
  assert (Hmid : Forall middle later) by (eapply Forall_impl; [|exact Hl]; intros []; cbn; tauto).
  destruct (group_waiting_run S W groups _ (group_start groups) w Hq (group_waiting_start S W groups) Hd) as (n1 & [sts ch] & E1 & (A & B & C)).
  cbn [d_chosen d_states] in A, B, C. subst ch.
  destruct (group_segment_round S W groups sts 0 Empty w l seg Hq B C) as (n2 & sts2 & ch2 & E2 & L2 & _ & _ & M).
  destruct (M i Hm) as (p & inner & s & k & g & m & d & X1 & X2 & X3 & X4). subst ch2.
  assert (E3 : d_run true (group_handlers groups) [OnOption URI_PATH l; OnValue URI_PATH seg true] (Disp sts Empty) w =
    (n2, Disp sts2 (Kept k (disp_handler true (uris g)) d), w)).
  { cbn [d_run d_call d_chosen]. unfold d_offer. cbn [d_states d_chosen]. fold l. rewrite E2. cbn [app]. rewrite app_nil_r. reflexivity. }
  assert (E4 : calls (disp_handler true (uris g)) later d w =
    (Disp (d_states d) (Kept m (uri_handler p inner) (Always, fst (calls inner later s w))), snd (calls inner later s w))).
  { eapply disp_calls. rewrite (kept_run _ _ true (uris g) later d w m (uri_handler p inner) (Always, s) Hmid X4). rewrite pass_uri by exact Hl.
    cbn [fst snd]. reflexivity. }
  rewrite Em, d_run_app, E1. cbn iota beta zeta. rewrite d_run_app, E3. cbn iota beta zeta. rewrite d_run_app.
  rewrite (kept_run _ _ true (group_handlers groups) later (Disp sts2 (Kept k (disp_handler true (uris g)) d)) w k (disp_handler true (uris g)) d Hmid eq_refl). rewrite E4. cbn [fst snd d_states].
  cbn [d_run d_call]. unfold d_offer. cbn [d_states d_chosen].
  destruct (group_deaf_round S W [OnComplete] groups sts2 0
    (Kept k (disp_handler true (uris g)) (Disp (d_states d) (Kept m (uri_handler p inner) (Always, fst (calls inner later s w)))))
    (snd (calls inner later s w)) ltac:(left; eexists; reflexivity) ltac:(constructor; [exact I|constructor]) Hq L2) as (n3 & sts3 & E5 & _).
  rewrite E5. do 3 eexists. split; [reflexivity|]. split; [reflexivity|]. exists p, inner, s. auto.
Qed.
Print Assumptions C91_first_agreeing.

(** Without such a segment nobody is told anything, and the dispatcher goes on asking. *)
Theorem C91_nobody : forall S W (groups : list (list (list N * handler S W))) h toks os pays w,
  quiet_groups groups -> Forall is_token_call toks -> Forall is_payload_call pays -> Forall (fun o => ~ agreeing groups o) os ->
  exists ns d, d_run true (group_handlers groups) (msg_calls h toks os pays) (group_start groups) w = (ns, d, w) /\ d_interested d = Currently.
Proof.
  intros S W groups h toks os pays w Hq Ht Hp Ho.
  assert (Hd : Forall (deaf (prefixes groups)) (msg_calls h toks os pays)).
  { constructor; [exact I|]. apply Forall_app. split; [now apply deaf_tokens|]. apply Forall_app. split; [now apply deaf_options|].
    apply Forall_app. split; [now apply deaf_payload|repeat constructor]. }
  destruct (group_waiting_run S W groups _ (group_start groups) w Hq (group_waiting_start S W groups) Hd) as (ns & d & E & (A & _)).
  exists ns, d. split; [exact E|]. unfold d_interested. rewrite A. reflexivity.
Qed.
Print Assumptions C91_nobody.

Lemma last_match_agreeing : forall S W (groups : list (list (list N * handler S W))) seg i, seg <> [] ->
  last_match (map fst (concat groups)) seg i -> agreeing groups (URI_PATH, seg).
Proof.
  intros S W groups seg i Hs ((p & Hp & Ha) & _). split; [split; [reflexivity|exact Hs]|]. exists p. split; [eapply nth_error_In; exact Hp|exact Ha].
Qed.

Lemma last_match_unique : forall ps s i j, last_match ps s i -> last_match ps s j -> i = j.
Proof.
  intros ps s i j ((p & A & B) & C) ((q & A2 & B2) & C2). destruct (Nat.lt_trichotomy i j) as [H|[H|H]]; [|exact H|].
  - exfalso. exact (C j q H A2 B2).
  - exfalso. exact (C2 i p H A B).
Qed.

(** A request whose first segment agrees with a prefix does to the world what it
    does with all the handlers in one table. *)
Theorem C91_like_one_table : forall S W (groups : list (list (list N * handler S W))) h toks pre seg post pays w,
  quiet_groups groups -> request_code h -> Forall is_token_call toks -> Forall is_payload_call pays ->
  Forall (fun o => ~ is_segment o) pre -> agreeing groups (URI_PATH, seg) ->
  snd (d_run true (group_handlers groups) (msg_calls h toks (pre ++ (URI_PATH, seg) :: post) pays) (group_start groups) w) =
  snd (d_run true (uris (concat groups)) (msg_calls h toks (pre ++ (URI_PATH, seg) :: post) pays) (u_start (concat groups)) w).
Proof.
  intros S W groups h toks pre seg post pays w Hq Hh Ht Hp Hpre Hag.
  assert (Hs : seg <> []) by (destruct Hag as ((_ & X) & _); exact X).
  assert (Hqc : quiet_items (concat groups)).
  { clear - Hq. unfold quiet_items. induction Hq; cbn [concat]; [constructor|]. apply Forall_app. split; assumption. }
  destruct (no_match_dec (map fst (concat groups)) seg) as [Hn|(i & Hm)].
  - destruct Hag as (_ & p & X & Y). exfalso. exact (Hn p X Y).
  - destruct (C49_routed S W (concat groups) h toks pre seg post pays w Hqc Hh Ht Hp Hpre Hs) as (n1 & d1 & w1 & E1 & _ & B).
    destruct (B i Hm) as (p & inner & s & X1 & X2 & X3).
    destruct (C91_first_agreeing S W groups h toks pre seg post pays w i Hq Ht Hp) as (n2 & d2 & w2 & E2 & _ & p2 & inner2 & s2 & Y1 & Y2 & Y3); auto.
    { eapply Forall_impl; [|exact Hpre]. intros o Ho (X & _). exact (Ho X). }
    rewrite E1, E2. cbn [snd]. rewrite X1 in Y1. injection Y1 as <- <-.
    assert (s = s2) by (specialize (X2 w); specialize (Y2 w); congruence). subst. reflexivity.
Qed.
Print Assumptions C91_like_one_table.

(** Full claim (false): grouping handlers does not change which requests they get.
    Of one table /x/v1 is nobody's, and a response is; in a group both are given to
    the handler of "v1". *)
Definition grouped : list (list (list N * handler unit (list (nat * call)))) := [[([98], rec_handler 0)]; [([118; 49], rec_handler 1); ([97], rec_handler 2)]].
Theorem C91_one_table_refuted :
  let late := msg_calls (Hdr 64 1 0 1) [] [(URI_PATH, [120]); (URI_PATH, [118; 49]); (12, [0])] [] in
  let resp := msg_calls (Hdr 64 69 0 1) [] [(URI_PATH, [118; 49]); (12, [0])] [] in
  quiet_groups grouped /\ request_code (Hdr 64 1 0 1) /\ ~ request_code (Hdr 64 69 0 1) /\
  snd (d_run true (uris (concat grouped)) late (u_start (concat grouped)) []) = [] /\
  snd (d_run true (group_handlers grouped) late (group_start grouped) []) = [(1%nat, OnOption 12 1); (1%nat, OnValue 12 [0] true)] /\
  snd (d_run true (uris (concat grouped)) resp (u_start (concat grouped)) []) = [] /\
  snd (d_run true (group_handlers grouped) resp (group_start grouped) []) = [(1%nat, OnOption 12 1); (1%nat, OnValue 12 [0] true)].
Proof.
  cbv zeta. split; [repeat constructor; exists tt; intro; reflexivity|]. split; [reflexivity|]. split; [discriminate|].
  repeat split; reflexivity.
Qed.
Print Assumptions C91_one_table_refuted.

(** /v1 with a payload, over the groups "b" and "v1", "a": handler 1 wins, both hypotheses met *)
Example C91_case : quiet_groups grouped /\ last_match (map fst (concat grouped)) [118; 49] 1 /\ ~ agreeing grouped (URI_PATH, [120]) /\
  agreeing grouped (URI_PATH, [118; 49]) /\
  snd (d_run true (group_handlers grouped) (msg_calls (Hdr 65 1 0 1) [OnToken [9] true] ([(URI_PATH, [120])] ++ (URI_PATH, [118; 49]) :: []) [OnPayload [7] true])
    (group_start grouped) []) = [(1%nat, OnPayload [7] true)].
Proof.
  split; [repeat constructor; exists tt; intro; reflexivity|].
  assert (M : last_match (map fst (concat grouped)) [118; 49] 1).
  { split.
    - exists [118; 49]. split; [reflexivity|]. apply agrees_iff. reflexivity.
    - intros [|[|[|j]]] q Hj Hq; cbn in Hq; try lia; [|destruct j; discriminate]. injection Hq as <-. intros X. apply agrees_iff in X. discriminate. }
  split; [exact M|]. split; [|split; [eapply last_match_agreeing; [discriminate|exact M]|reflexivity]].
  intros (_ & p & [<-|[<-|[<-|[]]]] & X); apply agrees_iff in X; discriminate.
Qed.
