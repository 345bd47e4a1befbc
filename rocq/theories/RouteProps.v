(** C49-C51: where a message goes by its URI path. *)
From Verif Require Import Base HeaderModel UriModel UriSpec UriProofs UriProps DispatchModel DispatchSpec DispatchProofs RouteProofs.
Local Open Scope N_scope.

Definition u_start {S W} (items : list (list N * handler S W)) : disp (interested * S) W := Disp (map (fun _ => None) (uris items)) Empty.

(** C49: a dispatcher over URI path handlers, one per prefix, gets a request.  The
    first (non-empty) path segment decides: of the prefixes that agree with it the
    last one wins, and its inner observer is told exactly the options after that
    segment and the payload, in order; with no such prefix nobody is told anything. *)
Theorem C49_routed : forall S W (items : list (list N * handler S W)) h toks pre seg post pays w,
  quiet_items items -> request_code h -> Forall is_token_call toks -> Forall is_payload_call pays ->
  Forall (fun o => ~ is_segment o) pre -> seg <> [] ->
  exists ns d w', d_run true (uris items) (msg_calls h toks (pre ++ (URI_PATH, seg) :: post) pays) (u_start items) w = (ns, d, w') /\
    (no_match (map fst items) seg -> w' = w) /\
    (forall i, last_match (map fst items) seg i -> exists p inner s, nth_error items i = Some (p, inner) /\ quiet_new inner s /\
       w' = snd (calls inner (options_calls post ++ pays) s w)).
Proof.
  intros S W items h toks pre seg post pays w Hq Hh Ht Hp Hpre Hs.
  unfold msg_calls. rewrite options_app. change (options_calls ((URI_PATH, seg) :: post)) with (opt_calls (URI_PATH, seg) ++ options_calls post).
  assert (Es : opt_calls (URI_PATH, seg) = [OnOption URI_PATH (N.of_nat (length seg) mod 65536); OnValue URI_PATH seg true]).
  { unfold opt_calls. cbn [fst snd]. destruct seg; [congruence|reflexivity]. }
  rewrite Es.
  assert (Hi : idle_calls (OnHeader h :: toks ++ options_calls pre)).
  { constructor; [now apply request_iff|]. apply Forall_app. split; [now apply idle_tokens|now apply idle_options]. }
  destruct (waiting_run S W items true _ (u_start items) w Hq (waiting_start S W items) Hi) as (ns & d & E & Hd).
  assert (Hl : Forall rest_calls (options_calls post ++ pays)) by (apply Forall_app; split; [apply rest_options|now apply rest_payload]).
  destruct (segment_run S W items seg (N.of_nat (length seg) mod 65536) (options_calls post ++ pays) d w [OnComplete] Hq Hd Hl (or_intror eq_refl))
    as (ms & d2 & w2 & E2 & A & B).
  exists (ns ++ ms), d2, w2. split; [|split; assumption].
  match goal with |- d_run _ _ ?x _ _ = _ => replace x with ((OnHeader h :: toks ++ options_calls pre) ++
    (OnOption URI_PATH (N.of_nat (length seg) mod 65536) :: OnValue URI_PATH seg true :: (options_calls post ++ pays) ++ [OnComplete])) end.
  - rewrite d_run_app, E, E2. reflexivity.
  - cbn [app]. rewrite <- !app_assoc. reflexivity.
Qed.
Print Assumptions C49_routed.

(** without a path segment nobody is told anything *)
Theorem C49_no_path : forall S W (items : list (list N * handler S W)) h toks os pays w,
  quiet_items items -> request_code h -> Forall is_token_call toks -> Forall is_payload_call pays -> Forall (fun o => ~ is_segment o) os ->
  exists ns d, d_run true (uris items) (msg_calls h toks os pays) (u_start items) w = (ns, d, w) /\ d_chosen d = Empty.
Proof.
  intros S W items h toks os pays w Hq Hh Ht Hp Ho.
  assert (Hi : idle_calls (msg_calls h toks os pays)).
  { constructor; [now apply request_iff|]. apply Forall_app. split; [now apply idle_tokens|]. apply Forall_app. split; [now apply idle_options|].
    apply Forall_app. split; [now apply idle_payload|repeat constructor]. }
  destruct (waiting_run S W items true _ (u_start items) w Hq (waiting_start S W items) Hi) as (ns & d & E & (A & _)). eauto.
Qed.
Print Assumptions C49_no_path.

(** nor after the header of a response, whatever follows *)
Theorem C49_response : forall S W (items : list (list N * handler S W)) h later w, quiet_items items -> ~ request_code h ->
  exists ns d, d_run true (uris items) (OnHeader h :: later) (u_start items) w = (ns, d, w) /\ d_chosen d = Empty.
Proof.
  intros S W items h later w Hq Hh.
  assert (Hr : hdr_is_request h = false) by (destruct (hdr_is_request h) eqn:E; [exfalso; apply Hh; now apply request_iff|reflexivity]).
  cbn [d_run d_call]. unfold d_offer, u_start. cbn [d_states d_chosen].
  destruct (refuse_round S W items (map (fun _ => None) (uris items)) 0 w h Hr Hq) as (ns & sts & E & F).
  { unfold uris. now rewrite !map_length. }
  rewrite E. rewrite never_run by exact F. do 2 eexists. split; [reflexivity|reflexivity].
Qed.
Print Assumptions C49_response.

(** If all handlers are made at one address (see C40), the request is lost unless the
    winner's is the last factory: the first option or payload after the segment is
    handed to a dead object. *)
Theorem C49_shared_memory_refuted : forall S W (items : list (list N * handler S W)) h toks pre seg w i c,
  quiet_items items -> request_code h -> Forall is_token_call toks -> Forall (fun o => ~ is_segment o) pre -> seg <> [] ->
  last_match (map fst items) seg i -> (Datatypes.S i < length items)%nat -> middle c ->
  exists ns d w', d_run false (uris items) ((OnHeader h :: toks ++ options_calls (pre ++ [(URI_PATH, seg)])) ++ [c]) (u_start items) w = (ns ++ [Bad], d, w').
Proof.
  intros S W items h toks pre seg w i c Hq Hh Ht Hpre Hs Hm Hlt Hc.
  assert (Hi : idle_calls (OnHeader h :: toks ++ options_calls pre)).
  { constructor; [now apply request_iff|]. apply Forall_app. split; [now apply idle_tokens|now apply idle_options]. }
  destruct (waiting_run S W items false _ (u_start items) w Hq (waiting_start S W items) Hi) as (ns & [sts ch] & E & (A & B & C)).
  cbn [d_chosen d_states] in *. subst ch.
  destruct (segment_round_shared S W items sts 0 Empty w (N.of_nat (length seg) mod 65536) seg Hq B C) as (ms & sts' & ch' & E2 & _ & M).
  rewrite (M i Hm Hlt) in E2.
  replace ((OnHeader h :: toks ++ options_calls (pre ++ [(URI_PATH, seg)])) ++ [c])
    with ((OnHeader h :: toks ++ options_calls pre) ++ [OnOption URI_PATH (N.of_nat (length seg) mod 65536); OnValue URI_PATH seg true] ++ [c]).
  2:{ rewrite options_app. cbn [options_calls flat_map]. rewrite app_nil_r. unfold opt_calls. cbn [fst snd].
      destruct seg; [congruence|]. cbn [app]. rewrite <- !app_assoc. reflexivity. }
  rewrite d_run_app, E, d_run_app. cbn [d_run d_call d_chosen]. unfold d_offer. cbn [d_states d_chosen]. rewrite E2.
  assert (Eb : d_call false (uris items) c (Disp sts' Lost) w = ([Bad], Disp sts' Lost, w)) by (destruct c; try contradiction; reflexivity).
  cbn [app]. fold (@d_call). rewrite Eb. do 3 eexists. cbn [app]. rewrite app_nil_r. rewrite app_assoc. reflexivity.
Qed.
Print Assumptions C49_shared_memory_refuted.

(** A segment need not contain the prefix: the first characters alone are compared as
    far as both go, so GET /v reaches the observer of "v1". *)
Theorem C49_short_segment_refuted : exists (items : list (list N * handler unit (list (nat * call)))) p seg, map fst items = [p] /\ quiet_items items /\
  seg <> [] /\ (length seg < length p)%nat /\
  snd (d_run true (uris items) (msg_calls (Hdr 64 1 0 1) [] [(URI_PATH, seg)] [OnPayload [9] true]) (u_start items) []) = [(0%nat, OnPayload [9] true)].
Proof.
  exists [([118; 49], rec_handler 0)], [118; 49], [118]. split; [reflexivity|]. split; [repeat constructor; exists tt; intro; reflexivity|].
  split; [discriminate|]. split; [cbn; lia|reflexivity].
Qed.
Print Assumptions C49_short_segment_refuted.

(** Prefixes "v1" and "v1x": a request for /v1/a goes to the second (its prefix
    agrees as far as the segment goes), for /w to nobody. *)
Definition two : list (list N * handler unit (list (nat * call))) := [([118; 49], rec_handler 0); ([118; 49; 120], rec_handler 1)].
Example C49_case : quiet_items two /\ request_code (Hdr 64 1 0 1) /\ last_match (map fst two) [118; 49] 1 /\ no_match (map fst two) [119] /\
  snd (d_run true (uris two) (msg_calls (Hdr 64 1 0 1) [] ([(3, [104])] ++ (URI_PATH, [118; 49]) :: [(URI_PATH, [97])]) [OnPayload [1] true]) (u_start two) []) =
    [(1%nat, OnOption 11 1); (1%nat, OnValue 11 [97] true); (1%nat, OnPayload [1] true)] /\
  snd (d_run true (uris two) (msg_calls (Hdr 64 1 0 1) [] [(URI_PATH, [119])] [OnPayload [1] true]) (u_start two) []) = [] /\
  ~ request_code (Hdr 64 69 0 1).
Proof.
  split; [repeat constructor; exists tt; intro; reflexivity|]. split; [reflexivity|]. split.
  { split.
    - exists [118; 49; 120]. split; [reflexivity|]. right. split; [repeat constructor; unfold ascii; cbn; lia|]. exists [120]. reflexivity.
    - intros [|[|j]] p Hj Hp; [lia|lia|destruct j; discriminate]. }
  split. { intros p [<-|[<-|[]]] [(_ & t & H)|(_ & t & H)]; discriminate. }
  repeat split; try reflexivity. discriminate.
Qed.

(** C50: the aggregate observer.  The first path segment that some key of the table
    starts decides, and of those keys the first; the observer made for it is told that
    segment, the option values after it, the payload and the end of the message; the
    calls announcing number and length, and so all empty options, are kept from it. *)
Theorem C50_first_matching : forall S W (items : list (list N * handler S W)) h toks pre seg post pays w inner s w1,
  Forall is_token_call toks -> Forall is_payload_call pays ->
  Forall (fun o => is_segment o -> no_item items (snd o)) pre -> seg <> [] -> first_item items seg inner -> h_new inner w = (s, w1) ->
  let told := [OnValue URI_PATH seg true] ++ values_only (options_calls post) ++ pays ++ [OnComplete] in
  let r := calls (agg_handler items) (msg_calls h toks (pre ++ (URI_PATH, seg) :: post) pays) (fst (h_new (agg_handler items) w)) w in
  snd r = snd (calls inner told s w1) /\ h_interested (agg_handler items) (fst r) (snd r) = Always.
Proof.
  intros S W items h toks pre seg post pays w inner s w1 Ht Hp Hpre Hs Hf Hn told r.
  assert (Hi : Forall (agg_idle items) (OnHeader h :: toks ++ options_calls pre)).
  { constructor; [exact I|]. apply Forall_app. split; [eapply Forall_impl; [|exact Ht]; intros []; cbn; tauto|].
    clear -Hpre. induction Hpre as [|[n v] os Ho H IH]; [constructor|]. unfold options_calls, opt_calls. cbn [flat_map fst snd app].
    constructor; [exact I|]. apply Forall_app. split; [|exact IH]. destruct v as [|b v]; [constructor|]. constructor; [|constructor].
    intros ->. apply C39_find_none. apply Ho. split; [reflexivity|discriminate]. }
  assert (Ff : factory_find items seg = Some inner).
  { apply C39_find. destruct Hf as (a & k & b & A & B & C & D). exists a, k, b. auto. }
  assert (R : calls (agg_handler items) (msg_calls h toks (pre ++ (URI_PATH, seg) :: post) pays) (Currently, None) w =
     calls (agg_handler items) (OnValue URI_PATH seg true :: options_calls post ++ pays ++ [OnComplete])
       (fst (fst (calls (agg_handler items) (OnHeader h :: toks ++ options_calls pre) (Currently, None) w)), None) w).
  { unfold msg_calls. rewrite options_app. change (options_calls ((URI_PATH, seg) :: post)) with (opt_calls (URI_PATH, seg) ++ options_calls post).
    unfold opt_calls. cbn [fst snd]. destruct seg as [|b seg]; [congruence|].
    match goal with |- calls _ ?x _ _ = _ => replace x with ((OnHeader h :: toks ++ options_calls pre) ++
      (OnOption URI_PATH (N.of_nat (length (b :: seg)) mod 65536) :: OnValue URI_PATH (b :: seg) true :: options_calls post ++ pays ++ [OnComplete])) end.
    2:{ cbn [app]. rewrite <- !app_assoc. reflexivity. }
    destruct (agg_waiting S W items _ Currently w Hi) as (v & E & _).
    assert (CA : forall a b s w, calls (agg_handler items) (a ++ b) s w = let '(s1, w1) := calls (agg_handler items) a s w in calls (agg_handler items) b s1 w1).
    { clear. induction a as [|c a IH]; intros b s w; [reflexivity|]. cbn [app calls]. destruct (h_call (agg_handler items) c s w). apply IH. }
    rewrite CA, E. reflexivity. }
  unfold r. change (fst (h_new (agg_handler items) w)) with (Currently, @None (handler S W * S)). rewrite R.
  set (v := fst (fst _)). clearbody v. cbn [calls]. unfold agg_handler at 1 3 4. cbn [h_call snd]. rewrite N.eqb_refl, Ff, Hn. cbn [snd fst].
  unfold told. cbn [app calls]. destruct (h_call inner (OnValue URI_PATH seg true) s w1) as [s2 w2].
  fold (agg_handler items). rewrite agg_chosen.
  - cbn [fst snd]. unfold values_only. rewrite !filter_app.
    assert (P1 : filter (fun c => negb (is_announce c)) pays = pays).
    { clear -Hp. induction Hp as [|c cs Hc H IH]; [reflexivity|]. cbn [filter]. destruct c; try contradiction. cbn [is_announce negb]. now rewrite IH. }
    rewrite P1. split; reflexivity.
  - apply Forall_app. split.
    + eapply Forall_impl; [|apply rest_options]. intros []; cbn; tauto.
    + apply Forall_app. split; [eapply Forall_impl; [|exact Hp]; intros []; cbn; tauto|repeat constructor].
Qed.
Print Assumptions C50_first_matching.

(** Without such a segment nothing is made or told; the interest is then "never" if
    there was a segment at all. *)
Theorem C50_no_match : forall S W (items : list (list N * handler S W)) h toks os pays w,
  Forall is_token_call toks -> Forall is_payload_call pays -> Forall (fun o => is_segment o -> no_item items (snd o)) os ->
  let r := calls (agg_handler items) (msg_calls h toks os pays) (fst (h_new (agg_handler items) w)) w in
  snd r = w /\ (Exists is_segment os -> h_interested (agg_handler items) (fst r) w = Never) /\
  (~ Exists is_segment os -> h_interested (agg_handler items) (fst r) w = Currently).
Proof.
  intros S W items h toks os pays w Ht Hp Ho r.
  assert (Hi : Forall (agg_idle items) (msg_calls h toks os pays)).
  { constructor; [exact I|]. apply Forall_app. split; [eapply Forall_impl; [|exact Ht]; intros []; cbn; tauto|].
    apply Forall_app. split; [|apply Forall_app; split; [eapply Forall_impl; [|exact Hp]; intros []; cbn; tauto|repeat constructor]].
    clear -Ho. induction Ho as [|[n v] os Ho H IH]; [constructor|]. unfold options_calls, opt_calls. cbn [flat_map fst snd app].
    constructor; [exact I|]. apply Forall_app. split; [|exact IH]. destruct v as [|b v]; [constructor|]. constructor; [|constructor].
    intros ->. apply C39_find_none. apply Ho. split; [reflexivity|discriminate]. }
  destruct (agg_waiting S W items _ Currently w Hi) as (v & E & Ev).
  unfold r. change (fst (h_new (agg_handler items) w)) with (Currently, @None (handler S W * S)). rewrite E. cbn [fst snd agg_handler h_interested].
  split; [reflexivity|].
  set (f := fun c => match c with OnValue n _ _ => n =? URI_PATH | _ => false end) in *.
  assert (X : existsb f (msg_calls h toks os pays) = existsb f (options_calls os)).
  { unfold msg_calls. cbn [existsb f orb]. rewrite !existsb_app. cbn [existsb f orb].
    assert (T0 : existsb f toks = false) by (clear -Ht; induction Ht as [|c cs Hc H IH]; [reflexivity|]; destruct c; try contradiction; exact IH).
    assert (P0 : existsb f pays = false) by (clear -Hp; induction Hp as [|c cs Hc H IH]; [reflexivity|]; destruct c; try contradiction; exact IH).
    rewrite T0, P0. cbn [orb]. rewrite !orb_false_r. reflexivity. }
  rewrite X in Ev. clear X.
  assert (Y : existsb f (options_calls os) = true <-> Exists is_segment os).
  { clear. induction os as [|[n b] os IH]; [split; [discriminate|intros H; inversion H]|].
    unfold options_calls. cbn [flat_map]. rewrite existsb_app, orb_true_iff. fold (options_calls os). rewrite IH, Exists_cons.
    assert (Z : existsb f (opt_calls (n, b)) = true <-> is_segment (n, b)).
    { unfold opt_calls, is_segment. cbn [fst snd]. destruct b as [|x b]; cbn [existsb f orb]; [split; [discriminate|intros (_ & H); congruence]|].
      rewrite orb_false_r. split; [intros H; split; [now apply N.eqb_eq|discriminate]|intros (H & _); now apply N.eqb_eq]. }
    rewrite Z. reflexivity. }
  split; intros H.
  - apply Y in H. rewrite H in Ev. exact Ev.
  - destruct (existsb f (options_calls os)); [exfalso; apply H, Y; reflexivity|exact Ev].
Qed.
Print Assumptions C50_no_match.

(** The class comment says an unmatched path means "never".  Left to itself the
    observer makes the handler of "v1" for /x/v1 too, and is interested again. *)
Theorem C50_unmatched_for_good_refuted : exists items : list (list N * handler unit (list (nat * call))), exists os,
  Exists (fun o => is_segment o /\ no_item items (snd o)) os /\
  let r := calls (agg_handler items) (msg_calls (Hdr 64 1 0 1) [] os []) (fst (h_new (agg_handler items) [])) [] in
  h_interested (agg_handler items) (fst (calls (agg_handler items) (msg_calls (Hdr 64 1 0 1) [] (firstn 1 os) []) (fst (h_new (agg_handler items) [])) [])) [] = Never /\
  h_interested (agg_handler items) (fst r) [] = Always /\ snd r = [(0%nat, OnValue 11 [118; 49] true); (0%nat, OnComplete)].
Proof.
  exists [([118; 49], rec_handler 0)], [(11, [120]); (11, [118; 49])]. split.
  - left. split; [split; [reflexivity|discriminate]|]. intros k v [H|[]] (_ & t & H2). injection H as <- <-. discriminate.
  - repeat split; reflexivity.
Qed.
Print Assumptions C50_unmatched_for_good_refuted.

Definition table : list (list N * handler unit (list (nat * call))) := [([118], rec_handler 0); ([118; 49], rec_handler 1)].
Example C50_case : first_item table [118; 49] (rec_handler 0) /\ no_item table [97] /\ is_segment (URI_PATH, [97]) /\
  snd (calls (agg_handler table) (msg_calls (Hdr 64 1 0 1) [] ([(URI_PATH, [97])] ++ (URI_PATH, [118; 49]) :: [(URI_PATH, []); (12, [0])]) [OnPayload [7] true])
     (fst (h_new (agg_handler table) [])) []) =
  [(0%nat, OnValue 11 [118; 49] true); (0%nat, OnValue 12 [0] true); (0%nat, OnPayload [7] true); (0%nat, OnComplete)].
Proof.
  split. { exists [], [118], [([118; 49], rec_handler 1)]. split; [reflexivity|]. split; [repeat constructor; unfold ascii; cbn; lia|].
    split; [exists [49]; reflexivity|intros ? ? []]. }
  split. { intros k v [H|[H|[]]] (_ & t & H2); injection H as <- <-; discriminate. }
  split; [split; [reflexivity|discriminate]|]. reflexivity.
Qed.

(** C51: dispatchers nested in URI path handlers (uri_plus_factory_dispatcher).  Two
    path segments choose an observer of the inner table; it is told what comes after
    the second one.  The inner dispatcher is not shown the header, and the observer
    does not hear of the end of the message. *)
Definition nest {S W} (table : list (list N * list (list N * handler S W))) : list (list N * handler (disp (interested * S) W) W) :=
  map (fun x => (fst x, disp_handler true (uris (snd x)))) table.
Lemma nest_quiet : forall S W (table : list (list N * list (list N * handler S W))), quiet_items (nest table).
Proof. intros. apply Forall_forall. intros x H. apply in_map_iff in H. destruct H as (y & <- & _). eexists. intro. reflexivity. Qed.

Theorem C51_nested : forall S W (table : list (list N * list (list N * handler S W))) h toks pre seg1 mid seg2 post pays w i p items,
  Forall (fun x => quiet_items (snd x)) table -> request_code h -> Forall is_token_call toks -> Forall is_payload_call pays ->
  Forall (fun o => ~ is_segment o) pre -> seg1 <> [] -> Forall (fun o => ~ is_segment o) mid -> seg2 <> [] ->
  last_match (map fst table) seg1 i -> nth_error table i = Some (p, items) ->
  exists ns d w', d_run true (uris (nest table)) (msg_calls h toks (pre ++ (URI_PATH, seg1) :: mid ++ (URI_PATH, seg2) :: post) pays)
      (u_start (nest table)) w = (ns, d, w') /\
    (no_match (map fst items) seg2 -> w' = w) /\
    (forall j, last_match (map fst items) seg2 j -> exists p2 inner s, nth_error items j = Some (p2, inner) /\ quiet_new inner s /\
       w' = snd (calls inner (options_calls post ++ pays) s w)).
Proof.
  intros S W table h toks pre seg1 mid seg2 post pays w i p items Hq Hh Ht Hp Hpre H1 Hmid H2 Hm Hn.
  destruct (C49_routed _ W (nest table) h toks pre seg1 (mid ++ (URI_PATH, seg2) :: post) pays w (nest_quiet S W table) Hh Ht Hp Hpre H1)
    as (ns & d & w' & E & _ & B).
  exists ns, d, w'. split; [exact E|].
  assert (Em : map fst (nest table) = map fst table) by (unfold nest; rewrite map_map; reflexivity).
  rewrite Em in B. destruct (B i Hm) as (q & inner & s & N1 & N2 & N3).
  assert (N4 : nth_error (nest table) i = Some (p, disp_handler true (uris items))) by (unfold nest; rewrite (map_nth_error _ _ _ Hn); reflexivity).
  rewrite N4 in N1. injection N1 as <- <-.
  assert (Hs : s = u_start items) by (specialize (N2 w); injection N2 as <-; reflexivity). subst s.
  assert (Hqi : quiet_items items) by (rewrite Forall_forall in Hq; apply (Hq (p, items)); eapply nth_error_In; exact Hn).
  assert (Hl : Forall rest_calls (options_calls post ++ pays)) by (apply Forall_app; split; [apply rest_options|now apply rest_payload]).
  destruct (waiting_run S W items true _ (u_start items) w Hqi (waiting_start S W items) (idle_options mid Hmid)) as (n1 & d1 & E1 & Hd1).
  destruct (segment_run S W items seg2 (N.of_nat (length seg2) mod 65536) (options_calls post ++ pays) d1 w [] Hqi Hd1 Hl (or_introl eq_refl))
    as (n2 & d2 & w2 & E2 & A2 & B2).
  assert (E3 : d_run true (uris items) (options_calls (mid ++ (URI_PATH, seg2) :: post) ++ pays) (u_start items) w = (n1 ++ n2, d2, w2)).
  { rewrite options_app. change (options_calls ((URI_PATH, seg2) :: post)) with (opt_calls (URI_PATH, seg2) ++ options_calls post).
    unfold opt_calls. cbn [fst snd]. destruct seg2 as [|b seg2]; [congruence|]. rewrite <- app_assoc. rewrite d_run_app, E1.
    rewrite app_nil_r in E2. cbn [app] in E2 |- *. rewrite E2. reflexivity. }
  apply disp_calls in E3. rewrite E3 in N3. cbn [snd] in N3. subst w'. split; assumption.
Qed.
Print Assumptions C51_nested.

(** /v1/a with a table of one prefix "v1" over the prefixes "b" and "a" *)
Definition nested : list (list N * list (list N * handler unit (list (nat * call)))) :=
  [([118; 49], [([98], rec_handler 0); ([97], rec_handler 1)])].
Example C51_case : Forall (fun x => quiet_items (snd x)) nested /\ last_match (map fst nested) [118; 49] 0 /\
  last_match [[98]; [97]] [97] 1 /\
  snd (d_run true (uris (nest nested)) (msg_calls (Hdr 64 1 0 1) [] ([] ++ (URI_PATH, [118; 49]) :: [] ++ (URI_PATH, [97]) :: [(12, [0])]) [OnPayload [7] true])
    (u_start (nest nested)) []) = [(1%nat, OnOption 12 1); (1%nat, OnValue 12 [0] true); (1%nat, OnPayload [7] true)].
Proof.
  split; [repeat constructor; exists tt; intro; reflexivity|]. split.
  { split; [exists [118; 49]; split; [reflexivity|left; split; [repeat constructor; unfold ascii; cbn; lia|exists []; reflexivity]]|].
    intros [|j] q Hj Hq; [lia|destruct j; discriminate]. }
  split.
  { split; [exists [97]; split; [reflexivity|left; split; [repeat constructor; unfold ascii; cbn; lia|exists []; reflexivity]]|].
    intros [|[|j]] q Hj Hq; [lia|lia|destruct j; discriminate]. }
  reflexivity.
Qed.
