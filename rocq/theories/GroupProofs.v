(** Dispatchers made directly by the factories of another dispatcher. *)
From Verif Require Import Base HeaderModel UriModel UriSpec UriProofs UriProps DispatchModel DispatchSpec DispatchProofs RouteProofs RouteProps.
Local Open Scope N_scope.

(** factories (src/coap-dispatcher.h 183-212) that make a dispatcher each, over a group
    of path handlers; like [nest] in RouteProps without the path in front *)
Definition group_handlers {S W} (groups : list (list (list N * handler S W))) : list (handler (disp (interested * S) W) W) :=
  map (fun g => disp_handler true (uris g)) groups.
(** src/coap-dispatcher.h 183-212: the outer dispatcher as made *)
Definition group_start {S W} (groups : list (list (list N * handler S W))) : disp (disp (interested * S) W) W :=
  Disp (map (fun _ => None) groups) Empty.

(** a call that shows no segment agreeing with one of the prefixes *)
Definition deaf (ps : list (list N)) (c : call) : Prop :=
  match c with OnValue n v _ => n = URI_PATH -> no_match ps v | _ => True end.

(** what a dispatcher offers: one call, or an option with its value *)
Definition round_calls (cs : list call) : Prop :=
  (exists c, cs = [c]) \/ exists n l v b, cs = [OnOption n l; OnValue n v b].

Lemma deaf_uri : forall S W p (inner : handler S W) cs s w, round_calls cs -> Forall (deaf [p]) cs ->
  exists v, calls (uri_handler p inner) cs (Currently, s) w = ((v, s), w) /\ is_always v = false.
Proof.
  intros S W p inner cs s w [(c & ->)|(n & l & v & b & ->)] H.
  - inversion H as [|? ? Hc _]; subst. cbn [calls]. destruct c; cbn [uri_handler h_call is_always].
    + destruct (hdr_is_request h); eexists; split; reflexivity.
    + eexists; split; reflexivity.
    + eexists; split; reflexivity.
    + destruct (N.eqb_spec number URI_PATH) as [E|E]; [|eexists; split; reflexivity].
      replace (dispatcher_starts_with part p) with false; [eexists; split; reflexivity|].
      symmetry. destruct (dispatcher_starts_with part p) eqn:X; [|reflexivity]. exfalso. apply (Hc E p); [left; reflexivity|now apply agrees_iff].
    + eexists; split; reflexivity.
    + eexists; split; reflexivity.
  - inversion H as [|? ? _ H2]; subst. inversion H2 as [|? ? Hc _]; subst. cbn [calls uri_handler h_call is_always].
    destruct (N.eqb_spec n URI_PATH) as [E|E]; [|eexists; split; reflexivity].
    replace (dispatcher_starts_with v p) with false; [eexists; split; reflexivity|].
    symmetry. destruct (dispatcher_starts_with v p) eqn:X; [|reflexivity]. exfalso. apply (Hc E p); [left; reflexivity|now apply agrees_iff].
Qed.

Lemma deaf_sub : forall ps qs c, (forall p, In p qs -> In p ps) -> deaf ps c -> deaf qs c.
Proof. intros ps qs [] H D; cbn in *; auto. intros E p Hp. apply (D E). auto. Qed.
Lemma deaf_subs : forall ps qs cs, (forall p, In p qs -> In p ps) -> Forall (deaf ps) cs -> Forall (deaf qs) cs.
Proof. intros ps qs cs H F. eapply Forall_impl; [|exact F]. intros c. now apply deaf_sub. Qed.

Lemma deaf_round : forall S W cs (items : list (list N * handler S W)) sts i w, round_calls cs -> Forall (deaf (map fst items)) cs ->
  quiet_items items -> length sts = length items ->
  exists ns sts', offer true cs i (uris items) sts Empty w = (ns, sts', Empty, w) /\ length sts' = length items.
Proof.
  intros S W cs. induction items as [|[p h] items IH]; intros sts i w Hr Hc Hq Hl.
  - destruct sts; [|discriminate]. exists [], []. split; reflexivity.
  - destruct sts as [|st sts]; [discriminate|]. injection Hl as Hl. inversion Hq as [|? ? (s & Hs) Hq']; subst. cbn [snd] in Hs.
    cbn [uris map offer fst snd]. fold (uris items).
    destruct (IH sts (Datatypes.S i) w Hr (deaf_subs (map fst ((p, h) :: items)) (map fst items) cs (fun x X => or_intror X) Hc) Hq' Hl) as (ns & sts' & E & L).
    destruct (tried st) eqn:T.
    + cbn [uri_handler h_new]. rewrite Hs. fold (uri_handler p h).
      destruct (deaf_uri S W p h cs s w Hr) as (v & Ev & Hv).
      { apply (deaf_subs (map fst ((p, h) :: items))); [|exact Hc]. intros x [<-|[]]. left; reflexivity. }
      rewrite Ev. cbn [uri_handler h_interested fst]. rewrite Hv. rewrite E.
      do 2 eexists. split; [reflexivity|]. cbn. lia.
    + rewrite E. do 2 eexists. split; [reflexivity|]. cbn; lia.
Qed.

Lemma deaf_run : forall S W (items : list (list N * handler S W)) cs d w, quiet_items items -> Forall (deaf (map fst items)) cs ->
  d_chosen d = Empty -> length (d_states d) = length items ->
  exists ns d', d_run true (uris items) cs d w = (ns, d', w) /\ d_chosen d' = Empty /\ length (d_states d') = length items.
Proof.
  intros S W items cs d w Hq H. revert d. induction H as [|c cs Hc H IH]; intros d Hd Hl.
  - exists [], d. repeat split; assumption.
  - assert (K : exists ns d', d_call true (uris items) c d w = (ns, d', w) /\ d_chosen d' = Empty /\ length (d_states d') = length items).
    { destruct d as [sts ch]. cbn [d_chosen d_states] in *. subst ch.
      assert (K : forall cs, round_calls cs -> Forall (deaf (map fst items)) cs ->
        exists ns d', d_offer true (uris items) cs (Disp sts Empty) w = (ns, d', w) /\ d_chosen d' = Empty /\ length (d_states d') = length items).
      { intros cs0 R F. unfold d_offer. cbn [d_states d_chosen]. destruct (deaf_round S W cs0 items sts 0 w R F Hq Hl) as (ns & sts' & E & L).
        rewrite E. do 2 eexists. split; [reflexivity|]. split; [reflexivity|exact L]. }
      unfold d_call. cbn [d_chosen]. destruct c;
        try (apply K; [left; eexists; reflexivity|constructor; [exact Hc|constructor]]).
      - do 2 eexists. split; [reflexivity|]. split; [reflexivity|assumption].
      - apply K; [right; do 4 eexists; reflexivity|]. constructor; [exact I|]. constructor; [exact Hc|constructor]. }
    destruct K as (ns & d1 & E & A & B). destruct (IH d1 A B) as (ms & d2 & E2 & A2 & B2). cbn [d_run]. rewrite E, E2.
    do 2 eexists. split; [reflexivity|]. split; assumption.
Qed.

(** a new group that sees nothing of interest *)
Lemma deaf_group : forall S W (g : list (list N * handler S W)) cs w, quiet_items g -> Forall (deaf (map fst g)) cs ->
  exists d, calls (disp_handler true (uris g)) cs (u_start g) w = (d, w) /\ d_interested d = Currently.
Proof.
  intros S W g cs w Hq H. destruct (deaf_run S W g cs (u_start g) w Hq H eq_refl) as (ns & d & E & A & _).
  - unfold u_start, uris. cbn [d_states]. now rewrite !map_length.
  - exists d. split; [exact (disp_calls _ _ _ _ _ _ _ _ _ _ E)|]. unfold d_interested. rewrite A. reflexivity.
Qed.

(** all the prefixes, group by group *)
Definition prefixes {S W} (groups : list (list (list N * handler S W))) : list (list N) := map fst (concat groups).
Definition quiet_groups {S W} (groups : list (list (list N * handler S W))) : Prop := Forall quiet_items groups.

Lemma group_deaf_round : forall S W cs (groups : list (list (list N * handler S W))) sts i ch w, round_calls cs ->
  Forall (deaf (prefixes groups)) cs -> quiet_groups groups -> length sts = length groups ->
  exists ns sts', offer true cs i (group_handlers groups) sts ch w = (ns, sts', ch, w) /\ length sts' = length groups /\
    (Forall (fun st => tried st = true) sts -> Forall (fun st => tried st = true) sts').
Proof.
  intros S W cs. induction groups as [|g groups IH]; intros sts i ch w Hr Hc Hq Hl.
  - destruct sts; [|discriminate]. exists [], []. repeat split; auto.
  - destruct sts as [|st sts]; [discriminate|]. injection Hl as Hl. inversion Hq as [|? ? Hg Hq']; subst.
    unfold prefixes in Hc. cbn [concat] in Hc. rewrite map_app in Hc.
    assert (Hc1 : Forall (deaf (map fst g)) cs) by (eapply deaf_subs; [|exact Hc]; intros; apply in_app_iff; auto).
    assert (Hc2 : Forall (deaf (prefixes groups)) cs) by (eapply deaf_subs; [|exact Hc]; intros; apply in_app_iff; auto).
    cbn [group_handlers map offer]. fold (group_handlers groups).
    destruct (IH sts (Datatypes.S i) ch w Hr Hc2 Hq' Hl) as (ns & sts' & E & L & F). destruct (tried st) eqn:T.
    + cbn [disp_handler h_new]. fold (disp_handler true (uris g)). fold (u_start g).
      destruct (deaf_group S W g cs w Hg Hc1) as (d & Ed & Hd). rewrite Ed. cbn [disp_handler h_interested]. rewrite Hd. cbn [is_always].
      replace (match ch with Kept _ _ _ => ch | _ => ch end) with ch by (destruct ch; reflexivity). rewrite E.
      do 2 eexists. split; [reflexivity|]. split; [cbn; lia|]. intros X. inversion X; subst. constructor; [reflexivity|auto].
    + rewrite E. do 2 eexists. split; [reflexivity|]. split; [cbn; lia|]. intros X. inversion X; subst. congruence.
Qed.

(** nobody chosen, everybody still asked *)
Definition group_waiting {S W} (groups : list (list (list N * handler S W))) (d : disp (disp (interested * S) W) W) : Prop :=
  d_chosen d = Empty /\ length (d_states d) = length groups /\ Forall (fun st => tried st = true) (d_states d).

Lemma group_waiting_start : forall S W (groups : list (list (list N * handler S W))), group_waiting groups (group_start groups).
Proof.
  intros S W groups. split; [reflexivity|]. cbn [group_start d_states]. rewrite map_length. split; [reflexivity|].
  apply Forall_forall. intros st H. apply in_map_iff in H. destruct H as (? & <- & _). reflexivity.
Qed.

Lemma group_waiting_run : forall S W (groups : list (list (list N * handler S W))) cs d w, quiet_groups groups -> group_waiting groups d ->
  Forall (deaf (prefixes groups)) cs ->
  exists ns d', d_run true (group_handlers groups) cs d w = (ns, d', w) /\ group_waiting groups d'.
Proof.
  intros S W groups cs d w Hq Hd H. revert d Hd. induction H as [|c cs Hc H IH]; intros d Hd.
  - exists [], d. split; [reflexivity|assumption].
  - assert (K : exists ns d', d_call true (group_handlers groups) c d w = (ns, d', w) /\ group_waiting groups d').
    { destruct d as [sts ch]. destruct Hd as (A & B & C). cbn [d_chosen d_states] in *. subst ch.
      assert (K : forall cs, round_calls cs -> Forall (deaf (prefixes groups)) cs ->
        exists ns d', d_offer true (group_handlers groups) cs (Disp sts Empty) w = (ns, d', w) /\ group_waiting groups d').
      { intros cs0 R F. unfold d_offer. cbn [d_states d_chosen].
        destruct (group_deaf_round S W cs0 groups sts 0 Empty w R F Hq B) as (ns & sts' & E & L & T).
        rewrite E. do 2 eexists. split; [reflexivity|]. split; [reflexivity|]. split; [exact L|exact (T C)]. }
      unfold d_call. cbn [d_chosen]. destruct c;
        try (apply K; [left; eexists; reflexivity|constructor; [exact Hc|constructor]]).
      - do 2 eexists. split; [reflexivity|]. split; [reflexivity|]. split; assumption.
      - apply K; [right; do 4 eexists; reflexivity|]. constructor; [exact I|]. constructor; [exact Hc|constructor]. }
    destruct K as (ns & d1 & E & Hd1). destruct (IH d1 Hd1) as (ms & d2 & E2 & Hd2). cbn [d_run]. rewrite E, E2.
    do 2 eexists. split; [reflexivity|assumption].
Qed.

Lemma last_match_app : forall a b s i, last_match (a ++ b) s i ->
  (exists j, i = (length a + j)%nat /\ last_match b s j) \/ (last_match a s i /\ no_match b s).
Proof.
  intros a b s i ((p & Hp & Ha) & Hl). destruct (Nat.ltb_spec i (length a)) as [L|L].
  - right. rewrite nth_error_app1 in Hp by exact L. split.
    + split; [exists p; split; assumption|]. intros j q Hj Hq. apply (Hl j); [exact Hj|]. rewrite nth_error_app1; [exact Hq|].
      apply nth_error_Some. congruence.
    + intros q Hq. apply In_nth_error in Hq. destruct Hq as (k & Hk). apply (Hl (length a + k)%nat); [lia|].
      rewrite nth_error_app2 by lia. replace (length a + k - length a)%nat with k by lia. exact Hk.
  - left. exists (i - length a)%nat. split; [lia|]. rewrite nth_error_app2 in Hp by exact L. split; [exists p; split; assumption|].
    intros j q Hj Hq. apply (Hl (length a + j)%nat); [lia|]. rewrite nth_error_app2 by lia.
    replace (length a + j - length a)%nat with j by lia. exact Hq.
Qed.

(** a new group is shown a segment *)
Lemma segment_group : forall S W (g : list (list N * handler S W)) l seg w, quiet_items g ->
  exists d, calls (disp_handler true (uris g)) [OnOption URI_PATH l; OnValue URI_PATH seg true] (u_start g) w = (d, w) /\
    (no_match (map fst g) seg -> d_interested d = Currently) /\
    (forall j, last_match (map fst g) seg j -> d_interested d = Always /\ exists p h s, nth_error g j = Some (p, h) /\ quiet_new h s /\
       d_chosen d = Kept j (uri_handler p h) (Always, s)).
Proof.
  intros S W g l seg w Hq. set (l2 := N.of_nat (length seg) mod 65536). destruct (waiting_start S W g) as (A & B & C).
  destruct (segment_round S W g _ 0 Empty w l2 seg Hq B C) as (ns & sts' & ch' & E & L & N0 & M). cbn [d_states] in E.
  assert (E1 : d_run true (uris g) [OnOption URI_PATH l; OnValue URI_PATH seg true] (u_start g) w = (ns, Disp sts' ch', w)).
  { unfold u_start. cbn [d_run d_call d_chosen]. unfold d_offer. cbn [d_states d_chosen]. fold l2. rewrite E. cbn [app]. rewrite app_nil_r. reflexivity. }
  exists (Disp sts' ch'). split; [exact (disp_calls _ _ _ _ _ _ _ _ _ _ E1)|]. unfold d_interested. cbn [d_chosen]. split.
  - intros H. destruct (N0 H) as (-> & _). reflexivity.
  - intros j H. destruct (M j H) as (p & h & s & X1 & X2 & X3). cbn [Nat.add] in X3. subst ch'. split; [reflexivity|].
    exists p, h, s. auto.
Qed.

Lemma no_match_dec : forall ps s, no_match ps s \/ exists i, last_match ps s i.
Proof.
  induction ps as [|p ps IH]; intros s; [left; intros ? []|]. destruct (IH s) as [H|(i & H)].
  - destruct (dispatcher_starts_with s p) eqn:E.
    + right. exists 0%nat. split; [exists p; split; [reflexivity|now apply agrees_iff]|]. intros j q Hj Hq. destruct j; [lia|].
      cbn in Hq. apply H. eapply nth_error_In; exact Hq.
    + left. intros q [<-|Hq]; [|now apply H]. intros X. apply agrees_iff in X. congruence.
  - right. exists (Datatypes.S i). destruct H as ((q & A & B) & C). split; [exists q; split; assumption|].
    intros j r Hj Hr. destruct j; [lia|]. apply (C j); [lia|exact Hr].
Qed.

Lemma group_segment_round : forall S W (groups : list (list (list N * handler S W))) sts i ch w l seg, quiet_groups groups ->
  length sts = length groups -> Forall (fun st => tried st = true) sts ->
  exists ns sts' ch', offer true [OnOption URI_PATH l; OnValue URI_PATH seg true] i (group_handlers groups) sts ch w = (ns, sts', ch', w) /\
    length sts' = length groups /\ Forall (fun st => tried st = true) sts' /\
    (no_match (prefixes groups) seg -> ch' = ch) /\
    (forall j, last_match (prefixes groups) seg j -> exists p h s k g m d, nth_error (concat groups) j = Some (p, h) /\ quiet_new h s /\
       ch' = Kept k (disp_handler true (uris g)) d /\ d_chosen d = Kept m (uri_handler p h) (Always, s)).
Proof.
  intros S W. induction groups as [|g groups IH]; intros sts i ch w l seg Hq Hl Ht.
  - destruct sts; [|discriminate]. exists [], [], ch. repeat split; auto. intros j ((q & Hj & _) & _). destruct j; discriminate.
  - destruct sts as [|st sts]; [discriminate|]. injection Hl as Hl. inversion Hq as [|? ? Hg Hq']; subst. inversion Ht as [|? ? T Ht']; subst.
    cbn [group_handlers map offer]. fold (group_handlers groups). rewrite T.
    cbn [disp_handler h_new]. fold (disp_handler true (uris g)). fold (u_start g).
    destruct (segment_group S W g l seg w Hg) as (d & Ed & A & B). rewrite Ed. unfold disp_handler at 1. cbn [h_interested].
    unfold disp_handler at 1. cbn [h_interested].
    set (ch1 := if is_always (d_interested d) then Kept i (disp_handler true (uris g)) d else match ch with Kept _ _ _ => ch | _ => ch end).
    destruct (IH sts (Datatypes.S i) ch1 w l seg Hq' Hl Ht') as (ns & sts' & ch' & E & L & F & N0 & M).
    match goal with |- context [offer true _ (Datatypes.S i) (group_handlers groups) sts ?c w] => change c with ch1 end. rewrite E.
    assert (Hn : is_never (d_interested d) = false) by (unfold d_interested; destruct (d_chosen d); reflexivity).
    do 3 eexists. split; [reflexivity|]. split; [cbn; lia|]. split; [constructor; [cbn; rewrite Hn; reflexivity|exact F]|].
    unfold prefixes. cbn [concat]. rewrite map_app. split.
    + intros H. rewrite N0 by (intros q X; apply H; apply in_app_iff; auto).
      unfold ch1. rewrite A by (intros q X; apply H; apply in_app_iff; auto). cbn [is_always]. destruct ch; reflexivity.
    + intros j H. apply last_match_app in H. destruct H as [(k & -> & H)|(H & Hno)].
      * destruct (M k H) as (p & h & s & kk & g2 & m & d2 & X1 & X2 & X3 & X4). exists p, h, s, kk, g2, m, d2.
        rewrite nth_error_app2 by (rewrite map_length; lia). rewrite map_length. replace (length g + k - length g)%nat with k by lia. auto.
      * destruct (B j H) as (Bi & p & h & s & X1 & X2 & X3). exists p, h, s, i, g, j, d.
        rewrite nth_error_app1 by (apply nth_error_Some; congruence). split; [exact X1|]. split; [exact X2|].
        rewrite (N0 Hno). unfold ch1. rewrite Bi. cbn [is_always]. auto.
Qed.
