(** C40: the factory dispatcher. *)
From Verif Require Import Base HeaderModel UriModel UriSpec UriProofs DispatchModel DispatchSpec DispatchProofs.
Local Open Scope N_scope.

Definition d_start {S W} (fs : list (handler S W)) : disp S W := Disp (map (fun _ => None) fs) Empty.

(** The constructor gives the starting dispatcher for up to ten factories; from eleven on it
    writes past the array of handler states. *)
Theorem C40_ten : forall S W (fs : list (handler S W)),
  ((length fs < 11)%nat -> d_init fs = Ok (d_start fs)) /\ ((10 < length fs)%nat -> d_init fs = Fault).
Proof.
  intros S W fs. unfold d_init. split; intro H; [|destruct (Nat.leb_spec (length fs) 10); [lia|reflexivity]].
  destruct (Nat.leb_spec (length fs) 10); [reflexivity|lia].
Qed.
Print Assumptions C40_ten.

(** Whatever the handlers do: after any calls the chosen handler is the one that was
    the last to answer "always", and there is none if nobody did. *)
Theorem C40_chosen_is_last : forall S W (fs : list (handler S W)) cs w ns d w',
  d_run true fs cs (d_start fs) w = (ns, d, w') ->
  match last_always ns with
  | None => d_chosen d = Empty
  | Some i => exists h s, d_chosen d = Kept i h s /\ nth_error fs i = Some h
  end.
Proof.
  intros S W fs cs w ns d w' H. assert (L0 : length (d_states (d_start fs)) = length fs) by apply map_length.
  destruct (d_run_inv S W fs cs (d_start fs) w ns d w' None L0 eq_refl H) as [_ K]. destruct (last_always ns); exact K.
Qed.
Print Assumptions C40_chosen_is_last.

(** The dispatcher itself answers "always" from the moment one of its handlers has, and
    "currently" before. *)
Theorem C40_interest : forall S W (fs : list (handler S W)) cs w ns d w',
  d_run true fs cs (d_start fs) w = (ns, d, w') ->
  d_interested d = match last_always ns with None => Currently | Some _ => Always end.
Proof.
  intros S W fs cs w ns d w' H. pose proof (C40_chosen_is_last S W fs cs w ns d w' H) as K. unfold d_interested.
  destruct (last_always ns); [destruct K as (h & s & -> & _)|rewrite K]; reflexivity.
Qed.
Print Assumptions C40_interest.

(** Once somebody has answered "always", every later token, option and payload call
    goes to exactly that handler, unchanged, in order, and to nobody else; and it is
    one and the same object that gets them, starting as it was when it answered. *)
Theorem C40_exactly_one : forall S W (fs : list (handler S W)) before w ns d w' i,
  d_run true fs before (d_start fs) w = (ns, d, w') -> last_always ns = Some i ->
  exists h s, nth_error fs i = Some h /\ d_chosen d = Kept i h s /\
  forall later, Forall middle later ->
    d_run true fs later d w' = (map (Got i true) later, Disp (d_states d) (Kept i h (fst (calls h later s w'))), snd (calls h later s w')).
Proof.
  intros S W fs before w ns d w' i H L. pose proof (C40_chosen_is_last S W fs before w ns d w' H) as K. rewrite L in K.
  destruct K as (h & s & K1 & K2). exists h, s. split; [exact K2|]. split; [exact K1|]. intros later M. apply kept_run; assumption.
Qed.
Print Assumptions C40_exactly_one.

(** Before that every call but on_option(number, length) is offered, in order, to one
    new handler of each factory that has not answered "never" yet. *)
Theorem C40_offered : forall S W sep (fs : list (handler S W)) c d w ns d' w',
  length (d_states d) = length fs -> d_chosen d = Empty -> (forall n l, c <> OnOption n l) -> d_call sep fs c d w = (ns, d', w') ->
  filter is_got ns =
  flat_map (fun x => if tried (snd x) then map (Got (fst x) false) (match c with OnValue n v _ => [OnOption n (N.of_nat (length v) mod 65536); OnValue n v true] | _ => [c] end) else [])
    (combine (seq 0 (length fs)) (d_states d)).
Proof.
  intros S W sep fs c d w ns d' w' L C Ho H.
  assert (O : forall cs, d_offer sep fs cs d w = (ns, d', w') -> filter is_got ns = flat_map (fun x => if tried (snd x) then map (Got (fst x) false) cs else []) (combine (seq 0 (length fs)) (d_states d))).
  { intros cs E. unfold d_offer in E. destruct (offer sep cs 0 fs (d_states d) (d_chosen d) w) as [[[ms sts] ch] w1] eqn:E1. injection E as <- <- <-. eapply offer_got; [|exact E1]. auto. }
  unfold d_call in H. rewrite C in H. destruct c; try (apply O; exact H). exfalso. eapply Ho. reflexivity.
Qed.
Print Assumptions C40_offered.

(** A handler that has answered "never" gets no later call (of a new object; an
    object of its that is already chosen stays chosen). *)
Theorem C40_never_again : forall S W sep (fs : list (handler S W)) before later w ns d w' ms d2 w2 i,
  d_run sep fs before (d_start fs) w = (ns, d, w') -> In (Said i Never) ns -> d_run sep fs later d w' = (ms, d2, w2) ->
  forall c, ~ In (Got i false c) ms.
Proof.
  intros S W sep fs before later w ns d w' ms d2 w2 i H1 Hn H2.
  assert (L0 : length (d_states (d_start fs)) = length fs) by apply map_length.
  destruct (d_run_states _ _ _ _ _ _ _ _ _ _ L0 H1) as (L1 & _ & N1 & _). destruct (d_run_states _ _ _ _ _ _ _ _ _ _ L1 H2) as (_ & N2 & _).
  apply (N2 i (N1 i Hn)).
Qed.
Print Assumptions C40_never_again.

(** The class comment says the first handler to answer "always" is elected; in one
    round it is the last one. *)
Definition keen (n : nat) : handler unit (list nat) := Handler (fun w => (tt, w)) (fun _ _ w => (tt, w ++ [n])) (fun _ _ => Always).
Theorem C40_first_elected_refuted : exists ns d w',
  d_run true [keen 1; keen 2] [OnHeader (Hdr 64 1 0 1)] (d_start [keen 1; keen 2]) [] = (ns, d, w') /\ first_always ns = Some 0%nat /\ last_always ns = Some 1%nat /\
  exists h s, d_chosen d = Kept 1 h s.
Proof. do 3 eexists. split; [reflexivity|]. split; [reflexivity|]. split; [reflexivity|]. do 2 eexists. reflexivity. Qed.
Print Assumptions C40_first_elected_refuted.

(** The chosen object is never told that the message is complete (nor a header). *)
Theorem C40_complete_refuted : forall S W sep (fs : list (handler S W)) cs w ns d w' i c,
  d_run sep fs cs (d_start fs) w = (ns, d, w') -> In (Got i true c) ns -> c <> OnComplete /\ forall h, c <> OnHeader h.
Proof.
  intros S W sep fs cs w ns d w' i c H G. assert (L0 : length (d_states (d_start fs)) = length fs) by apply map_length.
  destruct (d_run_states _ _ _ _ _ _ _ _ _ _ L0 H) as (_ & _ & _ & M). specialize (M _ _ _ G eq_refl). split; [|intro h]; intros ->; exact M.
Qed.
Print Assumptions C40_complete_refuted.

(** An option value that arrives in parts is offered as so many complete options. *)
Theorem C40_parts_refuted : forall S W sep (fs : list (handler S W)) n part w i,
  (i < length fs)%nat -> exists ns d w', d_call sep fs (OnValue n part false) (d_start fs) w = (ns, d, w') /\
    In (Got i false (OnValue n part true)) ns /\ In (Got i false (OnOption n (N.of_nat (length part) mod 65536))) ns.
Proof.
  intros S W sep fs n part w i Hi. destruct (d_call sep fs (OnValue n part false) (d_start fs) w) as [[ns d] w'] eqn:E. exists ns, d, w'. split; [reflexivity|].
  assert (L0 : length (d_states (d_start fs)) = length fs) by apply map_length.
  assert (Ho : forall m l, OnValue n part false <> OnOption m l) by discriminate.
  pose proof (C40_offered S W sep fs _ (d_start fs) w ns d w' L0 eq_refl Ho E) as K.
  assert (G : In (i, None) (combine (seq 0 (length fs)) (d_states (d_start fs)))).
  { cbn [d_start d_states]. clear -Hi. assert (A : forall (l : list (handler S W)) k i, (i < length l)%nat -> In ((k + i)%nat, @None interested) (combine (seq k (length l)) (map (fun _ => None) l))).
    { induction l as [|x l IH]; intros k j Hj; [cbn in Hj; lia|]. cbn [length seq map combine]. destruct j as [|j]; [left; f_equal; lia|]. right.
      replace (k + Datatypes.S j)%nat with (Datatypes.S k + j)%nat by lia. apply IH. cbn [length] in Hj. lia. }
    exact (A fs 0%nat i Hi). }
  split; (eapply (proj1 (filter_In is_got _ ns)); rewrite K; apply in_flat_map; exists (i, None); split; [exact G|]; cbn [tried fst snd map]; cbn; tauto).
Qed.
Print Assumptions C40_parts_refuted.

(** All objects are made from copies of one context and so of one allocator.  If that
    gives them one address (the allocator is not part of this repository), an object
    chosen in a round is overwritten by the next one made: after the round of the
    header it is usable exactly if it is that of the last factory; else the next
    token, option or payload call is one on a dead object. *)
Theorem C40_shared_memory_refuted : forall S W (fs : list (handler S W)) h w ns d w' i v,
  d_run false fs [OnHeader h] (d_start fs) w = (ns, d, w') -> last_always ns = Some i -> last ns Bad = Said (length fs - 1) v ->
  (v = Always /\ exists h' s, d_chosen d = Kept (length fs - 1) h' s) \/
  (v <> Always /\ forall c, middle c -> d_run false fs [c] d w' = ([Bad], d, w')).
Proof.
  intros S W fs h w ns d w' i v H LA LS. cbn [d_run d_call] in H. unfold d_offer in H.
  destruct (offer false [OnHeader h] 0 fs (d_states (d_start fs)) (d_chosen (d_start fs)) w) as [[[ms sts] ch] w1] eqn:E. injection H as <- <- <-. rewrite app_nil_r in *.
  pose proof (offer_shared S W _ fs _ 0%nat _ w ms sts ch w1 (eq_sym (map_length _ fs)) E) as K. destruct ms as [|m ms]; [discriminate|]. rewrite LS in K.
  destruct v; [left; split; [reflexivity|exact K]| | |]; right; (split; [discriminate|]); cbn [d_start d_chosen] in K; rewrite LA in K; subst ch;
    intros c M; cbn [d_run]; destruct c; try contradiction; reflexivity.
Qed.
Print Assumptions C40_shared_memory_refuted.

(** three handlers: never, always, currently interested *)
Definition moody (n : nat) (v : interested) : handler unit (list (nat * call)) := Handler (fun w => (tt, w)) (fun c _ w => (tt, w ++ [(n, c)])) (fun _ _ => v).
Example C40_case : exists ns d w',
  d_run true [moody 0 Never; moody 1 Always; moody 2 Currently] [OnHeader (Hdr 64 1 0 1)] (d_start [moody 0 Never; moody 1 Always; moody 2 Currently]) [] = (ns, d, w') /\
  In (Said 0 Never) ns /\ last_always ns = Some 1%nat /\ last ns Bad = Said 2 Currently /\
  d_run true [moody 0 Never; moody 1 Always; moody 2 Currently] [OnToken [7] true; OnOption 11 1; OnValue 11 [97] true] d w' =
    ([Got 1 true (OnToken [7] true); Got 1 true (OnOption 11 1); Got 1 true (OnValue 11 [97] true)], d, w' ++ [(1%nat, OnToken [7] true); (1%nat, OnOption 11 1); (1%nat, OnValue 11 [97] true)]).
Proof. do 3 eexists. split; [reflexivity|]. repeat split; cbn; auto. Qed.
