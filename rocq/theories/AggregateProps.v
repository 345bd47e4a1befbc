(** Aggregates of observers and of factories, and the queue served with observers. *)
From Verif Require Import Base HeaderModel OptEncModel OptSpec OptDecModel OptDecSpec OptDecProofs.
From Verif Require Import DecoderModel DecoderSpec DecoderProofs DecoderProps DispatchModel SubjectModel SubjectSpec SubjectProofs SubjectProps AggregateModel AggregateSpec AggregateProofs.
Local Open Scope N_scope.

(** All of it in one equation: each call that is heard goes to everyone, in the order
    of the pack, before the next call; it acts on an object made for it alone; each
    such call takes the sizes of all observers from the object stack, and the object
    stack being too small for the sum of it all is the only way to fail. *)
Theorem C64_aggregate : forall S W (os : list (N * handler S W)) cs p w,
  agg_run os cs p w =
  if N.of_nat (length (filter heard cs)) * sizes os <=? p
  then Ok (everyone (length os) cs, p - N.of_nat (length (filter heard cs)) * sizes os, fold_left (effect os) (everyone (length os) cs) w)
  else Fault.
Proof. exact agg_run_eq. Qed.
Print Assumptions C64_aggregate.

(** Every observer is told the same: all calls but payload and completion, in order. *)
Theorem C64_everyone : forall S W (os : list (N * handler S W)) cs p w l p1 w1 i,
  agg_run os cs p w = Ok (l, p1, w1) -> (i < length os)%nat -> told i l = filter heard cs.
Proof.
  intros S W os cs p w l p1 w1 i E L. rewrite agg_run_eq in E. destruct (_ <=? _); [|discriminate]. injection E as <- <- <-.
  now apply told_everyone.
Qed.
Print Assumptions C64_everyone.

(** For a message: nobody hears of its payload or its end. *)
Theorem C64_payload_refuted : forall S W (os : list (N * handler S W)) m p w l p1 w1 i b last,
  agg_run os (msg_calls m) p w = Ok (l, p1, w1) -> ~ In (i, OnPayload b last) l /\ ~ In (i, OnComplete) l.
Proof.
  intros S W os m p w l p1 w1 i b last E. rewrite agg_run_eq in E. destruct (_ <=? _); [|discriminate]. injection E as <- <- <-.
  split; intro H; unfold everyone in H; apply in_flat_map in H; destruct H as (c & H1 & H2); apply filter_In in H1; destruct H1 as [_ H1];
    apply in_map_iff in H2; destruct H2 as (j & H2 & _); injection H2 as _ H2; subst c; discriminate.
Qed.
Print Assumptions C64_payload_refuted.

(** Nothing is remembered: observers that do nothing visible at the first call they get
    do nothing visible at all, however many calls there are. *)
Theorem C64_forgets_refuted : forall S W (os : list (N * handler S W)) cs p w l p1 w1,
  (forall o c v, In o os -> let '(s, v0) := h_new (snd o) v in snd (h_call (snd o) c s v0) = v) ->
  agg_run os cs p w = Ok (l, p1, w1) -> w1 = w.
Proof.
  intros S W os cs p w l p1 w1 H E. rewrite agg_run_eq in E. destruct (_ <=? _); [|discriminate]. injection E as <- <- <-. now apply fold_same.
Qed.
Print Assumptions C64_forgets_refuted.

(** The memory is not given back: however much there is, enough options use it up. *)
Theorem C64_memory_refuted : forall S W (os : list (N * handler S W)) p w n k, 0 < sizes os ->
  agg_run os (repeat (OnOption n k) (Datatypes.S (N.to_nat (p / sizes os)))) p w = Fault.
Proof.
  intros S W os p w n k Hs. rewrite agg_run_eq.
  assert (E : filter heard (repeat (OnOption n k) (Datatypes.S (N.to_nat (p / sizes os)))) = repeat (OnOption n k) (Datatypes.S (N.to_nat (p / sizes os)))).
  { generalize (Datatypes.S (N.to_nat (p / sizes os))). induction n0 as [|n0 IH]; [reflexivity|]. cbn [repeat filter heard]. now rewrite IH. }
  rewrite E, repeat_length. replace (N.of_nat (Datatypes.S (N.to_nat (p / sizes os)))) with (p / sizes os + 1) by lia.
  pose proof (N.mul_succ_div_gt p (sizes os) ltac:(lia)) as G. destruct (N.leb_spec ((p / sizes os + 1) * sizes os) p); [|reflexivity].
  replace (N.succ (p / sizes os)) with (p / sizes os + 1) in G by lia. lia.
Qed.
Print Assumptions C64_memory_refuted.

(** Every factory that says it can creates, the last one first, and each factory is
    asked once; the factories stay where they are. *)
Theorem C64_factories : forall K S (key : K) (fs : list (maker K S * S)),
  fst (fa_create key fs) =
    rev (filter (fun j => match nth_error fs j with Some (f, s) => fst (f_can f key s) | None => false end) (seq 0 (length fs))) /\
  snd (fa_create key fs) =
    map (fun x => let '(b, s) := f_can (fst x) key (snd x) in (fst x, if b then f_create (fst x) key s else s)) fs.
Proof.
  intros K S key fs. unfold fa_create. destruct (fa_helper_eq K S key (length fs) fs (Nat.le_refl _)) as (l & fs1 & E1 & E2 & E3 & E4 & E5).
  rewrite E1. cbn [fst snd]. split; [exact E5|].
  assert (X : forall (a b : list (maker K S * S)), length a = length b -> (forall j, (j < length b)%nat -> nth_error a j = nth_error b j) -> a = b).
  { induction a as [|x a IH]; intros [|y b] L H; cbn [length] in L; try lia; [reflexivity|]. f_equal.
    - specialize (H 0%nat ltac:(cbn; lia)). cbn in H. congruence.
    - apply IH; [lia|]. intros j Hj. exact (H (Datatypes.S j) ltac:(cbn; lia)). }
  apply X; [rewrite map_length; exact E2|]. intros j Hj. rewrite map_length in Hj. rewrite nth_error_map.
  destruct (nth_error fs j) as [[f s]|] eqn:E; [|apply nth_error_None in E; lia]. cbn [option_map fst snd].
  specialize (E4 j f s Hj E). destruct (f_can f key s). exact E4.
Qed.
Print Assumptions C64_factories.

(** process_messageobserver: an item leaves the queue for each call, in order, and its
    observer is told what the first chunk of it gives, as if it were all -- and nothing
    about the sender. *)
Theorem C64_serve : forall A (a : A) c rest q d es d1 n, sub_dispatch c true d = Ok (es, d1, n) ->
  pm_process ((a, c :: rest) :: q) d = Ok (es, q, d1).
Proof. intros A a c rest q d es d1 n E. unfold pm_process, pm_helper. cbn [hd]. rewrite E. reflexivity. Qed.
Print Assumptions C64_serve.

(** What is behind the first chunk does not matter. *)
Theorem C64_chunks_refuted : forall A (a b : A) c r1 r2 q d, pm_process ((a, c :: r1) :: q) d = pm_process ((b, c :: r2) :: q) d.
Proof. reflexivity. Qed.
Print Assumptions C64_chunks_refuted.

(** Messages with payload, each in one chunk, waiting in the queue: only every second
    one reaches the observer; the others are taken from the queue and lost. *)
Theorem C64_every_second : forall A (xs : list (A * msg)) d, Forall (fun x => with_payload (snd x)) xs -> fresh d ->
  exists d1, pm_times (length xs) (whole xs) d = Ok (every_second false (map snd xs), [], d1).
Proof. intros A xs d F [K M]. apply (pm_second A (length xs) xs d false); auto. Qed.
Print Assumptions C64_every_second.

(** That is: the second, the fourth, ... message make no call at all. *)
Theorem C64_lost_refuted : forall A (xs : list (A * msg)) d l q d1 k, Forall (fun x => with_payload (snd x)) xs -> fresh d ->
  pm_times (length xs) (whole xs) d = Ok (l, q, d1) -> (2 * k + 1 < length xs)%nat -> nth_error l (2 * k + 1) = Some [].
Proof.
  intros A xs d l q d1 k F Fr E L. destruct (C64_every_second A xs d F Fr) as (d2 & E2). rewrite E in E2. injection E2 as -> _ _. clear E F.
  rewrite <- (map_length snd) in L. generalize dependent (map snd xs). clear. generalize false. intros b ms. revert b ms.
  induction k as [|k IH]; intros b [|m [|m2 r]] L; cbn [length] in L; try lia; [reflexivity|].
  replace (2 * Datatypes.S k + 1)%nat with (Datatypes.S (Datatypes.S (2 * k + 1))) by lia. cbn [every_second nth_error]. apply IH. lia.
Qed.
Print Assumptions C64_lost_refuted.

(** process_messageobserver2: dequeuing and dequeued are announced, for the item that
    then leaves the queue. *)
Theorem C64_notify : forall X (x : X) q, pm_process2 (x :: q) = ([Dequeuing x; Dequeued x], q) /\ pm_process2 (@nil X) = ([], []).
Proof. auto. Qed.
Print Assumptions C64_notify.

(** an observer that counts the options of a message and writes the count down at the
    payload, and one that writes down each option number at once *)
Definition counter : handler N (list N) :=
  Handler (fun w => (0, w))
          (fun c s w => match c with OnOption _ _ => (s + 1, if 1 <? s + 1 then (s + 1) :: w else w) | OnPayload _ _ => (s, s :: w) | _ => (s, w) end)
          (fun _ _ => Currently).
Definition scribe : handler N (list N) :=
  Handler (fun w => (0, w)) (fun c s w => match c with OnOption n _ => (s, n :: w) | _ => (s, w) end) (fun _ _ => Currently).
Definition even_maker (r : N) : maker N N := Maker (fun k s => (k mod 2 =? r, s + 1)) (fun k s => s + 10 * k).

Example C64_case :
  (* alone, the counter counts the four options; in the aggregate it stays at one *)
  snd (calls counter (msg_calls sample_msg) 0 []) = [4; 4; 3; 2] /\
  (match agg_run [(16, counter); (8, scribe)] (msg_calls sample_msg) 240 [] with
   | Ok (l, p1, w1) => told 1 l = filter heard (msg_calls sample_msg) /\ length l = 18%nat /\ p1 = 24 /\ w1 = [300; 11; 11; 3] | _ => False end) /\
  agg_run [(16, counter); (8, scribe)] (msg_calls sample_msg) 215 [] = Fault /\
  0 < sizes [(16, counter); (8, scribe)] /\
  (* factories 0 and 2 answer even keys, 1 odd ones *)
  fst (fa_create 4 [(even_maker 0, 0); (even_maker 1, 0); (even_maker 0, 0)]) = [2; 0]%nat /\
  map snd (snd (fa_create 4 [(even_maker 0, 0); (even_maker 1, 0); (even_maker 0, 0)])) = [41; 1; 41] /\
  with_payload sample_msg /\ fresh sample_dec /\
  (match pm_times 3 (whole [(1, sample_msg); (2, sample_msg); (3, sample_msg)]) sample_dec with
   | Ok (l, q, _) => l = [msg_calls sample_msg; []; OnComplete :: msg_calls sample_msg] /\ q = [] | _ => False end).
Proof.
  split; [vm_compute; reflexivity|].
  split; [vm_compute; auto|]. split; [vm_compute; reflexivity|]. split; [vm_compute; reflexivity|]. split; [vm_compute; reflexivity|]. split; [vm_compute; reflexivity|].
  split; [split; [apply C14_case|exists 104, [105]; reflexivity]|]. split; [split; [reflexivity|apply sample_idle]|]. vm_compute. auto.
Qed.

(** the hypothesis of [C64_forgets_refuted]: this one writes from the second call on,
    alone it does, in the aggregate never *)
Definition later : handler N (list N) :=
  Handler (fun w => (0, w)) (fun _ s w => (s + 1, if 0 <? s then s :: w else w)) (fun _ _ => Currently).
Example C64_forgets_case :
  (forall o c v, In o [(16, later)] -> let '(s, v0) := h_new (snd o) v in snd (h_call (snd o) c s v0) = v) /\
  snd (calls later (msg_calls sample_msg) 0 []) <> [] /\
  (match agg_run [(16, later)] (msg_calls sample_msg) 1000 [] with Ok (_, _, w1) => w1 = [] | _ => False end).
Proof. split; [intros o c v [<-|[]]; reflexivity|]. split; [vm_compute; discriminate|vm_compute; reflexivity]. Qed.

(** exactly enough memory, constructors that leave a mark, and the order within the pack *)
Definition marked (m : N) : handler N (list N) :=
  Handler (fun w => (0, m :: w)) (fun _ s w => (s, m + 100 :: w)) (fun _ _ => Currently).
Example C64_exact_case :
  agg_run [(16, marked 1); (8, marked 2)] [OnToken [7] true; OnPayload [9] true] 24 [] =
    Ok ([(0%nat, OnToken [7] true); (1%nat, OnToken [7] true)], 0, [102; 2; 101; 1]) /\
  agg_run [(16, marked 1); (8, marked 2)] [OnToken [7] true] 23 [] = Fault.
Proof. vm_compute. auto. Qed.
