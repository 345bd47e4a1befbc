(** C92: the observe program of test/posix/observable-raw under any traffic. *)
From Coq Require Import String ZArith.
From Verif Require Import Base UIntSpec UIntProofs HeaderModel HeaderSpec HeaderProofs OptEncModel OptSpec StreambufModel StreambufProofs ContextModel AppModel NetbufModel NetbufProofs
  ObserveModel RespModel RespSpec RespProofs RespProps OptDecModel OptDecSpec OptDecProofs DecoderModel DecoderSpec DecoderProofs NetDecModel NetDecSpec NetDecProofs NetDecProps
  HeadCutSpec NetAnySpec NetAnyProofs NetAnyProps DiagModel DiagSpec DiagProofs PumpModel PumpSpec PumpProofs PumpAnySpec PumpAnyProofs PumpAnyProps VisitSpec VisitProps WatchSpec WatchProofs.
Local Open Scope N_scope.

(** C92: through any traffic, at any times and in any memory, the program takes exactly one course:
    each turn one datagram goes out; a datagram that comes in gets the reply its bytes determine and
    may add clients, up to ten; a second after the last round every client gets its next
    notification.  It exits at an error, a failed send and an empty datagram, and is gone at the
    first datagram without a reply and when more than [size] datagrams would wait. *)
Theorem C92_course : forall A fuel size (es : list (event A * world)), (1 <= size)%nat -> 77888 <= N.of_nat fuel -> Forall open_ok es ->
  exists o, watched size [] [] 0 0 es o /\ (forall o2, watched size [] [] 0 0 es o2 -> o2 = o) /\
    main_loop posix_loop (obs_app false fuel) size es (Pump [] []) (ObsState [] 0 0) =
      match o with
      | Gone => Fault
      | Over out => Ok (out, None)
      | Going out queue subs k t => Ok (out, Some (Pump [] queue, ObsState subs k t))
      end.
Proof.
  intros A fuel size es Hs Hf F. destruct (watch_any A fuel size Hs Hf es [] [] 0 0 F) as (o & C & E); [cbn; lia|split; [cbn; lia|split; [lia|constructor]]|].
  exists o. split; [exact C|]. split; [intros o2 C2; exact (watched_once _ _ _ _ _ _ _ _ C2 _ C)|]. exact E.
Qed.
Print Assumptions C92_course.

(** a datagram that asks to be notified *)
Definition enrolling (c : list N) : Prop :=
  exists h tok rest l, parts c h tok rest /\ seen (fun n => (n =? 11) || (n =? 6)) rest = Ok l /\ Exists (fun v => registers v = true) (values_of 6 l).

Lemma enrolling_news : forall A size c (a : A) subs r news, enrolling c -> obs_told 4096 size c a subs r news -> (1 <= List.length news)%nat /\ (List.length subs + List.length news <= size)%nat.
Proof.
  intros A size c a subs r news (h & tok & rest & l & P & S & X) (h' & tok' & rest' & l' & P' & _ & S' & _ & _ & -> & L).
  destruct (parts_once _ _ _ _ _ _ _ P P') as (<- & <- & <-). assert (l = l') by congruence. subst l'. split; [|exact L]. rewrite repeat_length.
  clear - X. induction X as [v vs H|v vs H IH]; cbn [filter]; [rewrite H; cbn; lia|]. destruct (registers v); cbn [List.length]; lia.
Qed.

Lemma enrolled_gone : forall A size (a : A) dg w post, dg <> [] -> (List.length dg <= 4096)%nat -> enrolling dg ->
  forall n q subs k t o, watched size q subs k t (repeat (Event true (PData a dg), w) n ++ post) o -> (10 < List.length subs + n)%nat -> (List.length subs <= 10)%nat -> o = Gone.
Proof.
  intros A size a dg w post Ne Ld En. induction n as [|n IH]; intros q subs k t o H L1 L2; [lia|]. cbn [repeat app] in H.
  inversion H as [|? ? ? ? ? ? ? ? V|? ? ? ? ? ? ? V X|? ? ? ? ? ? ? rep subs1 outs subs2 k2 t2 o2 V Nc T R Lq W| | |]; subst; try reflexivity.
  - discriminate V.
  - cbn [v_poll] in X. destruct X as [X|(b & X)]; [discriminate X|]. injection X as -> ->. congruence.
  - cbn [v_poll takes] in T. destruct T as (r & news & T & -> & ->). rewrite firstn_all2 in T by exact Ld.
    destruct (enrolling_news _ _ _ _ _ _ _ En T) as (N1 & N2).
    assert (Es : List.length subs2 = (List.length subs + List.length news)%nat).
    { destruct R as [(_ & _ & -> & _)|(_ & _ & _ & -> & _)]; rewrite ?map_length, app_length; reflexivity. }
    rewrite (IH _ _ _ _ _ W) by lia. reflexivity.
Qed.

(** Full claim (false): the program goes on if all its clients send proper requests.  A client that
    repeats its registration eleven times, as RFC 7641 (3.3.1) allows it to, ends the service for
    all. *)
Theorem C92_repeated_refuted : forall A fuel size (a : A) dg w n post, (1 <= size)%nat -> 77888 <= N.of_nat fuel ->
  open_ok (Event true (PData a dg), w) -> Forall open_ok post -> dg <> [] -> (List.length dg <= 4096)%nat -> enrolling dg -> (11 <= n)%nat ->
  main_loop posix_loop (obs_app false fuel) size (repeat (Event true (PData a dg), w) n ++ post) (Pump [] []) (ObsState [] 0 0) = Fault.
Proof.
  intros A fuel size a dg w n post Hs Hf O P Ne Ld En Hn.
  destruct (C92_course A fuel size (repeat (Event true (PData a dg), w) n ++ post) Hs Hf) as (o & C & _ & E).
  { apply Forall_app. split; [|exact P]. apply Forall_forall. intros x X. apply repeat_spec in X. subst x. exact O. }
  assert (o = Gone) by (eapply enrolled_gone; try eassumption; cbn [List.length]; lia). subst o. exact E.
Qed.
Print Assumptions C92_repeated_refuted.

(** where a course has come to *)
Lemma watched_prefix : forall A size (es1 es2 : list (event A * world)) q subs k t out q1 s1 k1 t1 o, watched size q subs k t es1 (Going out q1 s1 k1 t1) -> watched size q1 s1 k1 t1 es2 o ->
  exists o', watched size q subs k t (es1 ++ es2) o' /\ (o = Gone -> o' = Gone).
Proof.
  intros A size es1 es2 q subs k t out q1 s1 k1 t1 o H. remember (Going out q1 s1 k1 t1) as g eqn:G. revert out G.
  induction H as [| | |q subs k t e m r rep subs1 outs subs2 k2 t2 g V Nc T R L W IH| | |]; intros out G W2; try discriminate G.
  - injection G as <- <- <- <- <-. exists o. split; [exact W2|auto].
  - destruct g as [|l|l q' s' k' t']; try discriminate G. cbn [later] in G. injection G as <- <- <- <- <-.
    destruct (IH l eq_refl W2) as (o' & W' & Z). exists (later (hd_error q) o'). split; [cbn [app]; eapply w_turn; eassumption|]. intros X. rewrite (Z X). reflexivity.
Qed.

(** Full claim (false): a client is never lost for lack of room.  With more clients than places in
    the queue the next round ends the program. *)
Theorem C92_crowd_refuted : forall A fuel size (pre post : list (event A * world)) w out queue subs k t, (1 <= size)%nat -> 77888 <= N.of_nat fuel -> Forall open_ok (pre ++ (Event true PNone, w) :: post) ->
  main_loop posix_loop (obs_app false fuel) size pre (Pump [] []) (ObsState [] 0 0) = Ok (out, Some (Pump [] queue, ObsState subs k t)) ->
  (size < List.length subs)%nat -> t + 1000 < w_now w ->
  main_loop posix_loop (obs_app false fuel) size (pre ++ (Event true PNone, w) :: post) (Pump [] []) (ObsState [] 0 0) = Fault.
Proof.
  intros A fuel size pre post w out queue subs k t Hs Hf F H Ls Lt.
  destruct (C92_course A fuel size pre Hs Hf) as (o & C & _ & E); [apply Forall_app in F; tauto|]. rewrite H in E.
  destruct o as [|l|l q1 s1 k1 t1]; try discriminate E. injection E as <- <- <- <- <-.
  destruct (C92_course A fuel size (pre ++ (Event true PNone, w) :: post) Hs Hf F) as (o & C2 & U & E2).
  assert (G : watched size queue subs k t ((Event true PNone, w) :: post) Gone).
  { assert (Nc : ~ @closing A PNone) by (intros [X|(a & X)]; discriminate X).
    destruct (N.le_gt_cases (k + N.of_nat (List.length subs)) 2147483647) as [Kk|Kk].
    - assert (Ex : exists outs, Forall2 (fun o i => fst o = fst i /\ item_ok (snd i) (snd o)) outs (notices k (map who subs))).
      { clear - subs. revert k. induction subs as [|s subs IH]; intros k; [exists []; constructor|]. destruct (IH (k + 1)) as (outs & X). cbn [map notices]. unfold who at 1.
        eexists ((_, _) :: outs). constructor; [|exact X]. split; [reflexivity|]. cbn [snd item_ok]. exists (uenc (os_seq s + 1)), (digits false 10 (os_seq s + 1)).
        split; [apply uenc_be|]. split; [apply uenc_minimal|]. split; [apply uenc_ok|]. split; [apply digits_numeral; lia|reflexivity]. }
      destruct Ex as (outs & X). eapply w_full with (rep := []) (subs1 := subs) (outs := outs); [right; reflexivity|exact Nc|split; reflexivity|right; repeat split; eauto|].
      assert (X2 : List.length outs = List.length (notices k (map who subs))) by (clear - X; induction X; cbn; congruence). rewrite !app_length, X2. assert (Ln : forall cs k0, List.length (@notices A k0 cs) = List.length cs).
      { induction cs as [|[[? ?] ?] cs IHc]; intros; cbn; [reflexivity|]. now rewrite IHc. }
      rewrite Ln, map_length. cbn [List.length]. lia.
    - eapply w_spent with (rep := []) (subs1 := subs); [right; reflexivity|exact Nc|split; reflexivity|].
      intros outs subs2 k2 t2 [(X & _)|(_ & -> & X & _)]; lia. }
  destruct (watched_prefix _ _ _ _ _ _ _ _ _ _ _ _ _ _ C G) as (o' & W & Z). specialize (Z eq_refl). subst o'.
  rewrite <- (U _ W) in E2. exact E2.
Qed.
Print Assumptions C92_crowd_refuted.

(** ... and so does, whoever sends it, the first registration after the tenth. *)
Theorem C92_eleventh_refuted : forall A fuel size (pre post : list (event A * world)) a dg w out queue subs k t, (1 <= size)%nat -> 77888 <= N.of_nat fuel ->
  Forall open_ok (pre ++ (Event true (PData a dg), w) :: post) -> dg <> [] -> (List.length dg <= 4096)%nat -> enrolling dg ->
  main_loop posix_loop (obs_app false fuel) size pre (Pump [] []) (ObsState [] 0 0) = Ok (out, Some (Pump [] queue, ObsState subs k t)) -> List.length subs = 10%nat ->
  main_loop posix_loop (obs_app false fuel) size (pre ++ (Event true (PData a dg), w) :: post) (Pump [] []) (ObsState [] 0 0) = Fault.
Proof.
  intros A fuel size pre post a dg w out queue subs k t Hs Hf F Ne Ld En H Ls.
  destruct (C92_course A fuel size pre Hs Hf) as (o & C & _ & E); [apply Forall_app in F; tauto|]. rewrite H in E.
  destruct o as [|l|l q1 s1 k1 t1]; try discriminate E. injection E as <- <- <- <- <-.
  destruct (C92_course A fuel size (pre ++ (Event true (PData a dg), w) :: post) Hs Hf F) as (o & C2 & U & E2).
  assert (G : watched size queue subs k t ((Event true (PData a dg), w) :: post) Gone).
  { apply w_deaf; [right; reflexivity|intros [X|(b & X)]; [discriminate X|injection X as -> ->; congruence]|]. cbn [v_poll]. intros rep subs1 (r & news & T & _).
    rewrite firstn_all2 in T by exact Ld. destruct (enrolling_news _ _ _ _ _ _ _ En T). lia. }
  destruct (watched_prefix _ _ _ _ _ _ _ _ _ _ _ _ _ _ C G) as (o' & W & Z). specialize (Z eq_refl). subst o'. rewrite <- (U _ W) in E2. exact E2.
Qed.
Print Assumptions C92_eleventh_refuted.

(** Cases.  A client with the token 7 registers at /a and is notified a second later; eleven such
    requests, or eleven clients; two clients and a queue of one place. *)
Definition c92_ask (tok : N) : list N := [65; 1; 18; 52; tok; 96; 81; 97].
Definition c92_turn (a t : N) (dg : list N) : event N * world := (Event true (PData a dg), c85_world t).
Definition c92_quiet (t : N) : event N * world := (Event true PNone, c85_world t).
Definition c92_run (size : nat) (es : list (event N * world)) := main_loop posix_loop (obs_app false c85_fuel) size es (Pump [] []) (ObsState [] 0 0).
Example C92_case :
  (forall t, open_ok (c92_turn 1 t (c92_ask 7))) /\ (forall t, open_ok (c92_quiet t)) /\ enrolling (c92_ask 7) /\
  c92_run 1 [c92_turn 1 0 (c92_ask 7); c92_quiet 500; c92_quiet 1001; c92_quiet 1002; c92_quiet 2002] =
    Ok ([None; Some (1, [97; 67; 18; 52; 7; 255]); None; Some (1, [81; 69; 0; 0; 7; 97; 1; 255] ++ str "Observed: 1"); None],
        Some (Pump [] [(1, [81; 69; 0; 1; 7; 97; 2; 255] ++ str "Observed: 2")], ObsState [Session 2 1 [7]] 2 2002)) /\
  c92_run 10 (repeat (c92_turn 1 0 (c92_ask 7)) 11) = Fault /\
  (exists out q subs, c92_run 10 (map (fun i => c92_turn i 0 (c92_ask i)) [1; 2; 3; 4; 5; 6; 7; 8; 9; 10]) = Ok (out, Some (Pump [] q, ObsState subs 0 0)) /\ List.length subs = 10%nat) /\
  c92_run 1 [c92_turn 1 0 (c92_ask 7); c92_turn 2 0 (c92_ask 8); c92_quiet 1001] = Fault.
Proof.
  assert (W : forall t, hdr_ok (w_hdr (c85_world t)) /\ idle (w_dec (c85_world t))).
  { intro t. split; [apply hdr_ok_iff; repeat split; vm_compute; reflexivity|]. split; [left; reflexivity|]. unfold dec_mem, od_bytes, byte_ok. cbn. repeat split; try lia; repeat constructor; unfold byte_ok; lia. }
  split; [intro t; destruct (W t) as (W1 & W2); split; [exact W1|split; [exact W2|cbn; repeat constructor; unfold byte_ok; lia]]|].
  split; [intro t; destruct (W t) as (W1 & W2); split; [exact W1|split; [exact W2|exact I]]|].
  split. { exists (Hdr 65 1 18 52), [7], [96; 81; 97]. eexists. split; [split; [reflexivity|split; [reflexivity|cbn; lia]]|]. split; [vm_compute; reflexivity|]. left. reflexivity. }
  split; [vm_compute; reflexivity|]. split; [vm_compute; reflexivity|]. split; [do 3 eexists; split; vm_compute; reflexivity|]. vm_compute. reflexivity.
Qed.
