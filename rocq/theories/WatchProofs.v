(** Lemmas for C92. *)
From Coq Require Import String ZArith.
From Verif Require Import Base UIntSpec UIntProofs HeaderModel HeaderSpec HeaderProofs OptEncModel OptSpec StreambufModel StreambufProofs ContextModel AppModel NetbufModel NetbufProofs
  ObserveModel RespModel RespSpec RespProofs RespProps OptDecModel OptDecSpec OptDecProofs DecoderModel DecoderSpec DecoderProofs NetDecModel NetDecSpec NetDecProofs NetDecProps
  HeadCutSpec NetAnySpec NetAnyProofs NetAnyProps DiagModel DiagSpec DiagProofs PumpModel PumpSpec PumpProofs PumpAnySpec PumpAnyProofs VisitSpec VisitProps WatchSpec.
From Verif Require ObserveProps.
Local Open Scope N_scope.

(** ---- the course is determined ---- *)

Lemma told_once : forall A cap size c (a : A) regs r1 n1 r2 n2, obs_told cap size c a regs r1 n1 -> obs_told cap size c a regs r2 n2 -> r1 = r2 /\ n1 = n2.
Proof.
  intros A cap size c a regs r1 n1 r2 n2 (h & tok & rest & l & P & _ & S & _ & -> & -> & _) (h' & tok' & rest' & l' & P' & _ & S' & _ & -> & -> & _).
  destruct (parts_once _ _ _ _ _ _ _ P P') as (<- & <- & <-). assert (l = l') by congruence. subst. auto.
Qed.

Lemma takes_once : forall A (v : poll A) subs r1 s1 r2 s2, takes v subs r1 s1 -> takes v subs r2 s2 -> r1 = r2 /\ s1 = s2.
Proof.
  intros A [|a dg|] subs r1 s1 r2 s2 H1 H2; cbn [takes] in *; [destruct H1, H2; subst; auto| |contradiction].
  destruct H1 as (x & n & T & -> & ->), H2 as (x' & n' & T' & -> & ->). destruct (told_once _ _ _ _ _ _ _ _ _ _ T T') as (-> & ->). auto.
Qed.

Lemma item_once : forall i a b, item_ok i a -> item_ok i b -> a = b.
Proof.
  intros [bs|k tok seq] a b H1 H2; cbn [item_ok] in *; [congruence|].
  destruct H1 as (v & t & B & M & O & U & ->), H2 as (v' & t' & B' & M' & O' & U' & ->).
  pose proof (minimal_unique v O M) as E. pose proof (minimal_unique v' O' M') as E'. rewrite B in E. rewrite B' in E'.
  rewrite (numeral_unique false 10 seq t ltac:(lia) U), (numeral_unique false 10 seq t' ltac:(lia) U'). congruence.
Qed.
Lemma items_once : forall A (is : list (A * item)) (xs ys : list (A * list N)), Forall2 (fun o i => fst o = fst i /\ item_ok (snd i) (snd o)) xs is ->
  Forall2 (fun o i => fst o = fst i /\ item_ok (snd i) (snd o)) ys is -> xs = ys.
Proof.
  intros A is xs ys H. revert ys. induction H as [|[a x] i xs is (E & I) H IH]; intros ys G; inversion G as [|[b y] ? ys' ? (E' & I') G']; subst; [reflexivity|].
  cbn [fst snd] in *. rewrite (item_once _ _ _ I I'). f_equal; [congruence|now apply IH].
Qed.

Lemma rounded_once : forall A now (subs : list (session A)) k t o1 s1 k1 t1 o2 s2 k2 t2, rounded now subs k t o1 s1 k1 t1 -> rounded now subs k t o2 s2 k2 t2 ->
  o1 = o2 /\ s1 = s2 /\ k1 = k2 /\ t1 = t2.
Proof.
  intros A now subs k t o1 s1 k1 t1 o2 s2 k2 t2 [(L & -> & -> & -> & ->)|(L & -> & _ & -> & -> & F)] [(L' & -> & -> & -> & ->)|(L' & -> & _ & -> & -> & F')]; try lia; auto.
  split; [exact (items_once _ _ _ _ F F')|auto].
Qed.

Lemma watched_once : forall A size q subs k t (es : list (event A * world)) o1, watched size q subs k t es o1 -> forall o2, watched size q subs k t es o2 -> o1 = o2.
Proof.
  intros A size q subs k t es o1 H. induction H; intros o2' G; inversion G; subst; auto;
    try match goal with H : _ :: _ = [] \/ _ |- _ => destruct H as [H|H]; [discriminate H|congruence] end;
    try contradiction;
    try match goal with H1 : takes _ _ _ _, H2 : forall rep subs1, ~ takes _ _ _ _ |- _ => destruct (H2 _ _ H1) end;
    try match goal with H1 : takes _ _ _ _, H2 : takes _ _ _ _ |- _ => destruct (takes_once _ _ _ _ _ _ _ H1 H2) as (? & ?); subst end;
    try match goal with H1 : rounded _ _ _ _ _ _ _ _, H2 : forall outs subs2 k2 t2, ~ _ |- _ => destruct (H2 _ _ _ _ H1) end;
    try match goal with H1 : rounded _ _ _ _ _ _ _ _, H2 : rounded _ _ _ _ _ _ _ _ |- _ => destruct (rounded_once _ _ _ _ _ _ _ _ _ _ _ _ _ H1 H2) as (? & ? & ? & ?); subst end;
    try lia.
  f_equal. now apply IHwatched.
Qed.

(** ---- one round ---- *)

Definition subs_ok {A} (subs : list (session A)) (k : N) : Prop :=
  (List.length subs <= 10)%nat /\ k <= 2147483647 /\ Forall (fun s => (List.length (os_tok s) <= 8)%nat /\ os_seq s <= k) subs.

Lemma each_watch : forall A (subs : list (session A)) k, Forall (fun s => (List.length (os_tok s) <= 8)%nat /\ os_seq s <= k) subs -> k <= 2147483647 ->
  (k + N.of_nat (List.length subs) <= 2147483647 /\ exists outs, for_each false nb_size emit_observed k subs = Ok (k + N.of_nat (List.length subs), map counted subs, outs) /\
     Forall2 (fun o i => fst o = fst i /\ item_ok (snd i) (snd o)) outs (notices k (map who subs))) \/
  (2147483647 < k + N.of_nat (List.length subs) /\ for_each false nb_size emit_observed k subs = Fault).
Proof.
  assert (P31 : 2 ^ 31 = 2147483648) by reflexivity.
  intros A. induction subs as [|s subs IH]; intros k G Hk; cbn [for_each].
  - left. cbn [List.length]. rewrite N.add_0_r. split; [exact Hk|]. exists []. split; [reflexivity|constructor].
  - inversion G as [|? ? (G1 & G2) G3]; subst. cbn [List.length]. destruct (N.eq_dec k 2147483647) as [->|Ne].
    { right. split; [lia|]. reflexivity. }
    destruct (ObserveProps.notify_exact A false nb_size observed_body k s G1 (observed_ok (os_tok s) (os_seq s + 1) ltac:(rewrite P31; lia)) ltac:(rewrite P31; lia) ltac:(rewrite P31; lia)) as (bs & E & v & V1 & V2 & V3 & V4).
    change (ObserveProps.emit_body observed_body) with (@emit_observed A) in E. rewrite E. cbn [bind].
    destruct (IH (k + 1)) as [(L & outs & E2 & F)|(L & E2)]; [|lia| |].
    { eapply Forall_impl; [|exact G3]. cbn beta. intros x (X1 & X2). split; [exact X1|lia]. }
    + left. split; [lia|]. rewrite E2. cbn [bind]. eexists. split; [do 3 f_equal; lia|]. cbn [map notices]. unfold who at 1. constructor; [|exact F].
      split; [reflexivity|]. cbn [fst snd item_ok].
      exists v, (digits false 10 (os_seq s + 1)). split; [exact V1|]. split; [exact V2|]. split; [exact V3|]. split; [apply digits_numeral; lia|].
      rewrite V4. unfold observed_body. cbn [fst snd pay_bytes]. reflexivity.
    + right. split; [lia|]. rewrite E2. reflexivity.
Qed.

Lemma turn_watch : forall A fuel w (subs : list (session A)) k t, subs_ok subs k ->
  (exists outs subs2 k2 t2, rounded (w_now w) subs k t outs subs2 k2 t2 /\ subs_ok subs2 k2 /\
     on_turn (obs_app false fuel) w (ObsState subs k t) = Ok (outs, ObsState subs2 k2 t2)) \/
  ((forall outs subs2 k2 t2, ~ rounded (w_now w) subs k t outs subs2 k2 t2) /\ on_turn (obs_app false fuel) w (ObsState subs k t) = Fault).
Proof.
  intros A fuel w subs k t (S1 & S2 & S3). cbn [on_turn obs_app o_last o_mid o_regs].
  destruct (N.ltb_spec 1000 (w_now w - t)) as [L|L].
  - destruct (each_watch A subs k S3 S2) as [(K & outs & E & F)|(K & E)]; rewrite E; cbn [bind].
    + left. do 4 eexists. split; [right; repeat split; try lia; eassumption|]. split; [|reflexivity].
      split; [rewrite map_length; exact S1|]. split; [exact K|]. apply Forall_forall. intros x X. apply in_map_iff in X. destruct X as (y & <- & Y).
      rewrite Forall_forall in S3. destruct (S3 y Y) as (Y1 & Y2). cbn [counted os_tok os_seq]. split; [exact Y1|].
      assert (subs <> []) by (intros ->; destruct Y). destruct subs; [congruence|]. cbn [List.length]. lia.
    + right. split; [|reflexivity]. intros outs subs2 k2 t2 [(X & _)|(_ & -> & X & _)]; lia.
  - left. exists [], subs, k, t. split; [left; repeat split; lia|]. split; [split; auto|reflexivity].
Qed.

(** ---- one datagram ---- *)

Lemma request_watch : forall A fuel w (a : A) c subs k t, hdr_ok (w_hdr w) -> idle (w_dec w) -> bytes_ok c -> (dec_fuel c <= fuel)%nat -> subs_ok subs k ->
  (exists r news, obs_told 4096 10 c a subs r news /\ subs_ok (subs ++ news) k /\
     on_request (obs_app false fuel) w a c (ObsState subs k t) = Ok (r, ObsState (subs ++ news) k t)) \/
  ((forall r news, ~ obs_told 4096 10 c a subs r news) /\ on_request (obs_app false fuel) w a c (ObsState subs k t) = Fault).
Proof.
  intros A fuel w a c subs k t Hj Hd B Hf (S1 & S2 & S3). cbn [on_request obs_app o_regs o_mid o_last].
  assert (N12 : (12 <= nb_size)%nat) by (apply Nat.leb_le; vm_compute; reflexivity).
  destruct (C88_observe A nb_size fuel 10 (w_hdr w) (w_tok w) c (w_dec w) a subs Hj Hd B N12 S1 Hf) as [(r & news & T & _ & E)|(T & E)]; rewrite E; cbn [bind fst snd].
  - left. exists r, news. split; [exact T|]. split; [|reflexivity]. destruct T as (h & tok & rest & l & (_ & _ & P) & _ & _ & _ & _ & -> & L).
    split; [rewrite app_length; exact L|]. split; [exact S2|]. apply Forall_app. split; [exact S3|]. apply Forall_forall. intros x X. apply repeat_spec in X. subst x.
    cbn [os_tok os_seq]. split; [exact P|lia].
  - right. split; [exact T|reflexivity].
Qed.

(** ---- the loop ---- *)

Definition ending_res {A} (o : ending A) : res (list (option (A * list N)) * option (pump A * obs_state A)) :=
  match o with
  | Gone => Fault
  | Over l => Ok (l, None)
  | Going l q subs k t => Ok (l, Some (Pump [] q, ObsState subs k t))
  end.
Lemma later_res : forall A (x : option (A * list N)) o, bind (ending_res o) (fun u => Ok (x :: fst u, snd u)) = ending_res (later x o).
Proof. intros A x [|l|l q s k t]; reflexivity. Qed.

Lemma enqueue_fits : forall X size (x : X) q, enqueue size x q = if (List.length q <? size)%nat then Ok (q ++ [x]) else Fault.
Proof. reflexivity. Qed.

Lemma watch_any : forall A fuel size, (1 <= size)%nat -> 77888 <= N.of_nat fuel -> forall (es : list (event A * world)) q subs k t, Forall open_ok es ->
  (List.length q <= size)%nat -> subs_ok subs k ->
  exists o, watched size q subs k t es o /\ main_loop posix_loop (obs_app false fuel) size es (Pump [] q) (ObsState subs k t) = ending_res o.
Proof.
  intros A fuel size Hs Hf. set (ap := @obs_app A false fuel).
  induction es as [|[e w] es IH]; intros q subs k t F Lq So.
  - exists (Going [] q subs k t). split; [constructor|reflexivity].
  - inversion F as [|? ? (O1 & O2 & O3) F2]; subst. cbn [fst snd] in O1, O2, O3. cbn [main_loop].
    assert (K : (exists y q', q = y :: q' /\ v_sent e = false) \/ (q = [] \/ v_sent e = true)) by (destruct q; destruct (v_sent e); eauto).
    destruct K as [(y & q' & -> & V)|K].
    { exists (Over [None]). split; [now constructor|]. unfold posix_loop. cbn [p_out]. rewrite V. reflexivity. }
    assert (L : posix_loop size e (Pump [] q) = bind (posix_recv size (v_poll e) (Pump [] (tl q))) (fun r => Ok (hd_error q, r))).
    { unfold posix_loop. destruct q as [|y q]; cbn [p_out p_in tl hd_error]; [reflexivity|]. destruct K as [K|K]; [discriminate|]. rewrite K. reflexivity. }
    rewrite L. clear L. assert (Lt : (List.length (tl q) <= size)%nat) by (rewrite tl_length; lia).
    (* the end of a turn *)
    assert (Rest : forall rep subs1, ~ closing (v_poll e) -> takes (v_poll e) subs rep subs1 -> subs_ok subs1 k -> (List.length (tl q ++ rep) <= size)%nat ->
      exists o, watched size q subs k t ((e, w) :: es) o /\
        bind (on_turn ap w (ObsState subs1 k t)) (fun z => bind (enqueue_all size (fst z) (tl q ++ rep)) (fun q2 =>
          bind (main_loop posix_loop ap size es (Pump [] q2) (snd z)) (fun u => Ok (hd_error q :: fst u, snd u)))) = ending_res o).
    { intros rep subs1 Nc T S1 L1. destruct (turn_watch A fuel w subs1 k t S1) as [(outs & subs2 & k2 & t2 & R & S2 & E)|(R & E)]; unfold ap; rewrite E; cbn [bind fst snd].
      - rewrite enqueue_all_ok by exact L1. rewrite <- app_length, <- app_assoc.
        destruct (Nat.leb_spec (List.length (tl q ++ rep ++ outs)) size) as [Z|Z]; cbn [bind].
        + destruct (IH (tl q ++ rep ++ outs) subs2 k2 t2 F2 Z S2) as (o & C & M). exists (later (hd_error q) o). split; [eapply w_turn; eassumption|].
          unfold ap in M. rewrite M. apply later_res.
        + exists Gone. split; [eapply w_full; eassumption|reflexivity].
      - exists Gone. split; [eapply w_spent; eassumption|reflexivity]. }
    destruct (v_poll e) as [|a dg|] eqn:P.
    + destruct (Rest [] subs) as (o & C & M); [intros [X|(a & X)]; discriminate X|split; reflexivity|exact So|rewrite app_nil_r; exact Lt|]. exists o. split; [exact C|].
      cbn [posix_recv bind fst snd]. unfold service. cbn [p_in bind fst snd p_out]. rewrite app_nil_r in M. exact M.
    + unfold posix_recv. destruct dg as [|b0 dg].
      { exists (Over [hd_error q]). split; [|reflexivity]. eapply w_exit; [exact K|]. rewrite P. right. eexists. reflexivity. }
      assert (Nc : ~ closing (PData a (b0 :: dg))) by (intros [X|(x & X)]; discriminate X).
      assert (Bc : bytes_ok (firstn nb_size (b0 :: dg))) by (rewrite <- (firstn_skipn nb_size (b0 :: dg)) in O3; apply bytes_ok_app in O3; tauto).
      assert (Fc : (dec_fuel (firstn nb_size (b0 :: dg)) <= fuel)%nat).
      { unfold dec_fuel. assert (List.length (firstn nb_size (b0 :: dg)) <= 4096)%nat by (rewrite firstn_length; apply Nat.le_min_l). lia. }
      remember (firstn nb_size (b0 :: dg)) as c eqn:Ec. destruct c as [|c0 c]; [discriminate Ec|]. rewrite enqueue_fits. cbn [p_in List.length].
      destruct (Nat.ltb_spec 0 size); [|lia]. cbn [bind fst snd app]. unfold service. cbn [p_in p_out].
      destruct (request_watch A fuel w a (c0 :: c) subs k t O1 O2 Bc Fc So) as [(r & news & T & S1 & E)|(T & E)]; unfold ap; rewrite E; cbn [bind fst snd]; fold ap.
      * assert (Tk : takes (PData a (b0 :: dg)) subs [(a, r)] (subs ++ news)).
        { exists r, news. change 4096%nat with nb_size. rewrite <- Ec. auto. }
        rewrite enqueue_fits. destruct (Nat.ltb_spec (List.length (tl q)) size) as [Z|Z]; cbn [bind fst snd p_in p_out].
        -- apply (Rest [(a, r)] (subs ++ news) Nc Tk S1). rewrite app_length. cbn [List.length]. lia.
        -- exists Gone. split; [|reflexivity]. destruct (turn_watch A fuel w (subs ++ news) k t S1) as [(outs & subs2 & k2 & t2 & R & _)|(R & _)].
           ++ eapply w_full; try eassumption; try (rewrite P; eassumption). rewrite !app_length. cbn [List.length]. lia.
           ++ eapply w_spent; try eassumption; rewrite P; eassumption.
      * exists Gone. split; [|reflexivity]. eapply w_deaf; [exact K|rewrite P; exact Nc|]. rewrite P. intros rep subs1 (r & news & X & _).
        change 4096%nat with nb_size in X at 2. rewrite <- Ec in X. exact (T r news X).
    + exists (Over [hd_error q]). split; [|reflexivity]. eapply w_exit; [exact K|]. rewrite P. left. reflexivity.
Qed.
