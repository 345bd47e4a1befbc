(** Lemmas for C95. *)
From Coq Require Import Permutation.
From Verif Require Import Base UIntSpec HeaderModel HeaderSpec HeaderProofs OptSpec OptDecModel DecoderModel DecoderSpec RespModel RespSpec RetryModel RetrySpec RetryProofs
  PumpModel PumpSpec RetryMemModel ExchangeModel ExchangeSpec ExchangeProofs RetryProps ExchangeProps ScheduleSpec ScheduleProofs ScheduleProps ExchScheduleSpec.
Local Open Scope N_scope.

Lemma xrun_split : forall wd same debug h1 h2 s s2, xrun wd same debug s (h1 ++ h2) s2 -> exists s1, xrun wd same debug s h1 s1 /\ xrun wd same debug s1 h2 s2.
Proof.
  induction h1 as [|[o evs] h1 IH]; intros h2 s s2 R; cbn [app] in R; [exists s; split; [constructor|exact R]|].
  inversion R as [|? ? ? sa ? ? St L R1]; subst. destruct (IH _ _ _ R1) as (s1 & A & B). exists s1. split; [econstructor; eassumption|exact B].
Qed.

(** what each operation of the client comes from *)
Lemma op_of : forall wd same debug h s, xrun wd same debug x_start h s -> forall j o os, nth_error (history h) j = Some (o, os) ->
  exists ha xo hb, h = ha ++ (xo, [EClient o os]) :: hb /\ length (history ha) = j.
Proof.
  assert (G : forall wd same debug s0 h s, xrun wd same debug s0 h s -> forall j o os, nth_error (history h) j = Some (o, os) ->
    exists ha xo hb, h = ha ++ (xo, [EClient o os]) :: hb /\ length (history ha) = j); [|intros; eapply G; eassumption].
  intros wd same debug s0 h s R. induction R as [s|s o evs sa h sb St L R IH]; intros j ro os E; [destruct j; discriminate|].
  change ((o, evs) :: h) with ([(o, evs)] ++ h) in E. rewrite history_app, history_one in E.
  assert (C : evs = [] \/ (exists x y, evs = [EClient x y]) \/ (exists a b, evs = [EServed a b])).
  { clear - St. destruct o as [m a now r|now k|i w|i d k|u i|u i]; cbn [x_step] in St.
    - destruct (rop_step _ _ _ _); cbn [bind] in St; try discriminate. injection St as <- <-. right. left. eauto.
    - destruct (rop_step _ _ _ _); cbn [bind] in St; try discriminate. injection St as <- <-. right. left. eauto.
    - destruct (nth_error _ _) as [[a b]|]; [|injection St as <- <-; now left]. destruct (on_request _ _ _ _ _); cbn [bind] in St; try discriminate. injection St as <- <-. right. right. eauto.
    - destruct (nth_error _ _) as [[a b]|]; [|injection St as <- <-; now left]. destruct (x_read _ _); cbn [bind] in St; try discriminate.
      destruct (rop_step _ _ _ _); cbn [bind] in St; try discriminate. injection St as <- <-. right. left. eauto.
    - destruct u; injection St as <- <-; now left.
    - destruct u; injection St as <- <-; now left. }
  assert (K : client_ops evs = [] -> exists ha xo hb, (o, evs) :: h = ha ++ (xo, [EClient ro os]) :: hb /\ length (history ha) = j).
  { intros E0. rewrite E0 in E. cbn [app] in E. destruct (IH _ _ _ E) as (ha & xo & hb & -> & <-). exists ((o, evs) :: ha), xo, hb. split; [reflexivity|].
    change ((o, evs) :: ha) with ([(o, evs)] ++ ha). now rewrite history_app, history_one, E0. }
  destruct C as [->|[(x & y & ->)|(a & b & ->)]]; [apply K; reflexivity| |apply K; reflexivity].
  cbn [client_ops flat_map app] in E. destruct j as [|j]; cbn [nth_error] in E.
  - injection E as -> ->. exists [], o, h. split; reflexivity.
  - destruct (IH _ _ _ E) as (ha & xo & hb & -> & <-). exists ((o, [EClient x y]) :: ha), xo, hb. split; [reflexivity|].
    change ((o, [EClient x y]) :: ha) with ([(o, [EClient x y])] ++ ha). rewrite history_app, history_one. reflexivity.
Qed.

(** what the client reads is a reply to something it sent before *)
Lemma read_reply : forall wd same debug h s, xrun wd same debug x_start h s -> fine h -> forall j p a k os, nth_error (history h) j = Some (RReceived p a k, os) ->
  exists id m, (id < j)%nat /\ sent_as h id m a /\ hdr_ok (n_hdr p) /\ n_tok p = n_tok m /\ mid_of p = mid_of m /\ (confirmable m -> acknowledgement p) /\ reply_to m (hdr_bytes (n_hdr p) ++ n_tok p).
Proof.
  intros wd same debug h s R F j p a k os E. destruct (op_of _ _ _ _ _ R _ _ _ E) as (ha & xo & hb & -> & Ej). destruct (xrun_split _ _ _ _ _ _ _ R) as (s1 & R1 & R2).
  apply Forall_app in F. destruct F as (F1 & F2). inversion F2 as [|? ? Md F3]; subst. cbn [fst] in Md. pose proof (reached _ _ _ _ _ R1 F1) as Y.
  inversion R2 as [|? ? ? sx ? ? St L R3]; subst. clear R2 R3 F3 F2 E.
  destruct xo as [m a' now r|now k'|i w|i d k'|u i|u i]; cbn [x_step] in St.
  1,2: (destruct (rop_step _ _ _ _); cbn [bind] in St; discriminate).
  1: (destruct (nth_error _ _) as [[a' b']|]; [|discriminate]; destruct (on_request _ _ _ _ _); cbn [bind] in St; discriminate).
  2,3: (destruct u; discriminate).
  destruct (nth_error (x_down s1) i) as [[a' b]|] eqn:Ei; [|discriminate]. cbn [may] in Md.
  destruct (down_read _ _ _ _ d a' b Y Md (nth_error_In _ _ Ei)) as (id & m & p' & A & Q & _ & Eb & Er & P1 & P2 & P3 & P4 & P5). rewrite Er in St. cbn [bind rop_step fst snd] in St. injection St as _ -> -> -> <-.
  exists id, m. split. { destruct A as (n & r & A). apply nth_error_Some. congruence. } split; [now apply sent_keep|]. split; [exact P1|]. split; [exact P2|]. split; [exact P3|]. split; [exact P4|].
  destruct (answer_parts m Q) as (p0 & E0 & P0). assert (Hx : hdr_bytes (n_hdr p) ++ n_tok p = b).
  { pose proof P0 as (X1 & X2 & X3 & X4 & X5 & _). pose proof Q as (Q1 & Q2 & Q3 & Q4 & Q5). destruct (read_back d p0 Md) as (rest & E1); [rewrite X2; exact Q2|rewrite X2; exact X5|rewrite X2; exact Q4|].
    rewrite Eb, E0 in Er. rewrite Er in E1. injection E1 as ->. cbn [n_hdr n_tok]. rewrite Eb, E0. unfold netmsg_bytes. now rewrite X3, app_nil_r. }
  rewrite Hx, Eb. exists p0. split; [exact E0|exact P0].
Qed.

Lemma heard_in : forall h a b, In (a, b) (heard h) <-> exists j p k os, nth_error (history h) j = Some (RReceived p a k, os) /\ b = hdr_bytes (n_hdr p) ++ n_tok p.
Proof.
  intros h a b. unfold heard. rewrite in_flat_map. split.
  - intros ([o os] & I & E). cbn [fst] in E. destruct o as [m a' now r|p a' k|now k]; cbn in E; try tauto. destruct E as [E|[]]. injection E as <- <-. apply In_nth_error in I. destruct I as (j & I). exists j, p, k, os. auto.
  - intros (j & p & k & os & E & ->). exists (RReceived p a k, os). split; [eapply nth_error_In; exact E|]. cbn [fst]. now left.
Qed.

(** a message was acknowledged exactly if a reply to it was read *)
Lemma acked_replied : forall wd same debug h s id m a t r, xrun wd same debug x_start h s -> fine h -> told_apart same h ->
  nth_error (history h) id = Some (RSent m a t r, []) -> confirmable m -> (acked same (history h) id <-> replied same h m a).
Proof.
  intros wd same debug h s id m a t r R F T E C. assert (Sa : sent_as h id m a) by (exists t, r; exact E). split.
  - intros (j & p & a' & k & os & om & oa & now & r' & os' & L & Ej & Ak & Eo & (A1 & A2 & A3)). rewrite E in Eo. injection Eo as <- <- <- <- <-.
    destruct (read_reply _ _ _ _ _ R F _ _ _ _ _ Ej) as (id' & m' & L' & S' & P1 & P2 & P3 & P4 & P5).
    assert (id' = id) by (apply (T _ _ _ _ _ _ S' Sa A1); congruence). subst id'. destruct S' as (n1 & r1 & S'). rewrite E in S'. injection S' as <- <- _ _.
    exists a, (hdr_bytes (n_hdr p) ++ n_tok p). split; [apply heard_in; eauto 7|]. split; [exact A1|exact P5].
  - intros (a' & b & I & Sm & Rp). apply heard_in in I. destruct I as (j & p & k & os & Ej & ->).
    destruct (read_reply _ _ _ _ _ R F _ _ _ _ _ Ej) as (id' & m' & L' & S' & P1 & P2 & P3 & P4 & P5).
    destruct Rp as (p0 & E0 & X1 & X2 & X3 & X4 & X5 & X6 & X7 & X8). unfold netmsg_bytes in E0. rewrite X3, app_nil_r in E0. unfold hdr_bytes in E0. cbn [app] in E0.
    injection E0 as G0 G1 G2 G3 Gt.
    assert (Mid : mid_of p = mid_of m) by (rewrite <- X4; unfold mid_of; congruence). assert (Tk : n_tok p = n_tok m) by congruence.
    assert (id' = id) by (apply (T _ _ _ _ _ _ S' Sa Sm); congruence). subst id'.
    exists j, p, a', k, os, m, a, t, r, []. split; [exact L'|]. split; [exact Ej|]. split; [unfold acknowledgement; rewrite G0; exact (X7 C)|]. split; [exact E|]. split; [exact Sm|]. split; congruence.
Qed.

Lemma waiting_unanswered : forall wd same debug h s id m a t r, xrun wd same debug x_start h s -> fine h -> told_apart same h ->
  (waiting same (history h) id m a t r <-> unanswered same h id m a t r).
Proof.
  intros wd same debug h s id m a t r R F T. unfold waiting, unanswered, again. split.
  - intros ((os & E) & C & L & N). assert (Es : os = []).
    { pose proof (y_hist _ _ _ _ (reached _ _ _ _ _ R F)) as H. apply nth_error_In in E. clear - E H. revert H E. generalize (history h), (x_queue s). intros l q H.
      induction H as [|n q0 o os1 q1 l q2 _ S1 _ IH]; intros X; [destruct X|]. destruct X as [X|X]; [|auto]. injection X as -> ->.
      cbn [rop_step] in S1. destruct (on_sent _ _ _ _ _ _ _); cbn [bind] in S1; congruence. }
    subst os. split; [exact E|]. split; [exact C|]. split; [exact L|]. intro X. apply N. now apply (acked_replied _ _ _ _ _ _ _ _ _ _ R F T E C).
  - intros (E & C & L & N). split; [eauto|]. split; [exact C|]. split; [exact L|]. intro X. apply N. now apply (acked_replied _ _ _ _ _ _ _ _ _ _ R F T E C) in X.
Qed.

Lemma told_prefix : forall same h1 h2, told_apart same (h1 ++ h2) -> told_apart same h1.
Proof. intros same h1 h2 T i j m1 m2 a1 a2 A B. apply T; now apply sent_keep. Qed.

Lemma sent_outs : forall wd same debug h s id m a t r os, xrun wd same debug x_start h s -> nth_error (history h) id = Some (RSent m a t r, os) -> os = [].
Proof.
  intros wd same debug h s id m a t r os R E. destruct (op_of _ _ _ _ _ R _ _ _ E) as (ha & xo & hb & -> & _). destruct (xrun_split _ _ _ _ _ _ _ R) as (s1 & R1 & R2).
  inversion R2 as [|? ? ? sx ? ? St L R3]; subst. clear E. destruct xo as [m' a' now r'|now k'|i w|i d k'|u i|u i]; cbn [x_step] in St.
  - cbn [rop_step] in St. destruct (on_sent _ _ _ _ _ _ _); cbn [bind] in St; try discriminate. injection St as _ _ _ _ _ <-. reflexivity.
  - destruct (rop_step _ _ _ _); cbn [bind] in St; discriminate.
  - destruct (nth_error _ _) as [[a' b']|]; [|discriminate]; destruct (on_request _ _ _ _ _); cbn [bind] in St; discriminate.
  - destruct (nth_error _ _) as [[a' b']|]; [|discriminate]. destruct (x_read _ _); cbn [bind] in St; discriminate.
  - destruct u; discriminate.
  - destruct u; discriminate.
Qed.

Lemma told_apart_apart : forall wd same debug h s, xrun wd same debug x_start h s -> equality same -> told_apart same h -> apart same (history h).
Proof.
  intros wd same debug h s R (E1 & E2 & E3) T i1 i2 m1 a1 t1 r1 os1 m2 a2 t2 r2 os2 m a A B _ _ (X1 & X2 & X3) (Y1 & Y2 & Y3).
  pose proof (sent_outs _ _ _ _ _ _ _ _ _ _ _ R A). pose proof (sent_outs _ _ _ _ _ _ _ _ _ _ _ R B). subst.
  apply (T i1 i2 m1 m2 a1 a2); [exists t1, r1; exact A|exists t2, r2; exact B|eapply E3; [apply E2; exact X1|exact Y1]|congruence|congruence].
Qed.

Lemma fine_bytes : forall wd same debug h s, xrun wd same debug x_start h s -> fine h -> bytes_in (history h).
Proof.
  intros wd same debug h s R F. unfold bytes_in. apply Forall_forall. intros [o os] I. cbn [fst]. apply In_nth_error in I. destruct I as (j & E).
  destruct o as [m a t r|p a k|now k]; [| |exact I].
  - pose proof (sent_outs _ _ _ _ _ _ _ _ _ _ _ R E). subst os. destruct (y_req _ _ _ _ (reached _ _ _ _ _ R F) j m a) as (X & _); [exists t, r; exact E|exact X].
  - destruct (read_reply _ _ _ _ _ R F _ _ _ _ _ E) as (_ & _ & _ & _ & X & _). exact X.
Qed.
