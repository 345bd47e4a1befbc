(** Lemmas for C75. *)
From Coq Require Import Permutation.
From Verif Require Import Base UIntSpec HeaderModel HeaderSpec HeaderProofs OptSpec OptDecModel DecoderModel DecoderSpec DecoderProofs NetDecModel NetDecProofs RespModel RespSpec
  RetryModel RetrySpec RetryProofs PumpModel PumpSpec RetryMemModel ExchangeModel ExchangeSpec ReplyProps RespProps RetryProps.
Local Open Scope N_scope.

Lemma take_out_in : forall X i (l : list X) x, In x (take_out i l) -> In x l.
Proof.
  intros X i l x H. unfold take_out in H. apply in_app_iff in H. rewrite <- (firstn_skipn i l). apply in_app_iff. destruct H as [H|H]; [left; exact H|right].
  revert l H. induction i as [|i IH]; intros [|y l] H; cbn in *; auto.
Qed.
Lemma take_out_len : forall X i (l : list X) x, nth_error l i = Some x -> S (length (take_out i l)) = length l.
Proof.
  induction i as [|i IH]; intros [|y l] x E; cbn in *; try discriminate; [reflexivity|]. f_equal. apply (IH l x E).
Qed.
Lemma take_out_le : forall X i (l : list X), (length (take_out i l) <= length l)%nat.
Proof.
  intros X i l. destruct (nth_error l i) eqn:E; [apply take_out_len in E; lia|]. apply nth_error_None in E. unfold take_out.
  rewrite firstn_all2, skipn_all2 by lia. rewrite app_nil_r. lia.
Qed.
Lemma one_in : forall X i (l : list X) x, In x (firstn 1 (skipn i l)) -> In x l.
Proof.
  intros X i l x H. rewrite <- (firstn_skipn i l). apply in_app_iff. right. rewrite <- (firstn_skipn 1 (skipn i l)). apply in_app_iff. now left.
Qed.

(** ** The reply *)

Lemma answer_parts : forall m, request m -> exists p, answer_head 69 (n_hdr m) (n_tok m) = netmsg_bytes p /\ hdr_ok (n_hdr p) /\ n_tok p = n_tok m /\ n_rest p = [] /\
  mid_of p = mid_of m /\ h0 (n_hdr p) mod 16 = len (n_tok m) /\ h1 (n_hdr p) = 69 /\
  (confirmable m -> acknowledgement p) /\ (~ confirmable m -> h0 (n_hdr p) / 16 mod 4 = 1).
Proof.
  intros m (Hh & Hb & Ht & H8 & Hty). unfold answer_head, reply_wire.
  pose proof (con_bits m Hh) as HC. unfold is_con in HC. pose proof (mid_val m Hh) as HM. rewrite <- tkl_mod in Ht.
  destruct (wire_fields_of _ Hh) as [_ F]. unfold fields_of, fields_ok in F. cbn [f_ver f_type f_tkl f_code f_mid] in F.
  destruct F as (F1 & F2 & F3 & F4 & F5). rewrite HM in *. unfold wire, netmsg_bytes, acknowledgement, mid_of. cbn [f_ver f_type f_tkl f_code f_mid].
  set (t := if hdr_type (n_hdr m) =? CON then ACK else NON).
  assert (Tt : (confirmable m /\ t = 2) \/ (~ confirmable m /\ t = 1)).
  { unfold t. destruct (_ =? _); [left|right]; split; try reflexivity; [now apply HC|]. intros X. apply HC in X. discriminate. }
  clearbody t. set (v := hdr_version (n_hdr m)) in *. set (k := hdr_tkl (n_hdr m)) in *. set (g := mid_of m) in *.
  assert (Eg : h2 (n_hdr m) * 256 + h3 (n_hdr m) = g) by reflexivity. clearbody v k g.
  exists (NetMsg (Hdr (v * 64 + t * 16 + k) 69 (g / 256) (g mod 256)) (n_tok m) []). cbn [n_hdr n_tok n_rest h0 h1 h2 h3]. unfold hdr_bytes. cbn [h0 h1 h2 h3].
  rewrite app_nil_r. clear HC. assert (t = 1 \/ t = 2) by tauto.
  assert (B16 : (v * 64 + t * 16 + k) / 16 mod 4 = t) by (clear Tt; lia).
  rewrite Eg. split; [reflexivity|]. split.
  { unfold hdr_ok, bytes_ok, hdr_bytes. cbn [h0 h1 h2 h3]. clear Tt. repeat constructor; unfold byte_ok; lia. }
  split; [reflexivity|]. split; [reflexivity|]. split; [clear Tt; lia|]. split; [rewrite <- Ht; clear Tt; lia|]. split; [reflexivity|].
  rewrite B16. destruct Tt as [(A & ->)|(A & ->)]; split; intros X; try reflexivity; tauto.
Qed.

Lemma serve_reply : forall debug w (a : N) m, world_ok w -> request m ->
  on_request (ping_app false debug 0) w a (firstn nb_size (netmsg_bytes m)) tt = Ok (answer_head 69 (n_hdr m) (n_tok m), tt).
Proof.
  intros debug w a m (Wh & Wi) (Q1 & Q2 & Q3 & Q4 & Q5). cbn [on_request ping_app]. unfold netmsg_bytes.
  assert (L12 : (12 <= nb_size)%nat) by (apply Nat.leb_le; vm_compute; reflexivity). generalize dependent nb_size. intros nb L12.
  assert (T : firstn nb (hdr_bytes (n_hdr m) ++ n_tok m ++ n_rest m) = hdr_bytes (n_hdr m) ++ n_tok m ++ firstn (nb - (4 + length (n_tok m))) (n_rest m)).
  { rewrite (app_assoc (hdr_bytes _)), firstn_app. assert (L : length (hdr_bytes (n_hdr m) ++ n_tok m) = (4 + length (n_tok m))%nat) by (rewrite app_length; reflexivity).
    rewrite L. rewrite firstn_all2 by lia. now rewrite <- app_assoc. }
  rewrite T, C56_ping; auto; [lia|]. unfold answerable.
  destruct (wire_fields_of _ Q1) as [W F]. unfold fields_of, fields_ok in *. cbn [f_ver f_type f_tkl f_code f_mid] in F. unfold wire, hdr_bytes in W. cbn [f_ver f_type f_tkl f_code f_mid] in W.
  injection W as W0 _ _. unfold CON, NON. assert (hdr_type (n_hdr m) < 2) by (rewrite <- W0 in Q5; lia). lia.
Qed.

Lemma read_back : forall d p, idle d -> bytes_ok (n_tok p) -> h0 (n_hdr p) mod 16 = len (n_tok p) -> (length (n_tok p) <= 8)%nat ->
  exists rest, x_read d (netmsg_bytes p) = Ok (NetMsg (n_hdr p) (n_tok p) rest).
Proof.
  intros d p Hd Hb Ht H8. rewrite <- tkl_mod in Ht. destruct (header_token true d (n_hdr p) (n_tok p) (n_rest p) Hd Hb Ht H8) as (x1 & x2 & A & B & _).
  unfold x_read, netmsg_bytes. rewrite A. cbn [bind fst snd]. rewrite B. cbn [bind fst snd]. eexists. reflexivity.
Qed.

(** ** Runs *)

Lemma rhist_snoc : forall w same n q h q1, rhist w same n q h q1 -> forall o os q2, rop_legal same o q1 = true -> rop_step w (n + length h) o q1 = Ok (q2, os) ->
  rhist w same n q (h ++ [(o, os)]) q2.
Proof.
  induction 1 as [n q|n q o1 os1 qa h qb L1 S1 R IH]; intros o os q2 HL HS; cbn [app length] in *.
  - rewrite Nat.add_0_r in HS. econstructor; [exact HL|exact HS|constructor].
  - econstructor; [exact L1|exact S1|]. apply IH; [exact HL|]. replace (S n + length h)%nat with (n + S (length h))%nat by lia. exact HS.
Qed.

Lemma history_app : forall a b, history (a ++ b) = history a ++ history b.
Proof. intros. unfold history, done_in, client_ops. now rewrite !flat_map_app. Qed.
Lemma history_one : forall o evs, history [(o, evs)] = client_ops evs.
Proof. intros. unfold history, done_in. cbn [flat_map snd]. now rewrite app_nil_r. Qed.
Lemma done_app : forall a b, done_in (a ++ b) = done_in a ++ done_in b.
Proof. intros. unfold done_in. apply flat_map_app. Qed.

Lemma sent_keep : forall h g id m a, sent_as h id m a -> sent_as (h ++ g) id m a.
Proof.
  intros h g id m a (now & r & E). exists now, r. rewrite history_app. rewrite nth_error_app1; [exact E|]. apply nth_error_Some. congruence.
Qed.

Lemma xrun_app : forall wd same debug s h s1, xrun wd same debug s h s1 -> forall g s2, xrun wd same debug s1 g s2 -> xrun wd same debug s (h ++ g) s2.
Proof. induction 1 as [s|s o evs sa h sb St L R IH]; intros g s2 G; [exact G|]. cbn [app]. econstructor; eauto. Qed.

Record xinv (wd : N) (same : N -> N -> bool) (h : list (xop * list xev)) (s : xst) : Prop := Xinv {
  y_hist : rhist wd same 0 [] (history h) (x_queue s);
  y_n : x_n s = length (history h);
  y_req : forall id m a, sent_as h id m a -> request m;
  y_up : forall a b, In (a, b) (x_up s) -> exists id m, sent_as h id m a /\ b = netmsg_bytes m;
  y_down : forall a b, In (a, b) (x_down s) -> exists id m, sent_as h id m a /\ b = answer_head 69 (n_hdr m) (n_tok m) /\ In (EServed a (netmsg_bytes m)) (done_in h)
}.

Lemma xinv_start : forall wd same, xinv wd same [] x_start.
Proof.
  intros. constructor; cbn; [constructor|reflexivity| |intros ? ? []|intros ? ? []]. intros id m a (now & r & E). destruct id; discriminate.
Qed.

Lemma sent_snoc : forall h o evs id m a, sent_as (h ++ [(o, evs)]) id m a ->
  sent_as h id m a \/ (id = length (history h) /\ exists now r, nth_error (client_ops evs) 0 = Some (RSent m a now r, [])) \/ (length (history h) < id)%nat /\ (length (client_ops evs) > 1)%nat.
Proof.
  intros h o evs id m a (now & r & E). rewrite history_app, history_one in E. destruct (Nat.lt_ge_cases id (length (history h))) as [L|L].
  - rewrite nth_error_app1 in E by exact L. left. now exists now, r.
  - rewrite nth_error_app2 in E by exact L. right. destruct (Nat.eq_dec id (length (history h))) as [->|Hn].
    + left. split; [reflexivity|]. rewrite Nat.sub_diag in E. now exists now, r.
    + right. split; [lia|]. assert (nth_error (client_ops evs) (id - length (history h)) <> None) by congruence. apply nth_error_Some in H. lia.
Qed.

(** one client operation keeps the client's half *)
Lemma client_keep : forall wd same h s o q os x, xinv wd same h s -> rop_step wd (x_n s) o (x_queue s) = Ok (q, os) -> rop_legal same o (x_queue s) = true ->
  rhist wd same 0 [] (history (h ++ [(x, [EClient o os])])) q /\ S (x_n s) = length (history (h ++ [(x, [EClient o os])])).
Proof.
  intros wd same h s o q os x Y St L. rewrite history_app, history_one. cbn [client_ops flat_map app]. split.
  - eapply rhist_snoc; [apply (y_hist _ _ _ _ Y)|exact L|]. rewrite <- (y_n _ _ _ _ Y). exact St.
  - rewrite app_length, (y_n _ _ _ _ Y). cbn [length]. lia.
Qed.

Lemma xinv_step : forall wd same debug h s o s1 evs, xinv wd same h s -> may o -> x_step wd debug o s = Ok (s1, evs) ->
  Forall (fun e => rop_legal same (fst e) (x_queue s) = true) (client_ops evs) -> xinv wd same (h ++ [(o, evs)]) s1.
Proof.
  intros wd same debug h s o s1 evs Y M St L.
  assert (SK : forall id m a, sent_as h id m a -> sent_as (h ++ [(o, evs)]) id m a) by (intros; now apply sent_keep).
  assert (DK : forall e, In e (done_in h) -> In e (done_in (h ++ [(o, evs)]))) by (intros; rewrite done_app; apply in_app_iff; now left).
  assert (UK : forall a b, In (a, b) (x_up s) -> exists id m, sent_as (h ++ [(o, evs)]) id m a /\ b = netmsg_bytes m).
  { intros a b X. destruct (y_up _ _ _ _ Y a b X) as (id & m & A & B). exists id, m. auto. }
  assert (NK : forall a b, In (a, b) (x_down s) -> exists id m, sent_as (h ++ [(o, evs)]) id m a /\ b = answer_head 69 (n_hdr m) (n_tok m) /\ In (EServed a (netmsg_bytes m)) (done_in (h ++ [(o, evs)]))).
  { intros a b X. destruct (y_down _ _ _ _ Y a b X) as (id & m & A & B & C). exists id, m. auto. }
  assert (QN : forall e, evs = [] \/ (exists a b, evs = [EServed a b]) -> x_queue e = x_queue s -> x_n e = x_n s ->
    rhist wd same 0 [] (history (h ++ [(o, evs)])) (x_queue e) /\ x_n e = length (history (h ++ [(o, evs)])) /\
    (forall id m a, sent_as (h ++ [(o, evs)]) id m a -> request m)).
  { intros e X Eq En. assert (C0 : client_ops evs = []) by (destruct X as [->|(a & b & ->)]; reflexivity).
    assert (H0 : history (h ++ [(o, evs)]) = history h) by (rewrite history_app, history_one, C0; apply app_nil_r).
    rewrite H0, Eq, En. split; [apply (y_hist _ _ _ _ Y)|]. split; [apply (y_n _ _ _ _ Y)|].
    intros id m a (now & r & F). rewrite H0 in F. apply (y_req _ _ _ _ Y id m a). now exists now, r. }
  destruct o as [m a now r|now k|i w|i d k|up i|up i]; cbn [x_step] in St.
  - destruct (rop_step wd (x_n s) (RSent m a now r) (x_queue s)) as [[q os]| |] eqn:Er; cbn [bind] in St; try discriminate. cbn [fst snd] in St. injection St as <- <-.
    cbn [client_ops flat_map app fst] in L. inversion L as [|? ? L1 _]; subst. cbn [fst] in L1.
    assert (os = []) by (cbn [rop_step] in Er; destruct (on_sent _ _ _ _ _ _ _); cbn [bind] in Er; congruence). subst os.
    destruct (client_keep wd same h s _ q [] (XSend m a now r) Y Er L1) as (K1 & K2). constructor; cbn [x_queue x_n x_up x_down]; auto.
    + intros id m0 a0 X. apply sent_snoc in X. destruct X as [X|[(_ & now0 & r0 & X)|(_ & X)]]; [eapply (y_req _ _ _ _ Y); eauto| |cbn in X; lia].
      cbn in X. injection X as <- _ _ _. exact M.
    + intros a0 b X. apply in_app_iff in X. destruct X as [X|[X|[]]]; [auto|]. injection X as <- <-. exists (length (history h)), m. split; [|reflexivity].
      exists now, r. rewrite history_app, history_one, nth_error_app2 by lia. now rewrite Nat.sub_diag.
  - destruct (rop_step wd (x_n s) (RService now k) (x_queue s)) as [[q os]| |] eqn:Er; cbn [bind] in St; try discriminate. cbn [fst snd] in St. injection St as <- <-.
    cbn [client_ops flat_map app fst] in L. inversion L as [|? ? L1 _]; subst. cbn [fst] in L1.
    destruct (client_keep wd same h s _ q os (XService now k) Y Er L1) as (K1 & K2). constructor; cbn [x_queue x_n x_up x_down]; auto.
    + intros id m0 a0 X. apply sent_snoc in X. destruct X as [X|[(_ & now0 & r0 & X)|(_ & X)]]; [eapply (y_req _ _ _ _ Y); eauto|discriminate|cbn in X; lia].
    + intros a0 b X. apply in_app_iff in X. destruct X as [X|X]; [auto|]. apply in_map_iff in X. destruct X as ([[id m] a] & X & I). cbn [fst snd] in X. injection X as <- <-.
      pose proof (start _ _ _ _ K1) as V. destruct (v_src _ _ _ V (RService now k, os) id m a) as (_ & n0 & r0 & os0 & F); [rewrite history_app, history_one; apply in_app_iff; right; now left|exact I|].
      exists id, m. split; [|reflexivity]. exists n0, r0. rewrite F. f_equal. f_equal.
      (* what a sending hands out *)
      apply nth_error_In in F. clear - F K1. revert F. generalize (history (h ++ [(XService now k, [EClient (RService now k) os])])) K1. clear.
      intros l R. induction R as [|n q o os1 q1 h q2 _ S1 _ IH]; intros F; [destruct F|]. destruct F as [F|F]; [|auto]. injection F as -> ->.
      cbn [rop_step] in S1. destruct (on_sent _ _ _ _ _ _ _); cbn [bind] in S1; congruence.
  - destruct (nth_error (x_up s) i) as [[a b]|] eqn:Ei.
    2:{ injection St as <- <-. destruct (QN s) as (A & B & C); auto. constructor; auto. }
    destruct (y_up _ _ _ _ Y a b (nth_error_In _ _ Ei)) as (id & m & A & ->). rewrite (serve_reply debug w a m M (y_req _ _ _ _ Y id m a A)) in St. cbn [bind fst] in St. injection St as <- <-.
    destruct (QN (Xst (x_n s) (x_queue s) (take_out i (x_up s)) (x_down s ++ [(a, answer_head 69 (n_hdr m) (n_tok m))]))) as (P1 & P2 & P3); [right; eauto|reflexivity|reflexivity|].
    constructor; auto; cbn [x_up x_down].
    + intros a0 b0 X. apply take_out_in in X. auto.
    + intros a0 b0 X. apply in_app_iff in X. destruct X as [X|[X|[]]]; [auto|]. injection X as <- <-. exists id, m. split; [auto|]. split; [reflexivity|].
      rewrite done_app. apply in_app_iff. right. now left.
  - destruct (nth_error (x_down s) i) as [[a b]|] eqn:Ei.
    2:{ injection St as <- <-. destruct (QN s) as (A & B & C); auto. constructor; auto. }
    destruct (x_read d b) as [p| |]; cbn [bind] in St; try discriminate.
    destruct (rop_step wd (x_n s) (RReceived p a k) (x_queue s)) as [[q os]| |] eqn:Er; cbn [bind] in St; try discriminate. cbn [fst snd] in St. injection St as <- <-.
    cbn [client_ops flat_map app fst] in L. inversion L as [|? ? L1 _]; subst. cbn [fst] in L1.
    destruct (client_keep wd same h s _ q os (XReceive i d k) Y Er L1) as (K1 & K2). constructor; cbn [x_queue x_n x_up x_down]; auto.
    + intros id m0 a0 X. apply sent_snoc in X. destruct X as [X|[(_ & now0 & r0 & X)|(_ & X)]]; [eapply (y_req _ _ _ _ Y); eauto|discriminate|cbn in X; lia].
    + intros a0 b0 X. apply take_out_in in X. auto.
  - destruct up; injection St as <- <-.
    + destruct (QN (Xst (x_n s) (x_queue s) (take_out i (x_up s)) (x_down s))) as (A & B & C); auto. constructor; auto. intros a0 b0 X. apply take_out_in in X. auto.
    + destruct (QN (Xst (x_n s) (x_queue s) (x_up s) (take_out i (x_down s)))) as (A & B & C); auto. constructor; auto. intros a0 b0 X. apply take_out_in in X. auto.
  - destruct up; injection St as <- <-.
    + destruct (QN (Xst (x_n s) (x_queue s) (x_up s ++ firstn 1 (skipn i (x_up s))) (x_down s))) as (A & B & C); auto. constructor; auto.
      intros a0 b0 X. cbn [x_up] in X. apply in_app_iff in X. destruct X as [X|X]; [auto|]. apply one_in in X. auto.
    + destruct (QN (Xst (x_n s) (x_queue s) (x_up s) (x_down s ++ firstn 1 (skipn i (x_down s))))) as (A & B & C); auto. constructor; auto.
      intros a0 b0 X. cbn [x_down] in X. apply in_app_iff in X. destruct X as [X|X]; [auto|]. apply one_in in X. auto.
Qed.

Lemma xinv_run : forall wd same debug s g s1, xrun wd same debug s g s1 -> forall h, xinv wd same h s -> Forall (fun e => may (fst e)) g -> xinv wd same (h ++ g) s1.
Proof.
  induction 1 as [s|s o evs sa g sb St L R IH]; intros h Y F; [now rewrite app_nil_r|]. inversion F as [|? ? F1 F2]; subst. cbn [fst] in F1.
  change ((o, evs) :: g) with ([(o, evs)] ++ g). rewrite app_assoc. apply IH; [|exact F2]. eapply xinv_step; eauto.
Qed.

Lemma reached : forall wd same debug h s, xrun wd same debug x_start h s -> Forall (fun e => may (fst e)) h -> xinv wd same h s.
Proof. intros wd same debug h s R F. exact (xinv_run _ _ _ _ _ _ R [] (xinv_start wd same) F). Qed.

(** ** How much is sent *)

Lemma filter_app_len : forall X (f : X -> bool) a b, length (filter f (a ++ b)) = (length (filter f a) + length (filter f b))%nat.
Proof. intros. now rewrite filter_app, app_length. Qed.

Definition budget (h : list (xop * list xev)) (s : xst) : Prop :=
  (served h + length (x_up s) + remaining (x_queue s) <= 4 * count_ops is_send h + count_ops is_twice h)%nat.

Lemma remaining_remove : forall k q f, nth_error q k = Some f -> remaining q = (3 - N.to_nat (i_count f) + remaining (remove_at k q))%nat.
Proof. intros k q f E. rewrite (remaining_perm _ _ (remove_at_perm _ _ _ E)). reflexivity. Qed.

Lemma budget_step : forall wd same debug h s o s1 evs, xinv wd same h s -> budget h s -> x_step wd debug o s = Ok (s1, evs) -> budget (h ++ [(o, evs)]) s1.
Proof.
  intros wd same debug h s o s1 evs Y B St. pose proof (start _ _ _ _ (y_hist _ _ _ _ Y)) as V. unfold budget, count_ops, served in *. rewrite done_app, !filter_app_len. replace (done_in [(o, evs)]) with evs by (symmetry; apply app_nil_r).
  destruct o as [m a now r|now k|i w|i d k|up i|up i]; cbn [x_step filter fst is_send is_twice] in *.
  - cbn [rop_step] in St. unfold on_sent, push in St. destruct (is_con m).
    + destruct (Nat.ltb _ _); cbn [bind fst snd] in St; [|discriminate]. injection St as <- <-. cbn [filter length x_up x_queue]. rewrite app_length, remaining_app. cbn [length remaining new_item i_count]. lia.
    + cbn [bind fst snd] in St. injection St as <- <-. cbn [filter length x_up x_queue]. rewrite app_length. cbn [length]. lia.
  - cbn [rop_step] in St. destruct (service_retry wd now k (x_queue s)) as [[q os]| |] eqn:Er; cbn [bind fst snd] in St; try discriminate. injection St as <- <-.
    cbn [filter length x_up x_queue]. rewrite app_length, map_length. destruct (service_cases _ _ _ _ _ _ (v_cap _ _ _ V) Er) as [(-> & -> & _)|(f & E & _ & C)]; [cbn [length]; lia|].
    rewrite (remaining_remove _ _ _ E) in B. destruct C as [(C & -> & ->)|[(C & -> & ->)|(C & -> & ->)]]; cbn [length]; [rewrite remaining_app; cbn [remaining i_count]; lia|lia|lia].
  - destruct (nth_error (x_up s) i) as [[a b]|] eqn:Ei; [|injection St as <- <-; cbn [filter length]; lia].
    destruct (on_request _ _ _ _ _) as [[r t]| |]; cbn [bind fst] in St; try discriminate. injection St as <- <-. cbn [filter length x_up x_queue]. apply take_out_len in Ei. lia.
  - destruct (nth_error (x_down s) i) as [[a b]|] eqn:Ei; [|injection St as <- <-; cbn [filter length]; lia].
    destruct (x_read d b) as [p| |]; cbn [bind rop_step fst snd] in St; try discriminate. injection St as <- <-. cbn [filter length x_up x_queue].
    enough (remaining (fst (service_ack p k (x_queue s))) <= remaining (x_queue s))%nat by lia. unfold service_ack, ack_received.
    destruct (_ =? _); [|cbn [fst]; lia]. destruct k as [k|]; cbn [fst]; [|lia]. destruct (nth_error (x_queue s) k) as [f|] eqn:E; [rewrite (remaining_remove _ _ _ E); lia|].
    apply nth_error_None in E. unfold remove_at. rewrite firstn_all2, skipn_all2, app_nil_r by lia. lia.
  - destruct up; injection St as <- <-; cbn [filter length x_up x_queue]; pose proof (take_out_le _ i (x_up s)); lia.
  - pose proof (firstn_le_length 1 (skipn i (x_up s))) as X. destruct up; injection St as <- <-; cbn [filter length x_up x_queue]; rewrite ?app_length; destruct (skipn i (x_up s)); cbn [firstn length] in *; lia.
Qed.

Lemma budget_run : forall wd same debug s g s1, xrun wd same debug s g s1 -> forall h, xinv wd same h s -> budget h s -> Forall (fun e => may (fst e)) g -> budget (h ++ g) s1.
Proof.
  induction 1 as [s|s o evs sa g sb St L R IH]; intros h Y B F; [now rewrite app_nil_r|]. inversion F as [|? ? F1 F2]; subst. cbn [fst] in F1.
  change ((o, evs) :: g) with ([(o, evs)] ++ g). rewrite app_assoc. apply IH; [eapply xinv_step; eauto|eapply budget_step; eauto|exact F2].
Qed.

(** ** Receiving a reply *)

Lemma down_read : forall wd same h s d a b, xinv wd same h s -> idle d -> In (a, b) (x_down s) ->
  exists id m p, sent_as h id m a /\ request m /\ In (EServed a (netmsg_bytes m)) (done_in h) /\ b = answer_head 69 (n_hdr m) (n_tok m) /\
    x_read d b = Ok p /\ hdr_ok (n_hdr p) /\ n_tok p = n_tok m /\ mid_of p = mid_of m /\ (confirmable m -> acknowledgement p) /\ (~ confirmable m -> ~ acknowledgement p).
Proof.
  intros wd same h s d a b Y Hd Hi. destruct (y_down _ _ _ _ Y a b Hi) as (id & m & A & -> & C). pose proof (y_req _ _ _ _ Y _ _ _ A) as Q.
  destruct (answer_parts m Q) as (p & EA & P1 & P2 & P3 & P4 & P5 & P6 & P7 & P8). pose proof Q as (Q1 & Q2 & Q3 & Q4 & Q5).
  destruct (read_back d p Hd) as (rest & E); [rewrite P2; exact Q2|rewrite P2; exact P5|rewrite P2; exact Q4|].
  exists id, m, (NetMsg (n_hdr p) (n_tok p) rest). unfold acknowledgement, mid_of in *. cbn [n_hdr n_tok] in *.
  do 3 (split; [assumption|]). split; [reflexivity|]. split; [rewrite EA; exact E|]. split; [exact P1|]. split; [exact P2|]. split; [exact P4|]. split; [exact P7|].
  intros N1 N2. rewrite (P8 N1) in N2. discriminate.
Qed.

Lemma queue_hdrs : forall wd same h s, xinv wd same h s -> Forall (fun it => sent_as h (i_id it) (i_msg it) (i_addr it) /\ confirmable (i_msg it) /\ hdr_ok (n_hdr (i_msg it))) (x_queue s).
Proof.
  intros wd same h s Y. pose proof (start _ _ _ _ (y_hist _ _ _ _ Y)) as V. eapply Forall_impl; [|apply (v_born _ _ _ V)].
  intros it (m & a & now & r & os & F & C & -> & -> & _).
  assert (Es : os = []).
  { apply nth_error_In in F. pose proof (y_hist _ _ _ _ Y) as R. clear - F R. revert R F. generalize (history h), (x_queue s). intros l q R.
    induction R as [|n q0 o os1 q1 l q2 _ S1 _ IH]; intros F; [destruct F|]. destruct F as [F|F]; [|auto]. injection F as -> ->.
    cbn [rop_step] in S1. destruct (on_sent _ _ _ _ _ _ _); cbn [bind] in S1; congruence. }
  subst os. assert (Sa : sent_as h (i_id it) m a) by (now exists now, r). destruct (y_req _ _ _ _ Y _ _ _ Sa) as (Hh & _). split; [exact Sa|]. split; [now apply con_bits|exact Hh].
Qed.

(** a copy of the message, or a reply to it, is on its way *)
Definition pending (s : xst) (m : netmsg) (a : N) : Prop :=
  In (a, netmsg_bytes m) (x_up s) \/ In (a, answer_head 69 (n_hdr m) (n_tok m)) (x_down s).

Lemma take_out_other : forall X i (l : list X) x y, nth_error l i = Some y -> In x l -> x = y \/ In x (take_out i l).
Proof.
  induction i as [|i IH]; intros [|z l] x y E H; cbn in *; try discriminate; try contradiction.
  - injection E as ->. destruct H as [->|H]; auto.
  - destruct H as [->|H]; [right; now left|]. destruct (IH l x y E H) as [->|X0]; [now left|right; now right].
Qed.

Lemma wire_inj : forall m1 m2, request m1 -> request m2 -> netmsg_bytes m1 = netmsg_bytes m2 -> n_hdr m1 = n_hdr m2 /\ n_tok m1 = n_tok m2.
Proof.
  intros [[a b c d] t1 r1] [[a' b' c' d'] t2 r2] (_ & _ & T1 & _) (_ & _ & T2 & _) E. unfold netmsg_bytes, hdr_bytes in E. cbn [n_hdr n_tok n_rest h0 h1 h2 h3 app] in *.
  injection E as -> -> -> -> E. split; [reflexivity|]. rewrite T1 in T2. unfold len in T2. apply Nat2N.inj in T2. clear T1. revert t2 T2 E.
  induction t1 as [|x t1 IH]; intros [|y t2] L E; cbn [length app] in *; try discriminate; [reflexivity|]. injection E as -> E. f_equal. apply IH; [lia|exact E].
Qed.

Lemma deliver_step : forall wd same debug h s o s1 evs id m a, xinv wd same h s -> may o -> x_step wd debug o s = Ok (s1, evs) -> delivers [(o, evs)] ->
  Forall (fun e => rop_legal same (fst e) (x_queue s) = true) (client_ops evs) ->
  told_apart same h -> same a a = true -> sent_as h id m a -> confirmable m -> In id (map i_id (x_queue s)) ->
  pending s m a -> pending s1 m a \/ ~ In id (map i_id (x_queue s1)).
Proof.
  intros wd same debug h s o s1 evs id m a Y M St D L T Sa Hs Hc Hq P. pose proof (y_req _ _ _ _ Y _ _ _ Hs) as Q.
  destruct o as [m0 a0 now r|now k|i w|i d k|up i|up i]; cbn [delivers] in D; try contradiction; destruct D as (D & _); cbn [x_step] in St.
  - destruct (nth_error (x_up s) i) as [[a0 b]|] eqn:Ei; [|injection St as <- <-; now elim D]. destruct (y_up _ _ _ _ Y a0 b (nth_error_In _ _ Ei)) as (id0 & m0 & A & ->).
    pose proof (y_req _ _ _ _ Y _ _ _ A) as Q0. rewrite (serve_reply debug w a0 m0 M Q0) in St. cbn [bind fst] in St. injection St as <- <-. left. unfold pending. cbn [x_up x_down].
    destruct P as [P|P]; [|right; apply in_app_iff; now left]. destruct (take_out_other _ _ _ _ _ Ei P) as [X|X]; [|now left].
    assert (Eb : netmsg_bytes m = netmsg_bytes m0) by congruence. assert (Ea : a = a0) by congruence. subst a0. apply wire_inj in Eb; [|exact Q|exact Q0]. destruct Eb as (-> & ->). right. apply in_app_iff. right. now left.
  - destruct (nth_error (x_down s) i) as [[a0 b]|] eqn:Ei; [|injection St as <- <-; now elim D].
    destruct (down_read _ _ _ _ d a0 b Y M (nth_error_In _ _ Ei)) as (id0 & m0 & p & A & Q0 & _ & Eb & Er & P1 & P2 & P3 & P4 & P5). rewrite Er in St. cbn [bind rop_step fst snd] in St.
    injection St as <- <-. unfold pending. cbn [x_up x_down x_queue]. destruct P as [P|P]; [left; now left|]. destruct (take_out_other _ _ _ _ _ Ei P) as [X|X]; [|left; now right].
    right. assert (Ea : a = a0) by congruence. assert (Eb2 : answer_head 69 (n_hdr m) (n_tok m) = b) by congruence. clear X. subst a0. subst b. destruct (answer_parts m Q) as (p1 & E1 & P11 & P12 & P13 & P14 & _). destruct (answer_parts m0 Q0) as (p0 & E0 & P01 & P02 & P03 & P04 & P05 & _ & P07 & P08).
    assert (R1 : n_tok m = n_tok m0 /\ mid_of m = mid_of m0 /\ acknowledgement p).
    { destruct (answer_parts m Q) as (p1' & E1' & R11 & R12 & R13 & R14 & R15 & R16 & R17 & R18).
      rewrite E1' in Eb2. rewrite E0 in Eb2. unfold netmsg_bytes in Eb2. rewrite R12, R13, P02, P03, !app_nil_r in Eb2.
      destruct (n_hdr p1') as [x0 x1 x2 x3] eqn:F1. destruct (n_hdr p0) as [z0 z1 z2 z3] eqn:F0. unfold hdr_bytes in Eb2. cbn [h0 h1 h2 h3 app] in Eb2. injection Eb2 as <- <- <- <- Et.
      split; [exact Et|]. split; [rewrite <- R14, <- P04; unfold mid_of; now rewrite F1, F0|].
      apply P4. destruct (N.eq_dec (h0 (n_hdr m0) / 16 mod 4) 0) as [C|C]; [exact C|exfalso]. specialize (P08 C). specialize (R17 Hc). unfold acknowledgement in R17. rewrite F1 in R17. cbn [h0] in *. lia. }
    destruct R1 as (R1 & R2 & R3). cbn [client_ops flat_map app] in L. inversion L as [|? ? L1 _]; subst. cbn [fst rop_legal] in L1. pose proof (proj2 (ack_bits p P1) R3) as AK.
    rewrite AK in L1. unfold service_ack, ack_received. rewrite AK. pose proof (start _ _ _ _ (y_hist _ _ _ _ Y)) as V. pose proof (queue_hdrs _ _ _ _ Y) as QH. rewrite Forall_forall in QH.
    assert (ID : forall g, In g (x_queue s) -> matches same a (hdr_mid (n_hdr p)) (n_tok p) g = true -> i_id g = id).
    { intros g Hg Hm. destruct (QH g Hg) as (G1 & G2 & G3). apply matches_answers in Hm; [|exact P1|exact G3]. destruct Hm as (M1 & M2 & M3).
      symmetry. apply (T id (i_id g) m (i_msg g) a (i_addr g) Hs G1 M1); [now rewrite R1, <- P2|now rewrite R2, <- P3]. }
    apply in_map_iff in Hq. destruct Hq as (f & <- & Hf). destruct (QH f Hf) as (G1 & G2 & G3).
    assert (Mf : matches same a (hdr_mid (n_hdr p)) (n_tok p) f = true).
    { apply matches_answers; [exact P1|exact G3|]. destruct G1 as (n1 & r1 & G1). destruct Hs as (n2 & r2 & Hs). rewrite Hs in G1. injection G1 as -> -> _ _.
      split; [exact Sa|]. split; [now rewrite P2, <- R1|now rewrite P3, <- R2]. }
    destruct k as [k|]; cbn [is_match] in L1.
    + destruct (nth_error (x_queue s) k) as [g|] eqn:Ek; [|discriminate]. pose proof (ID g (nth_error_In _ _ Ek) L1) as Eg. cbn [fst].
      pose proof (v_ids _ _ _ V) as ND. rewrite (Permutation_map i_id (remove_at_perm _ _ _ Ek)) in ND. cbn [map] in ND. inversion ND as [|? ? N1 _]; subst. now rewrite <- Eg.
    + exfalso. rewrite forallb_forall in L1. specialize (L1 f Hf). rewrite Mf in L1. discriminate.
Qed.

Lemma delivers_keeps : forall wd debug o s s1 evs, x_step wd debug o s = Ok (s1, evs) -> delivers [(o, evs)] ->
  (2 * length (x_up s1) + length (x_down s1) < 2 * length (x_up s) + length (x_down s))%nat /\
  (forall m a now r os, ~ In (RSent m a now r, os) (client_ops evs)).
Proof.
  intros wd debug o s s1 evs St D. destruct o as [m0 a0 now r|now k|i w|i d k|up i|up i]; cbn [delivers] in D; try contradiction; destruct D as (D & _); cbn [x_step] in St.
  - destruct (nth_error (x_up s) i) as [[a0 b]|] eqn:Ei; [|injection St as <- <-; now elim D].
    destruct (on_request _ _ _ _ _) as [[r t]| |]; cbn [bind fst] in St; try discriminate. injection St as <- <-. cbn [x_up x_down]. apply take_out_len in Ei. rewrite app_length. cbn [length]. split; [lia|]. intros ? ? ? ? ? [].
  - destruct (nth_error (x_down s) i) as [[a0 b]|] eqn:Ei; [|injection St as <- <-; now elim D].
    destruct (x_read d b) as [p| |]; cbn [bind rop_step fst snd] in St; try discriminate. injection St as <- <-. cbn [x_up x_down]. apply take_out_len in Ei. split; [lia|]. intros ? ? ? ? ? [X|[]]. discriminate.
Qed.

Lemma told_apart_less : forall same h g, told_apart same (h ++ g) -> told_apart same h.
Proof. intros same h g T i j m1 m2 a1 a2 A B. apply T; now apply sent_keep. Qed.

Lemma delivers_cons : forall e r, delivers (e :: r) -> delivers [e] /\ delivers r.
Proof. intros [o ev] r D. destruct o; cbn [delivers] in *; tauto. Qed.

Lemma deliver_run : forall wd same debug s g s1, xrun wd same debug s g s1 -> forall h id m a, xinv wd same h s -> Forall (fun e => may (fst e)) g -> delivers g ->
  told_apart same (h ++ g) -> same a a = true -> sent_as h id m a -> confirmable m -> pending s m a -> pending s1 m a \/ ~ In id (map i_id (x_queue s1)).
Proof.
  induction 1 as [s|s o evs sa g sb St L R IH]; intros h id m a Y F D T Sa Hs Hc P; [now left|]. inversion F as [|? ? F1 F2]; subst. cbn [fst] in F1. apply delivers_cons in D. destruct D as (D1 & D2).
  assert (Y1 : xinv wd same (h ++ [(o, evs)]) sa) by (eapply xinv_step; eauto).
  assert (T1 : told_apart same ((h ++ [(o, evs)]) ++ g)) by (rewrite <- app_assoc; exact T).
  assert (GO : pending sa m a \/ ~ In id (map i_id (x_queue sa))).
  { destruct (in_dec Nat.eq_dec id (map i_id (x_queue s))) as [Hq|Hq].
    - apply (deliver_step wd same debug h s o sa evs id m a); auto. now apply told_apart_less with ((o, evs) :: g).
    - right. pose proof (start _ _ _ _ (y_hist _ _ _ _ Y1)) as V1. intros X. apply in_map_iff in X. destruct X as (f & Ef & Hf). apply Hq. clear Hq.
      (* deliveries add no items *)
      destruct o as [m0 a0 now r|now k|i w|i d k|up i|up i]; cbn [delivers] in D1; try contradiction; cbn [x_step] in St.
      + destruct (nth_error (x_up s) i) as [[a0 b]|]; [|injection St as <- <-; apply in_map_iff; eauto]. destruct (on_request _ _ _ _ _) as [[r t]| |]; cbn [bind fst] in St; try discriminate. injection St as <- <-. apply in_map_iff; eauto.
      + destruct (nth_error (x_down s) i) as [[a0 b]|]; [|injection St as <- <-; apply in_map_iff; eauto]. destruct (x_read d b) as [p| |]; cbn [bind rop_step fst snd] in St; try discriminate. injection St as <- <-. cbn [x_queue] in Hf.
        apply in_map_iff. exists f. split; [exact Ef|]. unfold service_ack, ack_received in Hf. destruct (_ =? _); [|exact Hf]. destruct k; [now apply remove_at_in in Hf|exact Hf]. }
  destruct GO as [GO|GO].
  - apply (IH (h ++ [(o, evs)]) id m a); auto. now apply sent_keep.
  - right. pose proof (start _ _ _ _ (y_hist _ _ _ _ Y1)) as V1.
    assert (Lt : (id < x_n sa)%nat).
    { rewrite (y_n _ _ _ _ Y1). destruct Hs as (n1 & r1 & Hs). rewrite history_app, app_length. assert (nth_error (history h) id <> None) by congruence. apply nth_error_Some in H. lia. }
    clear - R Lt GO D2. revert Lt GO D2. induction R as [s|s o evs sa g sb St L R IH]; intros Lt GO D; [exact GO|]. apply delivers_cons in D. destruct D as (D1 & D2).
    destruct o as [m0 a0 now r|now k|i w|i d k|up i|up i]; cbn [delivers] in D1; try contradiction; cbn [x_step] in St.
    + destruct (nth_error (x_up s) i) as [[a0 b]|]; [|injection St as <- <-; auto]. destruct (on_request _ _ _ _ _) as [[r t]| |]; cbn [bind fst] in St; try discriminate. injection St as <- <-. apply IH; auto.
    + destruct (nth_error (x_down s) i) as [[a0 b]|]; [|injection St as <- <-; auto]. destruct (x_read d b) as [p| |]; cbn [bind rop_step fst snd] in St; try discriminate. injection St as <- <-. apply IH; auto; cbn [x_n x_queue]; [lia|].
      intros X. apply GO. apply in_map_iff in X. destruct X as (f & Ef & Hf). apply in_map_iff. exists f. split; [exact Ef|]. unfold service_ack, ack_received in Hf. destruct (_ =? _); [|exact Hf]. destruct k; [now apply remove_at_in in Hf|exact Hf].
Qed.

(** ** Nothing comes from nowhere, nothing goes but by a loss *)

Lemma take_out_perm : forall X i (l : list X) x, nth_error l i = Some x -> Permutation l (take_out i l ++ [x]).
Proof.
  intros X i l x E. rewrite <- (firstn_skipn i l) at 1. unfold take_out. rewrite <- app_assoc. apply Permutation_app_head.
  assert (S1 : skipn i l = x :: skipn (S i) l).
  { revert l E. induction i as [|i IH]; intros [|y l] E; cbn in *; try discriminate; [congruence|apply IH, E]. }
  rewrite S1. apply Permutation_cons_append.
Qed.
Lemma take_out_none : forall X i (l : list X), nth_error l i = None -> take_out i l = l.
Proof. intros X i l E. apply nth_error_None in E. unfold take_out. rewrite firstn_all2, skipn_all2 by lia. apply app_nil_r. Qed.
Lemma one_some : forall X i (l : list X) x, nth_error l i = Some x -> firstn 1 (skipn i l) = [x].
Proof. induction i as [|i IH]; intros [|y l] x E; cbn in *; try discriminate; [congruence|apply IH, E]. Qed.
Lemma one_none : forall X i (l : list X), nth_error l i = None -> firstn 1 (skipn i l) = [].
Proof. intros X i l E. apply nth_error_None in E. now rewrite skipn_all2 by lia. Qed.

Lemma put_app : forall a b, put (a ++ b) = put a ++ put b.
Proof. intros. unfold put. now rewrite history_app, flat_map_app. Qed.
Lemma handled_app : forall a b, handled (a ++ b) = handled a ++ handled b.
Proof. intros. unfold handled. now rewrite done_app, flat_map_app. Qed.
Lemma heard_app : forall a b, heard (a ++ b) = heard a ++ heard b.
Proof. intros. unfold heard. now rewrite history_app, flat_map_app. Qed.
Lemma count_app : forall f a b, count_ops f (a ++ b) = (count_ops f a + count_ops f b)%nat.
Proof. intros. unfold count_ops. apply filter_app_len. Qed.

(** [now_] there, [gone] taken, [lost], against what was put and what was doubled *)
Definition flow (there gone came : list (N * list N)) (nl nd : nat) : Prop :=
  exists lost more, Permutation (there ++ gone ++ lost) (came ++ more) /\ (length lost <= nl)%nat /\ (length more <= nd)%nat /\ incl more came.

Lemma flow_mono : forall t g c l d l1 d1, flow t g c l d -> (l <= l1)%nat -> (d <= d1)%nat -> flow t g c l1 d1.
Proof. intros t g c l d l1 d1 (lost & more & P & A & B & C) H1 H2. exists lost, more. repeat split; auto; lia. Qed.
Lemma flow_in : forall t g c l d x, flow t g c l d -> In x t -> In x c.
Proof.
  intros t g c l d x (lost & more & P & _ & _ & C) I. assert (J : In x (c ++ more)) by (eapply Permutation_in; [exact P|]; apply in_app_iff; now left).
  apply in_app_iff in J. destruct J as [J|J]; auto.
Qed.
Lemma flow_put : forall t g c l d n, flow t g c l d -> flow (t ++ n) g (c ++ n) l d.
Proof.
  intros t g c l d n (lost & more & P & A & B & C). exists lost, more. split; [|split; [exact A|split; [exact B|]]].
  - rewrite <- (app_assoc t n), <- (app_assoc c n). etransitivity; [apply Permutation_app_swap_app|]. etransitivity; [|apply Permutation_app_swap_app]. apply Permutation_app_head, P.
  - intros y Y. apply in_app_iff. left. auto.
Qed.
Lemma flow_take : forall t g c l d i x, flow t g c l d -> nth_error t i = Some x -> flow (take_out i t) (g ++ [x]) c l d.
Proof.
  intros t g c l d i x (lost & more & P & A & B & C) E. exists lost, more. split; [|split; [exact A|split; [exact B|exact C]]].
  rewrite <- P. rewrite (take_out_perm _ _ _ _ E) at 2. rewrite <- !app_assoc. apply Permutation_app_head. cbn [app].
  symmetry. apply Permutation_middle.
Qed.
Lemma flow_lose : forall t g c l d i, flow t g c l d -> flow (take_out i t) g c (S l) d.
Proof.
  intros t g c l d i F. destruct (nth_error t i) as [x|] eqn:E.
  - destruct F as (lost & more & P & A & B & C). exists (x :: lost), more. split; [|split; [cbn [length]; lia|split; [exact B|exact C]]].
    rewrite <- P. rewrite (take_out_perm _ _ _ _ E) at 2. rewrite <- !app_assoc. apply Permutation_app_head. cbn [app]. symmetry. apply Permutation_middle.
  - rewrite take_out_none by exact E. eapply flow_mono; [exact F|lia|lia].
Qed.
Lemma flow_twice : forall t g c l d i, flow t g c l d -> flow (t ++ firstn 1 (skipn i t)) g c l (S d).
Proof.
  intros t g c l d i F. destruct (nth_error t i) as [x|] eqn:E.
  - rewrite (one_some _ _ _ _ E). pose proof (flow_in _ _ _ _ _ x F (nth_error_In _ _ E)) as I. destruct F as (lost & more & P & A & B & C).
    exists lost, (more ++ [x]). split; [|split; [exact A|split; [rewrite app_length; cbn [length]; lia|]]].
    + rewrite <- !app_assoc. cbn [app]. etransitivity; [symmetry; apply Permutation_middle|]. rewrite (app_assoc c more). rewrite <- P. apply Permutation_cons_append.
    + intros y Y. apply in_app_iff in Y. destruct Y as [Y|[<-|[]]]; auto.
  - rewrite one_none by exact E. rewrite app_nil_r. eapply flow_mono; [exact F|lia|lia].
Qed.

(** what a server sends back for a datagram *)
Definition back (r q : N * list N) : Prop := fst r = fst q /\ exists m, request m /\ snd q = netmsg_bytes m /\ snd r = answer_head 69 (n_hdr m) (n_tok m).

Definition flows (h : list (xop * list xev)) (s : xst) : Prop :=
  flow (x_up s) (handled h) (put h) (count_ops (loses true) h) (count_ops (doubles true) h) /\
  exists replies, Forall2 back replies (handled h) /\ flow (x_down s) (heard h) replies (count_ops (loses false) h) (count_ops (doubles false) h).

Lemma flows_step : forall wd same debug h s o s1 evs, xinv wd same h s -> may o -> x_step wd debug o s = Ok (s1, evs) -> flows h s -> flows (h ++ [(o, evs)]) s1.
Proof.
  intros wd same debug h s o s1 evs Y M St (F1 & replies & FR & F2). unfold flows. rewrite put_app, handled_app, heard_app, !count_app.
  assert (KEEP : forall t g c l d, flow t g c l d -> flow t (g ++ []) (c ++ []) (l + 0) (d + 0)) by (intros; rewrite !app_nil_r, !Nat.add_0_r; assumption).
  destruct o as [m a now r|now k|i w|i d k|up i|up i]; cbn [x_step] in St.
  - destruct (rop_step wd (x_n s) (RSent m a now r) (x_queue s)) as [[q os]| |]; cbn [bind] in St; try discriminate. cbn [fst snd] in St. injection St as <- <-. cbn.
    rewrite !app_nil_r, !Nat.add_0_r. split; [now apply flow_put|exists replies; auto].
  - destruct (rop_step wd (x_n s) (RService now k) (x_queue s)) as [[q os]| |]; cbn [bind] in St; try discriminate. cbn [fst snd] in St. injection St as <- <-.
    assert (E : put [(XService now k, [EClient (RService now k) os])] = map (fun e => (snd e, netmsg_bytes (snd (fst e)))) os).
    { unfold put. rewrite history_one. cbn [client_ops flat_map fst snd app]. rewrite app_nil_r. apply map_ext. intros [[id m] a]. reflexivity. }
    rewrite E. cbn. rewrite !app_nil_r, !Nat.add_0_r. split; [now apply flow_put|exists replies; auto].
  - destruct (nth_error (x_up s) i) as [[a b]|] eqn:Ei.
    2:{ injection St as <- <-. cbn. rewrite !app_nil_r, !Nat.add_0_r. split; [exact F1|exists replies; auto]. }
    destruct (y_up _ _ _ _ Y a b (nth_error_In _ _ Ei)) as (id & m & A & ->). pose proof (y_req _ _ _ _ Y id m a A) as Q. rewrite (serve_reply debug w a m M Q) in St. cbn [bind fst] in St. injection St as <- <-.
    cbn. rewrite !app_nil_r, !Nat.add_0_r. split; [now apply flow_take|]. exists (replies ++ [(a, answer_head 69 (n_hdr m) (n_tok m))]). split; [|now apply flow_put].
    apply Forall2_app; [exact FR|]. constructor; [|constructor]. split; [reflexivity|]. exists m. auto.
  - destruct (nth_error (x_down s) i) as [[a b]|] eqn:Ei.
    2:{ injection St as <- <-. cbn. rewrite !app_nil_r, !Nat.add_0_r. split; [exact F1|exists replies; auto]. }
    destruct (y_down _ _ _ _ Y a b (nth_error_In _ _ Ei)) as (id & m & A & Eb & C). pose proof (y_req _ _ _ _ Y _ _ _ A) as Q.
    destruct (answer_parts m Q) as (p & EA & P1 & P2 & P3 & P4 & P5 & P6 & P7 & P8). pose proof Q as (Q1 & Q2 & Q3 & Q4 & Q5).
    destruct (read_back d p M) as (rest & E); [rewrite P2; exact Q2|rewrite P2; exact P5|rewrite P2; exact Q4|].
    rewrite Eb, EA, E in St. cbn [bind rop_step fst snd] in St. injection St as <- <-.
    assert (Eb2 : hdr_bytes (n_hdr p) ++ n_tok p = b) by (rewrite Eb, EA; unfold netmsg_bytes; rewrite P3; now rewrite app_nil_r).
    assert (EH : heard [(XReceive i d k, [EClient (RReceived (NetMsg (n_hdr p) (n_tok p) rest) a k) []])] = [(a, b)]).
    { unfold heard. rewrite history_one. cbn [client_ops flat_map fst snd app n_hdr n_tok]. now rewrite Eb2. }
    rewrite EH. cbn. rewrite !app_nil_r, !Nat.add_0_r. split; [exact F1|]. exists replies. split; [exact FR|]. now apply flow_take.
  - destruct up; injection St as <- <-; cbn; rewrite !app_nil_r, !Nat.add_0_r, ?Nat.add_1_r.
    + split; [now apply flow_lose|exists replies; auto].
    + split; [exact F1|exists replies; split; [exact FR|now apply flow_lose]].
  - destruct up; injection St as <- <-; cbn; rewrite !app_nil_r, !Nat.add_0_r, ?Nat.add_1_r.
    + split; [now apply (flow_twice (x_up s))|exists replies; auto].
    + split; [exact F1|exists replies; split; [exact FR|now apply (flow_twice (x_down s))]].
Qed.

Lemma flows_run : forall wd same debug s g s1, xrun wd same debug s g s1 -> forall h, xinv wd same h s -> Forall (fun e => may (fst e)) g -> flows h s -> flows (h ++ g) s1.
Proof.
  induction 1 as [s|s o evs sa g sb St L R IH]; intros h Y F B; [now rewrite app_nil_r|]. inversion F as [|? ? F1 F2]; subst. cbn [fst] in F1.
  replace (h ++ (o, evs) :: g) with ((h ++ [(o, evs)]) ++ g) by (rewrite <- app_assoc; reflexivity). apply IH; [eapply xinv_step; eauto|exact F2|eapply flows_step; eauto].
Qed.
