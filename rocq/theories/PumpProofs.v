(** Lemmas for C62. *)
From Coq Require Import String ZArith.
From Verif Require Import Base UIntSpec HeaderModel HeaderSpec HeaderProofs OptSpec OptDecModel DecoderModel DecoderSpec NetDecSpec NetbufModel ObserveModel
  RespModel RespSpec RespProofs RespProps DiagModel DiagSpec DiagProofs PumpModel PumpSpec.
From Verif Require ObserveProofs ObserveProps ObserveSpec.
Local Open Scope N_scope.

Lemma enqueue_all_ok : forall X size (xs q : list X), (List.length q <= size)%nat ->
  enqueue_all size xs q = if (List.length q + List.length xs <=? size)%nat then Ok (q ++ xs) else Fault.
Proof.
  intros X size. induction xs as [|x xs IH]; intros q L; cbn [enqueue_all List.length].
  - rewrite Nat.add_0_r, app_nil_r. destruct (Nat.leb_spec (List.length q) size); [reflexivity|lia].
  - unfold enqueue. destruct (Nat.ltb_spec (List.length q) size) as [B|B]; cbn [bind].
    + rewrite IH by (rewrite app_length; cbn; lia). rewrite app_length, <- app_assoc. cbn [List.length app].
      replace (List.length q + 1 + List.length xs)%nat with (List.length q + S (List.length xs))%nat by lia. reflexivity.
    + destruct (Nat.leb_spec (List.length q + S (List.length xs)) size); [lia|reflexivity].
Qed.

Lemma tl_length : forall X (l : list X), List.length (tl l) = Nat.pred (List.length l).
Proof. intros X [|]; reflexivity. Qed.

(** a loop that neither stops nor looks at more than one datagram *)
Definition steady {A} (loop : nat -> event A -> pump A -> res (option (A * list N) * option (pump A))) (cut : list N -> list N) (good : event A -> Prop) (size : nat) : Prop :=
  forall e out, good e -> loop size e (Pump [] out) =
    Ok (if v_sent e then hd_error out else None, Some (Pump (match v_poll e with PData a dg => [(a, cut dg)] | _ => [] end) (tl out))).

Fixpoint masked {X A W} (es : list (event A * W)) (l : list (option X)) : list (option X) :=
  match es, l with
  | (e, _) :: r, x :: k => (if v_sent e then x else None) :: masked r k
  | _, _ => []
  end.

Lemma main_steady : forall A W T loop cut good (ap : server A W T) size, steady loop cut good size ->
  forall es s ns s' out, Forall (fun e => good (fst e)) es -> (List.length out <= size)%nat -> news_of cut ap es s = Ok (ns, s') ->
  main_loop loop ap size es (Pump [] out) s =
    if fits size (List.length out) (map (@List.length _) ns) then Ok (masked es (fst (line out ns)), Some (Pump [] (snd (line out ns)), s')) else Fault.
Proof.
  intros A W T loop cut good ap size St. induction es as [|[e w] es IH]; intros s ns s' out G L H; cbn [news_of] in H.
  - injection H as <- <-. reflexivity.
  - inversion G as [|x y G1 G2]; subst. cbn [fst] in G1. cbn [main_loop]. rewrite (St _ _ G1). cbn [bind fst snd]. clear G.
    assert (L1 : (List.length (tl out) <= size)%nat) by (rewrite tl_length; lia).
    destruct (v_poll e) as [|a dg|].
    + cbn [bind fst snd app] in H. unfold service. cbn [p_in bind fst snd p_out].
      destruct (on_turn ap w s) as [[os s1]| |]; [|discriminate H|discriminate H]. cbn [bind fst snd] in *.
      destruct (news_of cut ap es s1) as [[ns1 s2]| |] eqn:E; [|discriminate H|discriminate H]. cbn [bind fst snd] in *. injection H as <- <-.
      rewrite enqueue_all_ok by exact L1. cbn [map fits line]. rewrite tl_length.
      destruct (Nat.leb_spec (Nat.pred (List.length out) + List.length os) size) as [B|B]; cbn [bind andb]; [|reflexivity].
      rewrite (IH _ _ _ (tl out ++ os) G2 ltac:(rewrite app_length, tl_length; exact B) E). rewrite app_length, tl_length.
      destruct (fits _ _ _); cbn [bind fst snd masked]; reflexivity.
    + unfold service. cbn [p_in p_out].
      destruct (on_request ap w a (cut dg) s) as [[b s0]| |]; [|discriminate H|discriminate H]. cbn [bind fst snd] in *.
      destruct (on_turn ap w s0) as [[os s1]| |] eqn:Et; [|discriminate H|discriminate H]. cbn [bind fst snd] in *.
      destruct (news_of cut ap es s1) as [[ns1 s2]| |] eqn:E; [|discriminate H|discriminate H]. cbn [bind fst snd] in *. injection H as <- <-.
      cbn [map fits line fst snd]. cbn [List.length app].
      unfold enqueue. rewrite tl_length. destruct (Nat.ltb_spec (Nat.pred (List.length out)) size) as [B0|B0]; cbn [bind fst snd p_in p_out].
      * rewrite Et. cbn [bind fst snd]. rewrite enqueue_all_ok by (rewrite app_length, tl_length; cbn; lia). rewrite app_length, tl_length. cbn [List.length].
        replace (Nat.pred (List.length out) + 1 + List.length os)%nat with (Nat.pred (List.length out) + S (List.length os))%nat by lia.
        destruct (Nat.leb_spec (Nat.pred (List.length out) + S (List.length os)) size) as [B|B]; cbn [bind andb]; [|reflexivity].
        rewrite <- app_assoc. cbn [app].
        rewrite (IH _ _ _ (tl out ++ (a, b) :: os) G2 ltac:(rewrite app_length, tl_length; exact B) E). rewrite app_length, tl_length. cbn [List.length].
        destruct (fits _ _ _); cbn [bind fst snd masked]; reflexivity.
      * destruct (Nat.leb_spec (Nat.pred (List.length out) + S (List.length os)) size); [lia|reflexivity].
    + cbn [bind fst snd app] in H. unfold service. cbn [p_in bind fst snd p_out].
      destruct (on_turn ap w s) as [[os s1]| |]; [|discriminate H|discriminate H]. cbn [bind fst snd] in *.
      destruct (news_of cut ap es s1) as [[ns1 s2]| |] eqn:E; [|discriminate H|discriminate H]. cbn [bind fst snd] in *. injection H as <- <-.
      rewrite enqueue_all_ok by exact L1. cbn [map fits line]. rewrite tl_length.
      destruct (Nat.leb_spec (Nat.pred (List.length out) + List.length os) size) as [B|B]; cbn [bind andb]; [|reflexivity].
      rewrite (IH _ _ _ (tl out ++ os) G2 ltac:(rewrite app_length, tl_length; exact B) E). rewrite app_length, tl_length.
      destruct (fits _ _ _); cbn [bind fst snd masked]; reflexivity.
Qed.

Lemma posix_steady : forall A size, (1 <= size)%nat -> steady (@posix_loop A) (firstn nb_size) calm size.
Proof.
  intros A size Hs [se v] out (Q & P). cbn [v_sent v_poll] in *. subst se. unfold posix_loop. cbn [p_out p_in v_sent v_poll].
  assert (R : forall o, posix_recv size v (Pump [] o) = Ok (Some (Pump (match v with PData a dg => [(a, firstn nb_size dg)] | _ => [] end) o))).
  { intros o. unfold posix_recv. destruct v as [|a dg|]; [reflexivity| |contradiction]. destruct dg as [|x dg]; [congruence|].
    change nb_size with (S 4095). cbn [firstn]. unfold enqueue. cbn [p_in List.length]. destruct (Nat.ltb_spec 0 size); [reflexivity|lia]. }
  destruct out as [|x q]; rewrite R; reflexivity.
Qed.
Lemma lwip_steady : forall A size, (1 <= size)%nat -> steady (@lwip_loop A) (fun b => b) (fun _ => True) size.
Proof.
  intros A size Hs [se v] out _. unfold lwip_loop. cbn [v_sent v_poll p_in p_out]. unfold enqueue. cbn [List.length].
  destruct (Nat.ltb_spec 0 size); [|lia]. destruct out as [|x q], v, se; reflexivity.
Qed.

Lemma masked_calm : forall A W X (es : list (event A * W)) (l : list (option X)), Forall (fun e => calm (fst e)) es -> List.length l = List.length es -> masked es l = l.
Proof.
  induction es as [|[e w] es IH]; intros [|x l] C L; try discriminate L; [reflexivity|]. inversion C as [|? ? (Q & _) C2]; subst. cbn [fst] in Q.
  cbn [masked]. rewrite Q, IH by (auto; cbn in L; lia). reflexivity.
Qed.
Lemma line_length : forall X (news : list (list X)) w, List.length (fst (line w news)) = List.length news.
Proof. induction news as [|n r IH]; intros w; [reflexivity|]. cbn [line fst List.length]. rewrite IH. reflexivity. Qed.
Lemma news_length : forall A W T cut (ap : server A W T) es s ns s', news_of cut ap es s = Ok (ns, s') -> List.length ns = List.length es.
Proof.
  intros A W T cut ap. induction es as [|[e w] es IH]; intros s ns s' H; cbn [news_of] in H; [injection H as <- <-; reflexivity|].
  destruct (match v_poll e with PData a dg => _ | _ => _ end) as [y| |]; [|discriminate H|discriminate H]. cbn [bind] in H.
  destruct (on_turn ap w (snd y)) as [z| |]; [|discriminate H|discriminate H]. cbn [bind] in H.
  destruct (news_of cut ap es (snd z)) as [[u1 u2]| |] eqn:E; [|discriminate H|discriminate H]. cbn [bind fst snd] in H. injection H as <- <-.
  cbn [List.length]. rewrite (IH _ _ _ E). reflexivity.
Qed.

(** the line keeps the order and loses nothing *)
Lemma line_order : forall X (news : list (list X)) w, gone (fst (line w news)) ++ snd (line w news) = w ++ concat news.
Proof.
  induction news as [|n r IH]; intros w; cbn [line fst snd gone concat]; [rewrite app_nil_r; reflexivity|].
  destruct w as [|x w]; cbn [hd_error gone tl app]; rewrite IH; [reflexivity|]. rewrite app_assoc. reflexivity.
Qed.
Lemma line_prompt : forall X (news : list (list X)) w j, (j < List.length w)%nat -> (j < List.length news)%nat ->
  nth_error (fst (line w news)) j = Some (nth_error w j).
Proof.
  induction news as [|n r IH]; intros w j H1 H2; cbn [List.length] in H2; [lia|]. cbn [line fst]. destruct w as [|x w]; [cbn in H1; lia|]. destruct j as [|j]; [reflexivity|].
  cbn [nth_error tl]. cbn [List.length] in H1. rewrite IH by (rewrite ?app_length; lia). rewrite nth_error_app1 by lia. reflexivity.
Qed.

(** at most one new entry a turn: out it goes in the next *)
Definition opt_list {X} (o : option X) : list X := match o with None => [] | Some x => [x] end.
Lemma line_singles : forall X (os : list (option X)) w, (List.length w <= 1)%nat ->
  line w (map opt_list os) = (removelast (hd_error w :: os), opt_list (last (hd_error w :: os) None)).
Proof.
  induction os as [|o os IH]; intros w L.
  - cbn. destruct w as [|x [|y w]]; [reflexivity|reflexivity|cbn in L; lia].
  - cbn [map line]. assert (T : tl w = []) by (destruct w as [|x [|y w]]; [reflexivity|reflexivity|cbn in L; lia]). rewrite T. cbn [app].
    rewrite IH by (destruct o; cbn; lia). cbn [fst snd]. replace (hd_error (opt_list o)) with o by (destruct o; reflexivity).
    destruct os; reflexivity.
Qed.
Lemma fits_singles : forall X (os : list (option X)) size n, (1 <= size)%nat -> (n <= 1)%nat -> fits size n (map (@List.length _) (map opt_list os)) = true.
Proof.
  induction os as [|o os IH]; intros size n Hs Hn; [reflexivity|]. cbn [map fits]. replace (Nat.pred n) with 0%nat by lia. cbn [Nat.add].
  assert (B : (List.length (opt_list o) <= 1)%nat) by (destruct o; cbn; lia). destruct (Nat.leb_spec (List.length (opt_list o)) size); [|lia]. cbn [andb]. apply IH; assumption.
Qed.

Lemma main_app : forall A W T loop (ap : server A W T) size es1 es2 p s,
  main_loop loop ap size (es1 ++ es2) p s =
  bind (main_loop loop ap size es1 p s) (fun x => match snd x with None => Ok x | Some (p1, s1) => bind (main_loop loop ap size es2 p1 s1) (fun y => Ok (fst x ++ fst y, snd y)) end).
Proof.
  intros A W T loop ap size es1 es2. induction es1 as [|[e w] es1 IH]; intros p s; cbn [app main_loop bind fst snd].
  - destruct (main_loop loop ap size es2 p s) as [[l r]| |]; reflexivity.
  - destruct (loop size e p) as [[o [p1|]]| |]; cbn [bind fst snd]; try reflexivity.
    destruct (service ap size w p1 s) as [[p2 s2]| |]; cbn [bind fst snd]; try reflexivity.
    destruct (on_turn ap w s2) as [[os s3]| |]; cbn [bind fst snd]; try reflexivity.
    destruct (enqueue_all size os (p_out p2)) as [q| |]; cbn [bind fst snd]; try reflexivity.
    rewrite IH. destruct (main_loop loop ap size es1 _ s3) as [[l [[p4 s4]|]]| |]; cbn [bind fst snd]; try reflexivity.
    destruct (main_loop loop ap size es2 p4 s4) as [[l2 r2]| |]; reflexivity.
Qed.

(** ---- the observable server ---- *)

Lemma digits_length : forall fuel up b n acc, (List.length (digits_loop fuel up b n acc) <= fuel + List.length acc)%nat.
Proof.
  induction fuel as [|k IH]; intros up b n acc; cbn [digits_loop]; [lia|]. destruct (n <? b); [cbn; lia|].
  eapply Nat.le_trans; [apply IH|]. cbn. lia.
Qed.
Lemma size_31 : forall n, n < 2 ^ 31 -> (N.size_nat n <= 31)%nat.
Proof.
  intros n H. assert (Q : N.size n <= 31).
  { destruct (N.eq_dec n 0) as [->|Z]; [discriminate|]. rewrite N.size_log2 by exact Z. apply N.le_succ_l. apply N.log2_lt_pow2; lia. }
  replace (N.size_nat n) with (N.to_nat (N.size n)); [lia|]. destruct n as [|p]; [reflexivity|]. cbn [N.size N.size_nat]. clear.
  induction p as [p IH|p IH|]; cbn [Pos.size Pos.size_nat]; [| |reflexivity]; rewrite <- IH; cbn [N.to_nat]; apply Pos2Nat.inj_succ.
Qed.

Definition observed_body (tok : list N) (seq : N) : list opt * option (list N) := ([], Some (str "Observed: " ++ digits false 10 seq)).
Lemma observed_ok : forall tok seq, seq < 2 ^ 31 -> ObserveProps.body_ok false nb_size (observed_body tok seq).
Proof.
  intros tok seq H. unfold ObserveProps.body_ok, observed_body. cbn [fst snd]. split; [exact I|]. split; [|left; reflexivity].
  cbn [opts_bytes app pay_bytes List.length]. rewrite app_length. pose proof (digits_length (S (N.size_nat seq)) false 10 seq []) as D. fold (digits false 10 seq) in D.
  pose proof (size_31 seq H) as Z. change (List.length (str "Observed: ")) with 10%nat. cbn [List.length] in D.
  assert (K : (60 <= nb_size)%nat) by (apply Nat.leb_le; vm_compute; reflexivity). lia.
Qed.

Definition client {A} (s : session A) : A * list N * N := (os_addr s, os_tok s, os_seq s).
Definition meets {A} (o : A * list N) (i : A * item) : Prop := fst o = fst i /\ item_ok (snd i) (snd o).

Lemma each_round : forall A (regs : list (session A)) mid, Forall (fun s => (List.length (os_tok s) <= 8)%nat /\ os_seq s + 1 < 2 ^ 31) regs ->
  mid + N.of_nat (List.length regs) <= 2 ^ 31 - 1 ->
  exists regs' outs, for_each false nb_size emit_observed mid regs = Ok (mid + N.of_nat (List.length regs), regs', outs) /\
    map client regs' = map (fun c => (fst c, snd c + 1)) (map client regs) /\ Forall2 meets outs (notices mid (map client regs)).
Proof.
  intros A. induction regs as [|s regs IH]; intros mid G Hm; cbn [for_each].
  - exists [], []. cbn. rewrite N.add_0_r. repeat split; constructor.
  - inversion G as [|? ? (G1 & G2) G3]; subst. cbn [List.length] in Hm.
    destruct (ObserveProps.notify_exact A false nb_size observed_body mid s G1 (observed_ok _ _ G2) ltac:(lia) G2) as (bs & E & v & V1 & V2 & V3 & V4).
    change (ObserveProps.emit_body observed_body) with (@emit_observed A) in E. rewrite E. cbn [bind].
    destruct (IH (mid + 1) G3 ltac:(lia)) as (regs' & outs & E2 & E3 & E4). rewrite E2. cbn [bind].
    eexists. eexists. split; [cbn [List.length]; do 3 f_equal; lia|]. split.
    + cbn [map]. rewrite E3. unfold client at 1 3. cbn [os_addr os_tok os_seq fst snd]. reflexivity.
    + cbn [map notices]. unfold client at 1. constructor; [|exact E4]. split; [reflexivity|]. cbn [fst snd item_ok].
      exists v, (digits false 10 (os_seq s + 1)). split; [exact V1|]. split; [exact V2|]. split; [exact V3|]. split; [apply digits_numeral; lia|].
      rewrite V4. unfold observed_body. cbn [fst snd pay_bytes]. reflexivity.
Qed.

Lemma obs_news : forall A fuel (ts : list (asked A)) s, Forall (asked_ok fuel) ts ->
  (List.length (o_regs s) + enrolled ts <= 10)%nat ->
  Forall (fun c => (List.length (os_tok c) <= 8)%nat /\ os_seq c + N.of_nat (List.length ts) < 2 ^ 31) (o_regs s) ->
  N.of_nat (List.length ts) < 2 ^ 31 -> o_mid s + 10 * N.of_nat (List.length ts) <= 2 ^ 31 - 1 ->
  exists ns s', news_of (firstn nb_size) (obs_app false fuel) (map asked_event ts) s = Ok (ns, s') /\
    Forall2 (Forall2 meets) ns (owed ts (map client (o_regs s)) (o_mid s) (o_last s)).
Proof.
  intros A fuel. induction ts as [|[q w] ts IH]; intros s Ok1 Hr Hc Hl Hm.
  - exists [], s. split; [reflexivity|constructor].
  - inversion Ok1 as [|? ? ((Wh & Wi) & Q) Ok2]; subst. cbn [fst snd] in *. cbn [map news_of asked_event fst snd v_poll].
    assert (Step : exists ns1 s1, match match q with None => PNone | Some (a, m) => PData a (msg_bytes m) end with
        | PData a dg => bind (on_request (obs_app false fuel) w a (firstn nb_size dg) s) (fun y => Ok ([(a, fst y)], snd y))
        | _ => Ok ([], s) end = Ok (ns1, s1) /\
        Forall2 meets ns1 (match q with None => [] | Some (a, m) => [(a, Reply (sent 4096 (last (map observe_code (observes m)) 132) (m_hdr m) (m_tok m) (slashed (path_of m))))] end) /\
        map client (o_regs s1) = (match q with None => map client (o_regs s) | Some (a, m) => map client (o_regs s) ++ map (fun _ => (a, m_tok m, 0)) (filter registers (observes m)) end) /\
        o_mid s1 = o_mid s /\ o_last s1 = o_last s /\ (List.length (o_regs s1) + enrolled ts <= 10)%nat /\
        Forall (fun c => (List.length (os_tok c) <= 8)%nat /\ os_seq c + N.of_nat (S (List.length ts)) < 2 ^ 31) (o_regs s1)).
    { destruct q as [[a m]|].
      - destruct Q as (Q1 & Q3 & Q4 & Q5 & Q6). cbn [on_request obs_app]. replace (firstn nb_size (msg_bytes m)) with (msg_bytes m) by (symmetry; apply firstn_all2; exact Q4).
        cbn [enrolled] in Hr. pose proof Q1 as Q1'. destruct Q1' as (_ & _ & T8 & _).
        rewrite (C56_observe A nb_size fuel 10 (w_hdr w) (w_tok w) m (w_dec w) a (o_regs s) Wh Q1 Wi Q3); [| |exact Q5|exact Q6|].
        2: { apply Nat.le_trans with 12%nat; [lia|apply Nat.leb_le; vm_compute; reflexivity]. }
        2: { fold (observes m). lia. }
        cbn [bind fst snd]. eexists. eexists. split; [reflexivity|]. cbn [o_regs o_mid o_last]. fold (observes m). fold (path_of m). split.
        { constructor; [|constructor]. split; reflexivity. }
        split. { rewrite map_app. f_equal. rewrite map_map. reflexivity. }
        split; [reflexivity|]. split; [reflexivity|]. split. { rewrite app_length, map_length. lia. }
        apply Forall_app. split; [exact Hc|]. apply Forall_forall. intros c I. apply in_map_iff in I. destruct I as (? & <- & _). cbn [os_tok os_seq]. split; [exact T8|]. cbn [List.length] in Hl. lia.
      - eexists. eexists. split; [reflexivity|]. split; [constructor|]. split; [reflexivity|]. repeat (split; [reflexivity|]). split; [exact Hr|exact Hc]. }
    destruct Step as (ns1 & s1 & E1 & M1 & C1 & D1 & D2 & R1 & F1). rewrite E1. cbn [bind fst snd]. cbn [owed]. rewrite <- C1, D1 || rewrite <- C1. rewrite <- ?D2.
    cbn [on_turn obs_app]. rewrite ?D2.
    destruct (1000 <? w_now w - o_last s).
    + destruct (each_round A (o_regs s1) (o_mid s1)) as (regs' & outs & E2 & E3 & E4).
      { eapply Forall_impl; [|exact F1]. cbn beta. intros c (P1 & P2). split; [exact P1|]. lia. }
      { rewrite D1. cbn [List.length] in Hm. lia. }
      rewrite E2. cbn [bind fst snd].
      assert (Lr : List.length regs' = List.length (o_regs s1)) by (apply (f_equal (@List.length _)) in E3; rewrite !map_length in E3; exact E3).
      assert (F2 : Forall (fun c => (List.length (os_tok c) <= 8)%nat /\ os_seq c + N.of_nat (List.length ts) < 2 ^ 31) regs').
      { assert (G : Forall (fun c => (List.length (snd (fst c)) <= 8)%nat /\ snd c + N.of_nat (List.length ts) < 2 ^ 31) (map client regs')).
        { rewrite E3. apply Forall_forall. intros c I. apply in_map_iff in I. destruct I as (c0 & <- & I). apply in_map_iff in I. destruct I as (x & <- & I).
          rewrite Forall_forall in F1. destruct (F1 x I) as (P1 & P2). unfold client. cbn [fst snd]. split; [exact P1|lia]. }
        apply Forall_forall. intros c I. rewrite Forall_forall in G. exact (G _ (in_map client _ _ I)). }
      destruct (IH (ObsState regs' (o_mid s1 + N.of_nat (List.length (o_regs s1))) (w_now w)) Ok2) as (ns & s' & E5 & E6); cbn [o_regs o_mid o_last]; auto.
      { rewrite Lr. exact R1. }
      { cbn [List.length] in Hl. lia. }
      { rewrite D1. cbn [List.length] in Hm. lia. }
      rewrite E5. cbn [bind fst snd]. eexists. eexists. split; [reflexivity|]. constructor.
      * apply Forall2_app; [exact M1|]. rewrite D1 in E4. exact E4.
      * cbn [o_regs o_mid o_last] in E6. rewrite E3, D1 in E6. rewrite map_length. exact E6.
    + cbn [bind fst snd]. destruct (IH s1 Ok2) as (ns & s' & E5 & E6); auto.
      { eapply Forall_impl; [|exact F1]. cbn beta. intros c (P1 & P2). split; [exact P1|]. lia. }
      { cbn [List.length] in Hl. lia. }
      { rewrite D1. cbn [List.length] in Hm. lia. }
      rewrite E5. cbn [bind fst snd]. eexists. eexists. split; [reflexivity|]. rewrite app_nil_r. constructor; [exact M1|]. rewrite D1, D2 in E6. exact E6.
Qed.
