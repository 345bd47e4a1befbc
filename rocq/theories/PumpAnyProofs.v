(** Lemmas for C85. *)
From Verif Require Import Base HeaderModel HeaderSpec HeaderProofs OptEncModel OptSpec StreambufModel StreambufProofs ContextModel UriModel UriSpec AppModel NetbufModel NetbufProofs
  ObserveModel RespModel RespSpec RespProofs RespProps OptDecModel OptDecSpec OptDecProofs DecoderModel DecoderSpec DecoderProofs NetDecModel NetDecSpec NetDecProofs NetDecProps
  HeadCutSpec NetAnySpec NetAnyProofs NetAnyProps PumpModel PumpSpec PumpProofs PumpAnySpec.
From Verif Require ObserveSpec ObserveProofs.
Local Open Scope N_scope.

(** a datagram has its parts or is too short, or announces a token too long *)
Lemma parts_or : forall c, bytes_ok c -> (exists h tok rest, parts c h tok rest /\ hdr_ok h /\ bytes_ok tok /\ bytes_ok rest) \/
  (length c < 4)%nat \/ exists h r, c = hdr_bytes h ++ r /\ (8 < h0 h mod 16 \/ len r < h0 h mod 16).
Proof.
  intros c B. destruct c as [|b0 [|b1 [|b2 [|b3 r]]]]; try (right; left; cbn; lia).
  set (h := Hdr b0 b1 b2 b3). assert (E : b0 :: b1 :: b2 :: b3 :: r = hdr_bytes h ++ r) by reflexivity. rewrite E in B |- *.
  apply bytes_ok_app in B. destruct B as (Bh & Br). pose proof (N.mod_lt (h0 h) 16 ltac:(discriminate)) as T.
  destruct (N.lt_ge_cases 8 (h0 h mod 16)) as [L|L]; [right; right; eauto|].
  destruct (N.lt_ge_cases (len r) (h0 h mod 16)) as [K|K]; [right; right; eauto|]. left.
  set (n := N.to_nat (h0 h mod 16)). exists h, (firstn n r), (skipn n r).
  rewrite <- (firstn_skipn n r) in Br. apply bytes_ok_app in Br. unfold parts. rewrite firstn_skipn.
  assert (Ln : length (firstn n r) = n) by (rewrite firstn_length; unfold len in K; unfold n; lia).
  repeat split; try tauto; try (unfold len; rewrite Ln; unfold n; lia).
  all: unfold hdr_bytes in Bh; repeat match goal with H : bytes_ok (_ :: _) |- _ => inversion H; clear H; subst end; assumption.
Qed.

Lemma parts_once : forall c h tok rest h2 tok2 rest2, parts c h tok rest -> parts c h2 tok2 rest2 -> h = h2 /\ tok = tok2 /\ rest = rest2.
Proof.
  intros c [a b i j] tok rest [a2 b2 i2 j2] tok2 rest2 (E & T & _) (E2 & T2 & _). rewrite E in E2. unfold hdr_bytes in E2. cbn [h0 h1 h2 h3 app] in *.
  injection E2 as <- <- <- <- E2. split; [reflexivity|]. rewrite T in T2. unfold len in T2. apply Nat2N.inj in T2.
  assert (tok = tok2).
  { apply (f_equal (firstn (length tok))) in E2. rewrite firstn_app, Nat.sub_diag, firstn_all, firstn_O, app_nil_r in E2. rewrite T2 in E2.
    rewrite firstn_app, Nat.sub_diag, firstn_all, firstn_O, app_nil_r in E2. exact E2. }
  subst tok2. split; [reflexivity|]. apply app_inv_head in E2. exact E2.
Qed.

(** a server that does not get its header and token does not get further *)
Lemma begin_short : forall c d junk, bytes_ok c -> idle d ->
  ((length c < 4)%nat \/ exists h r, c = hdr_bytes h ++ r /\ (8 < h0 h mod 16 \/ len r < h0 h mod 16)) -> rs_begin junk c d = Fault.
Proof.
  intros c d junk B D [L|(h & r & -> & T)]; unfold rs_begin.
  - rewrite C55_short_header by assumption. reflexivity.
  - destruct (C55_short_token true d h r D T) as (x & -> & E). cbn [bind fst snd]. rewrite E. reflexivity.
Qed.

Definition short (c : list N) : Prop := (length c < 4)%nat \/ exists h r, c = hdr_bytes h ++ r /\ (8 < h0 h mod 16 \/ len r < h0 h mod 16).
Lemma short_no_parts : forall c h tok rest, short c -> ~ parts c h tok rest.
Proof.
  intros c h tok rest [L|(h2 & r & -> & T)] (E & P & Q).
  - rewrite E, app_length in L. change (length (hdr_bytes h)) with 4%nat in L. lia.
  - destruct h as [a b i j], h2 as [a2 b2 i2 j2]. unfold hdr_bytes in E. cbn [h0 h1 h2 h3 app] in *. injection E as -> -> -> -> ->.
    rewrite P in T. unfold len in T. rewrite app_length in T. lia.
Qed.



Lemma options_skip : forall fuel h tok rest x, let c := hdr_bytes h ++ tok ++ rest in bytes_ok c -> nd_state x = OptionsStart -> dec_mem (n_dec x) ->
  n_pos x = (4 + length tok)%nat -> (dec_fuel c <= fuel)%nat ->
  bind (it_new c true x) (it_skip fuel c true) = Fault \/ exists y, bind (it_new c true x) (it_skip fuel c true) = Ok y.
Proof.
  intros fuel h tok rest x c Hok S M P Hf. destruct (new_any c x Hok S M) as (N1 & N2). unfold dec_fuel in Hf.
  assert (Lc : length c = (4 + (length tok + length rest))%nat) by (unfold c; rewrite !app_length; reflexivity).
  destruct (Nat.eq_dec (n_pos x) (length c)) as [Eq|Ne].
  - right. destruct (N1 Eq) as (y & -> & V). exists y. cbn [bind]. destruct fuel as [|q]; [lia|]. cbn [it_skip]. rewrite V. reflexivity.
  - assert (Lt : (n_pos x < length c)%nat) by lia. destruct (N2 Lt) as (A & H). assert (L := mu_start c x Lt). unfold opt_fuel in L.
    destruct H as [(-> & D)|(y & -> & [(V & G)|(Ay & Ly & D & G)])]; cbn [bind]; [left; reflexivity| |].
    + right. exists y. destruct fuel as [|q]; [lia|]. cbn [it_skip]. rewrite V. reflexivity.
    + destruct (skip_any c Hok fuel y Ay ltac:(lia)) as [(-> & _)|(z & -> & _)]; [left; reflexivity|right; eauto].
Qed.

Lemma ping_any : forall skip debug fuel jh junk c d, hdr_ok jh -> idle d -> bytes_ok c -> (dec_fuel c <= fuel)%nat ->
  (exists r, pinged skip c r /\ ping skip debug nb_size fuel jh junk c d = Ok r) \/
  ((forall r, ~ pinged skip c r) /\ ping skip debug nb_size fuel jh junk c d = Fault).
Proof.
  intros skip debug fuel jh junk c d Hj Hd B Hf. destruct (parts_or c B) as [(h & tok & rest & P & Hh & Bt & Br)|L].
  2: { right. split; [intros r (h & tok & rest & P & _); exact (short_no_parts c h tok rest L P)|]. unfold ping. rewrite begin_short by assumption. reflexivity. }
  pose proof P as P'. destruct P' as (-> & Ht & H8).
  assert (Hc : (4 + length tok <= nb_size)%nat) by (apply Nat.le_trans with 12%nat; [lia|apply Nat.leb_le; vm_compute; reflexivity]).
  assert (Dec : answerable h \/ ~ answerable h) by (unfold answerable; destruct (N.eq_dec (hdr_type h) CON), (N.eq_dec (hdr_type h) NON); tauto).
  destruct Dec as [R|R].
  - destruct skip.
    + destruct (C84_ping debug nb_size fuel jh junk h tok rest d Hj Hh Hd Bt Br Ht H8 Hc R Hf) as [(U & E)|(U & E)].
      * right. split; [|exact E]. intros r (h2 & tok2 & rest2 & P2 & _ & U2 & _). destruct (parts_once _ _ _ _ _ _ _ P P2) as (<- & <- & <-). exact (U2 eq_refl U).
      * left. eexists. split; [|exact E]. exists h, tok, rest. auto.
    + left. eexists. split; [|exact (C56_ping debug nb_size fuel jh junk h tok rest d Hj Hh Hd Bt Ht H8 Hc R)]. exists h, tok, rest. split; [exact P|]. split; [exact R|]. split; [discriminate|reflexivity].
  - right. split; [intros r (h2 & tok2 & rest2 & P2 & R2 & _); destruct (parts_once _ _ _ _ _ _ _ P P2) as (<- & _); contradiction|].
    destruct (begin_any junk d h tok rest Hd B Ht H8) as (k & x & K1 & K2 & K3 & S & P1 & M). unfold ping. rewrite K1. cbn [bind fst snd].
    rewrite (head_fault debug nb_size jh k code_content h tok Hj Hh K2 K3 R). destruct skip; [|reflexivity].
    destruct (options_skip fuel h tok rest x B S M P1 Hf) as [->|(y & ->)]; reflexivity.
Qed.

(** * The loop of a server without memory *)

(** what the loop gives for an outcome *)
Definition outcome_res {A} (o : outcome A) : res (list (option (A * list N)) * option (pump A * unit)) :=
  match o with
  | Crashed => Fault
  | Exited l => Ok (l, None)
  | Running l w => Ok (l, Some (Pump [] (opt_list w), tt))
  end.

Lemma after_res : forall A (x : option (A * list N)) o, bind (outcome_res o) (fun u => Ok (x :: fst u, snd u)) = outcome_res (after x o).
Proof. intros A x [|l|l w]; reflexivity. Qed.

Lemma course_any : forall A W (rep : W -> list N -> list N -> Prop) (handle : W -> A -> list N -> res (list N)) size, (1 <= size)%nat -> forall es x,
  Forall (fun e : event A * W => forall a dg, v_poll (fst e) = PData a dg -> let c := firstn nb_size dg in
    (exists r, rep (snd e) c r /\ handle (snd e) a c = Ok r) \/ ((forall r, ~ rep (snd e) c r) /\ handle (snd e) a c = Fault)) es ->
  exists o, course rep x es o /\
    main_loop posix_loop (Server (fun w a b _ => bind (handle w a b) (fun r => Ok (r, tt))) (fun _ _ => Ok ([], tt))) size es (Pump [] (opt_list x)) tt = outcome_res o.
Proof.
  intros A W rep handle size Hs. set (ap := Server (fun w a b (_ : unit) => bind (handle w a b) (fun r => Ok (r, tt))) (fun _ _ => Ok ([], tt))).
  induction es as [|[e w] es IH]; intros x F.
  - exists (Running [] x). split; [constructor|reflexivity].
  - inversion F as [|? ? F1 F2]; subst. cbn [fst snd] in F1. cbn [main_loop].
    assert (K : (exists y, x = Some y /\ v_sent e = false) \/ (x = None \/ v_sent e = true)) by (destruct x; destruct (v_sent e); eauto).
    destruct K as [(y & -> & V)|K].
    { exists (Exited [None]). split; [now constructor|]. unfold posix_loop. cbn [opt_list p_out]. rewrite V. reflexivity. }
    assert (L : posix_loop size e (Pump [] (opt_list x)) = bind (posix_recv size (v_poll e) (Pump [] [])) (fun r => Ok (x, r))).
    { unfold posix_loop. destruct x as [y|]; cbn [opt_list p_out p_in]; [|reflexivity]. destruct K as [K|K]; [discriminate|]. rewrite K. reflexivity. }
    rewrite L. destruct (v_poll e) as [|a dg|] eqn:P.
    + destruct (IH None F2) as (o & C & E). exists (after x o). split; [eapply c_quiet; eassumption|].
      cbn [posix_recv bind fst snd]. unfold service. cbn [p_in bind fst snd p_out on_turn ap enqueue_all]. fold ap. cbn [opt_list] in E. rewrite E. apply after_res.
    + unfold posix_recv. destruct dg as [|b0 dg]; [cbn [firstn nb_size]; exists (Exited [x]); split; [|reflexivity]; eapply c_exit; eauto|].
      specialize (F1 a (b0 :: dg) eq_refl). cbv zeta in F1.
      remember (firstn nb_size (b0 :: dg)) as c eqn:Ec. destruct c as [|c0 c]; [discriminate Ec|]. unfold enqueue at 1. cbn [p_in List.length].
      destruct (Nat.ltb_spec 0 size); [|lia]. cbn [bind fst snd app]. unfold service. cbn [p_in p_out].
      replace (on_request ap w a (c0 :: c) tt) with (bind (handle w a (c0 :: c)) (fun r => Ok (r, tt))) by reflexivity.
      destruct F1 as [(r & R & H1)|(R & H1)]; rewrite H1; cbn [bind fst snd].
      * unfold enqueue. cbn [List.length]. destruct (Nat.ltb_spec 0 size); [|lia]. cbn [bind fst snd app p_in p_out on_turn ap enqueue_all]. fold ap.
        destruct (IH (Some (a, r)) F2) as (o & C & E). exists (after x o). split.
        { eapply c_reply; eauto; [discriminate|]. change 4096%nat with nb_size. rewrite <- Ec. exact R. }
        cbn [opt_list] in E. rewrite E. apply after_res.
      * exists Crashed. split; [|reflexivity]. eapply c_crash; eauto; [discriminate|]. change 4096%nat with nb_size. rewrite <- Ec. exact R.
    + exists (Exited [x]). split; [|reflexivity]. eapply c_exit; eauto.
Qed.

Lemma course_once : forall A W (rep : W -> list N -> list N -> Prop), (forall w c r1 r2, rep w c r1 -> rep w c r2 -> r1 = r2) ->
  forall x (es : list (event A * W)) o1, course rep x es o1 -> forall o2, course rep x es o2 -> o1 = o2.
Proof.
  intros A W rep D x es o1 H. induction H; intros o2 G; inversion G; subst; auto;
    repeat match goal with
    | H : _ = None \/ _ = true |- _ => destruct H
    | H : _ = PError \/ _ |- _ => destruct H
    | H : exists _, _ |- _ => destruct H
    end; try congruence; try (f_equal; congruence); try solve [f_equal; auto].
  all: match goal with H1 : v_poll ?e = PData ?a ?b, H2 : v_poll ?e = PData ?c ?d |- _ => rewrite H1 in H2; injection H2 as <- <- end.
  all: try solve [exfalso; match goal with H : forall b, ~ ?rp ?w ?c b, K : ?rp ?w ?c _ |- _ => exact (H _ K) end].
  all: match goal with K1 : ?rp ?w ?c ?p, K2 : ?rp ?w ?c ?q |- _ => rewrite <- (D _ _ _ _ K1 K2) in *; f_equal; auto end.
Qed.

Lemma pinged_once : forall skip c r1 r2, pinged skip c r1 -> pinged skip c r2 -> r1 = r2.
Proof. intros skip c r1 r2 (h & t & q & P & _ & _ & ->) (h2 & t2 & q2 & P2 & _ & _ & ->). destruct (parts_once _ _ _ _ _ _ _ P P2) as (<- & <- & _). reflexivity. Qed.

(** * What any server may send *)

(** a loop sends from the front of the queue and hands on what came *)
Definition orderly {A} (loop : nat -> event A -> pump A -> res (option (A * list N) * option (pump A))) (cut : list N -> list N) : Prop :=
  forall size e out x r, loop size e (Pump [] out) = Ok (x, r) -> (forall y, x = Some y -> In y out) /\
    forall p, r = Some p -> p_out p = tl out /\ p_in p = match v_poll e with PData a dg => [(a, cut dg)] | _ => [] end.

Lemma posix_orderly : forall A, orderly (@posix_loop A) (firstn nb_size).
Proof.
  intros A size e out x r H. unfold posix_loop in H. cbn [p_out p_in] in H.
  assert (Q : forall o p, posix_recv size (v_poll e) (Pump [] o) = Ok (Some p) -> p_out p = o /\ p_in p = match v_poll e with PData a dg => [(a, firstn nb_size dg)] | _ => [] end).
  { intros o p. unfold posix_recv. destruct (v_poll e) as [|a dg|]; intro G; [injection G as <-; split; reflexivity| |discriminate].
    destruct (firstn nb_size dg); [discriminate|]. unfold enqueue in G. cbn [p_in List.length] in G. destruct (0 <? size)%nat; cbn [bind] in G; [|discriminate]. injection G as <-. split; reflexivity. }
  destruct out as [|y q]; cbn [tl].
  - destruct (posix_recv size (v_poll e) (Pump [] [])) as [o| |] eqn:E; cbn [bind] in H; try discriminate. injection H as <- <-. split; [discriminate|]. intros p ->. apply Q. reflexivity || exact E.
  - destruct (v_sent e); [|injection H as <- <-; split; discriminate].
    destruct (posix_recv size (v_poll e) (Pump [] q)) as [o| |] eqn:E; cbn [bind] in H; try discriminate. injection H as <- <-.
    split; [intros z Z; injection Z as <-; left; reflexivity|]. intros p ->. apply Q. exact E.
Qed.
Lemma lwip_orderly : forall A, orderly (@lwip_loop A) (fun b => b).
Proof.
  intros A size e out x r H. unfold lwip_loop in H. cbn [p_out p_in] in H.
  assert (S : forall y, match out with [] => None | x :: _ => if v_sent e then Some x else None end = Some y -> In y out).
  { intros y. destruct out; [discriminate|]. destruct (v_sent e); [|discriminate]. intro Z. injection Z as <-. left. reflexivity. }
  destruct (v_poll e) as [|a dg|]; [injection H as <- <-; split; [exact S|]; intros p Z; injection Z as <-; split; reflexivity| |injection H as <- <-; split; [exact S|]; intros p Z; injection Z as <-; split; reflexivity].
  unfold enqueue in H. cbn [List.length] in H. destruct (0 <? size)%nat; cbn [bind] in H; [|discriminate]. injection H as <- <-. split; [exact S|]. intros p Z. injection Z as <-. split; reflexivity.
Qed.

Lemma enqueue_all_in : forall X size (xs q r : list X), enqueue_all size xs q = Ok r -> r = q ++ xs.
Proof.
  intros X size. induction xs as [|x xs IH]; intros q r H; cbn [enqueue_all] in H; [injection H as <-; now rewrite app_nil_r|].
  unfold enqueue in H. destruct (_ <? _)%nat; cbn [bind] in H; [|discriminate]. apply IH in H. rewrite <- app_assoc in H. exact H.
Qed.

Lemma main_sends : forall A T loop cut (ap : server A world T) size (Inv : list (A * list N) -> T -> Prop) (Due : list (A * list N) -> A * list N -> Prop), orderly loop cut ->
  (forall c, bytes_ok c -> bytes_ok (cut c)) ->
  (forall got x y, Due got x -> Due (got ++ y) x) ->
  (forall w a c s b s1 got, hdr_ok (w_hdr w) -> idle (w_dec w) -> bytes_ok c -> on_request ap w a c s = Ok (b, s1) -> Inv got s -> Inv (got ++ [(a, c)]) s1 /\ Due (got ++ [(a, c)]) (a, b)) ->
  (forall w s outs s1 got, on_turn ap w s = Ok (outs, s1) -> Inv got s -> Inv got s1 /\ Forall (Due got) outs) ->
  forall es got out0 s out fin, Forall open_ok es -> Inv got s -> Forall (Due got) out0 -> main_loop loop ap size es (Pump [] out0) s = Ok (out, fin) ->
  (forall n x, nth_error out n = Some (Some x) -> Due (got ++ heard cut (firstn n es)) x) /\
  (forall p s1, fin = Some (p, s1) -> p_in p = [] /\ Forall (Due (got ++ heard cut es)) (p_out p) /\ Inv (got ++ heard cut es) s1).
Proof.
  intros A T loop cut ap size Inv Due Or Cut Mono Req Turn. induction es as [|[e w] es IH]; intros got out0 s out fin F I D H.
  - cbn [main_loop] in H. injection H as <- <-. split; [intros [|n] x; discriminate|]. intros p s1 Z. injection Z as <- <-. cbn [heard p_in p_out]. rewrite app_nil_r. auto.
  - inversion F as [|? ? (Fh & Fd & Fb) F2]; subst. cbn [fst snd] in *. cbn [main_loop] in H.
    destruct (loop size e (Pump [] out0)) as [[x r]| |] eqn:L; cbn [bind fst snd] in H; try discriminate. destruct (Or _ _ _ _ _ L) as (Hx & Hp).
    assert (X0 : forall y, x = Some y -> Due (got ++ []) y) by (intros y ->; rewrite app_nil_r; rewrite Forall_forall in D; exact (D y (Hx y eq_refl))).
    destruct r as [p|]; [|injection H as <- <-; split; [|discriminate]; intros [|[|n]] y Y; cbn in Y; [|discriminate|discriminate]; cbn [firstn heard]; apply X0; congruence].
    destruct (Hp p eq_refl) as (Po & Pi). clear L Hp.
    destruct (service ap size w p s) as [[p1 s1]| |] eqn:S; cbn [bind fst snd] in H; try discriminate.
    destruct (on_turn ap w s1) as [[os s2]| |] eqn:Et; cbn [bind fst snd] in H; try discriminate.
    destruct (enqueue_all size os (p_out p1)) as [q| |] eqn:Q; cbn [bind fst snd] in H; try discriminate. apply enqueue_all_in in Q.
    destruct (main_loop loop ap size es (Pump (p_in p1) q) s2) as [[out1 fin1]| |] eqn:M; cbn [bind fst snd] in H; try discriminate. injection H as <- <-.
    set (new := match v_poll e with PData a dg => [(a, cut dg)] | _ => [] end) in *.
    assert (Dt : Forall (Due got) (tl out0)) by (destruct out0; [constructor|inversion D; assumption]).
    assert (G : p_in p1 = [] /\ Inv (got ++ new) s1 /\ Forall (Due (got ++ new)) (p_out p1)).
    { unfold service in S. rewrite Pi in S. unfold new in *. destruct (v_poll e) as [|a dg|].
      - injection S as <- <-. rewrite Pi, Po, app_nil_r. auto.
      - destruct (on_request ap w a (cut dg) s) as [[b sb]| |] eqn:R; cbn [bind fst snd] in S; try discriminate.
        destruct (Req _ _ _ _ _ _ _ Fh Fd (Cut _ Fb) R I) as (I1 & D1). unfold enqueue in S. destruct (_ <? _)%nat; cbn [bind] in S; [|discriminate]. injection S as <- <-. cbn [p_in p_out].
        split; [reflexivity|]. split; [exact I1|]. rewrite Po. apply Forall_app. split; [|constructor; [exact D1|constructor]]. eapply Forall_impl; [|exact Dt]. intros y Y. apply Mono, Y.
      - injection S as <- <-. rewrite Pi, Po, app_nil_r. auto. }
    destruct G as (G1 & G2 & G3). destruct (Turn _ _ _ _ _ Et G2) as (I2 & D2). rewrite G1 in M.
    assert (D3 : Forall (Due (got ++ new)) q) by (rewrite Q; apply Forall_app; auto).
    destruct (IH (got ++ new) q s2 out1 fin1 F2 I2 D3 M) as (N1 & N2).
    assert (Hd : forall l : list (event A * world), heard cut ((e, w) :: l) = new ++ heard cut l) by (intro l; cbn [heard]; unfold new; destruct (v_poll e); reflexivity).
    split.
    + intros [|n] y Y; cbn [nth_error] in Y; [cbn [firstn heard]; apply X0; congruence|]. cbn [firstn]. rewrite Hd, app_assoc. apply N1, Y.
    + intros p2 s3 Z. rewrite Hd, app_assoc. apply N2, Z.
Qed.

(** * The uri and observe servers, whenever they reply *)
Lemma small_head : forall tok : list N, (length tok <= 8)%nat -> (4 + length tok <= nb_size)%nat.
Proof. intros tok H. apply Nat.le_trans with 12%nat; [lia|apply Nat.leb_le; vm_compute; reflexivity]. Qed.

Lemma code_last : forall vs x, x < 256 -> last (map observe_code vs) x < 256.
Proof. induction vs as [|v vs IH]; intros y Y; [exact Y|]. cbn [map]. rewrite last_cons. apply IH. unfold observe_code. destruct v as [|[|[p|p|]] v]; reflexivity. Qed.

Lemma reply_inv : forall jh k code h tok uri b, hdr_ok jh -> hdr_ok h -> code < 256 -> c_hdr k = h -> ctx_token k = Ok tok -> hdr_tkl h = N.of_nat (length tok) -> (length tok <= 8)%nat ->
  rs_reply false nb_size jh k code uri = Ok b -> answerable h /\ b = sent 4096 code h tok uri.
Proof.
  intros jh k code h tok uri b Hj Hh Hc Ek Et Ht H8 H.
  assert (Dec : answerable h \/ ~ answerable h) by (unfold answerable; destruct (N.eq_dec (hdr_type h) CON), (N.eq_dec (hdr_type h) NON); tauto).
  destruct Dec as [R|R].
  - rewrite (reply_sent nb_size jh k code h tok uri Hj Hh Hc Ek Et Ht (small_head tok H8) R) in H. injection H as <-. split; [exact R|reflexivity].
  - unfold rs_reply in H. rewrite (head_fault false nb_size jh k code h tok Hj Hh Ek Et R) in H. discriminate.
Qed.

Lemma uri_inv : forall fuel jh junk c d b, hdr_ok jh -> idle d -> bytes_ok c -> uri_server false nb_size fuel jh junk c d = Ok b ->
  exists h tok rest code path, parts c h tok rest /\ answerable h /\ b = sent 4096 code h tok path.
Proof.
  intros fuel jh junk c d b Hj Hd B H. destruct (parts_or c B) as [(h & tok & rest & P & Hh & Bt & Br)|L].
  2: { unfold uri_server in H. rewrite begin_short in H by assumption. discriminate. }
  pose proof P as P'. destruct P' as (-> & Ht & H8). destruct (begin_any junk d h tok rest Hd B Ht H8) as (k & x & K1 & K2 & K3 & _). rewrite <- tkl_mod in Ht.
  unfold uri_server in H. rewrite K1 in H. cbn [bind fst snd] in H. destruct (rs_options _ _ _ _) as [l| |]; cbn [bind] in H; try discriminate.
  destruct (rs_uri l []) as [u| |]; cbn [bind] in H; try discriminate. apply (reply_inv jh k _ h tok) in H; auto; [|destruct (str_eqb _ _); reflexivity].
  destruct H as (R & ->). exists h, tok, rest. eexists. eexists. eauto.
Qed.

Lemma obs_inv : forall A fuel jh junk c d (a : A) regs b regs1, hdr_ok jh -> idle d -> bytes_ok c -> (length regs <= 10)%nat ->
  obs_server false nb_size fuel 10 jh junk c d a regs = Ok (b, regs1) ->
  exists h tok rest code path n, parts c h tok rest /\ answerable h /\ b = sent 4096 code h tok path /\ regs1 = regs ++ repeat (Session 0 a tok) n /\ (length regs1 <= 10)%nat.
Proof.
  intros A fuel jh junk c d a regs b regs1 Hj Hd B Z H. destruct (parts_or c B) as [(h & tok & rest & P & Hh & Bt & Br)|L].
  2: { unfold obs_server in H. rewrite begin_short in H by assumption. discriminate. }
  pose proof P as P'. destruct P' as (-> & Ht & H8). destruct (begin_any junk d h tok rest Hd B Ht H8) as (k & x & K1 & K2 & K3 & _). rewrite <- tkl_mod in Ht.
  unfold obs_server in H. rewrite K1 in H. cbn [bind fst snd] in H. destruct (rs_options _ _ _ _) as [l| |]; cbn [bind] in H; try discriminate.
  destruct (observe_any A 10 k a tok K3 l [] code_not_found regs ltac:(cbn; lia) Z) as [E|(n & E & _ & Hn & _)]; rewrite E in H; cbn [bind] in H; [discriminate|].
  destruct (rs_reply _ _ _ _ _ _) as [out| |] eqn:R; cbn [bind] in H; try discriminate. injection H as <- <-.
  apply (reply_inv jh k _ h tok) in R; auto; [|apply code_last; reflexivity]. destruct R as (R & ->). exists h, tok, rest. do 3 eexists. split; [exact P|]. split; [exact R|]. split; [reflexivity|].
  split; [reflexivity|]. rewrite app_length, repeat_length. exact Hn.
Qed.

Lemma each_notice : forall A emit (got : list (A * list N)) regs mid mid1 regs1 outs, Forall (fun s => has_used got (os_addr s) (os_tok s) /\ (length (os_tok s) <= 8)%nat /\ os_seq s < 2 ^ 31) regs ->
  for_each false nb_size emit mid regs = Ok (mid1, regs1, outs) ->
  Forall (fun s => has_used got (os_addr s) (os_tok s) /\ (length (os_tok s) <= 8)%nat /\ os_seq s < 2 ^ 31) regs1 /\ length regs1 = length regs /\ Forall (is_notice got) outs.
Proof.
  intros A emit got. induction regs as [|s regs IH]; intros mid mid1 regs1 outs G H; cbn [for_each] in H; [injection H as _ <- <-; repeat split; constructor|].
  inversion G as [|? ? (G1 & G2 & G3) G4]; subst. destruct (notify_one _ _ _ _ _) as [[[m1 s1] o1]| |] eqn:E; cbn [bind] in H; try discriminate.
  assert (R17 : (17 <= nb_size)%nat) by (apply Nat.leb_le; vm_compute; reflexivity).
  destruct (ObserveProofs.notify_prefix A false nb_size emit mid s m1 s1 o1 R17 G2 G3 E) as (_ & -> & Q1 & Q2 & Q3).
  destruct (for_each false nb_size emit m1 regs) as [[[m2 r2] os]| |] eqn:E2; cbn [bind] in H; try discriminate. injection H as _ <- <-.
  destruct (IH _ _ _ _ G4 E2) as (I1 & I2 & I3). split; [constructor; [|exact I1]; cbn [os_addr os_tok os_seq]; auto|]. split; [cbn [length]; now rewrite I2|].
  constructor; [|exact I3]. exists (os_tok s), mid, (os_seq s + 1). rewrite Q2. auto.
Qed.

Lemma used_more : forall A (got more : list (A * list N)) a tok, has_used got a tok -> has_used (got ++ more) a tok.
Proof. intros A got more a tok (c & h & rest & I & P). exists c, h, rest. split; [apply in_or_app; now left|exact P]. Qed.

Lemma due_more : forall A (got : list (A * list N)) x more, is_reply got x \/ is_notice got x -> is_reply (got ++ more) x \/ is_notice (got ++ more) x.
Proof.
  intros A got x more [(c & h & tok & rest & code & path & I & P)|(tok & k & seq & U & Q)].
  - left. exists c, h, tok, rest, code, path. split; [apply in_or_app; now left|exact P].
  - right. exists tok, k, seq. split; [now apply used_more|exact Q].
Qed.

(** the table of the observe server *)
Definition table_ok {A} (got : list (A * list N)) (s : obs_state A) : Prop :=
  (length (o_regs s) <= 10)%nat /\ Forall (fun s => has_used got (os_addr s) (os_tok s) /\ (length (os_tok s) <= 8)%nat /\ os_seq s < 2 ^ 31) (o_regs s).

Lemma obs_request : forall A fuel w (a : A) c s b s1 got, hdr_ok (w_hdr w) -> idle (w_dec w) -> bytes_ok c -> on_request (obs_app false fuel) w a c s = Ok (b, s1) ->
  table_ok got s -> table_ok (got ++ [(a, c)]) s1 /\ (is_reply (got ++ [(a, c)]) (a, b) \/ is_notice (got ++ [(a, c)]) (a, b)).
Proof.
  intros A fuel w a c s b s1 got Hj Hd B H (T1 & T2). cbn [on_request obs_app] in H.
  destruct (obs_server false nb_size fuel 10 (w_hdr w) (w_tok w) c (w_dec w) a (o_regs s)) as [[b1 r1]| |] eqn:E; cbn [bind fst snd] in H; try discriminate. injection H as <- <-.
  destruct (obs_inv A fuel _ _ _ _ a _ _ _ Hj Hd B T1 E) as (h & tok & rest & code & path & n & P & R & Eb & Er & L).
  assert (I : In (a, c) (got ++ [(a, c)])) by (apply in_or_app; right; left; reflexivity).
  split; [|left; exists c, h, tok, rest, code, path; auto]. unfold table_ok. cbn [o_regs]. split; [exact L|]. rewrite Er. apply Forall_app. split.
  - eapply Forall_impl; [|exact T2]. cbn beta. intros x (X1 & X2). split; [now apply used_more|exact X2].
  - apply Forall_forall. intros x X. apply repeat_spec in X. subst x. cbn [os_addr os_tok os_seq]. destruct P as (P1 & P2 & P3). split; [|split; [exact P3|reflexivity]].
    exists c, h, rest. split; [exact I|]. split; [split; auto|exact R].
Qed.

Lemma obs_turn : forall A fuel w (s : obs_state A) outs s1 got, on_turn (obs_app false fuel) w s = Ok (outs, s1) -> table_ok got s ->
  table_ok got s1 /\ Forall (fun x => is_reply got x \/ is_notice got x) outs.
Proof.
  intros A fuel w s outs s1 got H (T1 & T2). cbn [on_turn obs_app] in H. destruct (1000 <? w_now w - o_last s).
  - destruct (for_each _ _ _ _ _) as [[[m r] os]| |] eqn:E; cbn [bind] in H; try discriminate. injection H as <- <-.
    destruct (each_notice A _ got _ _ _ _ _ T2 E) as (I1 & I2 & I3). split; [split; cbn [o_regs]; [rewrite I2; exact T1|exact I1]|]. eapply Forall_impl; [|exact I3]. cbn beta. auto.
  - injection H as <- <-. split; [split; assumption|constructor].
Qed.

(** on posix nothing is lost: the replies come one for each datagram, in order *)
Lemma uri_in_order : forall A fuel size (es : list (event A * world)) out0 out p, Forall open_ok es ->
  main_loop posix_loop (uri_app false fuel) size es (Pump [] out0) tt = Ok (out, Some (p, tt)) ->
  exists news, gone out ++ p_out p = out0 ++ news /\ Forall2 (fun x g => is_reply [g] x) news (heard (firstn nb_size) es).
Proof.
  intros A fuel size. induction es as [|[e w] es IH]; intros out0 out p F H.
  - cbn [main_loop] in H. injection H as <- <-. exists []. cbn [gone p_out app]. rewrite app_nil_r. split; [reflexivity|constructor].
  - inversion F as [|? ? (Fh & Fd & Fb) F2]; subst. cbn [fst snd] in *. cbn [main_loop] in H.
    destruct (posix_loop size e (Pump [] out0)) as [[x [p1|]]| |] eqn:L; cbn [bind fst snd] in H; try discriminate.
    destruct (posix_orderly A _ _ _ _ _ L) as (_ & Hp). destruct (Hp p1 eq_refl) as (Po & Pi). clear Hp.
    assert (X : x = hd_error out0).
    { unfold posix_loop in L. cbn [p_out] in L. destruct out0 as [|y q]; cbn [hd_error].
      - destruct (posix_recv _ _ _); cbn [bind] in L; try discriminate. congruence.
      - destruct (v_sent e); [|discriminate]. destruct (posix_recv _ _ _); cbn [bind] in L; try discriminate. congruence. }
    destruct (service (uri_app false fuel) size w p1 tt) as [[p2 []]| |] eqn:S; cbn [bind fst snd on_turn uri_app enqueue_all] in H; try discriminate. fold (@uri_app A false fuel) in H.
    destruct (main_loop posix_loop (uri_app false fuel) size es (Pump (p_in p2) (p_out p2)) tt) as [[out1 fin1]| |] eqn:M; cbn [bind fst snd] in H; try discriminate. injection H as <- ->.
    assert (G : p_in p2 = [] /\ exists n1, p_out p2 = tl out0 ++ n1 /\ Forall2 (fun x g => is_reply [g] x) n1 (match v_poll e with PData a dg => [(a, firstn nb_size dg)] | _ => [] end)).
    { unfold service in S. rewrite Pi in S. destruct (v_poll e) as [|a dg|].
      - injection S as <-. rewrite Pi, Po. split; [reflexivity|]. exists []. rewrite app_nil_r. split; [reflexivity|constructor].
      - cbn [on_request uri_app] in S. destruct (uri_server _ _ _ _ _ _ _) as [r| |] eqn:E; cbn [bind fst snd] in S; try discriminate.
        unfold enqueue in S. destruct (_ <? _)%nat; cbn [bind] in S; [|discriminate]. injection S as <-. cbn [p_in p_out]. split; [reflexivity|]. exists [(a, r)]. rewrite Po. split; [reflexivity|].
        constructor; [|constructor].
        assert (B : bytes_ok (firstn nb_size dg)) by (unfold bytes_ok in *; rewrite Forall_forall in *; intros z Z; apply Fb; rewrite <- (firstn_skipn nb_size dg); apply in_or_app; now left).
        destruct (uri_inv _ _ _ _ _ _ Fh Fd B E) as (h & tok & rest & code & path & P & Q & ->). eexists; exists h, tok, rest, code, path. cbn [fst snd]. split; [left; reflexivity|auto].
      - injection S as <-. rewrite Pi, Po. split; [reflexivity|]. exists []. rewrite app_nil_r. split; [reflexivity|constructor]. }
    destruct G as (G1 & n1 & G2 & G3). rewrite G1, G2 in M. destruct (IH _ _ _ F2 M) as (n2 & E2 & G4). exists (n1 ++ n2). split.
    + rewrite app_assoc. assert (T : out0 = match x with Some y => [y] | None => [] end ++ tl out0) by (subst x; destruct out0; reflexivity). rewrite T at 1. rewrite <- !app_assoc.
      rewrite <- app_assoc in E2. rewrite <- E2. destruct x; reflexivity.
    + cbn [heard]. destruct (v_poll e); cbn [app] in *; inversion G3; subst; auto.
      match goal with H : Forall2 _ _ [] |- _ => inversion H; subst end. cbn [app]. constructor; assumption.
Qed.
