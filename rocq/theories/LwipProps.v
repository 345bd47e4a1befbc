(** C90: the ping and the uri daemon on lwIP under any traffic. *)
From Coq Require Import String ZArith.
From Verif Require Import Base HeaderModel HeaderSpec HeaderProofs OptEncModel OptSpec StreambufModel StreambufProofs ContextModel AppModel NetbufModel NetbufProofs
  DiagModel ObserveModel RespModel RespSpec RespProofs RespProps OptDecModel OptDecSpec OptDecProofs DecoderModel DecoderSpec DecoderProofs NetDecModel NetDecSpec NetDecProofs NetDecProps
  HeadCutSpec NetAnySpec NetAnyProofs NetAnyProps PumpModel PumpSpec PumpProofs PumpAnySpec PumpAnyProofs PumpAnyProps VisitSpec VisitProofs VisitProps DiscoverModel DiscoverSpec DiscoverProps
  LwipModel LwipSpec.
Local Open Scope N_scope.

Lemma ping_cap : forall skip debug cap fuel jh junk c d, hdr_ok jh -> idle d -> bytes_ok c -> (12 <= cap)%nat -> (dec_fuel c <= fuel)%nat ->
  (exists r, pinged skip c r /\ ping skip debug cap fuel jh junk c d = Ok r) \/
  ((forall r, ~ pinged skip c r) /\ ping skip debug cap fuel jh junk c d = Fault).
Proof.
  intros skip debug cap fuel jh junk c d Hj Hd B Hc0 Hf. destruct (parts_or c B) as [(h & tok & rest & P & Hh & Bt & Br)|L].
  2: { right. split; [intros r (h & tok & rest & P & _); exact (short_no_parts c h tok rest L P)|]. unfold ping. rewrite begin_short by assumption. reflexivity. }
  pose proof P as P'. destruct P' as (-> & Ht & H8). assert (Hc : (4 + length tok <= cap)%nat) by lia.
  destruct (answerable_dec h) as [R|R].
  - destruct skip.
    + destruct (C84_ping debug cap fuel jh junk h tok rest d Hj Hh Hd Bt Br Ht H8 Hc R Hf) as [(U & E)|(U & E)].
      * right. split; [|exact E]. intros r (h2 & tok2 & rest2 & P2 & _ & U2 & _). destruct (parts_once _ _ _ _ _ _ _ P P2) as (<- & <- & <-). exact (U2 eq_refl U).
      * left. eexists. split; [|exact E]. exists h, tok, rest. auto.
    + left. eexists. split; [|exact (C56_ping debug cap fuel jh junk h tok rest d Hj Hh Hd Bt Ht H8 Hc R)]. exists h, tok, rest. split; [exact P|]. split; [exact R|]. split; [discriminate|reflexivity].
  - right. split; [intros r (h2 & tok2 & rest2 & P2 & R2 & _); destruct (parts_once _ _ _ _ _ _ _ P P2) as (<- & _); contradiction|].
    destruct (begin_any junk d h tok rest Hd B Ht H8) as (k & x & K1 & K2 & K3 & S & P1 & M). unfold ping. rewrite K1. cbn [bind fst snd].
    rewrite (head_fault debug cap jh k code_content h tok Hj Hh K2 K3 R). destruct skip; [|reflexivity].
    destruct (options_skip fuel h tok rest x B S M P1 Hf) as [->|(y & ->)]; reflexivity.
Qed.

Lemma daemon_any : forall A W (rep : W -> list N -> list N -> Prop) (handle : W -> A -> list N -> res (list N)) size, (1 <= size)%nat -> forall es x,
  Forall (fun e : event A * W => forall a dg, v_poll (fst e) = PData a dg ->
    (exists r, rep (snd e) dg r /\ handle (snd e) a dg = Ok r) \/ ((forall r, ~ rep (snd e) dg r) /\ handle (snd e) a dg = Fault)) es ->
  exists o, daemon rep x es o /\
    main_loop lwip_loop (Server (fun w a b _ => bind (handle w a b) (fun r => Ok (r, tt))) (fun _ _ => Ok ([], tt))) size es (Pump [] (opt_list x)) tt = outcome_res o.
Proof.
  intros A W rep handle size Hs. set (ap := Server (fun w a b (_ : unit) => bind (handle w a b) (fun r => Ok (r, tt))) (fun _ _ => Ok ([], tt))).
  induction es as [|[e w] es IH]; intros x F.
  - exists (Running [] x). split; [constructor|reflexivity].
  - inversion F as [|? ? F1 F2]; subst. cbn [fst snd] in F1. cbn [main_loop]. set (s := if v_sent e then x else None).
    assert (L : lwip_loop size e (Pump [] (opt_list x)) = match v_poll e with PData a dg => Ok (s, Some (Pump [(a, dg)] [])) | _ => Ok (s, Some (Pump [] [])) end).
    { unfold lwip_loop. cbn [p_out p_in]. replace (tl (opt_list x)) with (@nil (A * list N)) by (destruct x; reflexivity).
      replace (match opt_list x with [] => None | y :: _ => if v_sent e then Some y else None end) with s by (unfold s; destruct x, (v_sent e); reflexivity).
      destruct (v_poll e); try reflexivity. unfold enqueue. cbn [p_in List.length]. destruct (Nat.ltb_spec 0 size); [reflexivity|lia]. }
    rewrite L. clear L. destruct (v_poll e) as [|a dg|] eqn:P.
    + destruct (IH None F2) as (o & C & E). exists (after s o). split; [apply d_quiet; auto|].
      cbn [bind fst snd]. unfold service. cbn [p_in bind fst snd p_out on_turn ap enqueue_all]. fold ap. cbn [opt_list] in E. rewrite E. apply after_res.
    + specialize (F1 a dg eq_refl). cbn [bind fst snd]. unfold service. cbn [p_in p_out].
      replace (on_request ap w a dg tt) with (bind (handle w a dg) (fun r => Ok (r, tt))) by reflexivity.
      destruct F1 as [(r & R & H1)|(R & H1)]; rewrite H1; cbn [bind fst snd].
      * unfold enqueue. cbn [List.length]. destruct (Nat.ltb_spec 0 size); [|lia]. cbn [bind fst snd app p_in p_out on_turn ap enqueue_all]. fold ap.
        destruct (IH (Some (a, r)) F2) as (o & C & E). exists (after s o). split; [eapply d_reply; eauto|]. cbn [opt_list] in E. rewrite E. apply after_res.
      * exists Crashed. split; [|reflexivity]. eapply d_crash; eauto.
    + destruct (IH None F2) as (o & C & E). exists (after s o). split; [apply d_quiet; auto|].
      cbn [bind fst snd]. unfold service. cbn [p_in bind fst snd p_out on_turn ap enqueue_all]. fold ap. cbn [opt_list] in E. rewrite E. apply after_res.
Qed.

Lemma daemon_once : forall A W (rep : W -> list N -> list N -> Prop), (forall w c r1 r2, rep w c r1 -> rep w c r2 -> r1 = r2) ->
  forall x (es : list (event A * W)) o1, daemon rep x es o1 -> forall o2, daemon rep x es o2 -> o1 = o2.
Proof.
  intros A W rep D x es o1 H. induction H; intros o2 G; inversion G; subst; auto;
    repeat match goal with H : _ = PNone \/ _ |- _ => destruct H end; try congruence; try (f_equal; auto; fail).
  all: match goal with H1 : v_poll ?e = PData ?a ?b, H2 : v_poll ?e = PData ?c ?d |- _ => rewrite H1 in H2; injection H2 as <- <- end.
  all: try solve [exfalso; match goal with H : forall b, ~ ?rp ?w ?c b, K : ?rp ?w ?c _ |- _ => exact (H _ K) end].
  all: match goal with K1 : ?rp ?w ?c ?p, K2 : ?rp ?w ?c ?q |- _ => rewrite <- (D _ _ _ _ K1 K2) in *; f_equal; auto end.
Qed.

Lemma udp_fuel : forall fuel (c : list N), 262205 <= N.of_nat fuel -> N.of_nat (length c) <= 65535 -> (dec_fuel c <= fuel)%nat.
Proof. intros fuel c F L. unfold dec_fuel. lia. Qed.

(** C90, ping: whatever arrives, the daemon takes exactly one course: each datagram that can be answered
    is answered in the turn after (unless the send fails, then the reply is lost), errors change
    nothing, and the first datagram that cannot be answered stops it. *)
Theorem C90_ping : forall A skip debug cap fuel size (es : list (event A * world)), (1 <= size)%nat -> (12 <= cap)%nat -> 262205 <= N.of_nat fuel -> Forall udp_ok es ->
  exists o, daemon (fun _ => pinged skip) None es o /\ (forall o2, daemon (fun _ => pinged skip) None es o2 -> o2 = o) /\
    main_loop lwip_loop (lwip_ping skip debug cap fuel) size es (Pump [] []) tt = run_of o.
Proof.
  intros A skip debug cap fuel size es Hs Hc Hf F.
  destruct (daemon_any A world (fun _ => pinged skip) (fun w _ b => ping skip debug cap fuel (w_hdr w) (w_tok w) b (w_dec w)) size Hs es None) as (o & C & E).
  { eapply Forall_impl; [|exact F]. cbn beta. intros [e w] ((O1 & O2 & O3) & O4) a dg P. cbn [fst snd] in *. rewrite P in O3, O4.
    apply ping_cap; auto. now apply udp_fuel. }
  exists o. split; [exact C|]. split; [intros o2 C2; exact (daemon_once A world _ (fun _ => pinged_once skip) _ _ _ C2 _ C)|].
  cbn [opt_list] in E. unfold lwip_ping. rewrite E. destruct o as [|l|l [x|]]; reflexivity.
Qed.
Print Assumptions C90_ping.

(** C90, uri: the same, with the replies of [uri_told] (C88), cut to the room of a netbuf. *)
Theorem C90_uri : forall A cap fuel size (es : list (event A * world)), (1 <= size)%nat -> (12 <= cap)%nat -> 262205 <= N.of_nat fuel -> Forall udp_ok es ->
  exists o, daemon (fun _ => uri_told cap) None es o /\ (forall o2, daemon (fun _ => uri_told cap) None es o2 -> o2 = o) /\
    main_loop lwip_loop (lwip_uri cap fuel) size es (Pump [] []) tt = run_of o.
Proof.
  intros A cap fuel size es Hs Hc Hf F.
  destruct (daemon_any A world (fun _ => uri_told cap) (fun w _ b => uri_server false cap fuel (w_hdr w) (w_tok w) b (w_dec w)) size Hs es None) as (o & C & E).
  { eapply Forall_impl; [|exact F]. cbn beta. intros [e w] ((O1 & O2 & O3) & O4) a dg P. cbn [fst snd] in *. rewrite P in O3, O4.
    destruct (C88_uri cap fuel (w_hdr w) (w_tok w) dg (w_dec w) O1 O2 O3 Hc (udp_fuel fuel dg Hf O4)) as [(r & T & _ & R)|T]; [left; eauto|right; exact T]. }
  exists o. split; [exact C|]. split; [intros o2 C2; exact (daemon_once A world _ (fun _ => uri_told_once cap) _ _ _ C2 _ C)|].
  cbn [opt_list] in E. unfold lwip_uri. rewrite E. destruct o as [|l|l [x|]]; reflexivity.
Qed.
Print Assumptions C90_uri.

(** That a daemon goes on whatever arrives is false: an empty datagram, which ends the posix programs
    in order, stops it, after any traffic. *)
Theorem C90_goes_on_refuted : forall A skip debug cap fuel size (pre post : list (event A * world)) a sent w, (1 <= size)%nat -> (12 <= cap)%nat -> 262205 <= N.of_nat fuel ->
  Forall udp_ok (pre ++ (Event sent (PData a []), w) :: post) ->
  main_loop lwip_loop (lwip_ping skip debug cap fuel) size (pre ++ (Event sent (PData a []), w) :: post) (Pump [] []) tt = Fault /\
  main_loop lwip_loop (lwip_uri cap fuel) size (pre ++ (Event sent (PData a []), w) :: post) (Pump [] []) tt = Fault.
Proof.
  intros A skip debug cap fuel size pre post a sent w Hs Hc Hf F.
  assert (G : forall W (rep : W -> list N -> list N -> Prop) (pre post : list (event A * W)) u, (forall m r, ~ rep m [] r) ->
    forall x o, daemon rep x (pre ++ (Event sent (PData a []), u) :: post) o -> o = Crashed).
  { intros W rep pre0 post0 u N. induction pre0 as [|[e m] pre0 IH]; intros x o D; cbn [app] in D.
    - inversion D as [|? ? ? ? ? Q|? ? ? ? ? ? ? ? Q R|]; subst; [destruct Q; discriminate| |reflexivity]. cbn [v_poll] in Q. injection Q as <- <-. destruct (N _ _ R).
    - inversion D as [|? ? ? ? ? Q R|? ? ? ? ? ? ? ? Q R T|]; subst; [rewrite (IH _ _ R)|rewrite (IH _ _ T)|]; reflexivity. }
  assert (Np : forall h tok rest, ~ parts [] h tok rest) by (intros h tok rest (P & _); discriminate P).
  destruct (C90_ping A skip debug cap fuel size _ Hs Hc Hf F) as (o1 & D1 & _ & ->). destruct (C90_uri A cap fuel size _ Hs Hc Hf F) as (o2 & D2 & _ & ->).
  apply G in D1; [|intros m r (h & tok & rest & P & _); exact (Np _ _ _ P)]. apply G in D2; [|intros m r (h & tok & rest & l & code & P & _); exact (Np _ _ _ P)].
  rewrite D1, D2. split; reflexivity.
Qed.
Print Assumptions C90_goes_on_refuted.

(** Cases.  A failed send loses the reply to client 1, an error of recv is passed over, client 2 is
    answered; the uri daemon with nine bytes of room cuts its reply; an empty datagram stops both. *)
Definition c90_turns (last : list (poll N)) : list (event N * world) :=
  [c85_turn (PData 1 [65; 1; 18; 52; 7; 0; 0; 178; 97; 98]); (Event false PError, c85_world 0); c85_turn (PData 2 [80; 1; 0; 9; 189]); c85_turn PNone] ++ map c85_turn last.
Definition c90_fuel : nat := N.to_nat 262205.
Example C90_case : Forall udp_ok (c90_turns [PData 3 []]) /\
  main_loop lwip_loop (lwip_ping true true 12 c90_fuel) 1 (c90_turns []) (Pump [] []) tt = Ok ([None; None; None; Some (2, [80; 69; 0; 9])], Some (Pump [] [], tt)) /\
  main_loop lwip_loop (lwip_uri 12 c90_fuel) 1 (c90_turns []) (Pump [] []) tt = Ok ([None; None; None; Some (2, [80; 132; 0; 9; 255; 47; 47; 47; 47; 47; 47])], Some (Pump [] [], tt)) /\
  main_loop lwip_loop (lwip_uri 9 c90_fuel) 1 (c90_turns []) (Pump [] []) tt = Ok ([None; None; None; Some (2, [80; 132; 0; 9; 255; 47; 47; 47; 47])], Some (Pump [] [], tt)) /\
  main_loop lwip_loop (lwip_ping true true 12 c90_fuel) 1 (c90_turns [PData 3 []]) (Pump [] []) tt = Fault /\
  main_loop lwip_loop (lwip_uri 12 c90_fuel) 1 (c90_turns [PData 3 []]) (Pump [] []) tt = Fault.
Proof.
  assert (O : forall s e, forallb (fun b => b <? 256) (match e with PData _ dg => dg | _ => [] end) = true ->
    N.of_nat (length (match e with PData _ dg => dg | _ => [] end)) <= 65535 -> @udp_ok N (Event s e, c85_world 0)).
  { intros s e B L. split; [|cbn [fst v_poll]; destruct e; auto]. split; [apply hdr_ok_iff; repeat split; vm_compute; reflexivity|]. split.
    - split; [left; reflexivity|]. unfold dec_mem, od_bytes, byte_ok. cbn. repeat split; try lia; repeat constructor; unfold byte_ok; lia.
    - cbn [fst v_poll]. destruct e as [|a dg|]; auto. apply Forall_forall. intros x X. rewrite forallb_forall in B. apply N.ltb_lt, B, X. }
  split; [|split; [vm_compute; reflexivity|]; split; [vm_compute; reflexivity|]; split; [vm_compute; reflexivity|]; split; vm_compute; reflexivity].
  unfold c90_turns. cbn [app map]. unfold c85_turn. repeat (apply Forall_cons; [apply O; [reflexivity|cbn; lia]|]). constructor.
Qed.
