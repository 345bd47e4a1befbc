(** C85: the loops of the example servers, whatever arrives. *)
From Verif Require Import Base HeaderModel HeaderSpec HeaderProofs OptSpec StreambufModel ContextModel NetbufModel ObserveModel RespModel RespSpec OptDecModel DecoderModel DecoderSpec
  NetAnySpec NetAnyProps PumpModel PumpSpec PumpProofs PumpAnySpec PumpAnyProofs.
From Verif Require ObserveSpec.
Local Open Scope N_scope.

(** C85: the ping server takes exactly one course through any traffic, that of [course]: it
    answers every datagram it can answer in the turn after, exits at an error and at an empty
    datagram, and is gone at the first datagram it cannot answer. *)
Theorem C85_ping : forall A skip debug fuel size (es : list (event A * world)), (1 <= size)%nat -> 77888 <= N.of_nat fuel -> Forall open_ok es ->
  exists o, course (fun _ => pinged skip) None es o /\ (forall o2, course (fun _ => pinged skip) None es o2 -> o2 = o) /\
    main_loop posix_loop (ping_app skip debug fuel) size es (Pump [] []) tt =
      match o with
      | Crashed => Fault
      | Exited out => Ok (out, None)
      | Running out None => Ok (out, Some (Pump [] [], tt))
      | Running out (Some x) => Ok (out, Some (Pump [] [x], tt))
      end.
Proof.
  intros A skip debug fuel size es Hs Hf F.
  destruct (course_any A world (fun _ => pinged skip) (fun w _ b => ping skip debug nb_size fuel (w_hdr w) (w_tok w) b (w_dec w)) size Hs es None) as (o & C & E).
  { eapply Forall_impl; [|exact F]. cbn beta. intros [e w] (O1 & O2 & O3) a dg P c. cbn [fst snd] in *. rewrite P in O3.
    apply ping_any; auto; [unfold c; apply Forall_forall; intros x X; unfold bytes_ok in O3; rewrite Forall_forall in O3; apply O3; rewrite <- (firstn_skipn nb_size dg); apply in_or_app; left; exact X|].
    unfold dec_fuel. assert (length c <= 4096)%nat by (unfold c; rewrite firstn_length; apply Nat.le_min_l). lia. }
  exists o. split; [exact C|]. split; [intros o2 C2; exact (course_once A world (fun _ => pinged skip) (fun _ => pinged_once skip) _ _ _ C2 _ C)|].
  cbn [opt_list] in E. unfold ping_app. rewrite E. destruct o as [|l|l [x|]]; reflexivity.
Qed.
Print Assumptions C85_ping.

(** That it goes on whatever arrives is false: one datagram it cannot answer, whoever sends it,
    ends the service for all. *)
Theorem C85_goes_on_refuted : forall A skip debug fuel size (pre post : list (event A * world)) a dg w out waiting, (1 <= size)%nat -> 77888 <= N.of_nat fuel -> Forall open_ok pre ->
  hdr_ok (w_hdr w) -> idle (w_dec w) -> bytes_ok dg -> dg <> [] -> (length dg <= 4096)%nat ->
  main_loop posix_loop (ping_app skip debug fuel) size pre (Pump [] []) tt = Ok (out, Some (waiting, tt)) ->
  (forall r, ~ pinged skip dg r) ->
  main_loop posix_loop (ping_app skip debug fuel) size (pre ++ (Event true (PData a dg), w) :: post) (Pump [] []) tt = Fault.
Proof.
  intros A skip debug fuel size pre post a dg w out waiting Hs Hf F W1 W2 B Ne L H NP.
  destruct (C85_ping A skip debug fuel size pre Hs Hf F) as (o & _ & _ & E). rewrite main_app, H. cbn [bind fst snd]. rewrite H in E.
  assert (Q : exists q, waiting = Pump [] q).
  { destruct o as [|l|l [x|]]; [discriminate E|discriminate E| |]; injection E as _ E; rewrite E; eexists; reflexivity. }
  destruct Q as (q & ->). cbn [main_loop]. rewrite (posix_steady A size Hs); [|split; [reflexivity|exact Ne]]. cbn [bind fst snd v_poll]. unfold service. cbn [p_in].
  assert (G : ping skip debug nb_size fuel (w_hdr w) (w_tok w) dg (w_dec w) = Fault).
  { destruct (ping_any skip debug fuel (w_hdr w) (w_tok w) dg (w_dec w) W1 W2 B) as [(r & R & _)|(_ & G)]; [unfold dec_fuel; lia|destruct (NP r R)|exact G]. }
  rewrite (firstn_all2 dg) by exact L. cbn [on_request ping_app]. rewrite G. reflexivity.
Qed.
Print Assumptions C85_goes_on_refuted.

(** C85: whatever arrives, on both platforms: all that the uri server sends are replies, each to a
    datagram that came before from the same address, with its message id and token. *)
Theorem C85_uri : forall A fuel size (es : list (event A * world)), Forall open_ok es -> forall loop cut,
  (loop = posix_loop /\ cut = firstn 4096) \/ (loop = lwip_loop /\ cut = (fun b => b)) -> forall out fin,
  main_loop loop (uri_app false fuel) size es (Pump [] []) tt = Ok (out, fin) ->
  (forall n x, nth_error out n = Some (Some x) -> is_reply (heard cut (firstn n es)) x) /\
  (forall p s, fin = Some (p, s) -> p_in p = [] /\ Forall (is_reply (heard cut es)) (p_out p)).
Proof.
  intros A fuel size es F loop cut L out fin H.
  assert (O : orderly loop cut) by (destruct L as [(-> & ->)|(-> & ->)]; [apply posix_orderly|apply lwip_orderly]).
  assert (C : forall c, bytes_ok c -> bytes_ok (cut c)).
  { destruct L as [(_ & ->)|(_ & ->)]; [|auto]. intros c B. unfold bytes_ok in *. rewrite Forall_forall in *. intros x X. apply B. rewrite <- (firstn_skipn 4096 c). apply in_or_app. now left. }
  destruct (main_sends A unit loop cut (uri_app false fuel) size (fun _ _ => True) is_reply O C) with (es := es) (got := @nil (A * list N)) (out0 := @nil (A * list N)) (s := tt) (out := out) (fin := fin) as (N1 & N2); auto.
  - intros got x y (c & h & tok & rest & code & path & I & P). exists c, h, tok, rest, code, path. split; [apply in_or_app; now left|exact P].
  - intros w a c s b s1 got Hj Hd B R _. split; [exact I|]. cbn [on_request uri_app] in R.
    destruct (uri_server _ _ _ _ _ _ _) as [r| |] eqn:E; cbn [bind] in R; try discriminate. injection R as <- _.
    destruct (uri_inv _ _ _ _ _ _ Hj Hd B E) as (h & tok & rest & code & path & P & Q & ->). exists c, h, tok, rest, code, path. cbn [fst snd]. split; [apply in_or_app; right; left; reflexivity|auto].
  - intros w s outs s1 got R _. cbn [on_turn uri_app] in R. injection R as <- <-. split; [exact I|constructor].
  - split; [exact N1|]. intros p s Z. destruct (N2 p s Z) as (Q1 & Q2 & _). auto.
Qed.
Print Assumptions C85_uri.

(** C85: whatever arrives, on both platforms: all that the observe server sends are replies as
    above and notifications, each with a token that a datagram from that address has brought; the
    table never holds more than ten, all with such addresses and tokens. *)
Theorem C85_observe : forall A fuel size (es : list (event A * world)), Forall open_ok es -> forall loop cut,
  (loop = posix_loop /\ cut = firstn 4096) \/ (loop = lwip_loop /\ cut = (fun b => b)) -> forall out fin,
  main_loop loop (obs_app false fuel) size es (Pump [] []) (ObsState [] 0 0) = Ok (out, fin) ->
  (forall n x, nth_error out n = Some (Some x) -> is_reply (heard cut (firstn n es)) x \/ is_notice (heard cut (firstn n es)) x) /\
  (forall p s, fin = Some (p, s) -> p_in p = [] /\ Forall (fun x => is_reply (heard cut es) x \/ is_notice (heard cut es) x) (p_out p) /\
     (length (o_regs s) <= 10)%nat /\ Forall (fun r => has_used (heard cut es) (os_addr r) (os_tok r)) (o_regs s)).
Proof.
  intros A fuel size es F loop cut L out fin H.
  assert (O : orderly loop cut) by (destruct L as [(-> & ->)|(-> & ->)]; [apply posix_orderly|apply lwip_orderly]).
  assert (C : forall c, bytes_ok c -> bytes_ok (cut c)).
  { destruct L as [(_ & ->)|(_ & ->)]; [|auto]. intros c B. unfold bytes_ok in *. rewrite Forall_forall in *. intros x X. apply B. rewrite <- (firstn_skipn 4096 c). apply in_or_app. now left. }
  destruct (main_sends A (obs_state A) loop cut (obs_app false fuel) size table_ok (fun got x => is_reply got x \/ is_notice got x) O C)
    with (es := es) (got := @nil (A * list N)) (out0 := @nil (A * list N)) (s := @ObsState A [] 0 0) (out := out) (fin := fin) as (N1 & N2); auto.
  - apply due_more.
  - apply obs_request.
  - apply obs_turn.
  - split; [cbn; lia|constructor].
  - split; [exact N1|]. intros p s Z. destruct (N2 p s Z) as (Q1 & Q2 & (T1 & T2)). split; [exact Q1|]. split; [exact Q2|]. split; [exact T1|].
    eapply Forall_impl; [|exact T2]. cbn beta. tauto.
Qed.
Print Assumptions C85_observe.

(** C85: as long as the uri server runs on posix there is one reply for each datagram, in order. *)
Theorem C85_in_order : forall A fuel size (es : list (event A * world)) out p, Forall open_ok es ->
  main_loop posix_loop (uri_app false fuel) size es (Pump [] []) tt = Ok (out, Some (p, tt)) ->
  Forall2 (fun x g => is_reply [g] x) (gone out ++ p_out p) (heard (firstn 4096) es).
Proof.
  intros A fuel size es out p F H. destruct (uri_in_order A fuel size es [] out p F H) as (news & E & G). cbn [app] in E. rewrite E. exact G.
Qed.
Print Assumptions C85_in_order.

(** Cases.  Client 1 sends a confirmable request with the token 7 and something behind it, nothing
    comes, client 2 sends a non-confirmable one: both are answered a turn later.  Then client 3
    sends an acknowledgement, or a datagram of three bytes, or one with a reserved nibble; or
    nothing arrives but an empty datagram.  Last the observe server: client 1 is registered by an
    Observe option whose value is missing (C84) and gets notifications with its token. *)
Definition c85_world (t : N) : world := World (Hdr 9 9 9 9) some_junk some_mem t.
Definition c85_turn (e : poll N) : event N * world := (Event true e, c85_world 0).
Definition c85_pre : list (event N * world) := [c85_turn (PData 1 [65; 1; 18; 52; 7; 177; 97; 255; 0]); c85_turn PNone; c85_turn (PData 2 [80; 1; 0; 9])].
Definition c85_fuel : nat := N.to_nat 77888.
Definition c85_run (skip : bool) (more : list (poll N)) : res (list (option (N * list N)) * option (pump N * unit)) :=
  main_loop posix_loop (ping_app skip false c85_fuel) 1 (c85_pre ++ map c85_turn more) (Pump [] []) tt.
Definition c85_observe : list (event N * world) :=
  [(Event true (PData 1 [65; 1; 18; 52; 7; 109; 15]), c85_world 0); (Event true PNone, c85_world 1001); (Event true (PData 2 [80; 1; 0; 9; 99; 97; 98; 99]), c85_world 1002)].
Example C85_case :
  Forall open_ok c85_pre /\ Forall open_ok c85_observe /\
  c85_run true [] = Ok ([None; Some (1, [97; 69; 18; 52; 7]); None], Some (Pump [] [(2, [80; 69; 0; 9])], tt)) /\
  c85_run true [PData 3 [96; 0; 0; 1]] = Fault /\ c85_run true [PData 3 [64; 1; 0]] = Fault /\ c85_run true [PData 3 [64; 1; 0; 1; 240; 0]] = Fault /\
  c85_run false [PData 3 [64; 1; 0; 1; 240; 0]] = Ok ([None; Some (1, [97; 69; 18; 52; 7]); None; Some (2, [80; 69; 0; 9])], Some (Pump [] [(3, [96; 69; 0; 1])], tt)) /\
  c85_run true [PData 3 []; PNone] = Ok ([None; Some (1, [97; 69; 18; 52; 7]); None; Some (2, [80; 69; 0; 9])], None) /\
  main_loop posix_loop (uri_app false c85_fuel) 1 c85_pre (Pump [] []) tt =
    Ok ([None; Some (1, [97; 132; 18; 52; 7; 255; 47]); None], Some (Pump [] [(2, [80; 132; 0; 9; 255])], tt)) /\
  exists out p s, main_loop posix_loop (obs_app false c85_fuel) 20 c85_observe (Pump [] []) (ObsState [] 0 0) = Ok (out, Some (p, s)) /\
    out = [None; Some (1, [97; 67; 18; 52; 7; 255]); Some (1, [81; 69; 0; 0; 7; 97; 1; 255; 79; 98; 115; 101; 114; 118; 101; 100; 58; 32; 49])] /\
    length (p_out p) = 10%nat /\ length (o_regs s) = 10%nat /\ nth_error (o_regs s) 3 = Some (Session 1 1 [7]).
Proof.
  assert (W : forall t, hdr_ok (w_hdr (c85_world t)) /\ idle (w_dec (c85_world t))).
  { intro t. split; [apply hdr_ok_iff; repeat split; vm_compute; reflexivity|]. split; [left; reflexivity|]. unfold dec_mem, od_bytes, byte_ok. cbn. repeat split; try lia; repeat constructor; unfold byte_ok; lia. }
  assert (O : forall t e, bytes_ok (match e with PData _ dg => dg | _ => [] end) -> @open_ok N (Event true e, c85_world t)).
  { intros t e B. destruct (W t) as (W1 & W2). split; [exact W1|]. split; [exact W2|]. cbn [fst v_poll]. destruct e; auto. }
  split; [repeat constructor; try (apply W || (apply O; repeat constructor; unfold byte_ok; lia))|].
  split; [repeat constructor; try (apply W || (apply O; repeat constructor; unfold byte_ok; lia))|].
  split; [vm_compute; reflexivity|]. split; [vm_compute; reflexivity|]. split; [vm_compute; reflexivity|]. split; [vm_compute; reflexivity|]. split; [vm_compute; reflexivity|].
  split; [vm_compute; reflexivity|]. split; [vm_compute; reflexivity|].
  do 3 eexists. split; [vm_compute; reflexivity|]. repeat split; vm_compute; reflexivity.
Qed.

(** what the acknowledgement, the short datagram and the reserved nibble have in common *)
Example C85_unanswered : (forall r, ~ pinged false [96; 0; 0; 1] r) /\ (forall r, ~ pinged false [64; 1; 0] r) /\ (forall r, ~ pinged true [64; 1; 0; 1; 240; 0] r) /\
  pinged false [64; 1; 0; 1; 240; 0] [96; 69; 0; 1].
Proof.
  split; [|split; [|split]].
  - intros r (h & tok & rest & P & R & _). assert (P2 : parts [96; 0; 0; 1] (Hdr 96 0 0 1) [] []) by (repeat split; cbn; lia).
    destruct (parts_once _ _ _ _ _ _ _ P P2) as (-> & _). destruct R as [R|R]; vm_compute in R; discriminate.
  - intros r (h & tok & rest & (P & _) & _). apply (f_equal (@length N)) in P. rewrite app_length in P. cbn in P. lia.
  - intros r (h & tok & rest & P & _ & U & _). assert (P2 : parts [64; 1; 0; 1; 240; 0] (Hdr 64 1 0 1) [] [240; 0]) by (repeat split; cbn; lia).
    destruct (parts_once _ _ _ _ _ _ _ P P2) as (-> & -> & ->). apply (U eq_refl). exists []. left. reflexivity.
  - exists (Hdr 64 1 0 1), [], [240; 0]. split; [repeat split; cbn; lia|]. split; [left; reflexivity|]. split; [discriminate|reflexivity].
Qed.
