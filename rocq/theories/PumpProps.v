(** C62: the servers and the network, over any number of turns. *)
From Coq Require Import String ZArith.
From Verif Require Import Base UIntSpec HeaderModel HeaderSpec HeaderProofs OptSpec OptDecModel DecoderModel DecoderSpec NetDecSpec NetbufModel ObserveModel
  RespModel RespSpec RespProofs RespProps DiagModel DiagSpec PumpModel PumpSpec PumpProofs.
Local Open Scope N_scope.

(** The waiting line loses nothing and keeps the order, and whoever has [j] others before
    leaves in [j] turns. *)
Theorem C62_line : forall X (news : list (list X)) w,
  gone (fst (line w news)) ++ snd (line w news) = w ++ concat news /\
  forall j, (j < List.length w)%nat -> (j < List.length news)%nat -> nth_error (fst (line w news)) j = Some (nth_error w j).
Proof. intros X news w. split; [apply line_order|]. intros j. apply line_prompt. Qed.
Print Assumptions C62_line.

(** posix: over any number of turns without errors and without empty datagrams, any
    server sends exactly what it has to say, one datagram a turn in order; it faults iff
    more than [size] are waiting. *)
Theorem C62_posix : forall A W T (ap : server A W T) size es s ns s', (1 <= size)%nat -> Forall (fun e => calm (fst e)) es ->
  news_of (firstn 4096) ap es s = Ok (ns, s') ->
  main_loop posix_loop ap size es (Pump [] []) s =
    if fits size 0 (map (@List.length _) ns) then Ok (fst (line [] ns), Some (Pump [] (snd (line [] ns)), s')) else Fault.
Proof.
  intros A W T ap size es s ns s' Hs C H. rewrite (main_steady _ _ _ _ _ _ ap size (posix_steady A size Hs) es s ns s' [] C ltac:(cbn; lia) H).
  rewrite masked_calm; [reflexivity|exact C|]. rewrite line_length. apply (news_length _ _ _ _ _ _ _ _ _ H).
Qed.
Print Assumptions C62_posix.

(** LwIP: the same whatever happens, but what cannot be sent is lost, and nothing is cut. *)
Theorem C62_lwip : forall A W T (ap : server A W T) size es s ns s', (1 <= size)%nat -> news_of (fun b => b) ap es s = Ok (ns, s') ->
  main_loop lwip_loop ap size es (Pump [] []) s =
    if fits size 0 (map (@List.length _) ns)
    then Ok (map (fun x => if v_sent (fst (fst x)) then snd x else None) (combine es (fst (line [] ns))), Some (Pump [] (snd (line [] ns)), s')) else Fault.
Proof.
  intros A W T ap size es s ns s' Hs H. rewrite (main_steady _ _ _ _ _ _ ap size (lwip_steady A size Hs) es s ns s' []); [|apply Forall_forall; auto|cbn; lia|exact H].
  assert (M : forall X (l : list (option X)), masked es l = map (fun x => if v_sent (fst (fst x)) then snd x else None) (combine es l)).
  { clear. induction es as [|[e w] es IH]; intros X [|x l]; try reflexivity. cbn [masked combine map fst snd]. rewrite IH. reflexivity. }
  rewrite M. reflexivity.
Qed.
Print Assumptions C62_lwip.

(** Full claim (false): the posix servers keep serving.  An empty datagram, which anyone
    can send, ends the process; so does an error of poll, recvfrom or sendto. *)
Theorem C62_stops_refuted : forall A W T (ap : server A W T) size pre e w post s ns s', (1 <= size)%nat -> Forall (fun e => calm (fst e)) pre ->
  news_of (firstn 4096) ap pre s = Ok (ns, s') -> fits size 0 (map (@List.length _) ns) = true ->
  (v_sent e = true -> (exists a, v_poll e = PData a []) \/ v_poll e = PError ->
    main_loop posix_loop ap size (pre ++ (e, w) :: post) (Pump [] []) s = Ok (fst (line [] ns) ++ [hd_error (snd (line [] ns))], None)) /\
  (v_sent e = false -> snd (line [] ns) <> [] ->
    main_loop posix_loop ap size (pre ++ (e, w) :: post) (Pump [] []) s = Ok (fst (line [] ns) ++ [None], None)).
Proof.
  intros A W T ap size pre e w post s ns s' Hs C H F. rewrite main_app, (C62_posix A W T ap size pre s ns s' Hs C H), F. cbn [bind fst snd main_loop].
  set (q := snd (line [] ns)). split.
  - intros S1 P. assert (R : forall p, posix_recv size (v_poll e) p = Ok None) by (intros p; destruct P as [[a ->]| ->]; reflexivity).
    unfold posix_loop. cbn [p_out p_in]. destruct q as [|x q']; rewrite ?S1, R; reflexivity.
  - intros S1 Q. unfold posix_loop. cbn [p_out]. destruct q as [|x q']; [congruence|]. rewrite S1. reflexivity.
Qed.
Print Assumptions C62_stops_refuted.

(** A server that only answers: each answer goes out in the turn after its question. *)
Theorem C62_answers : forall A W (handle : W -> A -> list N -> res (list N)) size (es : list (event A * W)) (os : list (option (A * list N))), (1 <= size)%nat ->
  Forall2 (fun e o => calm (fst e) /\ match v_poll (fst e) with
    | PData a dg => exists r, handle (snd e) a (firstn 4096 dg) = Ok r /\ o = Some (a, r) | _ => o = None end) es os ->
  main_loop posix_loop (Server (fun w a b _ => bind (handle w a b) (fun r => Ok (r, tt))) (fun _ _ => Ok ([], tt))) size es (Pump [] []) tt =
    Ok (removelast (None :: os), Some (Pump [] (opt_list (last (None :: os) None)), tt)).
Proof.
  intros A W handle size es os Hs F.
  set (ap := Server (fun w a b (_ : unit) => bind (handle w a b) (fun r => Ok (r, tt))) (fun _ _ => Ok ([], tt))).
  assert (T1 : forall w s, on_turn ap w s = Ok ([], tt)) by (intros; reflexivity).
  assert (T2 : forall w a b s, on_request ap w a b s = bind (handle w a b) (fun r => Ok (r, tt))) by (intros; reflexivity). clearbody ap.
  assert (Nw : news_of (firstn 4096) ap es tt = Ok (map opt_list os, tt)).
  { induction F as [|[e w] o es os (C1 & Q) F IH]; [reflexivity|]. cbn [news_of fst snd] in *. destruct (v_poll e) as [|a dg|] eqn:E.
    - subst o. cbn [bind fst snd]. rewrite T1. cbn [bind fst snd]. rewrite IH. reflexivity.
    - destruct Q as (r & R & ->). rewrite T2, R. cbn [bind fst snd]. rewrite T1. cbn [bind fst snd]. rewrite IH. reflexivity.
    - subst o. cbn [bind fst snd]. rewrite T1. cbn [bind fst snd]. rewrite IH. reflexivity. }
  assert (C : Forall (fun e => calm (fst e)) es) by (clear Nw; induction F as [|e o es os (C1 & _) F IH]; constructor; auto).
  rewrite (C62_posix _ _ _ ap size es tt _ _ Hs C Nw). rewrite fits_singles by lia. rewrite line_singles by (cbn; lia). reflexivity.
Qed.

Print Assumptions C62_answers.

(** C62, ping: any datagrams with header and token, at any turns, from any addresses, of
    any length: each is answered in the next turn, to its sender. *)
Theorem C62_ping : forall A debug fuel size (qs : list (option (ask A) * world)), (1 <= size)%nat ->
  Forall (fun q => world_ok (snd q) /\ match fst q with None => True | Some x => ask_ok x /\ answerable (q_hdr x) end) qs ->
  let answers := map (fun q => option_map pong (fst q)) qs in
  main_loop posix_loop (ping_app false debug fuel) size (map (fun q => (ask_event (fst q), snd q)) qs) (Pump [] []) tt =
    Ok (removelast (None :: answers), Some (Pump [] (match last (None :: answers) None with None => [] | Some x => [x] end), tt)).
Proof.
  intros A debug fuel size qs Hs F answers. unfold ping_app.
  apply (C62_answers A world (fun w _ b => ping false debug nb_size fuel (w_hdr w) (w_tok w) b (w_dec w)) size _ answers Hs).
  unfold answers. clear answers Hs. induction F as [|[q w] qs ((Wh & Wi) & Q) F IH]; cbn [map]; constructor; [|exact IH]. cbn [fst snd] in *.
  destruct q as [x|]; cbn [ask_event option_map].
  - destruct Q as ((Q1 & Q2 & Q3 & Q4) & Q5). split.
    { split; [reflexivity|]. cbn [v_poll]. unfold hdr_bytes. discriminate. }
    cbn [v_poll]. exists (snd (pong x)). split; [|destruct x; reflexivity].
    assert (T : firstn 4096 (hdr_bytes (q_hdr x) ++ q_tok x ++ q_rest x) = hdr_bytes (q_hdr x) ++ q_tok x ++ firstn (4096 - (4 + List.length (q_tok x))) (q_rest x)).
    { rewrite (app_assoc (hdr_bytes _)), firstn_app. assert (L : List.length (hdr_bytes (q_hdr x) ++ q_tok x) = (4 + List.length (q_tok x))%nat) by (rewrite app_length; reflexivity).
      rewrite L. rewrite firstn_all2; [rewrite <- app_assoc; reflexivity|]. rewrite L. apply Nat.le_trans with 12%nat; [lia|apply Nat.leb_le; vm_compute; reflexivity]. }
    rewrite T. apply C56_ping; auto. apply Nat.le_trans with 12%nat; [lia|apply Nat.leb_le; vm_compute; reflexivity].
  - split; [split; [reflexivity|exact I]|reflexivity].
Qed.
Print Assumptions C62_ping.

(** Full claim (false): ... whatever the datagrams are.  One acknowledgement or reset and
    the server is gone. *)
Theorem C62_ping_ack_refuted : forall A debug fuel size (qs : list (option (ask A) * world)) x w post, (1 <= size)%nat ->
  Forall (fun q => world_ok (snd q) /\ match fst q with None => True | Some y => ask_ok y /\ answerable (q_hdr y) end) qs ->
  world_ok w -> ask_ok x -> ~ answerable (q_hdr x) ->
  main_loop posix_loop (ping_app false debug fuel) size (map (fun q => (ask_event (fst q), snd q)) qs ++ (ask_event (Some x), w) :: post) (Pump [] []) tt = Fault.
Proof.
  intros A debug fuel size qs x w post Hs F (Wh & Wi) (Q1 & Q2 & Q3 & Q4) R. rewrite main_app, (C62_ping A debug fuel size qs Hs F). cbn [bind fst snd main_loop].
  set (q := match last _ None with None => _ | Some y => _ end).
  rewrite (posix_steady A size Hs (ask_event (Some x)) q); [|split; [reflexivity|]; cbn [v_poll ask_event]; unfold hdr_bytes; discriminate].
  cbn [bind fst snd v_poll ask_event]. unfold service. cbn [p_in on_request ping_app].
  assert (T : firstn nb_size (hdr_bytes (q_hdr x) ++ q_tok x ++ q_rest x) = hdr_bytes (q_hdr x) ++ q_tok x ++ firstn (4096 - (4 + List.length (q_tok x))) (q_rest x)).
  { unfold nb_size. rewrite (app_assoc (hdr_bytes _)), firstn_app. assert (L : List.length (hdr_bytes (q_hdr x) ++ q_tok x) = (4 + List.length (q_tok x))%nat) by (rewrite app_length; reflexivity).
    rewrite L. rewrite firstn_all2; [rewrite <- app_assoc; reflexivity|]. rewrite L. apply Nat.le_trans with 12%nat; [lia|apply Nat.leb_le; vm_compute; reflexivity]. }
  rewrite T, C56_ack_refuted by auto. reflexivity.
Qed.
Print Assumptions C62_ping_ack_refuted.

(** C62, observable: any requests from any clients at any turns and times: the datagrams
    sent and waiting are, in order, a reply for each request and, in each turn that comes
    more than a second after the last round, one notification for each registration so
    far, with consecutive message ids and the client's own count. *)
Theorem C62_observable : forall A fuel size (ts : list (asked A)), (1 <= size)%nat -> Forall (asked_ok fuel) ts -> (enrolled ts <= 10)%nat ->
  10 * N.of_nat (List.length ts) < 2 ^ 31 ->
  let expected := owed ts [] 0 0 in
  fits size 0 (map (@List.length _) expected) = true ->
  exists out waiting s', main_loop posix_loop (obs_app false fuel) size (map asked_event ts) (Pump [] []) (ObsState [] 0 0) = Ok (out, Some (Pump [] waiting, s')) /\
    Forall2 (fun o i => fst o = fst i /\ item_ok (snd i) (snd o)) (gone out ++ waiting) (concat expected).
Proof.
  intros A fuel size ts Hs H1 H2 H3 expected Hf.
  destruct (obs_news A fuel ts (ObsState [] 0 0) H1) as (ns & s' & E & M); cbn [o_regs o_mid o_last List.length]; [exact H2|constructor|lia|lia|].
  cbn [o_regs o_mid o_last map] in M. fold expected in M.
  assert (C : Forall (fun e => calm (fst e)) (map asked_event ts)).
  { apply Forall_forall. intros e I. apply in_map_iff in I. destruct I as ([q w] & <- & I). rewrite Forall_forall in H1. destruct (H1 _ I) as (_ & Q). cbn [fst snd asked_event] in *.
    split; [reflexivity|]. cbn [v_poll]. destruct q as [[a m]|]; [|exact Logic.I]. unfold msg_bytes, hdr_bytes. discriminate. }
  assert (Ll : map (@List.length _) ns = map (@List.length _) expected).
  { clear - M. induction M as [|x y xs ys P M IH]; [reflexivity|]. cbn [map]. rewrite IH. f_equal. clear - P. induction P as [|? ? ? ? _ P IH]; [reflexivity|]. cbn [List.length]. rewrite IH. reflexivity. }
  pose proof (C62_posix _ _ _ (obs_app false fuel) size _ _ ns s' Hs C E) as R. rewrite Ll, Hf in R.
  eexists. eexists. eexists. split; [exact R|]. rewrite line_order. cbn [app]. clear - M. induction M as [|x y xs ys P M IH]; [constructor|]. cbn [concat]. apply Forall2_app; assumption.
Qed.
Print Assumptions C62_observable.

(** Concrete runs: two pings with a quiet turn between them; an empty datagram; and a
    client that registers, with the clock at 500, 1200, 1900, 2201 and 2300. *)
Definition at_time (t : N) : world := World get_head no_junk old_mem t.
Definition got (a : N) (dg : list N) (t : N) : event N * world := (Event true (PData a dg), at_time t).
Definition quiet (t : N) : event N * world := (Event true PNone, at_time t).
Definition watch : msg := Msg get_head [7] [(6, []); (11, [97])] None.
Definition watch_turns : list (asked N) := [(Some (3, watch), at_time 500); (None, at_time 1200); (None, at_time 2300)].
Example C62_hypotheses : Forall (asked_ok 9) watch_turns /\ enrolled watch_turns = 1%nat /\ fits 2 0 (map (@List.length _) (owed watch_turns [] 0 0)) = true /\
  concat (owed watch_turns [] 0 0) = [(3, Reply [97; 67; 18; 52; 7; 255]); (3, Notice 0 [7] 1); (3, Notice 1 [7] 2)] /\
  world_ok (at_time 0) /\ ask_ok (Ask 1 (Hdr 81 2 0 6) [9] [255; 1]) /\ answerable (Hdr 81 2 0 6) /\ ~ answerable (Hdr 96 0 0 5).
Proof.
  assert (W : forall t, world_ok (at_time t)) by (intros t; destruct C56_memory as (M1 & M2 & _); split; [exact M2|exact M1]).
  assert (H : hdr_ok get_head) by (apply hdr_ok_iff; repeat split; vm_compute; reflexivity).
  assert (T : forall x, x < 256 -> bytes_ok [x]) by (intros; repeat constructor; assumption).
  split; [|split; [reflexivity|split; [reflexivity|split; [vm_compute; reflexivity|split; [apply W|split; [|split; [right; reflexivity|intros [Q|Q]; discriminate Q]]]]]]].
  - unfold watch_turns. constructor; [|constructor; [split; [apply W|exact I]|constructor; [split; [apply W|exact I]|constructor]]].
    split; [apply W|]. cbn [fst snd]. split.
    { split; [exact H|]. split; [reflexivity|]. split; [cbn; lia|]. split; [apply T; reflexivity|]. split; [|exact I]. cbn. unfold len, bytes_ok, byte_ok. cbn. repeat split; try lia; repeat constructor; lia. }
    split; [cbn; lia|]. split; [apply Nat.leb_le; vm_compute; reflexivity|]. split; [left; reflexivity|apply Nat.leb_le; vm_compute; reflexivity].
  - split; [apply hdr_ok_iff; repeat split; vm_compute; reflexivity|]. split; [apply T; reflexivity|]. split; [reflexivity|cbn; lia].
Qed.
Example C62_case :
  main_loop posix_loop (ping_app false true 9) 1 [got 1 [64; 1; 0; 5] 0; got 2 [81; 2; 0; 6; 9; 255; 1] 0; quiet 0; quiet 0] (Pump [] []) tt =
    Ok ([None; Some (1, [96; 69; 0; 5]); Some (2, [81; 69; 0; 6; 9]); None], Some (Pump [] [], tt)) /\
  main_loop posix_loop (ping_app false true 9) 1 [got 1 [64; 1; 0; 5] 0; got 2 [] 0; quiet 0] (Pump [] []) tt = Ok ([None; Some (1, [96; 69; 0; 5])], None) /\
  main_loop posix_loop (ping_app false true 9) 1 [got 1 [96; 0; 0; 5] 0; quiet 0] (Pump [] []) tt = Fault /\
  main_loop lwip_loop (ping_app false true 9) 1 [got 1 [64; 1; 0; 5] 0; (Event false PError, at_time 0); got 1 [64; 1; 0; 6] 0; quiet 0] (Pump [] []) tt =
    Ok ([None; None; None; Some (1, [96; 69; 0; 6])], Some (Pump [] [], tt)) /\
  main_loop posix_loop (obs_app false 9) 2 [got 3 (msg_bytes watch) 500; quiet 1200; quiet 1900; quiet 2201; quiet 2300] (Pump [] []) (ObsState [] 0 0) =
    Ok ([None; Some (3, [97; 67; 18; 52; 7; 255]); 
         Some (3, [81; 69; 0; 0; 7; 97; 1; 255; 79; 98; 115; 101; 114; 118; 101; 100; 58; 32; 49]); None;
         Some (3, [81; 69; 0; 1; 7; 97; 2; 255; 79; 98; 115; 101; 114; 118; 101; 100; 58; 32; 50])], Some (Pump [] [], ObsState [Session 2 3 [7]] 2 2201)).
Proof. repeat split. Qed.
