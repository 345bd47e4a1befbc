(** C87: the CBOR program of test/posix/cbor under any traffic. *)
From Coq Require Import ZArith.
From Verif Require Import Base HeaderModel HeaderSpec HeaderProofs OptEncModel OptSpec StreambufModel StreambufProofs ContextModel AppModel NetbufModel NetbufProofs
  ObserveModel RespModel RespSpec RespProofs RespProps OptDecModel OptDecSpec OptDecProofs DecoderModel DecoderSpec DecoderProofs NetDecModel NetDecSpec NetDecProofs NetDecProps
  HeadCutSpec NetAnySpec NetAnyProofs NetAnyProps PumpModel PumpSpec PumpProofs PumpAnySpec PumpAnyProofs CborModel CborSpec CborRespModel CborRespSpec CborRespProofs CborRespProps
  CborAnySpec CborAnyProofs CborAnyProps CborPumpModel CborPumpSpec CborPumpProofs.
Local Open Scope N_scope.

(** C87: through any traffic the CBOR program takes exactly one course: it answers 2.03 in the
    turn after to every datagram whose options it can read and whose payload it can print in the
    memory it is in, exits at an error, at a failed send and at an empty datagram, and is gone
    at the first other one. *)
Theorem C87_course : forall A debug fuel size (es : list (event A * cworld)), (1 <= size)%nat -> 77888 <= N.of_nat fuel -> Forall cbor_open es ->
  exists o, course (fun w => told (q_chunk w)) None es o /\ (forall o2, course (fun w => told (q_chunk w)) None es o2 -> o2 = o) /\
    main_loop posix_loop (cbor_app debug fuel) size es (Pump [] []) tt =
      match o with
      | Crashed => Fault
      | Exited out => Ok (out, None)
      | Running out None => Ok (out, Some (Pump [] [], tt))
      | Running out (Some x) => Ok (out, Some (Pump [] [x], tt))
      end.
Proof.
  intros A debug fuel size es Hs Hf F.
  destruct (course_any A cworld (fun w => told (q_chunk w)) (fun w _ b => bind (cbor_server debug nb_size fuel (w_hdr (q_world w)) (w_tok (q_world w)) b (q_behind w b) (w_dec (q_world w)) (q_buf w) (q_hdr w) (q_pos w)) (fun r => Ok (snd r))) size Hs es None) as (o & C & E).
  { eapply Forall_impl; [|exact F]. cbn beta. intros [e w] (O1 & O2 & O3 & O4 & O5 & O6) a dg P c. cbn [fst snd] in *. rewrite P in O6.
    apply cbor_any; auto; [unfold c; rewrite <- (firstn_skipn nb_size dg) in O6; apply bytes_ok_app in O6; tauto|].
    unfold dec_fuel. assert (length c <= 4096)%nat by (unfold c; rewrite firstn_length; apply Nat.le_min_l). lia. }
  exists o. split; [exact C|]. split; [intros o2 C2; exact (course_once A cworld _ (fun w => told_once (q_chunk w)) _ _ _ C2 _ C)|].
  cbn [opt_list] in E. unfold cbor_app. rewrite E. destruct o as [|l|l [x|]]; reflexivity.
Qed.
Print Assumptions C87_course.

(** That it goes on whatever valid messages arrive is false: one well-formed message whose
    payload starts with valid items and goes on with an eight byte number ends the service. *)
Theorem C87_goes_on_refuted : forall A debug fuel size (pre post : list (event A * cworld)) a m its b bs w out waiting, (1 <= size)%nat -> 77888 <= N.of_nat fuel ->
  Forall cbor_open pre -> cbor_open (Event true (PData a (msg_bytes m)), w) ->
  msg_ok m -> (length (msg_bytes m) <= 4096)%nat -> not_stale m (w_dec (q_world w)) -> m_pay m = Some (items_bytes its ++ b :: bs) ->
  Forall item_ok its -> short_strings its -> 27 <= b mod 32 -> (4 <= length bs)%nat -> answerable (m_hdr m) ->
  main_loop posix_loop (cbor_app debug fuel) size pre (Pump [] []) tt = Ok (out, Some (waiting, tt)) ->
  main_loop posix_loop (cbor_app debug fuel) size (pre ++ (Event true (PData a (msg_bytes m)), w) :: post) (Pump [] []) tt = Fault.
Proof.
  intros A debug fuel size pre post a m its b bs w out waiting Hs Hf F W Hm Lm NS Pm Io Is Hb Hl R H.
  destruct (C87_course A debug fuel size pre Hs Hf F) as (o & _ & _ & E). rewrite main_app, H. cbn [bind fst snd]. rewrite H in E.
  assert (Q : exists q, waiting = Pump [] q).
  { destruct o as [|l|l [x|]]; [discriminate E|discriminate E| |]; injection E as _ E; rewrite E; eexists; reflexivity. }
  destruct Q as (q & ->). destruct W as (W1 & W2 & W3 & W4 & W5 & W6). cbn [fst snd v_poll] in *.
  assert (Ne : msg_bytes m <> []) by (unfold msg_bytes; discriminate).
  cbn [main_loop]. rewrite (posix_steady A size Hs); [|split; [reflexivity|exact Ne]]. cbn [bind fst snd v_poll]. unfold service. cbn [p_in].
  change nb_size with 4096%nat. rewrite (firstn_all2 (msg_bytes m)) by exact Lm. cbn [on_request cbor_app].
  pose proof Hm as (Hh & Ht & H8 & _).
  assert (Lo : (length (m_opts m) < fuel)%nat).
  { assert (OB : forall os prev, (length os <= length (opts_bytes prev os))%nat).
    { induction os as [|[n v] os IH]; intro prev; cbn [opts_bytes length]; [lia|]. rewrite !app_length. specialize (IH n). unfold opt_head. cbn [length]. lia. }
    specialize (OB (m_opts m) 0). unfold msg_bytes in Lm. rewrite !app_length in Lm. lia. }
  assert (Lt : (4 + length (m_tok m) <= 4096)%nat) by (apply Nat.le_trans with 12%nat; [lia|apply Nat.leb_le; vm_compute; reflexivity]).
  rewrite C63_server by assumption.
  rewrite Pm. rewrite C86_wide_refuted; [reflexivity|exact Io|exact Is| |exact W5|exact Hb|exact Hl].
  assert (Bp : bytes_ok (msg_bytes m) -> bytes_ok (items_bytes its ++ b :: bs)).
  { unfold msg_bytes. rewrite Pm. intro X. apply bytes_ok_app in X. destruct X as (_ & X). apply bytes_ok_app in X. destruct X as (_ & X). apply bytes_ok_app in X. destruct X as (_ & X). inversion X. assumption. }
  rewrite app_assoc. apply bytes_ok_app. split; [apply Bp; exact W6|]. unfold q_behind.
  rewrite <- (firstn_skipn (length (msg_bytes m)) (q_chunk w)) in W3. apply bytes_ok_app in W3. tauto.
Qed.
Print Assumptions C87_goes_on_refuted.

(** what fresh memory may hold *)
Definition c87_memory : cworld := CWorld (World (Hdr 9 9 9 9) no_junk old_mem 0) (repeat 171 4096) [9; 9; 9; 9] 3 2.
Definition c87_asks (mid : N) (pay : list N) : list N := msg_bytes (Msg (Hdr 65 2 0 mid) [7] [] (Some pay)).
Definition c87_run (pays : list (option (N * list N))) : res (list (option (N * list N)) * option (pump N * unit)) :=
  main_loop posix_loop (cbor_app true (N.to_nat 77888)) 1
    (map (fun x => (Event true (match x with None => PNone | Some (i, p) => PData i (c87_asks i p) end), c87_memory)) pays) (Pump [] []) tt.

(** two numbers, a text and a cut payload are answered; the eight byte number ends it *)
Example C87_case :
  c87_run [Some (1, [1; 24; 200]); Some (2, [97; 65]); None; Some (3, [25; 1]); None] =
    Ok ([None; Some (1, [97; 67; 0; 1; 7]); Some (2, [97; 67; 0; 2; 7]); None; Some (3, [97; 67; 0; 3; 7])], Some (Pump [] [], tt)) /\
  c87_run [Some (1, [1]); Some (2, [1; 27; 0; 0; 0; 0]); None] = Fault.
Proof. split; vm_compute; reflexivity. Qed.

Example C87_hypotheses :
  cbor_open (Event true (PData 1 (c87_asks 2 (items_bytes [] ++ 27 :: [0; 0; 0; 0]))), c87_memory) /\
  not_stale (Msg (Hdr 65 2 0 2) [7] [] (Some [27; 0; 0; 0; 0])) (w_dec (q_world c87_memory)) /\
  answerable (Hdr 65 2 0 2) /\ msg_ok (Msg (Hdr 65 2 0 2) [7] [] (Some [27; 0; 0; 0; 0])).
Proof.
  assert (RB : forall n, bytes_ok (repeat 171 n)) by (induction n; cbn [repeat]; constructor; [unfold byte_ok; lia|assumption]).
  unfold cbor_open, c87_memory. cbn [fst snd q_world q_chunk q_buf w_hdr w_dec v_poll].
  split; [|split; [right; left; discriminate|split; [left; reflexivity|]]].
  - split; [apply hdr_ok_iff; repeat split; vm_compute; reflexivity|].
    split; [split; [left; reflexivity|]; unfold dec_mem, od_bytes, byte_ok; cbn; repeat split; try lia; repeat constructor; unfold byte_ok; lia|].
    split; [apply RB|]. split; [apply repeat_length|]. split; [reflexivity|].
    vm_compute. repeat constructor.
  - unfold msg_ok, hdr_ok, bytes_ok, byte_ok. cbn. repeat split; repeat constructor; try lia.
Qed.
