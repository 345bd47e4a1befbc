(** DecoderSubjectBase: what an observer is told. *)
From Verif Require Import Base HeaderModel OptEncModel OptSpec OptDecModel OptDecSpec OptDecProofs.
From Verif Require Import DecoderModel DecoderSpec DecoderProofs ChunkProofs DecoderProps DispatchModel SubjectModel SubjectSpec SubjectProofs.
Local Open Scope N_scope.

(** A message, cut anywhere into non-empty chunks, is taken completely (each dispatch
    reports the whole chunk) and the observer is told, in order and without gap or
    repetition, exactly the header, the token, number and length of each option, each
    byte of each value and of the payload -- up to [lost]: nothing if there is a
    non-empty payload. *)
Theorem C47_delivery : forall m cs d, msg_ok m -> Forall (fun c => c <> []) cs -> concat cs = msg_bytes m -> fresh d ->
  exists es d1, sub_chunks cs d = Ok (es, d1, map (@length N) cs) /\ flat es ++ lost m = msg_atoms m.
Proof.
  intros m cs d Hm Hf Hc Hd. destruct (sub_chunks_message m cs d Hm Hf Hc Hd) as (es & d1 & A & B & _). exists es, d1. auto.
Qed.
Print Assumptions C47_delivery.

(** With a payload nothing is lost. *)
Theorem C47_delivery_payload : forall m cs d b r, msg_ok m -> Forall (fun c => c <> []) cs -> concat cs = msg_bytes m -> fresh d ->
  m_pay m = Some (b :: r) ->
  exists es d1, sub_chunks cs d = Ok (es, d1, map (@length N) cs) /\ flat es = msg_atoms m.
Proof.
  intros m cs d b r Hm Hf Hc Hd HP. destruct (C47_delivery m cs d Hm Hf Hc Hd) as (es & d1 & A & B). exists es, d1. split; [exact A|].
  unfold lost in B. rewrite HP, app_nil_r in B. exact B.
Qed.
Print Assumptions C47_delivery_payload.

(** In one piece: one call for each option value and one for the payload. *)
Theorem C47_one_piece : forall m d b r, msg_ok m -> fresh d -> m_pay m = Some (b :: r) ->
  exists d1, sub_dispatch (msg_bytes m) true d = Ok (msg_calls m, d1, length (msg_bytes m)).
Proof.
  intros m d b r Hm Hd HP. destruct (sub_message m d Hm Hd) as (d1 & A & _); [eauto|]. exists d1. exact A.
Qed.
Print Assumptions C47_one_piece.

(** dispatch returns for whatever bytes and from whatever state. *)
Theorem C47_terminates : forall chunk last d, sub_dispatch chunk last d <> NoFuel.
Proof. exact sub_dispatch_fuel. Qed.
Print Assumptions C47_terminates.

(** Without a payload (or with an empty one) on_complete is never called. *)
Theorem C47_complete_refuted : forall m cs d es d1 ns, msg_ok m -> Forall (fun c => c <> []) cs -> concat cs = msg_bytes m -> fresh d ->
  m_pay m = None \/ m_pay m = Some [] -> sub_chunks cs d = Ok (es, d1, ns) -> ~ In OnComplete es.
Proof.
  intros m cs d es d1 ns Hm Hf Hc Hd HP E. destruct (C47_delivery m cs d Hm Hf Hc Hd) as (es' & d1' & A & B).
  assert (es' = es) by congruence. subst es'. exact (no_complete m es HP B).
Qed.
Print Assumptions C47_complete_refuted.

(** A message that ends with an option without value loses that option, one of header
    only its header, one of header and token its token. *)
Theorem C47_last_element_refuted : forall m cs d es d1 ns, msg_ok m -> Forall (fun c => c <> []) cs -> concat cs = msg_bytes m -> fresh d ->
  m_pay m = None -> sub_chunks cs d = Ok (es, d1, ns) ->
  (forall os n, m_opts m = os ++ [(n, [])] ->
     flat es = [AHeader (m_hdr m)] ++ tok_atoms (m_tok m) ++ flat_map opt_atoms os) /\
  (m_opts m = [] -> flat es = match m_tok m with [] => [] | _ => [AHeader (m_hdr m)] end).
Proof.
  intros m cs d es d1 ns Hm Hf Hc Hd HP E. destruct (C47_delivery m cs d Hm Hf Hc Hd) as (es' & d1' & A & B).
  assert (es' = es) by congruence. subst es'. unfold lost in B. rewrite HP in B. unfold msg_atoms in B. rewrite HP in B. cbn [pay_atoms app] in B. split.
  - intros os n HO. rewrite HO, rev_unit in B. rewrite flat_map_app in B. cbn [flat_map opt_atoms fst snd len length app] in B.
    change (N.of_nat 0) with 0 in B. rewrite <- !app_assoc in B. cbn [app] in B.
    apply (app_inv_tail [AOption n 0; AComplete]). rewrite B. cbn [app]. rewrite <- !app_assoc. reflexivity.
  - intro HO. rewrite HO in B. cbn [rev flat_map app] in B. destruct (m_tok m) as [|t ts].
    + apply (app_inv_tail [AHeader (m_hdr m); AComplete]). exact B.
    + apply (app_inv_tail [AToken (t :: ts) true; AComplete]). exact B.
Qed.
Print Assumptions C47_last_element_refuted.

(** the sample message in three pieces: cut inside the token, inside an option value
    and inside the payload *)
Definition pieces : list (list N) := [[66;1;18;52; 170]; [187; 49;104; 130;97]; [98; 0; 225;0;20;1; 255; 104;105]].
Example C47_case : msg_ok sample_msg /\ fresh sample_dec /\ Forall (fun c => c <> []) pieces /\ concat pieces = msg_bytes sample_msg /\
  m_pay sample_msg = Some [104;105] /\
  match sub_chunks pieces sample_dec with Ok (es, _, ns) =>
    es = [OnHeader (Hdr 66 1 18 52); OnToken [170;187] true; OnOption 3 1; OnValue 3 [104] true; OnOption 11 2; OnValue 11 [97] false; OnValue 11 [98] true;
          OnOption 11 0; OnOption 300 1; OnValue 300 [1] true; OnPayload [104;105] true; OnComplete] /\ ns = [5;5;9]%nat | _ => False end.
Proof.
  split; [apply C14_case|]. split; [split; [reflexivity|apply sample_idle]|]. split; [repeat constructor; discriminate|]. split; [reflexivity|]. split; [reflexivity|].
  vm_compute. auto.
Qed.

(** Using the object for a second message.  After a message with payload the next
    dispatch, whatever it is given, takes no byte and tells nothing: that chunk is
    lost unless the caller looks at the result. *)
Theorem C48_second_refuted : forall m d d1 es chunk last b r, msg_ok m -> fresh d -> m_pay m = Some (b :: r) ->
  sub_dispatch (msg_bytes m) true d = Ok (es, d1, length (msg_bytes m)) ->
  sub_dispatch chunk last d1 = Ok ([], k_goto RDone d1, 0%nat).
Proof.
  intros m d d1 es chunk last b r Hm Hd HP E. destruct (sub_message m d Hm Hd) as (d1' & A & B); [eauto|].
  assert (d1' = d1) by congruence. subst d1'. apply sub_again. exact B.
Qed.
Print Assumptions C48_second_refuted.

(** The one after that reports a completion first and then the message as it should. *)
Theorem C48_third : forall m d b r, msg_ok m -> k_st d = RDone -> dec_mem d -> m_pay m = Some (b :: r) ->
  exists d1, sub_dispatch (msg_bytes m) true d = Ok (OnComplete :: msg_calls m, d1, length (msg_bytes m)).
Proof. intros m d b r Hm Hs M HP. destruct (sub_third m d Hm Hs M) as (d1 & A & _); [eauto|]. exists d1. exact A. Qed.
Print Assumptions C48_third.

(** After a message that ended with an option value it is the same: the first chunk of
    the next message (a first header byte is never 255) is not looked at. *)
Theorem C48_second_options_refuted : forall b chunk last d, k_st d = OptionsDone -> d_st (k_od d) <> OPayload -> b <> 255 ->
  sub_dispatch (b :: chunk) last d = Ok ([], k_goto RDone d, 0%nat).
Proof. exact sub_again_options. Qed.
Print Assumptions C48_second_options_refuted.

Example C48_case : msg_ok sample_msg /\ fresh sample_dec /\
  match sub_dispatch (msg_bytes sample_msg) true sample_dec with
  | Ok (_, d1, _) =>
      sub_dispatch (msg_bytes sample_msg) true d1 = Ok ([], k_goto RDone d1, 0%nat) /\
      match sub_dispatch (msg_bytes sample_msg) true (k_goto RDone d1) with
      | Ok (es, d2, n) => es = OnComplete :: msg_calls sample_msg /\ n = 19%nat
      | _ => False
      end
  | _ => False
  end /\
  match sub_dispatch [64;1;0;1;177;97] true sample_dec with
  | Ok (es, d1, n) => es = [OnHeader (Hdr 64 1 0 1); OnOption 11 1; OnValue 11 [97] true] /\ k_st d1 = OptionsDone /\ d_st (k_od d1) = OptionValueDone
  | _ => False
  end.
Proof.
  split; [apply C14_case|]. split; [split; [reflexivity|apply sample_idle]|]. split; vm_compute; auto.
Qed.
