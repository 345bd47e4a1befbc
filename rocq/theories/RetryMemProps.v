(** C67: SocketsDatapumpHelper built with FEATURE_MCCOAP_RELIABLE.  C68: who owns the netbufs
    Retry keeps. *)
From Coq Require Import String.
From Verif Require Import Base UIntModel HeaderModel HeaderProofs OptEncModel OptSpec OptDecModel DecoderModel DecoderSpec DecoderProofs NetDecModel NetDecProofs StreambufModel NetbufModel
  DiagModel RespModel RetryModel RetrySpec RetryProofs PumpModel RetryMemModel RetryMemSpec RetryMemProofs DecoderProps.
Local Open Scope N_scope.
Local Open Scope list_scope.

(** * C67 *)

(** Whatever is enqueued, received, acknowledged and however much time passes: each datagram
    enqueued is sent once, in the order of the calls, or still waits; nothing else is sent.
    If the program ends (an error of poll, recvfrom or sendto), what was sent is the
    beginning of what was enqueued. *)
Theorem C67_once : forall w size os h1 ws, hop_run w size os (Helper (Pump [] []) []) = Ok (h1, ws) ->
  match h1 with
  | Some h => s_retry h = [] /\ asked os = ws ++ p_out (s_pump h)
  | None => exists r, asked os = ws ++ r
  end.
Proof. intros w size os h1 ws E. exact (hop_run_nil w size os (Pump [] []) h1 ws E). Qed.
Print Assumptions C67_once.

(** So the confirmable messages are not sent again: what RFC 7252 4.2 asks of a sender, and
    the name of the switch promises, does not happen. *)
Theorem C67_retransmitted_refuted : ~ exists w size os h1 ws,
  hop_run w size os (Helper (Pump [] []) []) = Ok (h1, ws) /\ NoDup (asked os) /\ ~ NoDup ws.
Proof.
  intros (w & size & os & h1 & ws & E & N & D). apply D. apply C67_once in E. destruct h1 as [h|].
  - destruct E as [_ E]. rewrite E in N. clear - N. induction ws as [|x ws IH]; [constructor|]. cbn [app] in N. inversion N; subst. constructor; [|now apply IH].
    intro X. apply H1. apply in_app_iff. auto.
  - destruct E as [r E]. rewrite E in N. clear - N. induction ws as [|x ws IH]; [constructor|]. cbn [app] in N. inversion N; subst. constructor; [|now apply IH].
    intro X. apply H1. apply in_app_iff. auto.
Qed.
Print Assumptions C67_retransmitted_refuted.

(** A turn of the loop fails exactly on the datagram at the front of what was received: it
    goes through if header and token can be read, it ends in an assertion if not. *)
Theorem C67_turn : forall w size d e now ka kt p a b r x p1, posix_loop size e p = Ok (x, Some p1) -> p_in p1 = (a, b) :: r -> idle d ->
  (readable b -> exists ws, hop_step w size d (HLoop e now ka kt) (Helper p []) = Ok (Some (Helper p1 []), ws)) /\
  (unreadable b -> hop_step w size d (HLoop e now ka kt) (Helper p []) = Fault).
Proof.
  intros w size d e now ka kt p a b r x p1 E Ep Hd. destruct (ack_reads d ka p1 a b r Ep Hd) as [A B]. cbn [hop_step s_pump s_retry]. rewrite E. cbn [bind fst snd]. split.
  - intro H. rewrite (A H). cbn [bind]. rewrite helper_retry_nil. cbn [bind]. eauto.
  - intro H. now rewrite (B H).
Qed.
Print Assumptions C67_turn.

(** every datagram is one or the other *)
Theorem C67_all : forall b, bytes_ok b -> (readable b \/ unreadable b) /\ ~ (readable b /\ unreadable b).
Proof.
  intros b Hb. split.
  - destruct (Nat.lt_ge_cases (length b) 4) as [L|L]; [right; now left|].
    destruct b as [|b0 [|b1 [|b2 [|b3 t]]]]; cbn in L; try lia.
    destruct (N.le_gt_cases (b0 mod 16) 8) as [A|A]; [|right; right; exists (Hdr b0 b1 b2 b3), t; split; [reflexivity|left; exact A]].
    destruct (N.le_gt_cases (b0 mod 16) (OptSpec.len t)) as [B|B]; [|right; right; exists (Hdr b0 b1 b2 b3), t; split; [reflexivity|right; exact B]].
    left. exists (Hdr b0 b1 b2 b3), (firstn (N.to_nat (b0 mod 16)) t), (skipn (N.to_nat (b0 mod 16)) t). rewrite firstn_skipn. split; [reflexivity|].
    unfold OptSpec.len in *. assert (Len : length (firstn (N.to_nat (b0 mod 16)) t) = N.to_nat (b0 mod 16)) by (rewrite firstn_length; lia).
    split; [|rewrite Len; cbn [h0]; lia]. inversion Hb as [|? ? _ H1]; subst. inversion H1 as [|? ? _ H2]; subst. inversion H2 as [|? ? _ H3]; subst. inversion H3 as [|? ? _ H4]; subst.
    rewrite <- (firstn_skipn (N.to_nat (b0 mod 16)) t) in H4. now apply Forall_app in H4.
  - intros [(h & tok & rest & -> & _ & Ht & H8) [L|(h' & rest' & E & U)]].
    + rewrite app_length in L. cbn in L. lia.
    + unfold hdr_bytes in E. cbn [app] in E. injection E as E0 _ _ _ E. rewrite <- E0 in U. subst rest'. unfold OptSpec.len in *. rewrite app_length in U. lia.
Qed.
Print Assumptions C67_all.

(** An acknowledgement is compared by address, token and message ID: the port is not looked
    at ... *)
Theorem C67_port : forall ip port ip' port' m it, port < 65536 -> port' < 65536 -> hdr_ok (n_hdr m) -> hdr_ok (n_hdr (i_msg it)) -> i_addr it = sockaddr ip' port' ->
  (matches sock_same (sockaddr ip port) (hdr_mid (n_hdr m)) (n_tok m) it = true <-> ip = ip' /\ n_tok (i_msg it) = n_tok m /\ mid_of (i_msg it) = mid_of m).
Proof.
  intros ip port ip' port' m it P P' H1 H2 E. rewrite (matches_answers sock_same m (sockaddr ip port) it H1 H2). unfold answers. rewrite E. unfold sock_same, sockaddr.
  rewrite !(N.add_comm (_ * 65536)), !N.div_add, !N.div_small, !N.add_0_l, N.eqb_eq by (assumption || discriminate). tauto.
Qed.
Print Assumptions C67_port.

(** ... so that RFC 7252 4.2's "source endpoint" (address and port) is not what decides *)
Theorem C67_endpoint_refuted : ~ forall m it a, hdr_ok (n_hdr m) -> hdr_ok (n_hdr (i_msg it)) ->
  matches sock_same a (hdr_mid (n_hdr m)) (n_tok m) it = true -> a = i_addr it.
Proof.
  intro H. specialize (H (NetMsg (Hdr 96 0 1 35) [] []) (Item 0 0 2500 (sockaddr 2130706433 5683) (NetMsg (Hdr 64 1 1 35) [] []) 0) (sockaddr 2130706433 61000)).
  assert (E : sockaddr 2130706433 61000 = sockaddr 2130706433 5683) by (apply H; [apply hdr_ok_iff; repeat split; vm_compute; reflexivity|apply hdr_ok_iff; repeat split; vm_compute; reflexivity|vm_compute; reflexivity]).
  vm_compute in E. discriminate.
Qed.
Print Assumptions C67_endpoint_refuted.

(** A confirmable GET is enqueued and sent; its acknowledgement comes; an hour passes; a
    datagram of two bytes comes.  All but the last goes through. *)
Definition case_get : list N := [65; 1; 1; 35; 9].
Definition case_ops : list (hop * dec) :=
  [(HEnqueue (sockaddr 1 5683) case_get, sample_dec); (HLoop (Event true PNone) 0 None 0, sample_dec);
   (HLoop (Event true (PData (sockaddr 1 5683) [97; 69; 1; 35; 9])) 100 None 0, sample_dec); (HPop, sample_dec);
   (HLoop (Event true PNone) 3600000 None 0, sample_dec)].
Example C67_case :
  hop_run 32 8 case_ops (Helper (Pump [] []) []) = Ok (Some (Helper (Pump [] []) []), [(sockaddr 1 5683, case_get)]) /\
  asked case_ops = [(sockaddr 1 5683, case_get)] /\
  hop_run 32 8 (case_ops ++ [(HLoop (Event true (PData 0 [1; 2])) 3600001 None 0, sample_dec)]) (Helper (Pump [] []) []) = Fault /\
  readable [97; 69; 1; 35; 9] /\ unreadable [1; 2] /\ unreadable [73; 1; 1; 35; 1; 2; 3; 4; 5; 6; 7; 8; 9] /\
  hop_run 32 8 [(HEnqueue 0 case_get, sample_dec); (HLoop (Event false PNone) 0 None 0, sample_dec)] (Helper (Pump [] []) []) = Ok (None, []).
Proof.
  split; [vm_compute; reflexivity|]. split; [reflexivity|]. split; [vm_compute; reflexivity|].
  split; [exists (Hdr 97 69 1 35), [9], []; repeat split; [repeat constructor|cbn; lia]|].
  split; [left; cbn; lia|]. split; [right; exists (Hdr 73 1 1 35), [1; 2; 3; 4; 5; 6; 7; 8; 9]; split; [reflexivity|left; vm_compute; reflexivity]|].
  vm_compute. reflexivity.
Qed.

(** test/posix/request-con: what it enqueues *)
Example C67_request : exists e, request_con false = Ok ([true; true; true], e) /\
  s_out (n_sink e) = [67; 1; 1; 35; 1; 2; 3; 186] ++ str "batt-level".
Proof. eexists. split; vm_compute; reflexivity. Qed.

(** * C68 *)

(** In every history that does not touch freed memory no netbuf is sent twice: Retry's
    retransmissions cannot be sent.  Holds for both ways of building the pump. *)
Theorem C68_once : forall inl w size same os s ws, m_run inl w size same os mem0 = Ok (s, ws) -> NoDup (wired ws).
Proof. intros inl w size same os s ws E. apply (run_once inl w size same os mem0 s ws (good0 inl) E). Qed.
Print Assumptions C68_once.

(** what is sent is the message the netbuf was made with, to an address the application named *)
Theorem C68_contents : forall inl w size same os s ws o a m, m_run inl w size same os mem0 = Ok (s, ws) -> In (o, a, m) ws ->
  nth_error (made os) o = Some m /\ In a (destinations o os).
Proof. intros inl w size same os s ws o a m E H. apply (run_told inl w size same os [] mem0 s ws (good0 inl) told0 E). exact H. Qed.
Print Assumptions C68_contents.

(** Retransmission, as C26 has it for the queue alone, is out of reach: no history sends any
    netbuf a second time. *)
Theorem C68_retransmitted_refuted : ~ exists inl w size same os s ws o a a' m m' l1 l2 l3,
  m_run inl w size same os mem0 = Ok (s, ws) /\ ws = l1 ++ (o, a, m) :: l2 ++ (o, a', m') :: l3.
Proof.
  intros (inl & w & size & same & os & s & ws & o & a & a' & m & m' & l1 & l2 & l3 & E & ->). apply C68_once in E. unfold wired in E. rewrite map_app in E. cbn [map fst] in E.
  apply NoDup_remove_2 in E. apply E. apply in_app_iff. right. rewrite map_app. apply in_app_iff. right. now left.
Qed.
Print Assumptions C68_retransmitted_refuted.

(** Once a tracked message has been sent, an acknowledgement of it, or one that answers nothing
    tracked, makes Retry read freed memory: whatever the order in which the vector is gone
    through, unless it answers another message, not sent yet. *)
Theorem C68_acknowledged_refuted : forall inl w size same os s ws m a vs it,
  m_run inl w size same os mem0 = Ok (s, ws) -> Forall (fun x => hdr_ok (n_hdr x)) (made os) -> hdr_ok (n_hdr m) -> acknowledgement m -> whole_vector s vs ->
  In it (m_retry s) -> In (x_obj it) (wired ws) ->
  (forall it', In it' (m_retry s) -> ~ In (x_obj it') (wired ws) -> ~ answers same m a (m_msg s (x_obj it')) (x_addr it')) ->
  m_step inl w size same (OAck m a vs) s = Fault.
Proof.
  intros inl w size same os s ws m a vs it E HF Hm Ha [_ Hv] Hit Hw Hu.
  destruct (run_once inl w size same os mem0 s ws (good0 inl) E) as (_ & _ & Dd & _).
  assert (Hs : forall o, hdr_ok (n_hdr (m_msg s o))) by (apply (run_hdr _ _ _ _ _ _ _ _ E HF); intro o; apply hdr_ok_iff; repeat split; vm_compute; reflexivity).
  cbn [m_step]. unfold m_ack. rewrite (proj2 (ack_bits m Hm) Ha). rewrite (match_fault same s m a vs Hm Hs); [reflexivity|intros k H; now apply Hv| |].
  - intros k it' _ N. destruct (in_dec Nat.eq_dec (x_obj it') (wired ws)) as [X|X]; [left; now apply Dd|]. right. apply Hu; [eapply nth_error_In; exact N|exact X].
  - apply In_nth_error in Hit. destruct Hit as [k N]. exists k, it. split; [|split; [exact N|now apply Dd]]. apply Hv. apply nth_error_Some. congruence.
Qed.
Print Assumptions C68_acknowledged_refuted.

(** As long as nothing was sent or destroyed, an acknowledgement removes the message it
    answers, the first in the order of the vector, and no other. *)
Theorem C68_before : forall inl w size same os s ws m a vs, Forall quiet os ->
  m_run inl w size same os mem0 = Ok (s, ws) -> Forall (fun x => hdr_ok (n_hdr x)) (made os) -> hdr_ok (n_hdr m) -> acknowledgement m -> whole_vector s vs ->
  ws = [] /\ exists s1, m_step inl w size same (OAck m a vs) s = Ok (s1, []) /\ m_pump s1 = m_pump s /\
    ((exists l1 it l2, m_retry s = l1 ++ it :: l2 /\ m_retry s1 = l1 ++ l2 /\ answers same m a (m_msg s (x_obj it)) (x_addr it)) \/
     (s1 = s /\ forall it, In it (m_retry s) -> ~ answers same m a (m_msg s (x_obj it)) (x_addr it))).
Proof.
  intros inl w size same os s ws m a vs Q E HF Hm Ha [_ Hv]. destruct (whole_run _ _ _ _ _ _ _ _ Q (good0 inl) whole0 E) as [[W1 W2] ->]. split; [reflexivity|].
  assert (Hs : forall o, hdr_ok (n_hdr (m_msg s o))) by (apply (run_hdr _ _ _ _ _ _ _ _ E HF); intro o; apply hdr_ok_iff; repeat split; vm_compute; reflexivity).
  cbn [m_step]. unfold m_ack. rewrite (proj2 (ack_bits m Hm) Ha).
  destruct (match_alive same s m a vs Hm Hs) as [(k & it & A & B & C & D)|[A B]]; [intros k H; now apply Hv| | |].
  - intros it H. unfold m_read. destruct (W1 _ (W2 it H)) as [L O]. destruct (m_obj s (x_obj it)); [|congruence]. now rewrite L.
  - rewrite A. cbn [bind]. eexists. split; [reflexivity|]. cbn. split; [reflexivity|]. left. destruct (nth_error_split _ _ C) as (l1 & l2 & El & Ll). exists l1, it, l2. split; [exact El|]. split; [|exact D].
    unfold drop_at. rewrite El, <- Ll, firstn_app, firstn_all, Nat.sub_diag, app_nil_r. f_equal.
    rewrite skipn_app, skipn_all2 by lia. replace (S (length l1) - length l1)%nat with 1%nat by lia. reflexivity.
  - rewrite A. cbn [bind]. eexists. split; [reflexivity|]. split; [reflexivity|]. right. split; [reflexivity|]. intros it H. apply In_nth_error in H. destruct H as [k N].
    apply (B k it); [|exact N]. apply Hv. apply nth_error_Some. congruence.
Qed.
Print Assumptions C68_before.

(** The test "retry.service - isolated case": sent, tracked, popped; the first retransmission
    cannot be sent.  "retry.service - ack": the acknowledgement reads freed memory.  Without
    a send in between it removes the message.  Two messages sent in order. *)
Definition case_con : netmsg := NetMsg (Hdr 65 1 1 35) [9] [].
Definition case_ack : netmsg := NetMsg (Hdr 97 69 1 35) [9] [].
Definition case_start : list mop := [ONew case_con; OSend 0 7; OTrack 0 7 2000 2500; OWire].
Example C68_case : forall inl,
  (exists s, m_run inl 16 4 N.eqb case_start mem0 = Ok (s, [(0%nat, 7, case_con)]) /\ whole_vector s [0%nat] /\ List.length (m_retry s) = 1%nat) /\
  m_run inl 16 4 N.eqb (case_start ++ [OService 4600 0; OWire]) mem0 = Fault /\
  m_run inl 16 4 N.eqb (case_start ++ [OAck case_ack 7 [0%nat]]) mem0 = Fault /\
  (exists s, m_run inl 16 4 N.eqb [ONew case_con; OSend 0 7; OTrack 0 7 2000 2500; OAck case_ack 7 [0%nat]] mem0 = Ok (s, []) /\ m_retry s = []) /\
  (exists s, m_run inl 16 4 N.eqb [ONew case_con; ONew case_ack; OSend 1 8; OSend 0 7; OWire; OWire; OWire] mem0 = Ok (s, [(1%nat, 8, case_ack); (0%nat, 7, case_con)])) /\
  acknowledgement case_ack /\ answers N.eqb case_ack 7 case_con 7 /\ Forall quiet [ONew case_con; OSend 0 7; OTrack 0 7 2000 2500].
Proof.
  intros [|]; (split; [eexists; split; [vm_compute; reflexivity|split; [split; [repeat constructor; intros []|cbn; intro k; lia]|reflexivity]]|];
    split; [vm_compute; reflexivity|]; split; [vm_compute; reflexivity|]; split; [eexists; split; vm_compute; reflexivity|]; split; [eexists; vm_compute; reflexivity|];
    split; [reflexivity|]; split; [repeat split|repeat constructor]).
Qed.

(** As long as nothing faults, the retry queue over memory is the queue of C25-C30, step for
    step, and what is given to the pump is what that queue sends: what is proved there holds
    here too.  [view] shows the queue with the messages the netbufs were made with. *)
Theorem C68_queue : forall inl w size same os s ws o s1 l, m_run inl w size same os mem0 = Ok (s, ws) -> m_step inl w size same o s = Ok (s1, l) ->
  match o with
  | OTrack i a now r => push (new_item w i (m_msg s i) a now r) (view s) = Ok (view s1) /\ queued s1 = queued s
  | OService now k => exists outs, service_retry w now k (view s) = Ok (view s1, outs) /\ queued s1 = queued s ++ map (fun e => (fst (fst e), snd e)) outs
  | OAck m a vs => (whole_vector s vs -> exists k, view s1 = fst (service_ack m k (view s)) /\
      (hdr_type (n_hdr m) = ACK -> is_match same a (hdr_mid (n_hdr m)) (n_tok m) (view s) k = true)) /\ queued s1 = queued s
  | OSend i a => view s1 = view s /\ queued s1 = queued s ++ [(i, a)]
  | OWire => view s1 = view s /\ queued s1 = tl (queued s)
  | ONew _ | ODrop _ => view s1 = view s /\ queued s1 = queued s
  end.
Proof.
  intros inl w size same os s ws o s1 l E D. assert (T0 : tracked mem0) by (split; [cbn; lia|intros it []]).
  exact (proj2 (step_view inl w size same o s s1 l (proj1 (run_once _ _ _ _ _ _ _ _ (good0 inl) E)) (run_tracked _ _ _ _ _ _ _ _ (good0 inl) T0 E) D)).
Qed.
Print Assumptions C68_queue.

(** A message given out and then tracked: at its time it is queued again, with a count of 1
    and twice the delay; an earlier turn leaves it. *)
Example C68_queue_case : forall inl, exists s s1 s2 s3,
  m_run inl 16 4 N.eqb [ONew case_con; OSend 0 7] mem0 = Ok (s, []) /\ m_step inl 16 4 N.eqb (OTrack 0 7 2000 2500) s = Ok (s1, []) /\
  m_step inl 16 4 N.eqb (OService 4499 0) s1 = Ok (s2, []) /\ m_step inl 16 4 N.eqb (OService 4500 0) s2 = Ok (s3, []) /\
  view s1 = [Item 0 0 2500 7 case_con 4500] /\ view s2 = view s1 /\ view s3 = [Item 0 1 2500 7 case_con 9500] /\ queued s2 = [(0%nat, 7)] /\ queued s3 = [(0%nat, 7); (0%nat, 7)].
Proof. intros [|]; do 4 eexists; repeat split; vm_compute; reflexivity. Qed.
