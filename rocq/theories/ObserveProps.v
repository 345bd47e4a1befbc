(** C35, C36: observe registrations and notifications. *)
From Verif Require Import Base UIntModel UIntSpec UIntProofs HeaderModel HeaderSpec HeaderProofs OptEncModel OptSpec StreambufModel DecoderModel DecoderSpec
  NetbufModel NetbufSpec NetbufProofs NetbufProps ContextModel ObserveModel ObserveSpec ObserveProofs.
Local Open Scope N_scope.

(** C35: over any history of requests and rounds of any number of subjects, and
    whatever the application adds to the notifications: the datagrams sent are those
    of the specification, in order, to the registered address, with the
    registration's token and its next number (1, 2, 3, ...), the [k]-th of them (over
    all subjects) with message id [k] modulo 65536. *)
Theorem C35_history : forall A debug cap room emit (ops : list (oop A)) outs st,
  (17 <= room)%nat -> (forall o, In o ops -> req_ok o) ->
  obs_run debug cap room emit ops obs_init = Ok (outs, st) ->
  matches notification 0 (sent outs) (sends [] ops) /\ answered outs = answers ops.
Proof.
  intros A debug cap room emit ops outs st Hr Hok H.
  destruct (run_matches A debug room emit notification (fun mid s mid' s' out T Q E => notify_prefix A debug room emit mid s mid' s' out Hr T Q E) cap ops [] obs_init outs st) as (M & N & _); auto.
  intro i. split; [reflexivity|constructor].
Qed.
Print Assumptions C35_history.

(** the specification, for one registration and [n] rounds: numbers 1 to n *)
Theorem C35_numbers : forall A i c (a : A) n,
  sends [] (OObserve i c a 0 :: repeat (ONotify i) n) = map (fun k => (a, req_token c, N.of_nat k + 1)) (seq 0 n).
Proof.
  intros A i c a n. cbn [sends app].
  assert (G : forall n m pre, subs i pre = [(a, req_token c, N.of_nat m)] ->
    sends pre (repeat (ONotify i) n) = map (fun k => (a, req_token c, N.of_nat k + 1)) (seq m n)).
  { clear n. induction n as [|n IH]; intros m pre H; [reflexivity|]. cbn [repeat sends seq map]. rewrite H. cbn [map app]. f_equal.
    apply IH. rewrite subs_notify, Nat.eqb_refl, H. cbn [map bump]. do 2 f_equal. lia. }
  apply G. cbn [subs rounds]. rewrite Nat.eqb_refl. reflexivity.
Qed.
Print Assumptions C35_numbers.

(** ---- exact content ---- *)

(** options after Observe and a payload, both may depend on token and number *)
Definition body_calls (b : list opt * option (list N)) : list nbcall :=
  map nopt (fst b) ++ match snd b with None => [] | Some p => [NPayload p] end.
Definition emit_body {A} (body : list N -> N -> list opt * option (list N)) (s : session A) : list nbcall :=
  body_calls (body (os_tok s) (os_seq s)).
Definition body_ok (debug : bool) (room : nat) (b : list opt * option (list N)) : Prop :=
  opts_within (fun d l => 0 < l /\ enc_short d l) 6 (fst b) /\ (17 + length (opts_bytes 6 (fst b) ++ pay_bytes (snd b)) <= room)%nat /\
  (debug = false \/ snd b = None).
Definition whole_notification (body : list N -> N -> list opt * option (list N)) (k : N) (tok : list N) (seq : N) (bs : list N) : Prop :=
  exists v, be v = seq /\ minimal v /\ bytes_ok v /\
    bs = wire (Fields 1 1 (len tok) 69 (k mod 65536)) ++ tok ++ opts_bytes 0 ((6, v) :: fst (body tok seq)) ++ pay_bytes (snd (body tok seq)).

Lemma body_run : forall debug room b e out used, body_ok debug room b -> (used <= 17)%nat -> n_sink e = Sink (room - used) out ->
  e_cur (n_enc e) = 6 -> fresh e -> can_option e -> n_debug e = debug -> n_marker e = false ->
  exists xs e', nbe_run (body_calls b) e = Ok (xs, e') /\ s_out (n_sink e') = out ++ opts_bytes 6 (fst b) ++ pay_bytes (snd b).
Proof.
  intros debug room [os p] e out used (Hw & Hl & Hd) Hu Hs He Hf Hc Hdb Hm. cbn [fst snd] in *. rewrite app_length in Hl.
  destruct (short_within os 6 Hw) as [W1 W2].
  destruct (run_opts os e 6 (e_pos (n_enc e)) (room - used)%nat out) as (b & E & E1 & E2 & E3 & E4 & E5 & E6); auto; try lia.
  { destruct (n_enc e). cbn in He |- *. congruence. }
  unfold body_calls. cbn [fst snd]. rewrite nbe_run_app, E. cbn [bind fst snd].
  destruct p as [pb|].
  - destruct Hd as [Hd|Hd]; [|discriminate]. assert (D : n_debug b = false) by congruence. cbn [nbe_run nbe_call]. unfold nbe_payload, nbe_payload_header, assert_not_state, assert_state. rewrite D. cbn [negb orb bind].
    unfold nbe_marker_written. rewrite D, E4, Hm. cbn [pay_bytes length] in Hl.
    unfold sputc. rewrite E2. cbn [s_room]. destruct (room - used - length (opts_bytes 6 os))%nat as [|r] eqn:R; [lia|]. cbn [bind fst snd n_set_state n_set_marker n_set_sink n_set_enc n_sink].
    rewrite sputn_all by lia. cbn [bind fst snd]. eexists. eexists. split; [reflexivity|]. cbn [n_sink n_set_sink n_set_enc s_out pay_bytes]. rewrite <- !app_assoc. reflexivity.
  - cbn [nbe_run bind fst snd]. eexists. eexists. split; [reflexivity|]. rewrite E2. cbn [s_out pay_bytes]. rewrite app_nil_r. reflexivity.
Qed.

Lemma notify_exact : forall A debug room body mid (s : session A), (length (os_tok s) <= 8)%nat ->
  body_ok debug room (body (os_tok s) (os_seq s + 1)) -> mid < 2 ^ 31 - 1 -> os_seq s + 1 < 2 ^ 31 ->
  exists bs, notify_one debug room (emit_body body) mid s = Ok (mid + 1, Session (os_seq s + 1) (os_addr s) (os_tok s), (os_addr s, bs)) /\
    whole_notification body mid (os_tok s) (os_seq s + 1) bs.
Proof.
  intros A debug room body mid [seq a tok] Ht Hb Hm Hq. cbn [os_seq os_addr os_tok] in *.
  assert (P1 : 2 ^ 31 = 2147483648) by reflexivity. assert (P2 : 2 ^ 32 = 4294967296) by reflexivity.
  assert (Hr : (17 <= room)%nat) by (destruct Hb as (_ & Hb & _); lia).
  destruct (notify_front debug room mid tok (seq + 1) Hr Ht Hm ltac:(lia) Hq) as (h & r1 & r2 & E1 & E2 & E3 & b3 & v & E4 & V1 & V2 & V3 & V4 & F1 & F2 & F3 & F4 & F5 & F6 & F7).
  unfold notify_one. cbn [os_seq os_addr os_tok]. rewrite (N.mod_small (seq + 1)) by (rewrite P2; rewrite P1 in Hq; lia).
  destruct (N.ltb_spec mid (2 ^ 31 - 1)); [|lia]. rewrite E1. cbn [bind]. rewrite E2. cbn [bind]. rewrite E3. cbn [bind]. rewrite E4. cbn [bind snd].
  unfold emit_body. cbn [os_tok os_seq].
  destruct (body_run debug room (body tok (seq + 1)) b3 _ _ Hb F2 F1 F3 F4 F5 F6 F7) as (xs & e' & G1 & G2). rewrite G1. cbn [bind snd].
  eexists. split; [reflexivity|]. exists v. split; [exact V1|]. split; [exact V2|]. split; [exact V3|]. rewrite G2.
  cbn [opts_bytes]. rewrite app_nil_r, <- !app_assoc. reflexivity.
Qed.

Lemma each_total : forall A debug room body, (forall tok seq, (length tok <= 8)%nat -> body_ok debug room (body tok seq)) ->
  forall (regs : list (session A)) mid, good_regs regs ->
  (forall s, In s regs -> os_seq s + 1 < 2 ^ 31) -> mid + N.of_nat (length regs) <= 2 ^ 31 - 1 ->
  exists x, for_each debug room (emit_body body) mid regs = Ok x.
Proof.
  intros A debug room body Hb. induction regs as [|s regs IH]; intros mid G Hs Hm; [eexists; reflexivity|].
  inversion G as [|x y [G1 G2] G3]; subst. cbn [length] in Hm. cbn [for_each].
  destruct (notify_exact A debug room body mid s G1 (Hb _ _ G1)) as (bs & E & _); [lia|apply Hs; left; reflexivity|].
  rewrite E. cbn [bind]. destruct (IH (mid + 1) G3) as [[[m r] o] F]; [intros; apply Hs; right; assumption|lia|].
  rewrite F. cbn [bind]. eexists. reflexivity.
Qed.

Lemma subs_length : forall A i (h : list (oop A)), length (subs i h) = registrations i h.
Proof. induction h as [|[j c a code|j] h IH]; cbn [subs registrations]; [reflexivity| |exact IH]. destruct (_ && _); cbn [length]; rewrite IH; reflexivity. Qed.
Lemma subs_rounds : forall A i (h : list (oop A)) x, In x (subs i h) -> snd x <= rounds i h.
Proof.
  induction h as [|[j c a code|j] h IH]; intros x; cbn [subs rounds]; [contradiction| |intro H; apply IH in H; lia].
  destruct (_ && _); [|apply IH]. intros [<-|H]; [cbn; lia|apply IH, H].
Qed.
Lemma registrations_app : forall A i (a b : list (oop A)), registrations i (a ++ b) = (registrations i a + registrations i b)%nat.
Proof. induction a as [|[] a IH]; intros; cbn [app registrations]; rewrite ?IH; lia. Qed.

Lemma body_one_ok : forall A debug room body, (forall tok seq, (length tok <= 8)%nat -> body_ok debug room (body tok seq)) ->
  @one_ok A debug room (emit_body body) (whole_notification body).
Proof.
  intros A debug room body Hb mid s mid' s' out Ht Hq H.
  assert (Hr : (17 <= room)%nat) by (destruct (Hb (os_tok s) 0 Ht) as (_ & X & _); lia).
  destruct (notify_prefix _ _ _ _ _ _ _ _ _ Hr Ht Hq H) as (P1 & P2 & P3 & P4 & P5).
  assert (Hm : mid < 2 ^ 31 - 1) by (unfold notify_one in H; destruct (N.ltb_spec mid (2 ^ 31 - 1)); [assumption|discriminate]).
  destruct (notify_exact A debug room body mid s Ht (Hb _ _ Ht) Hm P3) as (bs & E & W).
  pose proof (eq_trans (eq_sym E) H) as Q. injection Q as _ _ <-. cbn [fst snd]. repeat split; assumption.
Qed.

Lemma run_total : forall A debug room body cap, (forall tok seq, (length tok <= 8)%nat -> body_ok debug room (body tok seq)) ->
  forall (ops : list (oop A)) pre st,
  (forall i, map reg_of (ob_regs st i) = subs i pre /\ good_regs (ob_regs st i)) ->
  (forall o, In o ops -> req_ok o) ->
  (forall i, (registrations i (pre ++ ops) <= cap)%nat) -> (forall i, rounds i (pre ++ ops) < 2 ^ 31) ->
  ob_mid st + N.of_nat (length (sends pre ops)) <= 2 ^ 31 - 1 ->
  exists outs st', obs_run debug cap room (emit_body body) ops st = Ok (outs, st').
Proof.
  intros A debug room body cap Hb. induction ops as [|o ops IH]; intros pre st I Hok Hreg Hrd Hm; [eexists; eexists; reflexivity|].
  cbn [obs_run].
  assert (K : exists o1 st1, obs_step debug cap room (emit_body body) o st = Ok (o1, st1)).
  { pose proof (Hok o (or_introl eq_refl)) as Ho. destruct o as [i c a code|i]; cbn [obs_step].
    - destruct Ho as [Ho1 Ho2]. unfold evaluate_observe. destruct code as [|[p|p|]]; try (eexists; eexists; reflexivity).
      unfold do_register, ctx_token. destruct (N.leb_spec (hdr_tkl (c_hdr c)) 8); [|lia]. cbn [bind].
      specialize (Hreg i). rewrite registrations_app in Hreg. cbn [registrations] in Hreg. rewrite Nat.eqb_refl in Hreg. cbn [andb N.eqb] in Hreg. change (0 =? 0) with true in Hreg. cbn iota in Hreg.
      rewrite <- subs_length, <- (proj1 (I i)), map_length in Hreg. destruct (Nat.ltb_spec (length (ob_regs st i)) cap); [|lia]. cbn [bind]. eexists. eexists. reflexivity.
    - destruct (each_total A debug room body Hb (ob_regs st i) (ob_mid st) (proj2 (I i))) as [[[m r] os] E].
      + intros s Hs. pose proof (in_map reg_of _ _ Hs) as Hin. rewrite (proj1 (I i)) in Hin. apply subs_rounds in Hin. cbn [snd reg_of] in Hin.
        specialize (Hrd i). rewrite rounds_app in Hrd. cbn [rounds] in Hrd. rewrite Nat.eqb_refl in Hrd. lia.
      + cbn [sends] in Hm. rewrite app_length, map_length in Hm. rewrite <- (proj1 (I i)), map_length in Hm. lia.
      + rewrite E. cbn [bind]. eexists. eexists. reflexivity. }
  destruct K as (o1 & st1 & E). rewrite E. cbn [bind fst snd].
  destruct (run_matches A debug room (emit_body body) _ (body_one_ok A debug room body Hb) cap [o] pre st o1 st1 I) as (M1 & M2 & M3 & M4).
  { intros x [<-|[]]. apply Hok. left. reflexivity. }
  { cbn [obs_run]. rewrite E. cbn [bind fst snd]. rewrite app_nil_r. reflexivity. }
  pose proof (matches_length _ _ _ _ _ M1) as ML.
  assert (Mid : ob_mid st1 = ob_mid st + N.of_nat (length (sends pre [o]))) by (rewrite M4; unfold len; rewrite map_length, ML; reflexivity).
  destruct (IH (pre ++ [o]) st1) as (o2 & st2 & F).
  - exact M3.
  - intros x Hx. apply Hok. right. exact Hx.
  - intro i. rewrite <- app_assoc. apply Hreg.
  - intro i. rewrite <- app_assoc. apply Hrd.
  - rewrite Mid. replace (sends pre (o :: ops)) with (sends pre [o] ++ sends (pre ++ [o]) ops) in Hm by (cbn [sends]; rewrite app_nil_r; reflexivity).
    rewrite app_length in Hm. lia.
  - rewrite F. cbn [bind fst snd]. eexists. eexists. reflexivity.
Qed.

(** With well-formed options and payload, room for them, and counters that stay
    below their limits nothing fails, and every datagram is exactly the RFC form. *)
Theorem C35_exact : forall A debug cap room body (ops : list (oop A)),
  (forall tok seq, (length tok <= 8)%nat -> body_ok debug room (body tok seq)) ->
  (forall o, In o ops -> req_ok o) ->
  (forall i, (registrations i ops <= cap)%nat) -> (forall i, rounds i ops < 2 ^ 31) ->
  N.of_nat (length (sends [] ops)) < 2 ^ 31 ->
  exists outs st, obs_run debug cap room (emit_body body) ops obs_init = Ok (outs, st) /\
    matches (whole_notification body) 0 (sent outs) (sends [] ops) /\ answered outs = answers ops.
Proof.
  intros A debug cap room body ops Hb Hok Hreg Hrd Hs.
  assert (I : forall i, map reg_of (ob_regs (@obs_init A) i) = subs i [] /\ good_regs (ob_regs (@obs_init A) i)) by (intro i; split; [reflexivity|constructor]).
  destruct (run_total A debug room body cap Hb ops [] obs_init I Hok Hreg Hrd) as (outs & st & E); [cbn [obs_init ob_mid]; lia|].
  exists outs, st. split; [exact E|].
  destruct (run_matches A debug room (emit_body body) _ (body_one_ok A debug room body Hb) cap ops [] obs_init outs st I Hok E) as (M & N & _). auto.
Qed.
Print Assumptions C35_exact.

(** Full claim (false): the Observe value keeps to RFC 7641 (at most three bytes).
    From the 2^24-th notification of a registration it takes four ... *)
Theorem C35_long_value_refuted : forall k tok seq bs, 2 ^ 24 <= seq -> seq < 2 ^ 31 -> notification k tok seq bs ->
  exists v rest, bs = wire (Fields 1 1 (len tok) 69 (k mod 65536)) ++ tok ++ opts_bytes 0 [(6, v)] ++ rest /\ length v = 4%nat.
Proof.
  intros k tok seq bs H1 H2 (v & rest & V1 & V2 & V3 & E). exists v, rest. split; [exact E|].
  assert (Hs : seq < 2 ^ 64) by (eapply N.lt_trans; [exact H2|reflexivity]).
  pose proof (minimal_unique v V3 V2) as U. rewrite V1 in U. rewrite <- U, uenc_length.
  assert (A : (sig seq <= 4)%nat) by (apply sig_le; change (256 ^ N.of_nat 4) with 4294967296; change (2 ^ 31) with 2147483648 in H2; lia).
  destruct (le_lt_dec (sig seq) 3) as [L|L]; [|lia]. pose proof (sig_upper seq) as B.
  assert (C : 256 ^ N.of_nat (sig seq) <= 256 ^ N.of_nat 3) by (apply N.pow_le_mono_r; lia). change (256 ^ N.of_nat 3) with (2 ^ 24) in C. lia.
Qed.
Print Assumptions C35_long_value_refuted.

(** ... and the 2^31-th never leaves the encoder: the value is negative there and
    the loop that counts its bytes does not end. *)
Theorem C35_last_number_refuted : forall A debug room emit mid (s : session A), (17 <= room)%nat -> (length (os_tok s) <= 8)%nat ->
  mid < 2 ^ 31 - 1 -> os_seq s = 2 ^ 31 - 1 -> notify_one debug room emit mid s = NoFuel.
Proof.
  intros A debug room emit mid [seq a tok] Hr Ht Hm Hs. cbn [os_seq os_tok] in *.
  destruct (notify_front debug room mid tok 1 Hr Ht Hm ltac:(lia) ltac:(reflexivity)) as (h & r1 & r2 & E1 & E2 & E3 & _).
  unfold notify_one. cbn [os_seq os_addr os_tok]. destruct (N.ltb_spec mid (2 ^ 31 - 1)); [|lia].
  rewrite E1. cbn [bind]. rewrite E2. cbn [bind]. rewrite E3. cbn [bind]. rewrite Hs. reflexivity.
Qed.
Print Assumptions C35_last_number_refuted.

Definition sample_ctx (t : list N) : ctx := Ctx (Hdr (0x40 + len t) 1 0 7) (t ++ repeat 0 (8 - length t)) true.
Definition sample_ops : list (oop N) :=
  [OObserve 0 (sample_ctx [1; 2]) 1001 0; ONotify 0; OObserve 0 (sample_ctx [9]) 1002 0; OObserve 1 (sample_ctx []) 1003 0; ONotify 0; ONotify 1].
Definition sample_body (tok : list N) (seq : N) : list opt * option (list N) := ([(12, [0])], Some [104; 105]).

Example C35_case : exists st,
  obs_run false 4 64 (emit_body sample_body) sample_ops obs_init = Ok
    ([OReply 67; OSend 1001 ([0x52; 69; 0; 0] ++ [1; 2] ++ [0x61; 1; 0x61; 0; 255; 104; 105]); OReply 67; OReply 67;
      OSend 1001 ([0x52; 69; 0; 1] ++ [1; 2] ++ [0x61; 2; 0x61; 0; 255; 104; 105]);
      OSend 1002 ([0x51; 69; 0; 2] ++ [9] ++ [0x61; 1; 0x61; 0; 255; 104; 105]);
      OSend 1003 ([0x50; 69; 0; 3] ++ [0x61; 1; 0x61; 0; 255; 104; 105])], st) /\
  sends [] sample_ops = [(1001, [1; 2], 1); (1001, [1; 2], 2); (1002, [9], 1); (1003, [], 1)] /\
  body_ok false 64 (sample_body [] 1) /\ (forall o, In o sample_ops -> req_ok o).
Proof.
  eexists. split; [vm_compute; reflexivity|]. split; [vm_compute; reflexivity|]. split.
  - unfold body_ok, sample_body. cbn [fst snd opts_within]. unfold enc_short, len. cbn [length]. split; [lia|]. split; [apply Nat.leb_le; vm_compute; reflexivity|left; reflexivity].
  - intros o H. cbn in H. destruct H as [<-|[<-|[<-|[<-|[<-|[<-|[]]]]]]]; cbn; try exact I; vm_compute; split; congruence || reflexivity.
Qed.

(** ---- C36 ---- *)

Definition same_obs {A} (a b : obs A) : Prop := ob_mid a = ob_mid b /\ forall i, ob_regs a i = ob_regs b i.

Lemma step_same : forall A debug cap room emit (o : oop A) a b, same_obs a b ->
  match obs_step debug cap room emit o a, obs_step debug cap room emit o b with
  | Ok (x, a'), Ok (y, b') => x = y /\ same_obs a' b'
  | Fault, Fault | NoFuel, NoFuel => True
  | _, _ => False
  end.
Proof.
  intros A debug cap room emit o a b [Hm Hr]. destruct o as [i c ad code|i]; cbn [obs_step]; rewrite (Hr i).
  - destruct (evaluate_observe _ _ _ _ _) as [[rc regs]| |]; cbn [bind fst snd]; auto. split; [reflexivity|]. split; [exact Hm|].
    intro j. cbn [ob_regs]. unfold set_regs. destruct (Nat.eqb j i); auto.
  - rewrite Hm. destruct (for_each _ _ _ _ _) as [[[m r] os]| |]; cbn [bind fst snd]; auto. split; [reflexivity|]. split; [reflexivity|].
    intro j. cbn [ob_regs]. unfold set_regs. destruct (Nat.eqb j i); auto.
Qed.

Lemma run_same : forall A debug cap room emit (ops : list (oop A)) a b, same_obs a b ->
  match obs_run debug cap room emit ops a, obs_run debug cap room emit ops b with
  | Ok (x, a'), Ok (y, b') => x = y /\ same_obs a' b'
  | Fault, Fault | NoFuel, NoFuel => True
  | _, _ => False
  end.
Proof.
  induction ops as [|o ops IH]; intros a b H; cbn [obs_run]; [auto|].
  pose proof (step_same A debug cap room emit o a b H) as S.
  destruct (obs_step _ _ _ _ o a) as [[x a']| |], (obs_step _ _ _ _ o b) as [[y b']| |]; cbn [bind fst snd]; try contradiction; auto.
  destruct S as [-> S]. specialize (IH _ _ S). destruct (obs_run _ _ _ _ ops a') as [[? ?]| |], (obs_run _ _ _ _ ops b') as [[? ?]| |]; cbn [bind fst snd]; try contradiction; auto.
  destruct IH as [-> IH]. auto.
Qed.

Lemma run_app : forall A debug cap room emit (p q : list (oop A)) st,
  obs_run debug cap room emit (p ++ q) st = bind (obs_run debug cap room emit p st) (fun x => bind (obs_run debug cap room emit q (snd x)) (fun y => Ok (fst x ++ fst y, snd y))).
Proof.
  induction p as [|o p IH]; intros q st; cbn [app obs_run].
  - cbn [bind fst snd app]. destruct (obs_run _ _ _ _ q st) as [[? ?]| |]; reflexivity.
  - destruct (obs_step _ _ _ _ o st) as [[x s1]| |]; cbn [bind fst snd]; auto. rewrite IH.
    destruct (obs_run _ _ _ _ p s1) as [[y s2]| |]; cbn [bind fst snd]; auto. destruct (obs_run _ _ _ _ q s2) as [[z s3]| |]; cbn [bind fst snd]; auto.
    rewrite app_assoc. reflexivity.
Qed.

(** Full claim (false): after a deregistration nothing more is sent to that client.
    A deregistration, wherever it stands in whatever history, is answered with
    success and changes no later output at all. *)
Theorem C36_deregister_refuted : forall A debug cap room emit (pre post : list (oop A)) i c a,
  match obs_run debug cap room emit (pre ++ post) obs_init, obs_run debug cap room emit (pre ++ OObserve i c a 1 :: post) obs_init with
  | Ok (outs, _), Ok (outs', _) => exists x y, outs = x ++ y /\ outs' = x ++ OReply 67 :: y /\ sent outs' = sent outs
  | Fault, Fault | NoFuel, NoFuel => True
  | _, _ => False
  end.
Proof.
  intros A debug cap room emit pre post i c a. rewrite !run_app. destruct (obs_run _ _ _ _ pre obs_init) as [[x s1]| |]; cbn [bind fst snd]; auto.
  cbn [obs_run obs_step evaluate_observe bind fst snd]. unfold do_deregister.
  assert (H : same_obs s1 (Obs (ob_mid s1) (set_regs i (ob_regs s1 i) (ob_regs s1)))).
  { split; [reflexivity|]. intro j. cbn [ob_regs]. unfold set_regs. destruct (Nat.eqb_spec j i) as [->|]; reflexivity. }
  pose proof (run_same A debug cap room emit post s1 _ H) as S.
  destruct (obs_run _ _ _ _ post s1) as [[y s2]| |], (obs_run _ _ _ _ post (Obs _ _)) as [[z s3]| |]; cbn [bind fst snd]; try contradiction; auto.
  destruct S as [<- _]. exists x, y. split; [reflexivity|]. split; [reflexivity|]. rewrite !sent_app. reflexivity.
Qed.
Print Assumptions C36_deregister_refuted.

(** In particular the client goes on receiving. *)
Theorem C36_still_notified_refuted : forall A debug cap room body (c : ctx) (a : A) i,
  (forall tok seq, (length tok <= 8)%nat -> body_ok debug room (body tok seq)) -> req_ok (OObserve i c a 0) -> (1 <= cap)%nat ->
  exists bs st, obs_run debug cap room (emit_body body) [OObserve i c a 0; OObserve i c a 1; ONotify i] obs_init = Ok ([OReply 67; OReply 67; OSend a bs], st) /\
    whole_notification body 0 (req_token c) 1 bs.
Proof.
  intros A debug cap room body c a i Hb Hr Hc. destruct Hr as [H1 H2].
  cbn [obs_run obs_step evaluate_observe obs_init ob_regs ob_mid]. unfold do_register, do_deregister, ctx_token.
  destruct (N.leb_spec (hdr_tkl (c_hdr c)) 8); [|lia]. cbn [bind length]. destruct (Nat.ltb_spec 0 cap); [|lia]. cbn [bind fst snd app ob_regs ob_mid].
  unfold set_regs. rewrite !Nat.eqb_refl. cbn [for_each]. fold (req_token c).
  destruct (notify_exact A debug room body 0 (Session 0 a (req_token c))) as (bs & E & W).
  - cbn [os_tok]. unfold req_token. rewrite firstn_length. lia.
  - apply Hb. cbn [os_tok]. unfold req_token. rewrite firstn_length. lia.
  - reflexivity.
  - reflexivity.
  - cbn [os_seq os_addr os_tok] in E, W. change (0 + 1) with 1 in E, W. rewrite E. cbn [bind map fst snd app]. eexists. eexists. split; [reflexivity|exact W].
Qed.
Print Assumptions C36_still_notified_refuted.

(** A client that asks twice gets everything twice (RFC 7641 4.1 asks for one entry
    per endpoint and token). *)
Theorem C36_double_registration_refuted : forall A i c (a : A) pre, subs i (pre ++ [OObserve i c a 0; OObserve i c a 0]) = subs i pre ++ [(a, req_token c, 0); (a, req_token c, 0)].
Proof.
  intros A i c a pre. change [OObserve i c a 0; OObserve i c a 0] with ([OObserve i c a 0] ++ [OObserve i c a 0]).
  rewrite app_assoc, !subs_reg, Nat.eqb_refl, <- app_assoc. reflexivity.
Qed.
Print Assumptions C36_double_registration_refuted.

(** The option observer: register and deregister are not told apart; which of the
    two happens is up to a member nobody sets. *)
Theorem C36_observer_refuted : forall A code pre post junk c flag (regs : list (session A)),
  bind (oo_options code (pre ++ (6, [0]) :: post) ICurrently) (fun st => oo_complete flag junk c st regs) =
  bind (oo_options code (pre ++ (6, [1]) :: post) ICurrently) (fun st => oo_complete flag junk c st regs).
Proof.
  intros A code pre post junk c flag regs. f_equal. generalize ICurrently as st. induction pre as [|[n v] pre IH]; intros st.
  - reflexivity.
  - cbn [app oo_options]. destruct (oo_option code n v true st); cbn [bind]; [apply IH|reflexivity..].
Qed.
Print Assumptions C36_observer_refuted.

Theorem C36_observer_flag_refuted : forall A junk c (regs : list (session A)), hdr_tkl (c_hdr c) <= 8 ->
  oo_complete true junk c IAlways regs = Ok (Session (fst junk) (snd junk) (req_token c) :: regs) /\ oo_complete false junk c IAlways regs = Ok regs.
Proof. intros A junk c regs H. unfold oo_complete, ctx_token. destruct (N.leb_spec (hdr_tkl (c_hdr c)) 8); [|lia]. split; reflexivity. Qed.
Print Assumptions C36_observer_flag_refuted.

(** Register (0) in its RFC form is an empty value; the observer asserts on it. *)
Theorem C36_observer_empty_fault : forall code st, oo_option code 6 [] true st = Fault.
Proof. reflexivity. Qed.
Print Assumptions C36_observer_empty_fault.

(** What the option observer makes of the options of a request: the last Observe option decides,
    without one it is not interested as soon as there is a path. *)
Definition observe_last (os : list opt) (x : N) : Prop := exists p q, os = p ++ (6, [x]) :: q /\ forall u, ~ In (6, u) q.
Definition observe_bytes (code : N) (os : list opt) : Prop := forall v, In (6, v) os -> code = 1 /\ length v = 1%nat.
Definition interest_of (os : list opt) (st : interest) : Prop :=
  match st with
  | IAlways => exists x, observe_last os x /\ x <= 1
  | INever => (exists x, observe_last os x /\ 1 < x) \/ (forall u, ~ In (6, u) os) /\ exists v, In (11, v) os
  | ICurrently => forall v, ~ In (6, v) os /\ ~ In (11, v) os
  end.

Lemma oo_options_app : forall code a b st, oo_options code (a ++ b) st = bind (oo_options code a st) (oo_options code b).
Proof. induction a as [|[n v] a IH]; intros b st; cbn [app oo_options bind]; [reflexivity|]. destruct (oo_option code n v true st); cbn [bind]; [apply IH|reflexivity..]. Qed.

Lemma oo_other : forall code n v st, n <> 6 -> n <> 11 -> oo_option code n v true st = Ok st.
Proof.
  intros code n v st H6 H11. unfold oo_option. destruct n as [|[[[[?|?|]|[?|?|]|]|[[?|?|]|[?|?|]|]|]|[[[?|?|]|[?|?|]|]|[[?|?|]|[?|?|]|]|]|]]; try reflexivity; congruence.
Qed.

Lemma observe_last_other : forall os n v x, n <> 6 -> observe_last os x -> observe_last (os ++ [(n, v)]) x.
Proof.
  intros os n v x H (p & q & -> & Q). exists p, (q ++ [(n, v)]). split; [rewrite <- app_assoc; reflexivity|].
  intros u I. apply in_app_iff in I. destruct I as [I|[I|[]]]; [now apply Q in I|injection I as X _; congruence].
Qed.

Theorem C36_observer_interest : forall code os,
  (observe_bytes code os -> exists st, oo_options code os ICurrently = Ok st /\ interest_of os st) /\
  (~ observe_bytes code os -> oo_options code os ICurrently = Fault).
Proof.
  intros code os. induction os as [|[n v] os [IH1 IH2]] using rev_ind.
  - split; [intros _; exists ICurrently; split; [reflexivity|intro v; split; intros []]|]. intro H. exfalso. apply H. intros v [].
  - rewrite oo_options_app. cbn [oo_options].
    assert (Dec : observe_bytes code os \/ ~ observe_bytes code os).
    { clear. induction os as [|[n v] os [IH|IH]]; [left; intros v []| |right; intro H; apply IH; intros u U; apply H; now right].
      destruct (N.eq_dec n 6) as [->|Hn]; [|left; intros u [U|U]; [injection U as X _; congruence|now apply IH]].
      destruct (N.eq_dec code 1) as [->|Hc]; [|right; intro H; destruct (H v (or_introl eq_refl)); congruence].
      destruct (Nat.eq_dec (length v) 1) as [Hl|Hl]; [left; intros u [U|U]; [injection U as <-; split; [reflexivity|exact Hl]|now apply IH]|right; intro H; destruct (H v (or_introl eq_refl)); congruence]. }
    destruct Dec as [D|D]; [|split; [intro H; exfalso; apply D; intros u U; apply H; apply in_app_iff; now left|intros _; rewrite (IH2 D); reflexivity]].
    destruct (IH1 D) as (st & E & I). rewrite E. cbn [bind]. clear IH1 IH2.
    assert (Old : n <> 6 -> observe_bytes code (os ++ [(n, v)])) by (intros Hn u U; apply in_app_iff in U; destruct U as [U|[U|[]]]; [now apply D|injection U as X _; congruence]).
    destruct (N.eq_dec n 6) as [->|H6]; [|split; [intros _|intro X; exfalso; apply X, Old, H6]].
    + assert (S1 : oo_option code 6 v true st = if (length v =? 1)%nat && (code =? 1) && true then match v with [0] | [1] => Ok IAlways | _ => Ok INever end else Fault) by reflexivity. rewrite S1. rewrite andb_true_r.
      destruct (Nat.eqb_spec (length v) 1) as [Hl|Hl]; cbn [andb]; [|split; [intro H; destruct (H v) as (_ & X); [apply in_app_iff; right; now left|contradiction]|reflexivity]].
      destruct (N.eqb_spec code 1) as [Hc|Hc]; [|split; [intro H; destruct (H v) as (X & _); [apply in_app_iff; right; now left|contradiction]|reflexivity]].
      split; [intros _|intro X; exfalso; apply X; intros u U; apply in_app_iff in U; destruct U as [U|[U|[]]]; [now apply D|injection U as <-; split; assumption]].
      destruct v as [|x [|y v]]; try discriminate Hl.
      assert (OL : observe_last (os ++ [(6, [x])]) x) by (exists os, []; split; [reflexivity|intros u []]).
      destruct (N.le_gt_cases x 1) as [Hx|Hx].
      * exists IAlways. split; [|exists x; split; assumption]. assert (Y : x = 0 \/ x = 1) by lia. destruct Y as [-> | ->]; reflexivity.
      * exists INever. split; [|left; exists x; split; assumption]. destruct x as [|[x|x|]]; try reflexivity; lia.
    + destruct (N.eq_dec n 11) as [->|H11].
      * destruct st; cbn [oo_option bind]; [exists INever|exists IAlways|exists INever]; (split; [reflexivity|]); cbn [interest_of] in *.
        -- right. split; [intros u U; apply in_app_iff in U; destruct U as [U|[U|[]]]; [destruct (I u) as (X & _); contradiction|discriminate]|]. exists v. apply in_app_iff. right. now left.
        -- destruct I as (x & X & Y). exists x. split; [now apply observe_last_other|exact Y].
        -- destruct I as [(x & X & Y)|(X & Y)]; [left; exists x; split; [now apply observe_last_other|exact Y]|right].
           split; [intros u U; apply in_app_iff in U; destruct U as [U|[U|[]]]; [now apply X in U|discriminate]|]. exists v. apply in_app_iff. right. now left.
      * rewrite (oo_other code n v st H6 H11). cbn [bind]. exists st. split; [reflexivity|]. destruct st; cbn [interest_of] in *.
        -- intro u. destruct (I u) as (X & Y). split; intro U; apply in_app_iff in U; (destruct U as [U|[U|[]]]; [contradiction|injection U as Z _; congruence]).
        -- destruct I as (x & X & Y). exists x. split; [now apply observe_last_other|exact Y].
        -- destruct I as [(x & X & Y)|(X & (w & Y))]; [left; exists x; split; [now apply observe_last_other|exact Y]|right].
           split; [intros u U; apply in_app_iff in U; destruct U as [U|[U|[]]]; [now apply X in U|injection U as Z _; congruence]|]. exists w. apply in_app_iff. now left.
Qed.
Print Assumptions C36_observer_interest.

Example C36_observer_interest_case : oo_options 1 [(3, [97]); (6, [0]); (6, [2]); (11, [97])] ICurrently = Ok INever /\
  oo_options 1 [(6, [5]); (6, [1]); (11, [97]); (12, [])] ICurrently = Ok IAlways /\ oo_options 1 [(6, [5]); (12, [])] ICurrently = Ok INever /\ oo_options 2 [(6, [0])] ICurrently = Fault /\
  observe_bytes 1 [(6, [5]); (6, [1]); (11, [97]); (12, [])].
Proof. do 4 (split; [reflexivity|]). intros v [E|[E|[E|[E|[]]]]]; try discriminate; injection E as <-; split; reflexivity. Qed.

Example C36_case : exists st bs,
  obs_run false 4 64 (emit_body sample_body) [OObserve 0 (sample_ctx [1; 2]) 1001 0; OObserve 0 (sample_ctx [1; 2]) 1001 1; ONotify 0; OObserve 0 (sample_ctx [1]) 5 2] obs_init
    = Ok ([OReply 67; OReply 67; OSend 1001 bs; OReply 130], st) /\
  oo_options 1 [(6, [0]); (11, [97])] ICurrently = Ok IAlways /\ oo_options 1 [(11, [97])] ICurrently = Ok INever.
Proof. eexists. eexists. split; [vm_compute; reflexivity|]. split; reflexivity. Qed.
