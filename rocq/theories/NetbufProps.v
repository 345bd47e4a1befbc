(** C24, C45, C46: NetBufEncoder. *)
From Verif Require Import Base UIntModel UIntSpec UIntProps HeaderModel OptEncModel OptSpec StreambufModel OptEncProofs StreambufProofs
  OptDecModel OptDecSpec DecoderModel DecoderSpec DecoderProofs DecoderProps NetbufModel NetbufSpec NetbufProofs.
Local Open Scope N_scope.

(** * C24: sequences of options *)

Lemma short_within : forall os prev, opts_within (fun d l => 0 < l /\ enc_short d l) prev os ->
  opts_within nb_guard prev os /\ Forall (fun o => len (snd o) < 65536) os.
Proof.
  induction os as [|[n v] os IH]; intros prev Hw; cbn [opts_within] in *; [auto|].
  destruct Hw as (A & B & (C1 & C2) & D). destruct (IH n D) as [I1 I2]. split.
  - split; [exact A|]. split; [exact B|]. split; [split; auto|exact I1].
  - constructor; [cbn [snd]; destruct C2; lia|exact I2].
Qed.

(** From a new encoder (or one that just finished an option), any sequence of
    options with values of 1 to 12 bytes comes out in RFC 7252 form, every call
    reporting success, if there is room. *)
Theorem C24_sequence : forall os b prev pos room out,
  n_enc b = OEnc (e_st (n_enc b)) prev pos -> n_sink b = Sink room out -> fresh b -> can_option b ->
  opts_within (fun d l => 0 < l /\ enc_short d l) prev os -> (length (opts_bytes prev os) <= room)%nat ->
  exists b', nbe_run (map (fun o => NOption (fst o) (snd o)) os) b = Ok (repeat true (length os), b') /\
    s_out (n_sink b') = out ++ opts_bytes prev os /\ e_cur (n_enc b') = last_number prev os.
Proof.
  intros os b prev pos room out He Hs Hf Hc Hw Hr.
  destruct (short_within os prev Hw) as [W1 W2]. destruct (run_opts os b prev pos room out He Hs Hf Hc W1 W2 Hr) as (b' & A & B & C & _).
  exists b'. split; [exact A|]. rewrite C. auto.
Qed.
Print Assumptions C24_sequence.

(** A zero-length option without value comes out right ... *)
Theorem C24_zero_length : forall num b cur pos room out,
  n_enc b = OEnc (e_st (n_enc b)) cur pos -> n_sink b = Sink room out -> fresh b -> can_option b ->
  cur <= num -> num < 65536 -> num - cur <= 241 -> (length (opt_head (num - cur) 0) < room)%nat ->
  exists b', nbe_option_none num b = Ok (true, b') /\ s_out (n_sink b') = out ++ opt_head (num - cur) 0 /\ e_st (n_enc b') = OptionValueDone /\ can_option b'.
Proof.
  intros num b cur pos room out He Hs Hf Hc Hle Hn Hd Hr. unfold nbe_option_none.
  destruct (header_good num 0 b cur pos room out He Hs Hf Hc Hle Hn ltac:(lia) ltac:(left; unfold enc_short; lia) Hr) as (p & E).
  eexists. split; [exact E|]. split; [reflexivity|]. split; [reflexivity|]. unfold can_option. cbn. destruct (n_debug b); auto.
Qed.
Print Assumptions C24_zero_length.

(** ... but leaves the encoder in a state from which the next zero-length option
    writes nothing and reports success, whatever its number and whatever the room, ... *)
Theorem C24_zero_twice_refuted : forall num b, e_st (n_enc b) = OptionValueDone -> can_option b ->
  exists b', nbe_option_none num b = Ok (true, b') /\ s_out (n_sink b') = s_out (n_sink b) /\ e_st (n_enc b') = OptionValueDone.
Proof.
  intros num b He Hc. unfold nbe_option_none, nbe_option_header, nbe_option_header_fuel. destruct (asserts_ok b Hc) as (-> & -> & ->). cbn [bind].
  rewrite He. change (head_done (0 mod 65536)) with OptionValueDone. unfold nbe_fuel. rewrite Nat.add_comm. cbn [Nat.add].
  rewrite nl_stop by (left; exact He). cbn [bind fst snd]. rewrite He. cbn [ostate_eqb]. eexists. split; [reflexivity|]. cbn. auto.
Qed.
Print Assumptions C24_zero_twice_refuted.

(** ... and from which an option with a value never returns. *)
Theorem C24_zero_then_value_refuted : forall num v b last_chunk, e_st (n_enc b) = OptionValueDone -> can_option b ->
  v <> [] -> len v < 65536 -> s_room (n_sink b) <> O -> forall fuel, nbe_option_fuel fuel num v last_chunk b = NoFuel.
Proof.
  intros num v b lc He Hc Hv Hl Hr fuel. unfold nbe_option_fuel, nbe_option_header_fuel. destruct (asserts_ok b Hc) as (-> & -> & ->). cbn [bind].
  fold (len v). rewrite (N.mod_small (len v)) by exact Hl. rewrite He.
  assert (X : head_done (len v) = OptionValue) by (unfold head_done, len in *; destruct (N.ltb_spec 0 (N.of_nat (length v))); [reflexivity|destruct v; [congruence|cbn [length] in *; lia]]).
  rewrite X.
  assert (D : forall f o e, e_st e = OptionDone -> nbe_loop f OptionValue o e (n_sink b) = NoFuel).
  { induction f as [|f IH]; intros o e Ho; [reflexivity|]. rewrite (nl_none _ _ _ _ _ e); [apply IH; exact Ho|split; [congruence|exact Hr]|].
    unfold generate_iterate. rewrite Ho. reflexivity. }
  assert (L : forall o, nbe_loop fuel OptionValue o (n_enc b) (n_sink b) = NoFuel).
  { intros o. destruct fuel as [|f]; [reflexivity|]. rewrite (nl_none _ _ _ _ _ (OEnc OptionDone (e_cur (n_enc b)) (e_pos (n_enc b)))); [apply D; reflexivity|split; [congruence|exact Hr]|].
    unfold generate_iterate. rewrite He. reflexivity. }
  rewrite L. reflexivity.
Qed.
Print Assumptions C24_zero_then_value_refuted.

(** An empty value given to the value overloads (so also the integer 0) fires an
    assertion. *)
Theorem C24_empty_value_refuted : forall num b cur pos room out,
  n_enc b = OEnc (e_st (n_enc b)) cur pos -> n_sink b = Sink room out -> fresh b -> can_option b ->
  cur <= num -> num < 65536 -> num - cur <= 241 -> (length (opt_head (num - cur) 0) < room)%nat ->
  nbe_option num [] true b = Fault /\ nbe_option_int num 0 b = Fault.
Proof.
  intros num b cur pos room out He Hs Hf Hc Hle Hn Hd Hr.
  assert (X : nbe_option num [] true b = Fault).
  { unfold nbe_option, nbe_option_fuel. cbn [length]. change (N.of_nat 0) with 0.
    destruct (header_good num 0 b cur pos room out He Hs Hf Hc Hle Hn ltac:(lia) ltac:(left; unfold enc_short; lia) Hr) as (p & E).
    unfold nbe_option_header in E. rewrite E. reflexivity. }
  split; [exact X|]. unfold nbe_option_int. change (layer2_set 4 0) with (Ok (@nil N)). cbn [bind]. exact X.
Qed.
Print Assumptions C24_empty_value_refuted.

Example C24_case :
  nbe_run [NHeader (Hdr 0x41 1 0 7); NToken [9]; NOption 11 [97]; NOptionInt 12 300; NOptionNone 60; NOptionNone 61; NPayload [5]] (nbe_init false 40) =
    Ok ([true; true; true; true; true; true; true],
        NBE false (OEnc OptionValueDone 60 1) (Sink 26 [0x41; 1; 0; 7; 9; 0xB1; 97; 0x12; 1; 44; 0xD0; 35; 255; 5]) RHeader true (Some 1%nat)) /\
  opts_within (fun d l => 0 < l /\ enc_short d l) 0 [(11, [97]); (12, [1; 44])].
Proof. split; [vm_compute; reflexivity|]. cbn [opts_within]. unfold enc_short, len. cbn [length]. repeat split; lia. Qed.

(** * C45: continuing in further chunks *)

(** However the netbuf is cut into chunks (empty ones included), repeating the
    header call until it says true writes the RFC header once. *)
Theorem C45_header_resumes : forall caps num l b cur pos room out,
  n_enc b = OEnc (e_st (n_enc b)) cur pos -> n_sink b = Sink room out -> fresh b -> can_option b ->
  cur <= num -> num < 65536 -> l < 65536 -> enc_short (num - cur) l \/ enc_long (num - cur) l ->
  (length (opt_head (num - cur) l) < room + total caps)%nat ->
  exists b', header_retry caps num l b = Ok (true, b') /\ s_out (n_sink b') = out ++ opt_head (num - cur) l /\ e_cur (n_enc b') = num.
Proof.
  intros caps num l b cur pos room out He Hs Hf Hc Hle Hn Hl Hg Hr.
  destruct (start_heads num l b cur pos room out He Hs Hf Hle Hn Hl Hg) as [S1 S2].
  destruct (header_retry_good caps num l b out room (out ++ opt_head (num - cur) l)) as (b' & A & B & C & D); auto; [rewrite app_length; lia|].
  exists b'. auto.
Qed.
Print Assumptions C45_header_resumes.

(** And an option with a value is written once and whole over any chunks, by a
    caller that knows which part was cut. *)
Theorem C45_option_resumes : forall caps num v b cur pos room out,
  n_enc b = OEnc (e_st (n_enc b)) cur pos -> n_sink b = Sink room out -> fresh b -> can_option b ->
  cur <= num -> num < 65536 -> len v < 65536 -> v <> [] -> enc_short (num - cur) (len v) \/ enc_long (num - cur) (len v) ->
  (length (opt_head (num - cur) (len v) ++ v) <= room + total caps)%nat ->
  exists b', option_retry caps num v b = Ok (true, b') /\ s_out (n_sink b') = out ++ opt_head (num - cur) (len v) ++ v /\
    e_cur (n_enc b') = num /\ fresh b' /\ can_option b'.
Proof.
  intros caps num v b cur pos room out He Hs Hf Hc Hle Hn Hl Hv Hg Hr.
  destruct (start_heads num (len v) b cur pos room out He Hs Hf Hle Hn Hl Hg) as [S1 S2].
  destruct (option_retry_good caps num v b room out (out ++ opt_head (num - cur) (len v))) as (b' & A & B & C & D & E); auto; [rewrite !app_length in *; lia|].
  exists b'. rewrite <- app_assoc in B. auto.
Qed.
Print Assumptions C45_option_resumes.

(** From the results of the call alone the caller cannot know: in both of these
    situations the call says false and written() is 1; in the first one byte of
    the header was written, in the second one byte of the value. *)
Theorem C45_ambiguous_refuted : exists b1 b2,
  nbe_option 60 [1; 2; 3] true (n_set_state RTokenDone (nbe_init true 1)) = Ok (false, b1) /\
  nbe_option 60 [1; 2; 3] true (n_set_state RTokenDone (nbe_init true 3)) = Ok (false, b2) /\
  n_written b1 = Some 1%nat /\ n_written b2 = Some 1%nat /\ value_cut b1 = false /\ value_cut b2 = true.
Proof. eexists. eexists. split; [vm_compute; reflexivity|]. split; [vm_compute; reflexivity|]. repeat split. Qed.
Print Assumptions C45_ambiguous_refuted.

(** A header that exactly fills the chunk is reported as not written. *)
Theorem C45_exact_fit_refuted : exists b, nbe_option_none 5 (n_set_state RTokenDone (nbe_init true 1)) = Ok (false, b) /\ s_out (n_sink b) = opt_head 5 0.
Proof. eexists. split; vm_compute; reflexivity. Qed.
Print Assumptions C45_exact_fit_refuted.

Example C45_case : exists b, option_retry [1; 0; 2; 5]%nat 300 [1; 2; 3] (n_set_state RTokenDone (nbe_init true 1)) = Ok (true, b) /\
  s_out (n_sink b) = [0xE3; 0; 31; 1; 2; 3] /\ opt_head 300 3 = [0xE3; 0; 31].
Proof. eexists. split; [vm_compute; reflexivity|]. split; vm_compute; reflexivity. Qed.

(** * C46: whole messages *)

Definition nb_calls (m : msg) : list nbcall :=
  [NHeader (m_hdr m); NToken (m_tok m)] ++ map (fun o => NOption (fst o) (snd o)) (m_opts m) ++
  match m_pay m with None => [] | Some b => [NPayload b] end.

Lemma nbe_run_app : forall a b s, nbe_run (a ++ b) s =
  bind (nbe_run a s) (fun x => bind (nbe_run b (snd x)) (fun y => Ok (fst x ++ fst y, snd y))).
Proof.
  induction a as [|c a IH]; intros b s.
  - cbn. destruct (nbe_run b s) as [[? ?]| |]; reflexivity.
  - cbn [app nbe_run]. destruct (nbe_call c s) as [[x s1]| |]; cbn [bind fst snd]; [|reflexivity..].
    rewrite IH. destruct (nbe_run a s1) as [[xs s2]| |]; cbn [bind fst snd]; [|reflexivity..].
    destruct (nbe_run b s2) as [[ys s3]| |]; reflexivity.
Qed.

(** Header, token, options with values of 1 to 12 bytes and payload come out as the
    RFC form of the message (in DEBUG builds only without payload). *)
Theorem C46_encodes : forall debug m cap, opts_within (fun d l => 0 < l /\ enc_short d l) 0 (m_opts m) -> (length (msg_bytes m) <= cap)%nat ->
  debug = false \/ m_pay m = None ->
  exists b, nbe_run (nb_calls m) (nbe_init debug cap) = Ok (repeat true (length (nb_calls m)), b) /\ s_out (n_sink b) = msg_bytes m.
Proof.
  intros debug [h tok os p] cap Hw Hc Hd. unfold nb_calls, msg_bytes in *. cbn [m_hdr m_tok m_opts m_pay] in *.
  rewrite !app_length in Hc. change (length (hdr_bytes h)) with 4%nat in Hc.
  cbn [app nbe_run nbe_call]. unfold nbe_header, nbe_init. unfold assert_state at 1. cbn [n_debug n_state rstate_eqb]. rewrite orb_true_r. cbn [bind n_sink s_room].
  destruct (Nat.leb_spec 4 cap); [|lia]. rewrite sputn_all by (cbn [hdr_bytes length]; lia). change (length (hdr_bytes h)) with 4%nat. cbn [snd bind fst].
  unfold nbe_token, assert_state. cbn [n_set_state n_set_sink n_set_enc n_debug n_state n_sink].
  assert (A : negb debug || rstate_eqb (if debug then RHeaderDone else RHeader) RHeaderDone = true) by (destruct debug; reflexivity). rewrite A. cbn [bind].
  rewrite sputn_all by lia. rewrite Nat.eqb_refl. cbn [bind fst snd]. rewrite nbe_run_app.
  match goal with |- context [nbe_run (map _ os) ?b0] =>
    destruct (C24_sequence os b0 0 0 (cap - 4 - length tok)%nat (hdr_bytes h ++ tok)) as (b & E & E1 & E2) end; auto.
  - left. reflexivity.
  - unfold can_option. cbn. destruct debug; auto.
  - lia.
  - rewrite E. cbn [bind fst snd].
    assert (G : (length (s_out (n_sink b)) + s_room (n_sink b) = cap)%nat /\ n_debug b = debug /\ n_marker b = false).
    { destruct (short_within os 0 Hw) as [W1 W2].
      match type of E with nbe_run _ ?b0 = _ => destruct (run_opts os b0 0 0 (cap - 4 - length tok)%nat (hdr_bytes h ++ tok)) as (b' & A' & _ & C' & D' & M' & _) end; auto.
      - left. reflexivity.
      - unfold can_option. cbn. destruct debug; auto.
      - lia.
      - pose proof (eq_trans (eq_sym E) A') as Q. injection Q as <-. rewrite C'. cbn [s_out s_room]. rewrite D', M'. cbn [n_debug n_marker n_set_written n_set_state n_set_sink n_set_enc].
        split; [|auto]. rewrite !app_length. change (length (hdr_bytes h)) with 4%nat. lia. }
    destruct G as (G1 & G2 & G3).
    destruct p as [pb|].
    + destruct Hd as [->|Hd]; [|discriminate]. cbn [nbe_run nbe_call]. unfold nbe_payload, nbe_payload_header, assert_not_state, assert_state. rewrite G2. cbn [negb orb bind].
      unfold nbe_marker_written. rewrite G2, G3. rewrite E1 in G1. rewrite !app_length in G1. change (length (hdr_bytes h)) with 4%nat in G1. cbn [pay_bytes length] in Hc.
      unfold sputc. destruct (s_room (n_sink b)) as [|r] eqn:R; [lia|]. cbn [bind fst snd]. cbn [n_set_state n_set_marker n_set_sink n_set_enc n_sink].
      rewrite sputn_all by lia. cbn [bind fst snd]. rewrite Nat.eqb_refl. eexists. split.
      * cbn [length app]. rewrite app_length, map_length. cbn [length repeat]. rewrite repeat_app. reflexivity.
      * cbn [n_sink n_set_sink n_set_enc s_out]. rewrite E1. cbn [pay_bytes]. rewrite <- !app_assoc. reflexivity.
    + cbn [nbe_run bind fst snd]. eexists. split.
      * cbn [length app]. rewrite !app_nil_r, map_length. reflexivity.
      * rewrite E1. cbn [pay_bytes]. rewrite app_nil_r, <- app_assoc. reflexivity.
Qed.
Print Assumptions C46_encodes.

(** ... and read back by any decoder object between messages as the message. *)
Theorem C46_round_trip : forall m cap d fuel, msg_ok m -> opts_within (fun d l => 0 < l /\ enc_short d l) 0 (m_opts m) ->
  m_opts m <> [] \/ m_pay m <> None -> (length (msg_bytes m) <= cap)%nat -> idle d -> (dec_fuel (msg_bytes m) <= fuel)%nat ->
  exists b d1, nbe_run (nb_calls m) (nbe_init false cap) = Ok (repeat true (length (nb_calls m)), b) /\
    dec_run fuel (s_out (n_sink b)) d 0 = Ok (msg_events m, d1, length (s_out (n_sink b))).
Proof.
  intros m cap d fuel Hm Hw Hne Hc Hd Hf. destruct (C46_encodes false m cap Hw Hc (or_introl eq_refl)) as (b & E1 & E2).
  destruct (C14_whole_message m d fuel Hm Hne Hd Hf) as (d1 & E3 & _).
  exists b, d1. split; [exact E1|]. rewrite E2. exact E3.
Qed.
Print Assumptions C46_round_trip.

(** In a DEBUG build no sequence of calls leads to a payload: the state the payload
    header asserts is never set. *)
Lemma state_kept : forall c b x b', nbe_call c b = Ok (x, b') -> n_debug b' = n_debug b /\ (n_state b <> ROptionsDone -> n_state b' <> ROptionsDone).
Proof.
  assert (HH : forall f num l b x b', nbe_option_header_fuel f num l b = Ok (x, b') -> n_debug b' = n_debug b /\ (n_state b <> ROptionsDone -> n_state b' <> ROptionsDone)).
  { intros f num l b x b' H. unfold nbe_option_header_fuel in H.
    repeat match type of H with bind ?t _ = _ => destruct t; cbn [bind] in H; try discriminate end.
    match type of H with (if ?t then _ else _) = _ => destruct t end; injection H as _ <-; cbn; (split; [reflexivity|]); intros K; destruct (n_debug b); congruence. }
  assert (HO : forall num v b x b', nbe_option num v true b = Ok (x, b') -> n_debug b' = n_debug b /\ (n_state b <> ROptionsDone -> n_state b' <> ROptionsDone)).
  { intros num v b x b' H. unfold nbe_option, nbe_option_fuel in H. destruct (nbe_option_header_fuel _ _ _ b) as [[y b1]| |] eqn:E; cbn [bind fst snd] in H; try discriminate.
    destruct (HH _ _ _ _ _ _ E) as [A B]. destruct y; [|injection H as _ <-; auto].
    unfold nbe_option_value in H. destruct (sputn v (n_sink b1)) as [n s]. destruct (n =? length v)%nat.
    - destruct (oenc_fast_forward _); cbn [bind] in H; try discriminate. injection H as _ <-. cbn. auto.
    - injection H as _ <-. cbn. auto. }
  intros c b x b' H. destruct c as [h|t|n v|n|n v|p|k]; cbn [nbe_call] in H.
  - unfold nbe_header in H. destruct (assert_state RHeader b); cbn [bind] in H; try discriminate.
    destruct (4 <=? s_room (n_sink b))%nat; injection H as _ <-; cbn; (split; [reflexivity|]); intros K; destruct (n_debug b); congruence.
  - unfold nbe_token in H. destruct (assert_state RHeaderDone b); cbn [bind] in H; try discriminate.
    destruct (sputn t (n_sink b)). injection H as _ <-. cbn. split; [reflexivity|]. intros K; destruct (n_debug b); congruence.
  - apply (HO _ _ _ _ _ H).
  - apply (HH _ _ _ _ _ _ H).
  - unfold nbe_option_int in H. destruct (layer2_set 4 v); cbn [bind] in H; try discriminate. apply (HO _ _ _ _ _ H).
  - unfold nbe_payload in H. destruct (nbe_payload_header b) as [[y b1]| |] eqn:E; cbn [bind fst snd] in H; try discriminate.
    assert (A : n_debug b1 = n_debug b /\ (n_state b <> ROptionsDone -> n_state b1 <> ROptionsDone)).
    { unfold nbe_payload_header in E. repeat match type of E with bind ?t _ = _ => destruct t; cbn [bind] in E; try discriminate end.
      destruct (nbe_marker_written b); [|destruct (sputc 255 (n_sink b))]; injection E as _ <-; cbn; (split; [reflexivity|]); intros K; destruct (n_debug b); congruence. }
    destruct y; [destruct (sputn p (n_sink b1))|]; injection H as _ <-; auto.
  - injection H as _ <-. cbn. auto.
Qed.

Theorem C46_debug_payload_refuted : forall cs cap xs b p, nbe_run cs (nbe_init true cap) = Ok (xs, b) -> nbe_payload p b = Fault.
Proof.
  intros cs cap xs b p H.
  assert (G : forall cs b0 xs b, nbe_run cs b0 = Ok (xs, b) -> n_debug b = n_debug b0 /\ (n_state b0 <> ROptionsDone -> n_state b <> ROptionsDone)).
  { clear. induction cs as [|c cs IH]; intros b0 xs b H; cbn [nbe_run] in H; [injection H as _ <-; auto|].
    destruct (nbe_call c b0) as [[x b1]| |] eqn:E; cbn [bind fst snd] in H; try discriminate. destruct (nbe_run cs b1) as [[ys b2]| |] eqn:E2; cbn [bind fst snd] in H; try discriminate.
    injection H as _ <-. destruct (state_kept _ _ _ _ E) as [A B]. destruct (IH _ _ _ E2) as [C D]. split; [congruence|auto]. }
  destruct (G _ _ _ _ H) as [A B]. cbn [nbe_init n_debug n_state] in A, B. specialize (B ltac:(discriminate)).
  unfold nbe_payload, nbe_payload_header, assert_not_state, assert_state. rewrite A. cbn [negb orb]. destruct (n_state b); cbn [rstate_eqb negb bind]; congruence.
Qed.
Print Assumptions C46_debug_payload_refuted.

Example C46_case : let m := Msg (Hdr 0x52 69 0x12 0x34) [7; 8] [(4, [1]); (11, [97; 98]); (12, [0])] (Some [1; 2; 3]) in
  msg_ok m /\ opts_within (fun d l => 0 < l /\ enc_short d l) 0 (m_opts m) /\
  exists b, nbe_run (nb_calls m) (nbe_init false 64) = Ok ([true; true; true; true; true; true], b) /\
    s_out (n_sink b) = [0x52; 69; 0x12; 0x34; 7; 8; 0x41; 1; 0x72; 97; 98; 0x11; 0; 255; 1; 2; 3].
Proof.
  cbv zeta. split; [|split].
  - unfold msg_ok. cbn. repeat split; repeat constructor; unfold byte_ok, len; cbn; lia.
  - cbn [opts_within m_opts]. unfold enc_short, len. cbn [length]. repeat split; lia.
  - eexists. split; vm_compute; reflexivity.
Qed.

(** C46, any room: header() is all or nothing and says which; token() and payload()
    write what fits and say whether that is all of it. *)
Theorem C46_header_flag : forall h b room out, n_sink b = Sink room out -> n_debug b = false \/ n_state b = RHeader ->
  exists x b', nbe_header h b = Ok (x, b') /\
    ((4 <= room)%nat -> x = true /\ n_sink b' = Sink (room - 4) (out ++ [h0 h; h1 h; h2 h; h3 h])) /\
    ((room < 4)%nat -> x = false /\ n_sink b' = Sink room out).
Proof.
  intros h b room out Hs Hd. unfold nbe_header, assert_state.
  assert (E : negb (n_debug b) || rstate_eqb (n_state b) RHeader = true) by (destruct Hd as [->| ->]; [reflexivity|apply orb_true_r]).
  rewrite E, Hs. cbn [bind s_room]. destruct (Nat.leb_spec 4 room) as [L|L].
  - eexists _, _. split; [reflexivity|]. split; [intros _|lia]. split; [reflexivity|].
    unfold n_set_state, n_set_sink, n_set_enc, sputn, hdr_bytes. cbn [snd n_sink length s_room s_out]. rewrite Nat.min_l by lia. reflexivity.
  - eexists _, _. split; [reflexivity|]. split; [lia|intros _]. split; [reflexivity|]. exact Hs.
Qed.
Print Assumptions C46_header_flag.

Theorem C46_token_flag : forall t b room out, n_sink b = Sink room out -> n_debug b = false \/ n_state b = RHeaderDone ->
  exists x b', nbe_token t b = Ok (x, b') /\ s_out (n_sink b') = out ++ firstn room t /\ (x = true <-> (length t <= room)%nat).
Proof.
  intros t b room out Hs Hd. unfold nbe_token, assert_state.
  assert (E : negb (n_debug b) || rstate_eqb (n_state b) RHeaderDone = true) by (destruct Hd as [->| ->]; [reflexivity|apply orb_true_r]).
  rewrite E, Hs. cbn [bind]. unfold sputn. cbn [s_room s_out]. eexists _, _. split; [reflexivity|]. split.
  - cbn. f_equal. destruct (Nat.le_ge_cases (length t) room) as [L|L];
      [rewrite Nat.min_l, firstn_all, firstn_all2 by lia; reflexivity|rewrite Nat.min_r by lia; reflexivity].
  - rewrite Nat.eqb_eq. lia.
Qed.
Print Assumptions C46_token_flag.

(** outside DEBUG builds; [pre] is the marker if it is still to be written *)
Theorem C46_payload_flag : forall p b room out, n_sink b = Sink room out -> n_debug b = false ->
  let pre := if n_marker b then [] else [255] in
  exists x b', nbe_payload p b = Ok (x, b') /\ s_out (n_sink b') = out ++ firstn room (pre ++ p) /\
    (x = true <-> (length (pre ++ p) <= room)%nat) /\ ((length pre <= room)%nat -> n_marker b' = true).
Proof.
  intros p b room out Hs Hd pre. unfold nbe_payload, nbe_payload_header, assert_state, assert_not_state, nbe_marker_written. rewrite Hd. cbn [negb orb bind].
  assert (F : forall r, firstn (Nat.min (length p) r) p = firstn r p).
  { intro r. destruct (Nat.le_ge_cases (length p) r) as [L|L]; [rewrite Nat.min_l, firstn_all, firstn_all2 by lia; reflexivity|rewrite Nat.min_r by lia; reflexivity]. }
  subst pre. destruct (n_marker b) eqn:Em.
  - cbn [bind fst snd n_set_state n_sink]. rewrite Hs. unfold sputn. cbn [s_room s_out]. eexists _, _. split; [reflexivity|]. cbn. rewrite F, Nat.eqb_eq. split; [reflexivity|]. split; [lia|auto].
  - rewrite Hs. unfold sputc. cbn [s_room s_out]. destruct room as [|r]; cbn [bind fst snd].
    + eexists _, _. split; [reflexivity|]. cbn. rewrite Hs. cbn. rewrite app_nil_r. split; [reflexivity|]. split; [split; [discriminate|lia]|lia].
    + unfold sputn. cbn. eexists _, _. split; [reflexivity|]. cbn. rewrite ?Nat.sub_0_r, F, Nat.eqb_eq, <- app_assoc, ?Hd. cbn. split; [reflexivity|]. split; [lia|auto].
Qed.
Print Assumptions C46_payload_flag.

(** C46: in a DEBUG build header() and token() are accepted only first and second, and
    options neither before header and token are begun nor after the payload. *)
Theorem C46_debug_order : forall b, n_debug b = true ->
  (forall h, nbe_header h b = Fault <-> n_state b <> RHeader) /\
  (forall t, nbe_token t b = Fault <-> n_state b <> RHeaderDone) /\
  (forall num v l fuel, In (n_state b) [RHeader; RToken; RPayload] -> nbe_option_fuel fuel num v l b = Fault) /\
  (forall p, nbe_payload p b = Fault <-> n_state b <> ROptionsDone).
Proof.
  intros b Hd. unfold nbe_header, nbe_token, nbe_option_fuel, nbe_option_header_fuel, nbe_payload, nbe_payload_header, assert_state, assert_not_state, nbe_marker_written. rewrite Hd. cbn [negb orb].
  split; [|split; [|split]].
  - intro h. destruct (n_state b); cbn [rstate_eqb bind]; split; intro G; try discriminate; try reflexivity; try congruence; destruct (4 <=? _)%nat; discriminate.
  - intro t. destruct (n_state b); cbn [rstate_eqb bind]; split; intro G; try discriminate; try reflexivity; try congruence.
  - intros num v l fuel [<-|[<-|[<-|[]]]]; reflexivity.
  - intro p. destruct (n_state b); cbn [rstate_eqb negb bind]; split; intro G; try discriminate; try reflexivity; try congruence;
      destruct (sputc 255 (n_sink b)); cbn [bind fst snd] in G; try discriminate; destruct (sputn p _); discriminate.
Qed.
Print Assumptions C46_debug_order.

(** C46: from the state it asks for, which none of its own calls leads to (C46_debug_payload_refuted), a DEBUG
    build writes the marker and the payload as far as there is room. *)
Theorem C46_debug_options_done : forall p b room out, n_sink b = Sink room out -> n_debug b = true -> n_state b = ROptionsDone ->
  exists x b', nbe_payload p b = Ok (x, b') /\ s_out (n_sink b') = out ++ firstn room ([255] ++ p) /\
    (x = true <-> (S (length p) <= room)%nat) /\ ((0 < room)%nat -> n_state b' = RPayload).
Proof.
  intros p b room out Hs Hd Ht. unfold nbe_payload, nbe_payload_header, assert_state, assert_not_state, nbe_marker_written. rewrite Hd, Ht.
  cbn [rstate_eqb negb orb bind]. rewrite Hs. unfold sputc. cbn [s_room s_out]. destruct room as [|r]; cbn [bind fst snd].
  - eexists _, _. split; [reflexivity|]. cbn. rewrite Hs. cbn. rewrite app_nil_r. split; [reflexivity|]. split; [split; [discriminate|lia]|lia].
  - unfold sputn. cbn. eexists _, _. split; [reflexivity|]. cbn.
    assert (F : firstn (Nat.min (length p) r) p = firstn r p).
    { destruct (Nat.le_ge_cases (length p) r) as [L|L]; [rewrite Nat.min_l, firstn_all, firstn_all2 by lia; reflexivity|rewrite Nat.min_r by lia; reflexivity]. }
    rewrite ?Nat.sub_0_r, F, Nat.eqb_eq, <- app_assoc. cbn. split; [reflexivity|]. split; [lia|intros _; rewrite Hd; reflexivity].
Qed.
Print Assumptions C46_debug_options_done.
Example C46_debug_options_done_case : exists b', nbe_payload [1; 2] (n_set_state ROptionsDone (nbe_init true 3)) = Ok (true, b') /\ s_out (n_sink b') = [255; 1; 2] /\ n_state b' = RPayload.
Proof. eexists. vm_compute. repeat split. Qed.

Example C46_flag_case : let b := nbe_init false 6 in
  exists b1 b2 b3, nbe_header (Hdr 0x43 1 0 7) b = Ok (true, b1) /\ nbe_token [8; 9; 10] b1 = Ok (false, b2) /\
    nbe_payload [1] b2 = Ok (false, b3) /\ s_out (n_sink b3) = [0x43; 1; 0; 7; 8; 9] /\ nbe_option 11 [97] true (nbe_init true 64) = Fault.
Proof. eexists _, _, _. vm_compute. repeat split. Qed.

(** C24: the integer overload writes the shortest big-endian form [v] of a number other than 0. *)
Theorem C24_integer_option : forall num v b cur pos room out, n_enc b = OEnc (e_st (n_enc b)) cur pos -> n_sink b = Sink room out -> fresh b -> can_option b ->
  bytes_ok v -> minimal v -> (0 < length v <= 4)%nat -> cur <= num -> num < 65536 -> enc_short (num - cur) (len v) ->
  (length (opt_head (num - cur) (len v) ++ v) <= room)%nat ->
  exists b', nbe_option_int num (be v) b = Ok (true, b') /\ s_out (n_sink b') = out ++ opt_head (num - cur) (len v) ++ v /\ e_cur (n_enc b') = num.
Proof.
  intros num v b cur pos room out He Hs Hf Ho Hv Hm Hl Hc Hn Hg Hr. unfold nbe_option_int, layer2_set.
  rewrite C02_uint_unique by (auto; lia). cbn [bind]. destruct (Nat.ltb_spec 4 (length v)); [lia|]. cbn [bind].
  destruct (C24_sequence [(num, v)] b cur pos room out He Hs Hf Ho) as (b' & E & O & C).
  - cbn [opts_within]. split; [exact Hc|]. split; [exact Hn|]. split; [split; [unfold len; lia|exact Hg]|exact I].
  - cbn [opts_bytes]. rewrite app_nil_r. exact Hr.
  - cbn [map nbe_run nbe_call fst snd length repeat] in E. destruct (nbe_option num v true b) as [[x b1]| |]; cbn [bind fst snd] in E; try discriminate.
    assert (x = true /\ b1 = b') by (inversion E; auto). destruct H0 as [-> ->]. exists b'. split; [reflexivity|]. cbn [opts_bytes last_number] in *. rewrite ?app_nil_r in O. auto.
Qed.
Print Assumptions C24_integer_option.

Example C24_integer_case : exists b, nbe_option_int 12 65536 (nbe_init false 9) = Ok (true, b) /\ s_out (n_sink b) = [0xC3; 1; 0; 0].
Proof. eexists. split; vm_compute; reflexivity. Qed.
