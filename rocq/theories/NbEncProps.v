(** C76: messages written with the encoder's operators into a network buffer, finalized and sent;
    to a server and back. *)
From Coq Require Import ZArith.
From Verif Require Import Base UIntModel HeaderModel HeaderSpec HeaderProofs OptEncModel OptSpec StreambufModel StreambufProofs OptEncProps
  OptDecModel OptDecSpec DecoderModel DecoderSpec DecoderProofs DecoderProps CodecProps ChunkSpec UriModel UriSpec SbDecModel SbDecProofs AppModel AppSpec AppProps NbEncModel NbEncProofs.
Local Open Scope N_scope.

(** how much a network buffer can come to hold *)
Definition most (mem : list N) (new : list (list N)) : nat := length mem + length (concat new).

(** Whatever is called, whatever the memory held before and however it grows: after finalize the
    datagram is what the same calls write into a plain buffer of that size (C22, C23), with the
    same results, and nothing faults or hangs. *)
Theorem C76_finalized : forall cs mem new, (forall n v, In (COptInt n v) cs -> v < 2 ^ 32) ->
  exists xs x b, nb_run cs (nb_init mem new) = Ok (xs, x) /\ sb_run cs (sb_init (most mem new)) = Ok (xs, b) /\ nb_reply x = s_out (sb_sink b).
Proof.
  intros cs mem new Hi. destruct (C23_bounded cs (most mem new) Hi) as (xs & b & R & _).
  destruct (run_same cs _ (nb_init mem new) xs b (init_same mem new) R) as (x & E & S1). exists xs, x, b. split; [exact E|]. split; [exact R|]. now apply same_reply.
Qed.
Print Assumptions C76_finalized.

(** So the old contents of the memory never get into a datagram, and the way the buffer grows does
    not matter. *)
Theorem C76_no_leak : forall cs mem1 new1 mem2 new2 xs1 x1 xs2 x2, (forall n v, In (COptInt n v) cs -> v < 2 ^ 32) -> most mem1 new1 = most mem2 new2 ->
  nb_run cs (nb_init mem1 new1) = Ok (xs1, x1) -> nb_run cs (nb_init mem2 new2) = Ok (xs2, x2) -> xs1 = xs2 /\ nb_reply x1 = nb_reply x2 /\ (length (nb_reply x1) <= most mem1 new1)%nat.
Proof.
  intros cs mem1 new1 mem2 new2 xs1 x1 xs2 x2 Hi Hm R1 R2.
  destruct (C76_finalized cs mem1 new1 Hi) as (a & y1 & b1 & A1 & A2 & A3). destruct (C76_finalized cs mem2 new2 Hi) as (c & y2 & b2 & B1 & B2 & B3).
  rewrite Hm in A2. rewrite A2 in B2. assert (a = xs1 /\ y1 = x1) as (-> & ->) by (rewrite A1 in R1; injection R1; auto).
  assert (c = xs2 /\ y2 = x2) as (-> & ->) by (rewrite B1 in R2; injection R2; auto). assert (xs1 = xs2 /\ b1 = b2) as (-> & ->) by (injection B2; auto).
  split; [reflexivity|]. split; [congruence|]. rewrite A3. destruct (C23_bounded cs (most mem1 new1) Hi) as (zs & b & R & L).
  rewrite Hm in R, L. rewrite A2 in R. injection R as _ <-. lia.
Qed.
Print Assumptions C76_no_leak.

(** ** Operators *)

(** a message as a chain of operators; values and payload byte by byte *)
Definition chain (m : msg) : list manip :=
  [MHeader (m_hdr m); MToken (m_tok m)] ++ flat_map (fun o => MOption (fst o) (len (snd o)) :: map MPut (snd o)) (m_opts m) ++
  match m_pay m with None => [] | Some b => MPayload :: map MPut b end.

Lemma puts_fit : forall v e r out, (length v <= r)%nat ->
  sb_run (map call_of (map MPut v)) (SB e (Sink r out)) = Ok (repeat true (length v), SB e (Sink (r - length v) (out ++ v))).
Proof.
  induction v as [|b v IH]; intros e r out H; cbn [map call_of sb_run].
  - cbn [length repeat]. now rewrite Nat.sub_0_r, app_nil_r.
  - cbn [length] in H. cbn [sb_call bind]. unfold sb_write. cbn [sb_enc sb_sink]. rewrite sputn_fits by (cbn [length]; lia). cbn [snd bind fst].
    rewrite IH by (cbn [length]; lia). cbn [bind fst snd length repeat]. rewrite <- app_assoc. cbn [app]. replace (r - 1 - length v)%nat with (r - S (length v))%nat by lia. reflexivity.
Qed.

Lemma opts_fit : forall os st cur pos r out, opts_within enc_range cur os -> (length (opts_bytes cur os) <= r)%nat ->
  exists ys e, sb_run (map call_of (flat_map (fun o => MOption (fst o) (len (snd o)) :: map MPut (snd o)) os)) (SB (OEnc st cur pos) (Sink r out)) =
    Ok (ys, SB e (Sink (r - length (opts_bytes cur os)) (out ++ opts_bytes cur os))).
Proof.
  induction os as [|[n v] os IH]; intros st cur pos r out Hw Hr; cbn [flat_map map opts_within opts_bytes] in *.
  - do 2 eexists. cbn [sb_run length]. rewrite Nat.sub_0_r, app_nil_r. reflexivity.
  - destruct Hw as (H1 & H2 & H3 & Hw). rewrite !app_length in Hr. cbn [fst snd app map call_of sb_run sb_call].
    assert (Hs : len v mod 65536 = len v) by (apply N.mod_small; unfold enc_range, enc_short, enc_long in H3; lia). rewrite Hs.
    destruct (sb_option_good n (len v) st cur pos r out H1 H2 H3) as (p & E); [lia|]. rewrite E. cbn [bind fst snd]. rewrite map_app, sb_run_app.
    rewrite puts_fit by lia. cbn [bind fst snd].
    destruct (IH OptionLengthDone n p (r - length (opt_head (n - cur) (len v)) - length v)%nat ((out ++ opt_head (n - cur) (len v)) ++ v) Hw) as (ys & e & E2); [lia|].
    rewrite E2. cbn [bind fst snd]. do 2 eexists. rewrite !app_length, <- !app_assoc. do 4 f_equal. lia.
Qed.

Lemma chain_fits : forall m cap, opts_within enc_range 0 (m_opts m) -> (length (msg_bytes m) <= cap)%nat ->
  exists ys b, sb_run (map call_of (chain m)) (sb_init cap) = Ok (ys, b) /\ s_out (sb_sink b) = msg_bytes m.
Proof.
  intros [h tok os p] cap Hw Hc. unfold chain, msg_bytes in *. cbn [m_hdr m_tok m_opts m_pay] in *. rewrite !app_length in Hc. change (length (hdr_bytes h)) with 4%nat in Hc.
  cbn [app map call_of sb_run sb_call]. unfold sb_header, sb_token, sb_write, sb_init, oenc_init. cbn [sb_enc sb_sink].
  rewrite sputn_fits by (cbn [hdr_bytes length]; lia). cbn [snd bind sb_enc sb_sink]. change (length (hdr_bytes h)) with 4%nat.
  rewrite sputn_fits by lia. cbn [snd bind sb_enc sb_sink]. rewrite map_app, sb_run_app.
  match goal with |- context [sb_run (map call_of (flat_map _ os)) (SB (OEnc ?st ?cu ?po) (Sink ?r ?o))] => destruct (opts_fit os st 0 po r o Hw) as (ys & e & E); [lia|] end.
  rewrite E. cbn [bind fst snd]. destruct p as [pb|].
  - cbn [map call_of sb_run sb_call pay_bytes length] in *. unfold sb_payload, sputc. cbn [sb_sink s_room s_out sb_enc].
    match goal with |- context [match ?r with O => _ | S _ => _ end] => let q := fresh "q" in destruct r as [|q] eqn:Er; [lia|] end. cbn [bind fst snd].
    rewrite puts_fit by lia. cbn [bind fst snd]. do 2 eexists. split; [reflexivity|]. cbn [sb_sink s_out]. rewrite <- !app_assoc. reflexivity.
  - cbn [map sb_run bind fst snd]. do 2 eexists. split; [reflexivity|]. cbn [sb_sink s_out pay_bytes app]. rewrite !app_nil_r, <- !app_assoc. reflexivity.
Qed.

Lemma no_ints : forall m n v, In (COptInt n v) (map call_of (chain m)) -> v < 2 ^ 32.
Proof. intros m n v I. apply in_map_iff in I. destruct I as (y & E & _). destruct y; discriminate E. Qed.

(** A message written with operators (option lengths the encoder gets right) goes out in its RFC 7252 form. *)
Theorem C76_operators : forall m mem new, opts_within enc_range 0 (m_opts m) -> (length (msg_bytes m) <= most mem new)%nat ->
  exists x, shifts (chain m) (nb_init mem new) = Ok x /\ nb_reply x = msg_bytes m.
Proof.
  intros m mem new Hw Hc. destruct (chain_fits m _ Hw Hc) as (ys & b & R & E). destruct (run_same _ _ (nb_init mem new) _ _ (init_same mem new) R) as (x & Rx & S1).
  exists x. split; [eapply shifts_run; exact Rx|]. rewrite <- E. now apply same_reply.
Qed.
Print Assumptions C76_operators.

(** Full claim (false): a message that does not fit is not sent, or its sender told.  The
    operators drop the results of the calls: whatever the message, with room only for part of its
    payload the message with that part as its payload is sent. *)
Theorem C76_cut_refuted : forall h tok os p1 p2 mem new, opts_within enc_range 0 os ->
  most mem new = length (msg_bytes (Msg h tok os (Some p1))) ->
  exists x, shifts (chain (Msg h tok os (Some (p1 ++ p2)))) (nb_init mem new) = Ok x /\ nb_reply x = msg_bytes (Msg h tok os (Some p1)).
Proof.
  intros h tok os p1 p2 mem new Hw Hm. set (m := Msg h tok os (Some (p1 ++ p2))).
  destruct (chain_fits m (most mem new + length p2) Hw) as (ys & b & R & E).
  { rewrite Hm. unfold m, msg_bytes. cbn [m_hdr m_tok m_opts m_pay pay_bytes]. rewrite !app_length. cbn [length]. rewrite !app_length. lia. }
  destruct (C76_finalized (map call_of (chain m)) mem new (no_ints m)) as (xs & x & b2 & Rx & R2 & E2). exists x. split; [eapply shifts_run; exact Rx|].
  rewrite E2. rewrite (C23_truncation_only _ _ (most mem new + length p2) _ _ _ _ (Nat.le_add_r _ _) R2 R), E, Hm.
  assert (X : msg_bytes m = msg_bytes (Msg h tok os (Some p1)) ++ p2).
  { unfold m, msg_bytes. cbn [m_hdr m_tok m_opts m_pay pay_bytes]. rewrite <- !app_assoc. reflexivity. }
  rewrite X. rewrite firstn_app, Nat.sub_diag, firstn_all. cbn [firstn]. apply app_nil_r.
Qed.
Print Assumptions C76_cut_refuted.

Lemma nb_put_in : forall new mem pos b, (pos < length mem)%nat -> nb_put new mem pos b = Some (NSB (firstn pos mem ++ b :: skipn (S pos) mem) (S pos) new).
Proof. intros new mem pos b L. destruct new; cbn [nb_put]; rewrite (proj2 (Nat.ltb_lt _ _) L); reflexivity. Qed.

(** Without finalize (any other stream buffer type, such as a reference to this one, has a finalize
    that does nothing) the rest of the memory goes out too ... *)
Theorem C76_unfinalized : forall m mem new, opts_within enc_range 0 (m_opts m) -> (length (msg_bytes m) <= length mem)%nat ->
  exists x, shifts (chain m) (nb_init mem new) = Ok x /\ nb_sendto (sb_finalize x) = msg_bytes m ++ skipn (length (msg_bytes m)) mem.
Proof.
  intros m mem new Hw Hc. destruct (C76_operators m mem [] Hw) as (x0 & _); [unfold most; lia|].
  destruct (C76_operators m mem new Hw) as (x & R & E); [unfold most; lia|]. exists x. split; [exact R|].
  (* what is beyond the write position is as it was *)
  assert (K : forall bnew bmem bpos b s, nb_put bnew bmem bpos b = Some s -> (bpos < length bmem)%nat ->
    length (ns_mem s) = length bmem /\ ns_pos s = S bpos /\ skipn (S bpos) (ns_mem s) = skipn (S bpos) bmem).
  { intros bnew bmem bpos b s P L. rewrite nb_put_in in P by exact L. assert (Q : s = NSB (firstn bpos bmem ++ b :: skipn (S bpos) bmem) (S bpos) bnew) by congruence. subst s. cbn [ns_mem ns_pos].
    assert (Lf : length (firstn bpos bmem) = bpos) by (rewrite firstn_length; lia).
    split; [rewrite app_length, Lf, (app_length [b] (skipn (S bpos) bmem) : length (b :: skipn (S bpos) bmem) = _), skipn_length; cbn [length]; lia|]. split; [reflexivity|].
    rewrite skipn_app, Lf. rewrite (skipn_all2 (firstn bpos bmem)) by lia. replace (S bpos - bpos)%nat with 1%nat by lia. reflexivity. }
  set (INV := fun s : nsb => (ns_pos s <= length (msg_bytes m))%nat -> length (ns_mem s) = length mem /\ skipn (ns_pos s) (ns_mem s) = skipn (ns_pos s) mem).
  set (MONO := fun s t : nsb => (ns_pos s <= ns_pos t)%nat /\ (INV s -> INV t)).
  assert (MT : forall s t u, MONO s t -> MONO t u -> MONO s u) by (unfold MONO; intros s t u (A & B) (C & D); split; [lia|auto]).
  assert (MR : forall s, MONO s s) by (intros s; split; [lia|auto]).
  assert (PUT : forall bnew bmem bpos b s, nb_put bnew bmem bpos b = Some s -> ns_pos s = S bpos).
  { induction bnew as [|c r IH]; intros bmem bpos b s P; cbn [nb_put] in P; destruct (Nat.ltb_spec bpos (length bmem)); try discriminate; try (injection P as <-; reflexivity). eapply IH; exact P. }
  assert (MP : forall b s t, nb_sputc b s = Some t -> MONO s t).
  { intros b s t P. unfold nb_sputc in P. pose proof (PUT _ _ _ _ _ P) as PP. split; [lia|]. intros I L. destruct (I ltac:(lia)) as (I1 & I2).
    destruct (K _ _ _ _ _ P) as (A & B & C); [lia|]. split; [lia|]. rewrite B, C. replace (S (ns_pos s)) with (1 + ns_pos s)%nat by lia.
    assert (SK : forall j (l : list N), skipn (1 + j) l = skipn 1 (skipn j l)) by (induction j as [|j IHj]; intros [|y l]; [reflexivity|reflexivity|reflexivity|exact (IHj l)]).
    rewrite (SK (ns_pos s) (ns_mem s)), (SK (ns_pos s) mem), I2. reflexivity. }
  assert (MN : forall bs s, MONO s (snd (nb_sputn bs s))).
  { induction bs as [|b bs IH]; intros s; cbn [nb_sputn]; [apply MR|]. destruct (nb_sputc b s) as [s1|] eqn:P; [|apply MR]. specialize (IH s1).
    destruct (nb_sputn bs s1) as [n s2]. cbn [snd] in *. eapply MT; [eapply MP; exact P|exact IH]. }
  assert (ML : forall f o e s r y, nb_option_loop f o e s = Ok (r, y) -> MONO s (ne_sb y)).
  { induction f as [|f IH]; intros o e s r y G; cbn [nb_option_loop] in G; [discriminate|]. destruct (generate_iterate o e) as [[q e1]| |]; cbn [bind fst snd] in G; try discriminate.
    assert (GC : forall s1, (if ostate_eqb (e_st e1) OptionLengthDone then Ok (true, NE e1 s1) else nb_option_loop f o e1 s1) = Ok (r, y) -> MONO s1 (ne_sb y)).
    { intros s1 X. destruct (ostate_eqb _ _); [injection X as _ <-; apply MR|eapply IH; exact X]. }
    destruct q as [b|]; [|now apply GC]. destruct (nb_sputc b s) as [s1|] eqn:P; [|injection G as _ <-; apply MR]. eapply MT; [eapply MP; exact P|now apply GC]. }
  assert (MS : forall ms a y, shifts ms a = Ok y -> MONO (ne_sb a) (ne_sb y)).
  { induction ms as [|z ms IH]; intros a y G; cbn [shifts] in G; [injection G as <-; apply MR|]. destruct (shift z a) as [a1| |] eqn:Z; cbn [bind] in G; try discriminate.
    eapply MT; [|eapply IH; exact G]. destruct z as [h|t|n sz| |b]; cbn [shift] in Z; try (injection Z as <-; apply MN).
    - unfold nb_option in Z. destruct (nb_option_loop _ _ _ _) as [[r y1]| |] eqn:Q; cbn [bind snd] in Z; try discriminate. injection Z as <-. eapply ML; exact Q.
    - unfold nb_payload in Z. destruct (nb_sputc 255 (ne_sb a)) eqn:P; injection Z as <-; [eapply MP; exact P|apply MR]. }
  destruct (MS _ _ _ R) as (_ & I). cbn [nb_init ne_sb] in I. assert (I0 : INV (NSB mem 0 new)) by (intros _; split; reflexivity). specialize (I I0).
  unfold nb_reply, nb_sendto, nb_finalize in E. cbn [ne_sb ns_mem] in E.
  assert (PL : (ns_pos (ne_sb x) <= length (ns_mem (ne_sb x)))%nat).
  { destruct (chain_fits m (most mem new) Hw) as (ys & b & Q & _); [unfold most; lia|]. destruct (run_same _ _ (nb_init mem new) _ _ (init_same mem new) Q) as (x2 & Q2 & S1).
    apply shifts_run in Q2. rewrite R in Q2. injection Q2 as <-. apply S1. }
  assert (LP : ns_pos (ne_sb x) = length (msg_bytes m)) by (rewrite <- E, firstn_length; lia).
  destruct I as (I1 & I2); [lia|]. unfold nb_sendto, sb_finalize. rewrite <- (firstn_skipn (ns_pos (ne_sb x)) (ns_mem (ne_sb x))) at 1. rewrite E, I2, LP. reflexivity.
Qed.
Print Assumptions C76_unfinalized.

(** ... so that a receiver takes it for the end of the payload. *)
Theorem C76_unfinalized_refuted : forall h tok os p mem new d, msg_ok (Msg h tok os (Some p)) -> bytes_ok mem -> opts_within enc_range 0 os ->
  (length (msg_bytes (Msg h tok os (Some p))) <= length mem)%nat -> idle d ->
  exists x d1, shifts (chain (Msg h tok os (Some p))) (nb_init mem new) = Ok x /\
    dec_run (dec_fuel mem) (nb_sendto (sb_finalize x)) d 0 =
      Ok (msg_events (Msg h tok os (Some (p ++ skipn (length (msg_bytes (Msg h tok os (Some p)))) mem))), d1, length mem).
Proof.
  intros h tok os p mem new d Hm Hb Hw Hl Hd. set (m := Msg h tok os (Some p)) in *. destruct (C76_unfinalized m mem new Hw Hl) as (x & R & E).
  set (q := p ++ skipn (length (msg_bytes m)) mem). set (m2 := Msg h tok os (Some q)).
  assert (X : msg_bytes m ++ skipn (length (msg_bytes m)) mem = msg_bytes m2).
  { unfold m2, q. unfold m at 1. unfold msg_bytes at 1. unfold msg_bytes at 2. cbn [m_hdr m_tok m_opts m_pay pay_bytes]. rewrite <- !app_assoc. reflexivity. }
  assert (Lx : length (msg_bytes m2) = length mem) by (rewrite <- X, app_length, skipn_length; lia).
  assert (Hm2 : msg_ok m2).
  { destruct Hm as (A & B & C & D & F & G). unfold m2, q. split; [exact A|]. split; [exact B|]. split; [exact C|]. split; [exact D|]. split; [exact F|].
    cbn [m_pay] in *. apply bytes_ok_app. split; [exact G|]. apply Forall_forall. intros y Y. unfold bytes_ok in Hb. rewrite Forall_forall in Hb. apply Hb.
    rewrite <- (firstn_skipn (length (msg_bytes m)) mem). apply in_app_iff. now right. }
  destruct (C14_whole_message m2 d (dec_fuel mem) Hm2 (or_intror (fun X : Some q = None => ltac:(discriminate X))) Hd) as (d1 & Q & _); [unfold dec_fuel; rewrite Lx; apply le_n|].
  exists x, d1. split; [exact R|]. rewrite E, X, Q, Lx. reflexivity.
Qed.
Print Assumptions C76_unfinalized_refuted.

(** ** To a server and back *)

Lemma uncut_one : forall x o l, uncut [x] o l.
Proof.
  intros x o l a b E Hb. destruct a as [|a1 a]; [cbn; lia|]. cbn in E. injection E as _ E. symmetry in E. apply app_eq_nil in E. destruct E; congruence.
Qed.

Lemma answer_hdr2 : forall h code, hdr_ok h -> code < 256 -> exists h', hdr_ok h' /\ hdr_code h' = code /\
  hdr_bytes h' = wire (Fields (hdr_version h) ACK (hdr_tkl h) code (hdr_mid h)) /\
  hdr_version h' = hdr_version h /\ hdr_type h' = ACK /\ hdr_tkl h' = hdr_tkl h /\ hdr_mid h' = hdr_mid h.
Proof.
  intros h code Hh Hc. destruct (answer_hdr h code Hh Hc) as (h' & A & B & C). exists h'. split; [exact A|]. split; [|split; [exact B|exact C]].
  destruct h' as [b0 b1 b2 b3]. unfold wire, hdr_bytes in B. cbn [f_ver f_type f_tkl f_code f_mid] in B. injection B as _ B _ _. exact B.
Qed.

(** A request written with operators into a network buffer, sent to the boilerplate server, and the
    server's reply decoded with any decoder that is between messages: an acknowledgement with the
    request's id and token; 2.05 with the text if the path is that node, 4.04 without anything
    otherwise (C15: after a message with a payload, with a payload of no bytes if there is no
    token). *)
Theorem C76_exchange : forall sg neg eat cap ts vid text m mem new d, good_table ts -> vid <> NONE -> msg_ok m -> opts_within enc_range 0 (m_opts m) ->
  (sg = true -> ~ In 255 (hdr_bytes (m_hdr m) ++ m_tok m)) -> (neg = true -> m_pay m = None -> ~ exists os n, m_opts m = os ++ [(n, [])]) ->
  (length (msg_bytes m) <= most mem new)%nat -> bytes_ok text -> (6 + length (m_tok m) + length text <= cap)%nat -> idle d ->
  exists x r hr d1 n, shifts (chain m) (nb_init mem new) = Ok x /\
    answers sg neg eat cap [OHeader; OToken; OUri; OBoiler vid text] (forest_rows ts) [nb_reply x] [r] /\
    hdr_version hr = hdr_version (m_hdr m) /\ hdr_type hr = ACK /\ hdr_mid hr = hdr_mid (m_hdr m) /\
    (In (vid, path_of (m_opts m)) (forest_paths ts) -> hdr_code hr = 69 /\
       dec_run (dec_fuel r) r d 0 = Ok (msg_events (Msg hr (m_tok m) [(12, [])] (Some text)), d1, n)) /\
    (~ In (vid, path_of (m_opts m)) (forest_paths ts) -> hdr_code hr = 132 /\
       dec_run (dec_fuel r) r d 0 = Ok ([EHeader hr; EToken (m_tok m); EOptStart; EOptDone] ++
         (if Nat.eqb (length (m_tok m)) 0 && ostate_eqb (d_st (k_od d)) OPayload then [EPayload [] true] else []) ++ [ECompleted], d1, n)).
Proof.
  intros sg neg eat cap ts vid text m mem new d Ht Hv Hm Hw Hs Hn Hl Hb Hc Hd. destruct (C76_operators m mem new Hw Hl) as (x & R & E).
  assert (Ha : arrives sg neg m [msg_bytes m]) by (split; [exact Hm|]; split; [cbn [concat]; apply app_nil_r|]; split; assumption).
  assert (Hp : whole_path m [msg_bytes m]) by (intros l o _; apply uncut_one).
  destruct (C54_boilerplate_whole sg neg eat cap ts vid text m [msg_bytes m] Ht Hv Ha Hp Hc) as (Y & Z).
  pose proof Hm as (Hh & Hk & H8 & Hbt & _).
  assert (D : {In (vid, path_of (m_opts m)) (forest_paths ts)} + {~ In (vid, path_of (m_opts m)) (forest_paths ts)}).
  { apply in_dec. intros [a p] [b q]. destruct (Z.eq_dec a b) as [->|H]; [|right; congruence]. destruct (list_eq_dec (list_eq_dec N.eq_dec) p q) as [->|H]; [now left|right; congruence]. }
  destruct D as [D|D].
  - destruct (answer_hdr2 (m_hdr m) 69 Hh eq_refl) as (h' & A & Ac & B & V & T & K & M). specialize (Y D).
    set (m2 := Msg h' (m_tok m) [(12, [])] (Some text)). assert (X : version_answer (m_hdr m) (m_tok m) text = msg_bytes m2).
    { unfold version_answer, answer, msg_bytes, m2. cbn [m_hdr m_tok m_opts m_pay]. rewrite B. reflexivity. }
    assert (Hm2 : msg_ok m2).
    { unfold m2, msg_ok. cbn [m_hdr m_tok m_opts m_pay]. split; [exact A|]. split; [rewrite <- tkl_mod, K, tkl_mod; exact Hk|]. split; [exact H8|]. split; [exact Hbt|].
      split; [|exact Hb]. cbn [opts_ok]. split; [lia|]. split; [reflexivity|]. split; [reflexivity|]. split; [constructor|exact I]. }
    destruct (C14_whole_message m2 d (dec_fuel (msg_bytes m2)) Hm2) as (d1 & Q & _); [left; discriminate|exact Hd|apply le_n|].
    exists x, (msg_bytes m2), h', d1, (length (msg_bytes m2)). rewrite E. split; [exact R|]. split; [rewrite <- X; exact Y|].
    split; [exact V|]. split; [exact T|]. split; [exact M|]. split; [intros _; split; [exact Ac|exact Q]|intros N0; contradiction].
  - destruct (answer_hdr2 (m_hdr m) 132 Hh eq_refl) as (h' & A & Ac & B & V & T & K & M). specialize (Z D).
    assert (X : not_found (m_hdr m) (m_tok m) = hdr_bytes h' ++ m_tok m).
    { unfold not_found, answer. cbn [opts_bytes pay_bytes]. rewrite B, !app_nil_r. reflexivity. }
    assert (Hk2 : h0 h' mod 16 = N.of_nat (length (m_tok m))) by (rewrite <- tkl_mod, K, tkl_mod; exact Hk).
    exists x, (hdr_bytes h' ++ m_tok m), h'. rewrite E.
    assert (Q : exists d1 n, dec_run (dec_fuel (hdr_bytes h' ++ m_tok m)) (hdr_bytes h' ++ m_tok m) d 0 = Ok ([EHeader h'; EToken (m_tok m); EOptStart; EOptDone] ++
         (if Nat.eqb (length (m_tok m)) 0 && ostate_eqb (d_st (k_od d)) OPayload then [EPayload [] true] else []) ++ [ECompleted], d1, n)).
    { assert (F : (20 <= dec_fuel (hdr_bytes h' ++ m_tok m))%nat) by (unfold dec_fuel; lia). destruct (m_tok m) as [|t0 tk] eqn:Et.
      - rewrite app_nil_r in F |- *. destruct (C15_header_only d h' _ Hd A Hk2 F) as (d1 & Q & _). exists d1, 4%nat. rewrite Q. reflexivity.
      - assert (Lt : (0 < length (t0 :: tk) <= 8)%nat) by (cbn [length] in *; lia). destruct (C15_token_only d h' (t0 :: tk) _ Hd A Hbt Hk2 Lt F) as (d1 & Q & _). exists d1. eexists. rewrite Q. reflexivity. }
    destruct Q as (d1 & n & Q). exists d1, n. split; [exact R|]. split; [rewrite <- X; exact Z|].
    split; [exact V|]. split; [exact T|]. split; [exact M|]. split; [intros N0; contradiction|intros _; split; [exact Ac|exact Q]].
Qed.
Print Assumptions C76_exchange.

(** ** Cases *)

(** a confirmable PUT-like message with a path, a Content-Format and a payload *)
Definition op_msg : msg := Msg (Hdr 65 1 18 52) [7] [(11, [118;49]); (12, [])] (Some [16;17;18]).
(** 8 bytes that held something else, and two expansions of 5 and 9 *)
Definition op_mem : list N := [201;202;203;204;205;206;207;208].
Definition op_new : list (list N) := [[211;212;213;214;215]; [221;222;223;224;225;226;227;228;229]].

Example C76_case : msg_ok op_msg /\ opts_within enc_range 0 (m_opts op_msg) /\ (length (msg_bytes op_msg) = 13)%nat /\
  exists x, shifts (chain op_msg) (nb_init op_mem op_new) = Ok x /\ nb_reply x = [65;1;18;52;7;178;118;49;16;255;16;17;18] /\ ns_pos (ne_sb x) = 13%nat /\ length (ns_new (ne_sb x)) = 1%nat.
Proof.
  split. { unfold msg_ok, op_msg, hdr_ok, bytes_ok. cbn [m_hdr m_tok m_opts m_pay hdr_bytes]. repeat split; try (cbn [length]; lia); repeat (apply Forall_cons || apply Forall_nil); vm_compute; (reflexivity || discriminate). }
  split. { unfold op_msg. cbn [m_opts opts_within]. unfold enc_range, enc_short. repeat split; try left; repeat split; try (left; vm_compute; discriminate); vm_compute; (reflexivity || discriminate). }
  split; [reflexivity|]. eexists. split; [vm_compute; reflexivity|]. repeat split; reflexivity.
Qed.

(** in 12 bytes of memory: the message with one payload byte less; in 16 without finalize: with
    three bytes more *)
Example C76_wrong_case :
  (exists x, shifts (chain op_msg) (nb_init (firstn 7 op_mem) [firstn 5 op_mem]) = Ok x /\ nb_reply x = msg_bytes (Msg (Hdr 65 1 18 52) [7] [(11, [118;49]); (12, [])] (Some [16;17]))) /\
  (exists x, shifts (chain op_msg) (nb_init (op_mem ++ op_mem) []) = Ok x /\
     nb_sendto (sb_finalize x) = msg_bytes (Msg (Hdr 65 1 18 52) [7] [(11, [118;49]); (12, [])] (Some [16;17;18;206;207;208]))).
Proof. split; eexists; (split; [vm_compute; reflexivity|reflexivity]). Qed.

(** a request for /v1/api/version to the table of C54 (node 4), written byte by byte into growing
    memory, and one for a path the table does not have *)
Example C76_exchange_case : forall sg neg d, idle d -> exists x r hr d1 n,
  shifts (chain bp_get) (nb_init op_mem [op_mem; op_mem; op_mem]) = Ok x /\
  answers sg neg true 64 [OHeader; OToken; OUri; OBoiler 4%Z [49;46;48]] (forest_rows bp_table) [nb_reply x] [r] /\ hdr_code hr = 69 /\
  dec_run (dec_fuel r) r d 0 = Ok (msg_events (Msg hr [7] [(12, [])] (Some [49;46;48])), d1, n).
Proof.
  intros sg neg d Hd. destruct (bp_arrives sg neg 0) as (Hm & _ & Hs & Hn).
  destruct (C76_exchange sg neg true 64 bp_table 4%Z [49;46;48] bp_get op_mem [op_mem; op_mem; op_mem] d bp_good) as (x & r & hr & d1 & n & R & A & _ & _ & _ & Y & _).
  - discriminate.
  - exact Hm.
  - unfold bp_get. cbn [m_opts opts_within]. unfold enc_range, enc_short. repeat split; try left; repeat split; try (left; vm_compute; discriminate); vm_compute; (reflexivity || discriminate).
  - exact Hs.
  - exact Hn.
  - vm_compute. lia.
  - repeat (apply Forall_cons || apply Forall_nil); reflexivity.
  - vm_compute. lia.
  - exact Hd.
  - destruct Y as (C & Q); [vm_compute; tauto|]. exists x, r, hr, d1, n. auto.
Qed.
