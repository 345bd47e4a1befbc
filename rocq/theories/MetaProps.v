(** C77: one notification passed on from observer to observer. *)
From Verif Require Import Base UIntModel HeaderModel HeaderSpec HeaderProofs OptEncModel OptSpec StreambufModel NetbufModel NetbufProofs
  OptDecModel DecoderModel DecoderSpec DecoderProofs DecoderProps NetDecModel NetDecProps CopyModel CopySpec CopyProofs CopyProps ObserveModel MetaModel.
Local Open Scope N_scope.

(** [h] with another token length: every other field as before *)
Definition relabelled (h : hdr) (n : nat) (h' : hdr) : Prop :=
  hdr_ok h' /\ fields_of h' = Fields (hdr_version h) (hdr_type h) (N.of_nat n) (hdr_code h) (hdr_mid h).

(** message [m] with token [tok] instead of its own; only if it is as long does the header stay *)
Definition for_token (tok : list N) (m : msg) : msg := Msg (m_hdr m) tok (m_opts m) (m_pay m).

Lemma set_tkl_fields : forall h n, hdr_ok h -> (n <= 8)%nat -> exists h', hdr_set_tkl (N.of_nat n) h = Ok h' /\ relabelled h n h'.
Proof.
  intros h n Hh Hn. destruct (hop_run_fields [HTkl (N.of_nat n)] h Hh) as (h' & E & Hok & Hf); [repeat constructor; cbn; lia|].
  cbn [hop_run hop_step bind] in E. exists h'. split; [destruct (hdr_set_tkl _ _); cbn [bind] in E; congruence|]. split; [exact Hok|]. exact Hf.
Qed.

Lemma relabelled_same : forall h n h', hdr_ok h -> hdr_tkl h = N.of_nat n -> relabelled h n h' -> h' = h.
Proof.
  intros h n h' Hh Ht (Ok' & F). rewrite <- Ht in F. change (fields_of h' = fields_of h) in F. destruct (wire_fields_of h Hh) as (W & _). destruct (wire_fields_of h' Ok') as (W' & _).
  rewrite F, W in W'. destruct h as [a b c d], h' as [a' b' c' d']. unfold hdr_bytes in W'. cbn [HeaderModel.h0 HeaderModel.h1 HeaderModel.h2 HeaderModel.h3] in W'. injection W' as -> -> -> ->. reflexivity.
Qed.

Lemma relabelled_tkl : forall h n h', relabelled h n h' -> hdr_tkl h' = N.of_nat n.
Proof. intros h n h' (_ & F). exact (f_equal f_tkl F). Qed.

Lemma front : forall debug room h tok, (4 + length tok <= room)%nat -> exists r1 r2,
  nbe_header h (nbe_init debug room) = Ok (true, r1) /\ nbe_token tok r1 = Ok (true, r2) /\ n_sink r2 = Sink (room - 4 - length tok) (hdr_bytes h ++ tok).
Proof.
  intros debug room h tok L. unfold nbe_header, nbe_init, assert_state. cbn [n_debug n_state NetbufModel.rstate_eqb n_sink s_room]. rewrite orb_true_r. cbn [bind].
  destruct (Nat.leb_spec 4 room); [|lia]. rewrite sputn_all by (cbn [hdr_bytes length]; lia). do 2 eexists. split; [reflexivity|].
  unfold nbe_token, assert_state, n_set_state, n_set_sink, n_set_enc. cbn [n_debug n_state n_sink snd n_enc n_marker n_written].
  assert (X : negb debug || NetbufModel.rstate_eqb (if debug then RHeaderDone else NetbufModel.RHeader) RHeaderDone = true) by (destruct debug; reflexivity). rewrite X. cbn [bind].
  rewrite sputn_all by (cbn [hdr_bytes length]; lia). rewrite Nat.eqb_refl. split; [reflexivity|]. reflexivity.
Qed.

(** a datagram: a header with the length of the token, the token, anything *)
Lemma step_any : forall A fuel debug room h tok rest d (s : session A), hdr_ok h -> h0 h mod 16 = len tok -> (length tok <= 8)%nat -> bytes_ok tok -> idle d ->
  (length (os_tok s) <= 8)%nat -> (1 <= fuel)%nat -> (length (os_tok s) <= length (tok ++ rest))%nat -> (4 + length (tok ++ rest) <= room)%nat ->
  exists h', relabelled h (length (os_tok s)) h' /\
    meta_step fuel true debug room (hdr_bytes h ++ tok ++ rest) d s = Ok (os_addr s, hdr_bytes h' ++ os_tok s ++ skipn (length (os_tok s)) (tok ++ rest)).
Proof.
  intros A fuel debug room h tok rest d s Hh Hk Hm8 Hb Hd H8 Hf L1 L2.
  destruct (C55_header_token true d h tok rest Hd Hb Hk Hm8) as (x1 & x2 & E & _).
  destruct (set_tkl_fields h _ Hh H8) as (h' & S1 & R). exists h'. split; [exact R|].
  destruct (front debug room h' (os_tok s) ltac:(lia)) as (r1 & r2 & F1 & F2 & F3).
  unfold meta_step. rewrite E. cbn [bind fst snd]. rewrite S1. cbn [bind]. rewrite F1. cbn [bind fst snd]. rewrite F2. cbn [bind fst snd]. rewrite F3. cbn [s_out s_room].
  rewrite (relabelled_tkl _ _ _ R), Nat2N.id.
  assert (Lc : length (hdr_bytes h ++ tok ++ rest) = (4 + length (tok ++ rest))%nat) by (rewrite app_length; reflexivity).
  destruct (C57_copy (hdr_bytes h ++ tok ++ rest) [] (4 + length (os_tok s)) (Dest [] (hdr_bytes h' ++ os_tok s) (room - 4 - length (os_tok s)) []) fuel ltac:(lia)) as (t & T1 & T2 & _).
  - cbn [concat]. rewrite app_nil_r. unfold space. cbn [t_room t_more list_sum fold_right]. lia.
  - cbn [length t_more]. lia.
  - rewrite T1. cbn [bind]. unfold dest_bytes in T2. rewrite T2. cbn [concat t_done t_cur app]. rewrite app_nil_r, <- app_assoc. reflexivity.
Qed.

(** What goes out, for every message and token: the header with the token's length, the token, and the
    message from where its token would end if it were as long as the new one. *)
Theorem C77_exact : forall A fuel debug room m d (s : session A), msg_ok m -> idle d -> (length (os_tok s) <= 8)%nat -> (1 <= fuel)%nat ->
  (4 + length (os_tok s) <= length (msg_bytes m) <= room)%nat ->
  exists h', relabelled (m_hdr m) (length (os_tok s)) h' /\
    meta_step fuel true debug room (msg_bytes m) d s = Ok (os_addr s, hdr_bytes h' ++ os_tok s ++ skipn (4 + length (os_tok s)) (msg_bytes m)).
Proof.
  intros A fuel debug room m d s Hm Hd H8 Hf (L1 & L2). pose proof Hm as (Hh & Hk & Hm8 & Hb & _).
  unfold msg_bytes in *. assert (Lc : forall r, length (hdr_bytes (m_hdr m) ++ r) = (4 + length r)%nat) by (intro; rewrite app_length; reflexivity). rewrite Lc in L1, L2.
  destruct (step_any A fuel debug room (m_hdr m) (m_tok m) (opts_bytes 0 (m_opts m) ++ pay_bytes (m_pay m)) d s) as (h' & R & E); auto; try lia. exists h'. split; [exact R|]. rewrite E. reflexivity.
Qed.
Print Assumptions C77_exact.

Lemma skip_token : forall m, skipn (4 + length (m_tok m)) (msg_bytes m) = opts_bytes 0 (m_opts m) ++ pay_bytes (m_pay m).
Proof.
  intros m. unfold msg_bytes. rewrite app_assoc. assert (L : length (hdr_bytes (m_hdr m) ++ m_tok m) = (4 + length (m_tok m))%nat) by (rewrite app_length; reflexivity).
  rewrite <- L, skipn_app, skipn_all, Nat.sub_diag. reflexivity.
Qed.

(** So with a token as long as the one before, the session gets the notification with its own
    token ... *)
Theorem C77_same_length : forall A fuel debug room m d (s : session A), msg_ok m -> idle d -> length (os_tok s) = length (m_tok m) -> (1 <= fuel)%nat ->
  (length (msg_bytes m) <= room)%nat ->
  meta_step fuel true debug room (msg_bytes m) d s = Ok (os_addr s, msg_bytes (for_token (os_tok s) m)).
Proof.
  intros A fuel debug room m d s Hm Hd Ht Hf L. pose proof Hm as (Hh & Hk & Hm8 & _).
  assert (L1 : (4 + length (os_tok s) <= length (msg_bytes m))%nat) by (unfold msg_bytes; rewrite !app_length, Ht; cbn [hdr_bytes length]; lia).
  destruct (C77_exact A fuel debug room m d s Hm Hd ltac:(lia) Hf (conj L1 L)) as (h' & R & E). rewrite E.
  assert (h' = m_hdr m) as -> by (apply (relabelled_same (m_hdr m) (length (os_tok s))); [exact Hh|rewrite tkl_mod, Hk, Ht; reflexivity|exact R]).
  rewrite Ht, skip_token. reflexivity.
Qed.
Print Assumptions C77_same_length.

Lemma for_token_ok : forall tok m, msg_ok m -> bytes_ok tok -> length tok = length (m_tok m) -> msg_ok (for_token tok m).
Proof.
  intros tok m (A & B & C & D & E & F) Hb Hl. unfold for_token, msg_ok. cbn [m_hdr m_tok m_opts m_pay]. rewrite Hl. auto 8.
Qed.

Lemma for_token_length : forall tok m, length tok = length (m_tok m) -> length (msg_bytes (for_token tok m)) = length (msg_bytes m).
Proof. intros tok m H. unfold msg_bytes, for_token. cbn [m_hdr m_tok m_opts m_pay]. rewrite !app_length, H. reflexivity. Qed.

(** ... and in a whole round, every session does. *)
Theorem C77_round : forall A fuel debug room m (it : list (dec * session A)), msg_ok m -> (1 <= fuel)%nat -> (length (msg_bytes m) <= room)%nat ->
  (forall d s, In (d, s) it -> idle d /\ bytes_ok (os_tok s) /\ length (os_tok s) = length (m_tok m)) ->
  meta_run fuel true debug room (msg_bytes m) it = Ok (map (fun x => (os_addr (snd x), msg_bytes (for_token (os_tok (snd x)) m))) it).
Proof.
  intros A fuel debug room m it Hm Hf L H. revert m Hm L H. induction it as [|[d s] it IH]; intros m Hm L H; [reflexivity|].
  destruct (H d s (or_introl eq_refl)) as (Hd & Hb & Ht). cbn [meta_run]. rewrite (C77_same_length A fuel debug room m d s Hm Hd Ht Hf L). cbn [bind snd].
  rewrite (IH (for_token (os_tok s) m)).
  - cbn [bind map snd]. reflexivity.
  - now apply for_token_ok.
  - now rewrite for_token_length.
  - intros d1 s1 I. destruct (H d1 s1 (or_intror I)) as (A1 & A2 & A3). split; [exact A1|]. split; [exact A2|]. cbn [for_token m_tok]. lia.
Qed.
Print Assumptions C77_round.

(** Full claim (false): two notifications for one endpoint have different message ids.  All of a
    round have the id of the first; a receiver that drops what it has seen before (RFC 7252, 4.5)
    takes the second for a copy of the first. *)
Theorem C77_one_id_refuted : forall A fuel debug room m d1 d2 (s1 s2 : session A) e, msg_ok m -> (m_opts m <> [] \/ m_pay m <> None) -> (1 <= fuel)%nat -> (length (msg_bytes m) <= room)%nat ->
  idle d1 -> idle d2 -> idle e -> bytes_ok (os_tok s1) -> bytes_ok (os_tok s2) -> length (os_tok s1) = length (m_tok m) -> length (os_tok s2) = length (m_tok m) -> os_addr s1 = os_addr s2 ->
  exists b1 b2 e1 e2, meta_run fuel true debug room (msg_bytes m) [(d1, s1); (d2, s2)] = Ok [(os_addr s1, b1); (os_addr s1, b2)] /\
    dec_run (dec_fuel b1) b1 e 0 = Ok (msg_events (for_token (os_tok s1) m), e1, length b1) /\
    dec_run (dec_fuel b2) b2 e1 0 = Ok (msg_events (for_token (os_tok s2) m), e2, length b2).
Proof.
  intros A fuel debug room m d1 d2 s1 s2 e Hm Hne Hf L D1 D2 De B1 B2 T1 T2 Ha.
  assert (M1 := for_token_ok _ m Hm B1 T1). assert (M2 := for_token_ok _ m Hm B2 T2).
  destruct (C14_whole_message _ e _ M1 Hne De (le_n _)) as (e1 & R1 & I1). destruct (C14_whole_message _ e1 _ M2 Hne I1 (le_n _)) as (e2 & R2 & _).
  do 4 eexists. split; [|split; [exact R1|exact R2]]. rewrite (C77_round A fuel debug room m _ Hm Hf L).
  - cbn [map snd]. rewrite <- Ha. reflexivity.
  - intros d s [I|[I|[]]]; injection I as <- <-; auto.
Qed.
Print Assumptions C77_one_id_refuted.

(** Full claim (false): a session gets the notification with its own token whatever that is.  With
    a token of another length what goes out is never the notification: it is too short or too long,
    for the message is cut where the new token would end in it. *)
Theorem C77_other_length_refuted : forall A fuel debug room m d (s : session A), msg_ok m -> idle d -> (length (os_tok s) <= 8)%nat -> (1 <= fuel)%nat ->
  (4 + length (os_tok s) <= length (msg_bytes m) <= room)%nat -> length (os_tok s) <> length (m_tok m) ->
  exists b, meta_step fuel true debug room (msg_bytes m) d s = Ok (os_addr s, b) /\ length b = length (msg_bytes m) /\
    forall h, b <> msg_bytes (Msg h (os_tok s) (m_opts m) (m_pay m)).
Proof.
  intros A fuel debug room m d s Hm Hd H8 Hf L Hne. destruct (C77_exact A fuel debug room m d s Hm Hd H8 Hf L) as (h' & R & E).
  eexists. split; [exact E|]. assert (Lb : length (hdr_bytes h' ++ os_tok s ++ skipn (4 + length (os_tok s)) (msg_bytes m)) = length (msg_bytes m)).
  { rewrite !app_length, skipn_length. change (length (hdr_bytes h')) with 4%nat. lia. }
  split; [exact Lb|]. intros h X. rewrite X in Lb. unfold msg_bytes in Lb. cbn [m_hdr m_tok m_opts m_pay] in Lb. rewrite !app_length in Lb.
  change (length (hdr_bytes h)) with 4%nat in Lb. change (length (hdr_bytes (m_hdr m))) with 4%nat in Lb. lia.
Qed.
Print Assumptions C77_other_length_refuted.

(** A shorter token leaves the end of the old one in front of the options; a longer one takes their
    first bytes away. *)
Theorem C77_shorter_refuted : forall A fuel debug room m d (s : session A) old rest, msg_ok m -> idle d -> m_tok m = old ++ rest -> length (os_tok s) = length old -> (1 <= fuel)%nat ->
  (length (msg_bytes m) <= room)%nat ->
  exists h', relabelled (m_hdr m) (length (os_tok s)) h' /\
    meta_step fuel true debug room (msg_bytes m) d s = Ok (os_addr s, hdr_bytes h' ++ os_tok s ++ rest ++ opts_bytes 0 (m_opts m) ++ pay_bytes (m_pay m)).
Proof.
  intros A fuel debug room m d s old rest Hm Hd Et Ht Hf L. pose proof Hm as (_ & _ & Hm8 & _). assert (Lt := f_equal (@length N) Et). rewrite app_length in Lt.
  assert (L1 : (4 + length (os_tok s) <= length (msg_bytes m))%nat) by (unfold msg_bytes; rewrite !app_length; cbn [hdr_bytes length]; lia).
  destruct (C77_exact A fuel debug room m d s Hm Hd ltac:(lia) Hf (conj L1 L)) as (h' & R & E). exists h'. split; [exact R|]. rewrite E. do 4 f_equal.
  unfold msg_bytes. rewrite Et. rewrite <- app_assoc, app_assoc. assert (Lo : (4 + length (os_tok s))%nat = length (hdr_bytes (m_hdr m) ++ old)) by (rewrite app_length, Ht; reflexivity).
  rewrite Lo, skipn_app, skipn_all, Nat.sub_diag. reflexivity.
Qed.
Print Assumptions C77_shorter_refuted.

Theorem C77_longer_refuted : forall A fuel debug room m d (s : session A) k, msg_ok m -> idle d -> (length (os_tok s) = length (m_tok m) + k)%nat -> (length (os_tok s) <= 8)%nat -> (1 <= fuel)%nat ->
  (4 + length (os_tok s) <= length (msg_bytes m) <= room)%nat ->
  exists h', relabelled (m_hdr m) (length (os_tok s)) h' /\
    meta_step fuel true debug room (msg_bytes m) d s = Ok (os_addr s, hdr_bytes h' ++ os_tok s ++ skipn k (opts_bytes 0 (m_opts m) ++ pay_bytes (m_pay m))).
Proof.
  intros A fuel debug room m d s k Hm Hd Ht H8 Hf L. destruct (C77_exact A fuel debug room m d s Hm Hd H8 Hf L) as (h' & R & E). exists h'. split; [exact R|]. rewrite E. do 4 f_equal.
  unfold msg_bytes. rewrite app_assoc, skipn_app. assert (Lo : length (hdr_bytes (m_hdr m) ++ m_tok m) = (4 + length (m_tok m))%nat) by (rewrite app_length; reflexivity).
  rewrite skipn_all2 by lia. cbn [app]. f_equal. lia.
Qed.
Print Assumptions C77_longer_refuted.

(** A whole round, whatever the lengths: nothing is ever moved, each token is written over the
    beginning of what followed the header when the session before was served. *)
Fixpoint overwritten {A} (h : hdr) (rest : list N) (ss : list (session A)) (outs : list (A * list N)) : Prop :=
  match ss, outs with
  | [], [] => True
  | s :: ss', (a, b) :: outs' =>
      let rest' := os_tok s ++ skipn (length (os_tok s)) rest in
      a = os_addr s /\ (exists h', relabelled h (length (os_tok s)) h' /\ b = hdr_bytes h' ++ rest') /\ overwritten h rest' ss' outs'
  | _, _ => False
  end.

Lemma overwritten_fields : forall A (ss : list (session A)) h h' n rest outs, relabelled h n h' -> overwritten h' rest ss outs -> overwritten h rest ss outs.
Proof.
  induction ss as [|s ss IH]; intros h h' n rest outs R H; destruct outs as [|[a b] outs]; cbn [overwritten] in *; auto.
  destruct H as (H1 & (h2 & (K1 & K2) & H3) & H4). split; [exact H1|]. split; [|exact (IH _ _ _ _ _ R H4)]. exists h2. split; [|exact H3]. split; [exact K1|].
  destruct R as (_ & F). rewrite K2. pose proof (f_equal f_ver F) as F1. pose proof (f_equal f_type F) as F2. pose proof (f_equal f_code F) as F3. pose proof (f_equal f_mid F) as F4.
  unfold fields_of in F1, F2, F3, F4. cbn [f_ver f_type f_code f_mid] in F1, F2, F3, F4. rewrite F1, F2, F3, F4. reflexivity.
Qed.

Theorem C77_overwrites : forall A fuel debug room (it : list (dec * session A)) h tok rest, hdr_ok h -> h0 h mod 16 = len tok -> (length tok <= 8)%nat -> bytes_ok tok -> (1 <= fuel)%nat ->
  (4 + length (tok ++ rest) <= room)%nat ->
  (forall d s, In (d, s) it -> idle d /\ bytes_ok (os_tok s) /\ (length (os_tok s) <= 8)%nat /\ (length (os_tok s) <= length (tok ++ rest))%nat) ->
  exists outs, meta_run fuel true debug room (hdr_bytes h ++ tok ++ rest) it = Ok outs /\ overwritten h (tok ++ rest) (map snd it) outs.
Proof.
  intros A fuel debug room it. induction it as [|[d s] it IH]; intros h tok rest Hh Hk H8 Hb Hf L H; [exists []; split; [reflexivity|exact I]|].
  destruct (H d s (or_introl eq_refl)) as (Hd & Hs & Hs8 & Ls). destruct (step_any A fuel debug room h tok rest d s Hh Hk H8 Hb Hd Hs8 Hf Ls L) as (h' & R & E).
  assert (Ln : length (os_tok s ++ skipn (length (os_tok s)) (tok ++ rest)) = length (tok ++ rest)) by (rewrite app_length, skipn_length; lia).
  destruct (IH h' (os_tok s) (skipn (length (os_tok s)) (tok ++ rest))) as (outs & E2 & O); auto.
  - exact (proj1 R).
  - rewrite <- tkl_mod. exact (relabelled_tkl _ _ _ R).
  - lia.
  - intros d1 s1 I1. destruct (H d1 s1 (or_intror I1)) as (A1 & A2 & A3 & A4). rewrite Ln. auto.
  - cbn [meta_run]. rewrite E. cbn [bind snd]. rewrite E2. cbn [bind]. eexists. split; [reflexivity|]. cbn [map snd overwritten]. split; [reflexivity|].
    split; [exists h'; split; [exact R|reflexivity]|]. exact (overwritten_fields _ _ _ _ _ _ _ R O).
Qed.
Print Assumptions C77_overwrites.

(** Full claim (false): one observer's token is not told to another.  After a token longer by some
    bytes, the next session gets these between its own token and what is left of the options. *)
Theorem C77_token_leak_refuted : forall A fuel debug room m d1 d2 (s1 s2 : session A) t x, msg_ok m -> (1 <= fuel)%nat -> (length (msg_bytes m) <= room)%nat ->
  idle d1 -> idle d2 -> bytes_ok (os_tok s1) -> bytes_ok (os_tok s2) -> os_tok s1 = t ++ x -> length t = length (m_tok m) -> length (os_tok s2) = length (m_tok m) ->
  (length (os_tok s1) <= 8)%nat -> (4 + length (os_tok s1) <= length (msg_bytes m))%nat ->
  exists b1 h2, meta_run fuel true debug room (msg_bytes m) [(d1, s1); (d2, s2)] =
    Ok [(os_addr s1, b1); (os_addr s2, hdr_bytes h2 ++ os_tok s2 ++ x ++ skipn (length x) (opts_bytes 0 (m_opts m) ++ pay_bytes (m_pay m)))].
Proof.
  intros A fuel debug room m d1 d2 s1 s2 t x Hm Hf L D1 D2 B1 B2 Et Lt L2 H8 L1. pose proof Hm as (Hh & Hk & Hm8 & Hb & _).
  assert (Lm : length (msg_bytes m) = (4 + length (m_tok m ++ opts_bytes 0 (m_opts m) ++ pay_bytes (m_pay m)))%nat) by (unfold msg_bytes; rewrite app_length; reflexivity).
  destruct (C77_overwrites A fuel debug room [(d1, s1); (d2, s2)] (m_hdr m) (m_tok m) (opts_bytes 0 (m_opts m) ++ pay_bytes (m_pay m)) Hh Hk Hm8 Hb Hf) as (outs & E & O).
  - lia.
  - intros d s [I1|[I1|[]]]; injection I1 as <- <-; (split; [assumption|]); (split; [assumption|]); rewrite Lm in L1; split; try lia. rewrite L2, app_length. lia.
  - cbn [map snd overwritten] in O. destruct outs as [|[a1 b1] [|[a2 b2] [|? ?]]]; try tauto; try (destruct O as (? & ? & ?); tauto).
    destruct O as (-> & (h1 & R1 & Eb1) & -> & (h2 & R2 & Eb2) & _). exists b1, h2. unfold msg_bytes at 1. rewrite E. do 4 f_equal. rewrite Eb2. f_equal. rewrite Et.
    rewrite L2, <- Lt, <- app_assoc, skipn_app, skipn_all, Nat.sub_diag. cbn [app]. f_equal. rewrite app_length. cbn [skipn app]. f_equal. rewrite skipn_app, (skipn_all2 (m_tok m)) by lia. cbn [app]. f_equal. lia.
Qed.
Print Assumptions C77_token_leak_refuted.

(** Even a longer one, and the end of the message is passed; a new netbuf with less room than the
    old one, and the copying does not end (C57). *)
Theorem C77_past_end_refuted : forall A fuel inl debug room m d (s : session A), msg_ok m -> idle d -> (length (os_tok s) <= 8)%nat -> (1 <= fuel)%nat ->
  (length (msg_bytes m) < 4 + length (os_tok s) < room)%nat ->
  meta_step fuel inl debug room (msg_bytes m) d s = Fault.
Proof.
  intros A fuel inl debug room m d s Hm Hd H8 Hf (L1 & L2). pose proof Hm as (Hh & Hk & Hm8 & Hb & _).
  destruct (C55_header_token true d (m_hdr m) (m_tok m) (opts_bytes 0 (m_opts m) ++ pay_bytes (m_pay m)) Hd Hb Hk Hm8) as (x1 & x2 & E & _).
  destruct (set_tkl_fields (m_hdr m) _ Hh H8) as (h' & S1 & R). destruct (front debug room h' (os_tok s) ltac:(lia)) as (r1 & r2 & F1 & F2 & F3).
  unfold meta_step. unfold msg_bytes at 1. rewrite E. cbn [bind fst snd]. rewrite S1. cbn [bind]. rewrite F1. cbn [bind fst snd]. rewrite F2. cbn [bind fst snd]. rewrite F3. cbn [s_out s_room].
  rewrite (relabelled_tkl _ _ _ R), Nat2N.id.
  destruct (C57_skip_refuted (msg_bytes m) [] (4 + length (os_tok s)) (Dest [] (hdr_bytes h' ++ os_tok s) (room - 4 - length (os_tok s)) []) fuel L1) as (G & _).
  rewrite G; [reflexivity|unfold space; cbn [t_room t_more list_sum fold_right]; lia|cbn [t_more length]; lia].
Qed.
Print Assumptions C77_past_end_refuted.

Theorem C77_full_refuted : forall A fuel inl debug room m d (s : session A), msg_ok m -> idle d -> (length (os_tok s) <= 8)%nat ->
  (4 + length (os_tok s) <= room < length (msg_bytes m))%nat ->
  meta_step fuel inl debug room (msg_bytes m) d s = NoFuel.
Proof.
  intros A fuel inl debug room m d s Hm Hd H8 (L1 & L2). pose proof Hm as (Hh & Hk & Hm8 & Hb & _).
  destruct (C55_header_token true d (m_hdr m) (m_tok m) (opts_bytes 0 (m_opts m) ++ pay_bytes (m_pay m)) Hd Hb Hk Hm8) as (x1 & x2 & E & _).
  destruct (set_tkl_fields (m_hdr m) _ Hh H8) as (h' & S1 & R). destruct (front debug room h' (os_tok s) ltac:(lia)) as (r1 & r2 & F1 & F2 & F3).
  unfold meta_step. unfold msg_bytes at 1. rewrite E. cbn [bind fst snd]. rewrite S1. cbn [bind]. rewrite F1. cbn [bind fst snd]. rewrite F2. cbn [bind fst snd]. rewrite F3. cbn [s_out s_room].
  rewrite (relabelled_tkl _ _ _ R), Nat2N.id.
  rewrite C57_full_refuted; [reflexivity|lia|]. cbn [concat]. rewrite app_nil_r. unfold space. cbn [t_room t_more list_sum fold_right]. lia.
Qed.
Print Assumptions C77_full_refuted.

(** Without FEATURE_EMBR_DATAPUMP_INLINE the rewritten netbuf is left behind and every session gets
    the first notification as it was, with the token of the first session. *)
Theorem C77_old_netbuf_refuted : forall A fuel debug room m (it : list (dec * session A)), msg_ok m -> (1 <= fuel)%nat -> (length (msg_bytes m) <= room)%nat ->
  (forall d s, In (d, s) it -> idle d /\ (length (os_tok s) <= 8)%nat /\ (4 + length (os_tok s) <= length (msg_bytes m))%nat) ->
  meta_run fuel false debug room (msg_bytes m) it = Ok (map (fun x => (os_addr (snd x), msg_bytes m)) it).
Proof.
  intros A fuel debug room m it Hm Hf L H. induction it as [|[d s] it IH]; [reflexivity|]. destruct (H d s (or_introl eq_refl)) as (Hd & H8 & L1). cbn [meta_run].
  destruct (C77_exact A fuel debug room m d s Hm Hd H8 Hf (conj L1 L)) as (h' & _ & E).
  assert (G : meta_step fuel false debug room (msg_bytes m) d s = Ok (os_addr s, msg_bytes m)).
  { unfold meta_step in E |- *. destruct (nd_header _ _ _) as [x| |]; cbn [bind] in *; try discriminate. destruct (hdr_set_tkl _ _) as [h| |]; cbn [bind] in *; try discriminate.
    destruct (nbe_header _ _) as [r1| |]; cbn [bind] in *; try discriminate. destruct (nbe_token _ _) as [r2| |]; cbn [bind] in *; try discriminate.
    destruct (netbuf_copy _ _ _ _ _) as [t| |]; cbn [bind] in *; try discriminate. reflexivity. }
  rewrite G. cbn [bind snd]. rewrite IH by (intros d1 s1 I; apply H; now right). reflexivity.
Qed.
Print Assumptions C77_old_netbuf_refuted.

(** ** Cases *)

(** a notification for token 7 34: NON 2.05 with id 0x1234, Observe 5, payload; sessions with tokens of two,
    one and three bytes *)
Definition meta_msg : msg := Msg (Hdr 82 69 18 52) [7; 34] [(6, [5])] (Some [104; 105]).
Definition meta_sess (a : N) (tok : list N) : dec * session N := (sample_dec, Session 4 a tok).

Example C77_case : msg_ok meta_msg /\ idle sample_dec /\
  meta_run 1 true false 64 (msg_bytes meta_msg) [meta_sess 1 [1; 2]; meta_sess 2 [3; 4]] =
    Ok [(1, [82; 69; 18; 52; 1; 2; 97; 5; 255; 104; 105]); (2, [82; 69; 18; 52; 3; 4; 97; 5; 255; 104; 105])].
Proof.
  split. { unfold msg_ok, meta_msg, hdr_ok, bytes_ok. cbn [m_hdr m_tok m_opts m_pay hdr_bytes]. repeat split; try (cbn [length]; lia); repeat (apply Forall_cons || apply Forall_nil); vm_compute; (reflexivity || discriminate). }
  split; [apply sample_idle|]. vm_compute. reflexivity.
Qed.

(** with one byte: the old token's second byte 34 is read as an option 2 of two bytes, which takes the
    Observe option for its value; with three: the head of the Observe option is gone, and its value 5
    stands where the head of an option of five bytes would *)
Example C77_wrong_case :
  meta_run 1 true true 64 (msg_bytes meta_msg) [meta_sess 1 [9]] = Ok [(1, [81; 69; 18; 52; 9; 34; 97; 5; 255; 104; 105])] /\
  (exists e, dec_run 40 [81; 69; 18; 52; 9; 34; 97; 5; 255; 104; 105] sample_dec 0 =
     Ok (msg_events (Msg (Hdr 81 69 18 52) [9] [(2, [97; 5])] (Some [104; 105])), e, 11%nat)) /\
  meta_run 1 true true 64 (msg_bytes meta_msg) [meta_sess 1 [9; 9; 9]] = Ok [(1, [83; 69; 18; 52; 9; 9; 9; 5; 255; 104; 105])] /\
  meta_run 1 true true 64 (msg_bytes meta_msg) [meta_sess 1 [1; 2; 99; 98]; meta_sess 2 [8; 8]] =
    Ok [(1, [84; 69; 18; 52; 1; 2; 99; 98; 255; 104; 105]); (2, [82; 69; 18; 52; 8; 8; 99; 98; 255; 104; 105])] /\
  meta_run 1 false true 64 (msg_bytes meta_msg) [meta_sess 1 [9]; meta_sess 2 [8; 8]] = Ok [(1, msg_bytes meta_msg); (2, msg_bytes meta_msg)] /\
  meta_run 100 true true 10 (msg_bytes meta_msg) [meta_sess 1 [9]] = NoFuel /\
  meta_run 1 true true 64 (msg_bytes (Msg (Hdr 81 69 18 52) [9] [] None)) [meta_sess 1 [1; 2; 3]] = Fault.
Proof. split; [vm_compute; reflexivity|]. split; [eexists; vm_compute; reflexivity|]. repeat split; vm_compute; reflexivity. Qed.
