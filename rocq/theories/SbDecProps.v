(** C53: the decoder that reads its message from a stream buffer. *)
From Verif Require Import Base HeaderModel HeaderProofs OptEncModel OptSpec OptDecModel OptDecSpec OptDecProofs
  DecoderModel DecoderSpec DecoderProofs DecoderProps ChunkSpec ChunkProofs ChunkProps SbDecModel SbDecSpec SbDecProofs.
Local Open Scope N_scope.

(** reading the segments [L] to the end reports [es], consumes every byte, and the
    decoder can be used for the next message *)
Definition sb_reports (sg neg eat : bool) (L : list (list N)) (d : dec) (es : list event) : Prop :=
  exists F d1 s1, idle d1 /\ s_cur s1 ++ concat (s_rest s1) = [] /\
    forall fuel, (F <= fuel)%nat -> sbd_run fuel sg neg eat d (SBuf [] L) = Ok (es, d1, s1).
(** reading the segments [L] runs into an assertion or undefined behaviour *)
Definition sb_faults (sg neg eat : bool) (L : list (list N)) (d : dec) : Prop :=
  exists F, forall fuel, (F <= fuel)%nat -> sbd_run fuel sg neg eat d (SBuf [] L) = Fault.

Lemma of_SR : forall sg neg eat L d es, SR sg neg eat d (SBuf [] L) es -> sb_reports sg neg eat L d es.
Proof.
  intros sg neg eat L d es (F & d1 & s1 & (A & B) & C & D). exists F, d1, s1. split; [split; [right; exact A|exact B]|].
  split; [exact C|]. intros fuel Hf. replace fuel with (F + (fuel - F))%nat by lia. apply D.
Qed.
Lemma of_SF : forall sg neg eat L d, SF sg neg eat d (SBuf [] L) -> sb_faults sg neg eat L d.
Proof.
  intros sg neg eat L d (F & H). exists F. intros fuel Hf. replace fuel with (F + (fuel - F))%nat by lia. apply H.
Qed.

(** ** Any bytes at all after the token *)

(** C53: for every cut into segments, empty ones included, and every reading of the
    choices the platform leaves open, the report follows the RFC reading of the whole
    stream ([parse]). *)
Definition sb_tail (eat : bool) (L : list (list N)) (e : oend) : list event :=
  match e with
  | EndMarker p => EOptDone :: payload_report eat L p
  | EndAfterHead num l => [EOption num [] (l =? 0); EOptDone]
  | _ => [EOptDone]
  end.

Theorem C53_refines_parser : forall sg neg eat L d h tok rest,
  bytes_ok (concat L) -> idle d -> h0 h mod 16 = N.of_nat (length tok) -> (length tok <= 8)%nat -> rest <> [] ->
  (sg = true -> ~ In 255 (hdr_bytes h ++ tok)) -> concat L = hdr_bytes h ++ tok ++ rest ->
  let '(vs, e) := parse 0 (4 + length tok) rest in
  let report tl := [EHeader h; EToken tok; EOptStart] ++ map (opt_view L 0) vs ++ tl ++ [ECompleted] in
  match e with
  | EndClean | EndMarker _ => sb_reports sg neg eat L d (report (sb_tail eat L e))
  | EndAfterHead _ _ | EndInValue _ =>
      if neg then sb_faults sg neg eat L d else sb_reports sg neg eat L d (report (sb_tail eat L e))
  | EndReserved => sb_faults sg neg eat L d
  | EndInHead =>
      if neg then sb_faults sg neg eat L d
      else sb_faults sg neg eat L d \/
           exists es, Forall hollow es /\ sb_reports sg neg eat L d (report (es ++ [EOptDone]))
  end.
Proof.
  intros sg neg eat L d h tok rest Hok Hd Ht H8 Hr Hs HL. rewrite <- tkl_mod in Ht. rewrite app_assoc in HL.
  destruct (parse 0 (4 + length tok) rest) as [vs e] eqn:E.
  assert (HP : parse 0 (length (hdr_bytes h ++ tok)) rest = (vs, e)) by (rewrite app_length; exact E).
  pose proof (stream_run L sg neg eat h tok (hdr_bytes h ++ tok) rest d vs e Hok Hd Ht H8 (skims_clean _ _ Hs) Hr HL HP) as R.
  destruct e; cbn zeta; try (now apply of_SR); try (now apply of_SF).
  - destruct neg; [now apply of_SF|]. destruct R as [R|(es & R1 & R2)]; [left; now apply of_SF|].
    right. exists es. split; [exact R1|]. apply of_SR. rewrite <- app_assoc. exact R2.
  - destruct neg; [now apply of_SF|now apply of_SR].
  - destruct neg; [now apply of_SF|now apply of_SR].
Qed.
Print Assumptions C53_refines_parser.

(** ** Well formed messages *)

Lemma sb_message : forall sg neg eat L d m raw, msg_ok m -> m_opts m <> [] \/ m_pay m <> None -> idle d -> bytes_ok raw ->
  (neg = true -> m_pay m = None -> ~ exists os n, m_opts m = os ++ [(n, [])]) ->
  skims sg raw (hdr_bytes (m_hdr m) ++ m_tok m) ->
  concat L = raw ++ opts_bytes 0 (m_opts m) ++ pay_bytes (m_pay m) ->
  sb_reports sg neg eat L d ([EHeader (m_hdr m); EToken (m_tok m); EOptStart] ++
    map (opt_view L 0) (views 0 (length raw) (m_opts m)) ++ [EOptDone] ++
    match m_pay m with None => [] | Some _ => payload_report eat L (length (raw ++ opts_bytes 0 (m_opts m)) + 1) end ++ [ECompleted]).
Proof.
  intros sg neg eat L d m raw Hm Hne Hd Hokr Hneg HS HL. assert (Hok := msg_bytes_ok m Hm).
  assert (HokL : bytes_ok (concat L)).
  { rewrite HL. apply bytes_ok_app. split; [exact Hokr|]. unfold msg_bytes in Hok. apply bytes_ok_app in Hok. destruct Hok as (_ & Hok).
    apply bytes_ok_app in Hok. apply Hok. }
  destruct m as [h tok os p]. destruct Hm as (A & B & C & D & E & G). cbn [m_hdr m_tok m_opts m_pay] in *.
  rewrite <- tkl_mod in B.
  assert (Hrest : opts_bytes 0 os ++ pay_bytes p <> []).
  { destruct p as [b|]; [destruct (opts_bytes 0 os); discriminate|]. cbn [pay_bytes]. rewrite app_nil_r.
    destruct os as [|[n v] os]; [destruct Hne; congruence|]. cbn [opts_bytes]. intro X. apply app_eq_nil in X. destruct X as (X & _).
    revert X. unfold opt_head. discriminate. }
  pose proof (fun vs e => stream_run L sg neg eat h tok raw (opts_bytes 0 os ++ pay_bytes p) d vs e HokL Hd B C HS Hrest HL) as HR.
  destruct p as [b|].
  - cbn [pay_bytes] in *. rewrite parse_opts in HR; [|assumption|constructor; [unfold byte_ok; lia|assumption]|left; discriminate].
    cbn zeta in HR. unfold parse in HR. cbn [length oparse] in HR. change (255 =? 255) with true in HR.
    cbn iota in HR. cbn [fst snd] in HR. rewrite app_nil_r in HR. specialize (HR _ _ eq_refl). cbn iota in HR.
    apply of_SR. cbn [late_tail] in HR. rewrite app_length. exact HR.
  - cbn [pay_bytes] in *. rewrite app_nil_r in HR, HL, Hrest.
    assert (HO : os <> []) by (destruct Hne; congruence).
    destruct (parse_message_opts os (length raw) E HO) as [(H1 & H2)|(os' & num & H1 & H2)].
    + specialize (HR _ _ H2). cbn iota in HR. apply of_SR. exact HR.
    + specialize (HR _ _ H2). cbn iota in HR.
      destruct neg.
      { destruct (Hneg eq_refl eq_refl). exists os', num. exact H1. }
      apply of_SR. subst os. rewrite views_app by assumption. rewrite map_app. cbn [map opt_view late_tail] in *. rewrite Nat.sub_0_r.
      replace (length raw + length (opts_bytes 0 (os' ++ [(num, [])])))%nat with (length (concat L)).
      2:{ rewrite HL, !app_length. lia. }
      rewrite opt_at_end, <- !app_assoc. exact HR.
Qed.

(** C53: the report of a well formed message, exactly, for every cut into segments. *)
Theorem C53_message : forall sg neg eat L d m, msg_ok m -> m_opts m <> [] \/ m_pay m <> None -> idle d ->
  (sg = true -> ~ In 255 (hdr_bytes (m_hdr m) ++ m_tok m)) ->
  (neg = true -> m_pay m = None -> ~ exists os n, m_opts m = os ++ [(n, [])]) ->
  concat L = msg_bytes m -> sb_reports sg neg eat L d (seg_events eat m L).
Proof.
  intros sg neg eat L d m Hm Hne Hd Hs Hneg HL. unfold seg_events.
  assert (X := sb_message sg neg eat L d m (hdr_bytes (m_hdr m) ++ m_tok m) Hm Hne Hd).
  rewrite app_length in X. change (length (hdr_bytes (m_hdr m))) with 4%nat in X. rewrite <- !app_assoc in X.
  apply X; [|exact Hneg|now apply skims_clean|].
  - destruct Hm as (A & _ & _ & B & _). apply bytes_ok_app. split; assumption.
  - rewrite HL. unfold msg_bytes. reflexivity.
Qed.
Print Assumptions C53_message.

(** ** The payload *)

Definition pay_of (e : event) : list (list N * bool) := match e with EPayload b last => [(b, last)] | _ => [] end.

Lemma no_pay_views : forall L vs, flat_map pay_of (map (opt_view L 0) vs) = [].
Proof.
  intros L. induction vs as [|[[n l] o] vs IH]; [reflexivity|]. cbn [map flat_map]. rewrite IH, app_nil_r. cbn [opt_view].
  generalize (o - 0)%nat. clear. induction L as [|c r IH]; intros q; [reflexivity|]. cbn [opt_at]. destruct (_ <? _)%nat; [reflexivity|apply IH].
Qed.

Lemma seg_pays_pieces : forall L, concat L <> [] -> exists front x, flat_map pay_of (seg_pays L) = front ++ [(x, true)] /\
  x <> [] /\ Forall (fun p => snd p = false /\ fst p <> []) front /\ concat (map fst (front ++ [(x, true)])) = concat L.
Proof.
  assert (Z : forall L, concat L = [] -> flat_map pay_of (seg_pays L) = []).
  { induction L as [|c r IH]; intros H; [reflexivity|]. cbn [concat] in H. apply app_eq_nil in H. destruct H as (-> & H). now apply IH. }
  induction L as [|c r IH]; intros H; [destruct H; reflexivity|]. destruct c as [|b c].
  - destruct (IH H) as (f & x & A & B & C & D). exists f, x. cbn [seg_pays]. auto.
  - cbn [seg_pays]. destruct (concat r) as [|b2 r2] eqn:E.
    + exists [], (b :: c). cbn [flat_map pay_of app]. rewrite (Z r E). repeat split; [discriminate|constructor|]. cbn [map fst]. cbn [concat]. rewrite ?E, ?app_nil_r. reflexivity.
    + destruct (IH ltac:(discriminate)) as (f & x & A & B & C & D).
      exists ((b :: c, false) :: f), x. cbn [flat_map pay_of app]. rewrite A. split; [reflexivity|]. split; [exact B|].
      split; [constructor; [split; [reflexivity|discriminate]|exact C]|]. cbn [map concat fst app]. rewrite D. now rewrite ?E.
Qed.

Lemma report_pays : forall eat m L, flat_map pay_of (seg_events eat m L) =
  match m_pay m with None => [] | Some _ => flat_map pay_of (payload_report eat L (length (hdr_bytes (m_hdr m) ++ m_tok m ++ opts_bytes 0 (m_opts m)) + 1)) end.
Proof.
  intros eat m L. unfold seg_events. rewrite !flat_map_app, no_pay_views. cbn [flat_map pay_of app].
  destruct (m_pay m); [|reflexivity]. now rewrite app_nil_r.
Qed.

Lemma pay_offset : forall h tok os b,
  skipn (length (hdr_bytes h ++ tok ++ opts_bytes 0 os) + 1) (hdr_bytes h ++ tok ++ opts_bytes 0 os ++ 255 :: b) = b.
Proof.
  intros h tok os b. rewrite !app_length. change (length (hdr_bytes h)) with 4%nat.
  replace (4 + (length tok + length (opts_bytes 0 os)) + 1)%nat with (4 + length tok + length (opts_bytes 0 os) + 1)%nat by lia.
  now apply pay_at.
Qed.

(** C53: the payload arrives complete and in order, however it was cut, in non-empty
    pieces of which the last one, and only that, is flagged (an empty payload is one
    empty piece); a message without payload yields none; and a receiver that reads to
    the end gets it in one piece. *)
Theorem C53_payload : forall sg neg eat L d m, msg_ok m -> m_opts m <> [] \/ m_pay m <> None -> idle d ->
  (sg = true -> ~ In 255 (hdr_bytes (m_hdr m) ++ m_tok m)) ->
  (neg = true -> m_pay m = None -> ~ exists os n, m_opts m = os ++ [(n, [])]) ->
  concat L = msg_bytes m ->
  exists es, sb_reports sg neg eat L d es /\
  match m_pay m with
  | None => flat_map pay_of es = []
  | Some b => exists front x, flat_map pay_of es = front ++ [(x, true)] /\
      Forall (fun p => snd p = false /\ fst p <> []) front /\ (b <> [] -> x <> []) /\
      concat (map fst (front ++ [(x, true)])) = b /\ (eat = true -> front = [])
  end.
Proof.
  intros sg neg eat L d m Hm Hne Hd Hs Hneg HL. exists (seg_events eat m L). split; [now apply C53_message|].
  rewrite report_pays. destruct (m_pay m) as [b|] eqn:Ep; [|reflexivity].
  set (q := (length (hdr_bytes (m_hdr m) ++ m_tok m ++ opts_bytes 0 (m_opts m)) + 1)%nat).
  assert (E : concat (drop q L) = b).
  { rewrite concat_drop, HL. unfold msg_bytes. rewrite Ep. cbn [pay_bytes]. apply pay_offset. }
  unfold payload_report. rewrite E. destruct b as [|b0 b].
  - exists [], []. cbn. repeat split; try constructor. intros []. reflexivity.
  - destruct eat.
    + exists [], (b0 :: b). cbn. rewrite app_nil_r. repeat split; try constructor. discriminate.
    + destruct (seg_pays_pieces (drop q L) ltac:(rewrite E; discriminate)) as (f & x & A & B & C & D).
      exists f, x. rewrite D. repeat split; try assumption; try discriminate. intros _. exact B.
Qed.
Print Assumptions C53_payload.

(** C53: a cut that splits no option value and leaves the payload in one segment, or
    any cut for a receiver that reads on through the segments, is invisible: the
    report is that of the message in one piece.  An option value that a cut splits
    is delivered only up to the cut (C20_split_option_refuted is the same for chunks). *)
Theorem C53_aligned : forall sg neg eat L d m, msg_ok m -> m_opts m <> [] \/ m_pay m <> None -> idle d ->
  (sg = true -> ~ In 255 (hdr_bytes (m_hdr m) ++ m_tok m)) ->
  (neg = true -> m_pay m = None -> ~ exists os n, m_opts m = os ++ [(n, [])]) ->
  concat L = msg_bytes m ->
  (forall num l o, In (num, l, o) (views 0 (4 + length (m_tok m)) (m_opts m)) -> uncut L o (N.to_nat l)) ->
  (m_pay m <> None -> eat = true \/ exists cs final, L = cs ++ [final] /\
     (length (concat cs) <= length (hdr_bytes (m_hdr m) ++ m_tok m ++ opts_bytes 0 (m_opts m)) + 1)%nat) ->
  sb_reports sg neg eat L d (msg_events m).
Proof.
  intros sg neg eat L d m Hm Hne Hd Hs Hneg HL Hu Hp.
  assert (R := C53_message sg neg eat L d m Hm Hne Hd Hs Hneg HL).
  replace (msg_events m) with (seg_events eat m L); [exact R|]. clear R. unfold seg_events, msg_events. f_equal.
  assert (E1 : map (opt_view L 0) (views 0 (4 + length (m_tok m)) (m_opts m)) = opt_events (m_opts m)).
  { transitivity (map (vev 0 (msg_bytes m)) (views 0 (4 + length (m_tok m)) (m_opts m))).
    - apply map_ext_in. intros [[num l] o] Hin. unfold opt_view. rewrite Nat.sub_0_r, <- HL. apply uncut_event. eapply Hu. exact Hin.
    - unfold msg_bytes. rewrite (app_assoc (hdr_bytes (m_hdr m))).
      replace (4 + length (m_tok m))%nat with (length (hdr_bytes (m_hdr m) ++ m_tok m)) by (rewrite app_length; reflexivity).
      apply views_events. }
  rewrite E1. do 2 f_equal. destruct (m_pay m) as [b|] eqn:Eb; [|reflexivity]. cbn [pay_events].
  set (q := (length (hdr_bytes (m_hdr m) ++ m_tok m ++ opts_bytes 0 (m_opts m)) + 1)%nat) in *.
  assert (E : concat (drop q L) = b).
  { rewrite concat_drop, HL. unfold msg_bytes. rewrite Eb. cbn [pay_bytes]. apply pay_offset. }
  unfold payload_report. rewrite E. destruct b as [|b0 b]; [reflexivity|].
  destruct (Hp ltac:(discriminate)) as [->|(cs & final & -> & Hl)]; [reflexivity|]. destruct eat; [reflexivity|]. f_equal.
  clearbody q. clear - E Hl. revert q E Hl. induction cs as [|c cs IH]; intros q E Hl; cbn [app drop] in *.
  - destruct (q <? length final)%nat; [|discriminate]. cbn [concat] in E. rewrite app_nil_r in E. rewrite E. reflexivity.
  - cbn [concat] in Hl. rewrite app_length in Hl. destruct (Nat.ltb_spec q (length c)); [lia|]. apply IH; [exact E|lia].
Qed.
Print Assumptions C53_aligned.

Theorem C53_contiguous : forall sg neg eat d m, msg_ok m -> m_opts m <> [] \/ m_pay m <> None -> idle d ->
  (sg = true -> ~ In 255 (hdr_bytes (m_hdr m) ++ m_tok m)) ->
  (neg = true -> m_pay m = None -> ~ exists os n, m_opts m = os ++ [(n, [])]) ->
  sb_reports sg neg eat [msg_bytes m] d (msg_events m).
Proof.
  intros sg neg eat d m Hm Hne Hd Hs Hneg. apply C53_aligned; try assumption.
  - cbn [concat]. apply app_nil_r.
  - intros num l o _ a b Hab Hb. destruct a as [|c a]; [cbn; lia|]. destruct a; [cbn in Hab; injection Hab as _ <-; congruence|discriminate].
  - intros _. right. exists [], (msg_bytes m). split; [reflexivity|]. cbn [concat length]. lia.
Qed.
Print Assumptions C53_contiguous.

(** ** Nothing after the token *)

(** C53: header and token alone are a complete message, with the stale payload event
    of C15 when there is no token and the memory of the option decoder reads Payload. *)
Theorem C53_bare : forall sg neg eat L d h tok, hdr_ok h -> bytes_ok tok -> idle d ->
  h0 h mod 16 = N.of_nat (length tok) -> (length tok <= 8)%nat ->
  (sg = true -> ~ In 255 (hdr_bytes h ++ tok)) -> concat L = hdr_bytes h ++ tok ->
  sb_reports sg neg eat L d ([EHeader h; EToken tok; EOptStart; EOptDone] ++
    (match tok with
     | [] => if ostate_eqb (d_st (k_od d)) OPayload then [EPayload [] true] else []
     | _ => []
     end) ++ [ECompleted]).
Proof.
  intros sg neg eat L d h tok Hh Hb Hd Ht H8 Hs HL. rewrite <- tkl_mod in Ht. apply of_SR.
  exact (bare_run L sg neg eat h tok _ d ltac:(rewrite HL; apply bytes_ok_app; split; assumption) Hd Ht H8 (skims_clean _ _ Hs) HL).
Qed.
Print Assumptions C53_bare.

(** ** Findings *)

(** C53: where [char] is signed, a byte 0xFF in front of a header or token byte is
    taken for the end of the data and lost: the report is that of another message. *)
Theorem C53_ff_dropped_refuted : forall neg eat L d m raw, msg_ok m -> m_opts m <> [] \/ m_pay m <> None -> idle d -> bytes_ok raw ->
  (neg = true -> m_pay m = None -> ~ exists os n, m_opts m = os ++ [(n, [])]) ->
  filter (fun b => negb (b =? 255)) raw = hdr_bytes (m_hdr m) ++ m_tok m -> last raw 0 <> 255 ->
  concat L = raw ++ opts_bytes 0 (m_opts m) ++ pay_bytes (m_pay m) ->
  exists es, sb_reports true neg eat L d ([EHeader (m_hdr m); EToken (m_tok m); EOptStart] ++ es ++ [ECompleted]) /\
    bare es = bare (opt_events (m_opts m) ++ [EOptDone]).
Proof.
  intros neg eat L d m raw Hm Hne Hd Hb Hneg Hf Hl HL.
  assert (R := sb_message true neg eat L d m raw Hm Hne Hd Hb Hneg (skims_filter _ _ Hf Hl) HL).
  exists (map (opt_view L 0) (views 0 (length raw) (m_opts m)) ++ [EOptDone] ++
    match m_pay m with None => [] | Some _ => payload_report eat L (length (raw ++ opts_bytes 0 (m_opts m)) + 1) end).
  split; [rewrite <- !app_assoc; exact R|]. clear R.
  rewrite !bare_app, bare_views. f_equal. rewrite <- (app_nil_r (bare [EOptDone])) at 2. f_equal. destruct (m_pay m); [|reflexivity]. unfold payload_report.
  destruct (concat (drop _ L)); [reflexivity|]. destruct eat; [reflexivity|]. clear.
  induction (drop _ L) as [|c r IH]; [reflexivity|]. cbn [seg_pays]. destruct c; exact IH.
Qed.
Print Assumptions C53_ff_dropped_refuted.

(** C53: where [char] is signed, fewer than four bytes other than 0xFF never complete
    the header: the loop that decodes until Done does not end. *)
Theorem C53_cut_header_refuted : forall neg eat L d, idle d ->
  len (filter (fun b => negb (b =? 255)) (concat L)) < 4 ->
  forall fuel, sbd_run fuel true neg eat d (SBuf [] L) = NoFuel.
Proof. intros neg eat L d Hd HL fuel. apply stuck; [exact Hd|]. unfold len in HL. unfold okbytes. lia. Qed.
Print Assumptions C53_cut_header_refuted.

(** C53: where [char] is unsigned, what is missing from header and token is made up:
    it reads as 0xFF, and a message that was never sent is reported complete. *)
Theorem C53_padded_refuted : forall neg eat L d h tok k, idle d -> bytes_ok tok ->
  h0 h mod 16 = N.of_nat (length tok) -> (0 < length tok <= 8)%nat ->
  hdr_bytes h ++ tok = concat L ++ repeat 255 k ->
  sb_reports false neg eat L d [EHeader h; EToken tok; EOptStart; EOptDone; ECompleted].
Proof. intros neg eat L d h tok k Hd Hb Ht H8 HL. rewrite <- tkl_mod in Ht. apply of_SR. now apply (padded_run L neg eat h tok k d). Qed.
Print Assumptions C53_padded_refuted.

(** C53: and where the token length that is received, or made up, is above 8 the
    decoder writes behind its eight byte token buffer.  That takes no input at all:
    an empty datagram reads as a header FF FF FF FF with a token of 15 bytes. *)
Theorem C53_long_token_refuted : forall neg eat L d h rest k, idle d -> 8 < h0 h mod 16 ->
  hdr_bytes h ++ rest = concat L ++ repeat 255 k ->
  sb_faults false neg eat L d.
Proof. intros neg eat L d h rest k Hd Ht HL. rewrite <- tkl_mod in Ht. apply of_SF. now apply (overrun L neg eat h rest k d). Qed.
Print Assumptions C53_long_token_refuted.

Theorem C53_empty_datagram_refuted : forall neg eat L d, idle d -> concat L = [] -> sb_faults false neg eat L d.
Proof.
  intros neg eat L d Hd HL. apply (C53_long_token_refuted neg eat L d (Hdr 255 255 255 255) [] 4); [exact Hd|vm_compute; reflexivity|].
  rewrite HL. reflexivity.
Qed.
Print Assumptions C53_empty_datagram_refuted.

(** C53: where the end of the data is announced as a negative count, a well formed
    message whose last option is empty and that has no payload is not decoded. *)
Theorem C53_trailing_empty_refuted : forall sg eat L d m os n, msg_ok m -> m_opts m = os ++ [(n, [])] -> m_pay m = None -> idle d ->
  (sg = true -> ~ In 255 (hdr_bytes (m_hdr m) ++ m_tok m)) -> concat L = msg_bytes m ->
  sb_faults sg true eat L d.
Proof.
  intros sg eat L d m os n Hm Ho Hp Hd Hs HL. assert (Hok := msg_bytes_ok m Hm). rewrite <- HL in Hok.
  destruct m as [h tok opts p]. destruct Hm as (A & B & C & D & E & G). unfold msg_bytes in HL. cbn [m_hdr m_tok m_opts m_pay] in *. subst p.
  cbn [pay_bytes] in HL. rewrite app_nil_r in HL.
  assert (HO : opts <> []) by (subst opts; destruct os; discriminate).
  assert (Hr : opts_bytes 0 opts <> []).
  { destruct opts as [|[n1 v1] opts]; [congruence|]. cbn [opts_bytes]. intro X. apply app_eq_nil in X. destruct X as (X & _).
    revert X. unfold opt_head. discriminate. }
  assert (R := C53_refines_parser sg true eat L d h tok _ Hok Hd B C Hr Hs HL).
  destruct (parse_message_opts opts (4 + length tok) E HO) as [(H1 & H2)|(os' & num & H1 & H2)]; rewrite H2 in R; [|exact R].
  exfalso. subst opts. clear - H1. induction os as [|[a b] os IH]; [apply H1; reflexivity|]. destruct os; cbn in *; auto.
Qed.
Print Assumptions C53_trailing_empty_refuted.

Lemma next_none : forall l, s_cur (sb_next l) = [] -> sb_next l = SBuf [] [].
Proof. induction l as [|[|b c] l IH]; intro H; [reflexivity|exact (IH H)|discriminate]. Qed.
Lemma fill_none : forall s, is_nil (s_cur (sb_fill s)) = true -> sb_fill s = SBuf [] [].
Proof.
  intros [[|b c] l] H; unfold sb_fill in *; cbn [s_cur s_rest] in *; [|discriminate].
  apply next_none. destruct (s_cur (sb_next l)); [reflexivity|discriminate].
Qed.

(** C53: when the options end, the payload marker has been consumed or all data has; the
    search for a marker in OptionsDone (streambuf.hpp 158-180) finds nothing to read. *)
Theorem C53_options_done : forall sg neg eat d s es d1 s1 e,
  sbd_notify sg neg eat d s = Ok (es, d1, s1, e) -> k_st d1 = OptionsDone ->
  d_st (k_od d1) = OPayload \/ s_cur s1 ++ concat (s_rest s1) = [].
Proof.
  intros sg neg eat d s es d1 s1 e H E. unfold sbd_notify in H.
  destruct (sbd_step sg neg d s) as [[[d2 s2] e2]| |] eqn:Es; try discriminate. cbn [bind] in H.
  assert (Hd : d1 = d2) by (destruct (sbd_events neg eat d2 s2) as [y| |]; [|discriminate..]; cbn [bind] in H; congruence). subst d2.
  assert (Hs : s1 = s2) by (unfold sbd_events in H; rewrite E in H; cbn [bind snd] in H; congruence). subst s2. clear H.
  unfold sbd_step, sb_eof in Es. destruct (k_st d).
  - injection Es as <- _ _. discriminate.
  - destruct (sb_hdr_loop 5 sg (sb_fill s) (k_h d) (k_hpos d)) as [[[[a b] c] []]| |]; try discriminate; injection Es as <- _ _; discriminate.
  - injection Es as <- _ _. cbn in E. destruct (0 <? dec_tkl d); discriminate.
  - injection Es as <- _ _. discriminate.
  - destruct (sb_tok_loop 9 sg (dec_tkl d) (sb_fill s) (k_tok d) (k_tpos d)) as [[[[a b] c] []]| |]; try discriminate; injection Es as <- _ _; discriminate.
  - injection Es as <- _ _. discriminate.
  - destruct (is_nil (s_cur (sb_fill s))) eqn:En.
    + injection Es as _ <- _. right. now rewrite (fill_none s En).
    + destruct (sb_options neg (od_goto FirstByte (k_od d)) holder_reset (sb_fill s)) as [[[o h] s3]| |]; try discriminate.
      cbn [bind] in Es. injection Es as <- _ _. cbn [k_st k_od] in *. left. destruct (d_st o); try discriminate; reflexivity.
  - destruct (sb_options neg (k_od d) (k_hold d) (sb_fill s)) as [[[o h] s3]| |]; try discriminate.
    cbn [bind] in Es. injection Es as <- <- _. cbn [k_st k_od] in *. destruct (ostate_eqb (d_st o) OPayload) eqn:Eo.
    + left. destruct (d_st o); try discriminate; reflexivity.
    + right. destruct (is_nil (s_cur (sb_fill s3))) eqn:En; [|discriminate]. now rewrite (fill_none s3 En).
  - destruct (ostate_eqb (d_st (k_od d)) OPayload); [injection Es as <- _ _; discriminate|].
    destruct (is_nil (s_cur (sb_fill s))); [injection Es as <- _ _; discriminate|].
    destruct (s_cur (sb_fill s)) as [|b r]; [injection Es as <- _ _; discriminate|].
    destruct (N.eq_dec b 255) as [->|Nb]; [injection Es as <- _ _; discriminate|].
    assert (X : d1 = k_goto RDone d); [|subst; discriminate].
    repeat match type of Es with context [match ?v with _ => _ end] => destruct v end; congruence.
  - injection Es as <- _ _. cbn in E. destruct (is_nil (s_cur (sb_fill s))); discriminate.
  - injection Es as <- _ _. discriminate.
  - injection Es as <- _ _. discriminate.
Qed.
Print Assumptions C53_options_done.

Example C53_case :
  (* the sample message in five segments, two of them empty, one cut inside an option value and one inside the payload *)
  let L := [[66;1;18]; []; [52; 170;187; 49;104; 130;97]; [98; 0; 225;0;20;1; 255; 104]; []; [105]] in
  concat L = msg_bytes sample_msg /\ idle sample_dec /\
  (exists d1 s1, sbd_run 60 true false false sample_dec (SBuf [] L) =
    Ok ([EHeader (Hdr 66 1 18 52); EToken [170;187]; EOptStart; EOption 3 [104] true; EOption 11 [97] false;
         EOption 11 [] true; EOption 300 [1] true; EOptDone; EPayload [104] false; EPayload [105] true; ECompleted], d1, s1)) /\
  (exists d1 s1, sbd_run 60 false true true sample_dec (SBuf [] [msg_bytes sample_msg]) = Ok (msg_events sample_msg, d1, s1)) /\
  (* message id 0x12FF, char signed: the header becomes 42 01 12 AA *)
  (exists d1 s1 es, sbd_run 60 true false true sample_dec (SBuf [] [[66;1;18;255;170;187;49;104]]) =
    Ok (EHeader (Hdr 66 1 18 170) :: EToken [187; 49] :: es, d1, s1)) /\
  (exists d1 s1, sbd_run 60 false false true sample_dec (SBuf [] [[66;1;18]]) =
    Ok ([EHeader (Hdr 66 1 18 255); EToken [255; 255]; EOptStart; EOptDone; ECompleted], d1, s1)) /\
  sbd_run 500 true false true sample_dec (SBuf [] [[66;1;18]]) = NoFuel /\
  sbd_run 60 false false true sample_dec (SBuf [] []) = Fault /\
  sbd_run 60 false true true sample_dec (SBuf [] [[64;1;18;52;49;104;128]]) = Fault.
Proof.
  cbn zeta. split; [reflexivity|]. split; [apply sample_idle|].
  split; [eexists; eexists; vm_compute; reflexivity|]. split; [eexists; eexists; vm_compute; reflexivity|].
  split; [eexists; eexists; eexists; vm_compute; reflexivity|]. split; [eexists; eexists; vm_compute; reflexivity|].
  repeat split; vm_compute; reflexivity.
Qed.
