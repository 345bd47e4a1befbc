(** C20: messages that arrive in several chunks. *)
From Verif Require Import Base HeaderModel HeaderProofs OptEncModel OptSpec OptDecModel OptDecSpec OptDecProofs
  DecoderModel DecoderSpec DecoderProofs DecoderProps ChunkSpec ChunkProofs.
Local Open Scope N_scope.

(** C20: any stream after a complete token, cut anywhere into non-empty chunks:
    the report follows the RFC reading of the whole stream ([parse]), each option
    with the part of its value that is in the chunk where the value starts.
    [EndReserved] and [EndInHead] are the ends C16 and C19 deal with. *)
Theorem C20_refines_parser : forall cs final d h tok rest,
  Forall (fun c => c <> []) (cs ++ [final]) -> bytes_ok (concat (cs ++ [final])) -> idle d ->
  h0 h mod 16 = N.of_nat (length tok) -> (length tok <= 8)%nat -> rest <> [] ->
  concat (cs ++ [final]) = hdr_bytes h ++ tok ++ rest ->
  let '(vs, e) := parse 0 (4 + length tok) rest in
  e <> EndReserved -> e <> EndInHead ->
  exists F d1, idle d1 /\ forall fuel, (F <= fuel)%nat ->
    dec_chunks fuel cs final d =
    Ok ([EHeader h; EToken tok; EOptStart] ++ map (opt_view (cs ++ [final]) 0) vs ++
        chunk_tail (cs ++ [final]) 0 e ++ [ECompleted], d1).
Proof.
  intros cs final d h tok rest Hf Hok Hd Ht H8 Hr Hs. destruct (parse 0 (4 + length tok) rest) as [vs e] eqn:E.
  intros E1 E2. apply (message_chunks cs final d h tok rest vs e); try assumption.
  - rewrite tkl_mod. exact Ht.
  - destruct e; try exact I; congruence.
Qed.
Print Assumptions C20_refines_parser.

Lemma opt_at_end : forall L num l, opt_at L num l (length (concat L)) = EOption num [] (l =? 0).
Proof.
  induction L as [|c r IH]; intros num l; [reflexivity|]. cbn [opt_at concat]. rewrite app_length.
  replace (length c + length (concat r) <? length c)%nat with false by (symmetry; apply Nat.ltb_ge; lia).
  replace (length c + length (concat r) - length c)%nat with (length (concat r)) by lia. apply IH.
Qed.

Lemma views_app : forall a prev off num, opts_ok prev (a ++ [(num, [])]) ->
  views prev off (a ++ [(num, [])]) = views prev off a ++ [(num, 0, (off + length (opts_bytes prev (a ++ [(num, [])])))%nat)].
Proof.
  induction a as [|[n v] a IH]; intros prev off num H; cbn [app views opts_bytes].
  - rewrite !app_length. cbn [length]. do 2 f_equal. change (len []) with 0. change (len (@nil N)) with 0. lia.
  - cbn [app opts_ok] in H. rewrite IH by tauto. rewrite !app_length. cbn [app]. do 2 f_equal. do 2 f_equal. rewrite !Nat.add_assoc. reflexivity.
Qed.

(** C20: the report of a well formed message, exactly. *)
Theorem C20_message : forall m cs final d, msg_ok m -> m_opts m <> [] \/ m_pay m <> None -> idle d ->
  Forall (fun c => c <> []) (cs ++ [final]) -> concat (cs ++ [final]) = msg_bytes m ->
  exists F d1, idle d1 /\ forall fuel, (F <= fuel)%nat ->
    dec_chunks fuel cs final d = Ok (chunk_events m (cs ++ [final]), d1).
Proof.
  intros m cs final d Hm Hne Hd Hf Hs. assert (Hok := msg_bytes_ok m Hm). rewrite <- Hs in Hok.
  destruct m as [h tok os p]. destruct Hm as (A & B & C & D & E & G). unfold msg_bytes in Hs. unfold chunk_events. cbn [m_hdr m_tok m_opts m_pay] in *.
  set (L := cs ++ [final]) in *.
  assert (HR := C20_refines_parser cs final d h tok (opts_bytes 0 os ++ pay_bytes p) Hf Hok Hd B C).
  fold L in HR. rewrite <- tkl_mod in B.
  assert (Hrest : opts_bytes 0 os ++ pay_bytes p <> []).
  { destruct p as [b|]; [destruct (opts_bytes 0 os); discriminate|]. cbn [pay_bytes]. rewrite app_nil_r.
    destruct os as [|[n v] os]; [destruct Hne; congruence|]. cbn [opts_bytes]. intro X. apply app_eq_nil in X. destruct X as (X & _).
    revert X. unfold opt_head. discriminate. }
  specialize (HR Hrest Hs). destruct p as [b|].
  - cbn [pay_bytes] in *. rewrite parse_opts in HR; [|assumption|constructor; [unfold byte_ok; lia|assumption]|left; discriminate].
    cbn zeta in HR. unfold parse in HR. cbn [length oparse] in HR. change (255 =? 255) with true in HR.
    cbn iota in HR. cbn [fst snd] in HR. rewrite app_nil_r in HR.
    destruct HR as (F & d1 & H1 & H2); [discriminate|discriminate|]. exists F, d1. split; [exact H1|]. intros fuel Hfu. rewrite (H2 fuel Hfu).
    do 4 f_equal. cbn [chunk_tail app]. rewrite !app_length, Nat.sub_0_r. cbn [hdr_bytes length]. 
    replace (4 + (length tok + length (opts_bytes 0 os)) + 1)%nat with (4 + length tok + length (opts_bytes 0 os) + 1)%nat by lia. reflexivity.
  - cbn [pay_bytes] in *. rewrite app_nil_r in HR, Hs, Hrest.
    assert (HO : os <> []) by (destruct Hne; congruence).
    destruct (parse_message_opts os (4 + length tok)%nat E HO) as [(H1 & H2)|(os' & num & H1 & H2)]; rewrite H2 in HR.
    + destruct HR as (F & d1 & X1 & X2); [discriminate|discriminate|]. exists F, d1. split; [exact X1|]. intros fuel Hfu. rewrite (X2 fuel Hfu). reflexivity.
    + destruct HR as (F & d1 & X1 & X2); [discriminate|discriminate|]. exists F, d1. split; [exact X1|]. intros fuel Hfu. rewrite (X2 fuel Hfu).
      subst os. rewrite views_app by assumption. rewrite map_app. cbn [map opt_view chunk_tail]. rewrite Nat.sub_0_r.
      replace (4 + length tok + length (opts_bytes 0 (os' ++ [(num, [])])))%nat with (length (concat L)).
      2:{ rewrite Hs, !app_length. cbn [hdr_bytes length]. lia. }
      rewrite opt_at_end, <- !app_assoc. reflexivity.
Qed.
Print Assumptions C20_message.

(** C20: header, token, option numbers and order, and completion do not depend on
    how the message was cut. *)
Lemma bare_app : forall a b, bare (a ++ b) = bare a ++ bare b.
Proof. intros. unfold bare. apply flat_map_app. Qed.

Lemma bare_opt_at : forall L num l o, bare_event (opt_at L num l o) = [EOption num [] true].
Proof. induction L as [|c r IH]; intros; cbn [opt_at]; [reflexivity|]. destruct (_ <? _)%nat; [reflexivity|apply IH]. Qed.

Lemma bare_pay : forall L o, bare (pay_from L o) = [].
Proof.
  induction L as [|c r IH]; intros o; cbn [pay_from]; [reflexivity|].
  destruct (_ <? _)%nat; [|apply IH]. destruct r as [|c2 r]; [reflexivity|]. cbn [bare flat_map bare_event app].
  induction (removelast (c2 :: r)); [reflexivity|assumption].
Qed.

Lemma bare_views : forall L os prev off, bare (map (opt_view L 0) (views prev off os)) = bare (opt_events os).
Proof.
  induction os as [|[n v] os IH]; intros prev off; [reflexivity|].
  cbn [views map opt_events]. unfold bare in *. cbn [flat_map opt_view]. rewrite bare_opt_at. cbn [bare_event fst snd app].
  f_equal. apply IH.
Qed.

Theorem C20_cut_independent : forall m cs final d, msg_ok m -> m_opts m <> [] \/ m_pay m <> None -> idle d ->
  Forall (fun c => c <> []) (cs ++ [final]) -> concat (cs ++ [final]) = msg_bytes m ->
  exists F es d1, idle d1 /\ bare es = bare (msg_events m) /\
    forall fuel, (F <= fuel)%nat -> dec_chunks fuel cs final d = Ok (es, d1).
Proof.
  intros m cs final d Hm Hne Hd Hf Hs. destruct (C20_message m cs final d Hm Hne Hd Hf Hs) as (F & d1 & H1 & H2).
  exists F, (chunk_events m (cs ++ [final])), d1. split; [exact H1|]. split; [|exact H2].
  unfold chunk_events, msg_events. rewrite !bare_app, bare_views. do 3 f_equal.
  destruct (m_pay m); [|reflexivity]. rewrite bare_pay. reflexivity.
Qed.
Print Assumptions C20_cut_independent.

Lemma uncut_event : forall L num l o, uncut L o (N.to_nat l) -> opt_at L num l o = vev 0 (concat L) (num, l, o).
Proof.
  induction L as [|c r IH]; intros num l o H.
  - cbn [opt_at concat vev]. rewrite skipn_nil, firstn_nil. f_equal. cbn [length].
    destruct (N.eqb_spec l 0) as [->|Hl]; [reflexivity|]. symmetry. apply Nat.leb_gt. lia.
  - cbn [opt_at]. unfold vev. rewrite Nat.sub_0_r. cbn [concat].
    destruct (Nat.ltb_spec o (length c)) as [Ho|Ho].
    + destruct r as [|c2 r].
      { cbn [concat]. rewrite app_nil_r, skipn_length. reflexivity. }
      assert (Hc : ~ (o < length (concat [c]) < o + N.to_nat l)%nat) by (apply (H [c] (c2 :: r)); [reflexivity|discriminate]).
      cbn [concat] in Hc. rewrite app_nil_r in Hc.
      rewrite skipn_app, firstn_app. replace (o - length c)%nat with 0%nat by lia. cbn [skipn].
      rewrite app_length, skipn_length. replace (N.to_nat l - (length c - o))%nat with 0%nat by lia. cbn [firstn]. rewrite app_nil_r.
      f_equal. rewrite (proj2 (Nat.leb_le _ _)) by lia. symmetry. apply Nat.leb_le. lia.
    + rewrite IH.
      * unfold vev. rewrite Nat.sub_0_r, skipn_app. rewrite (skipn_all2 c) by lia. reflexivity.
      * intros a b E Hb Hx. apply (H (c :: a) b); [cbn; congruence|assumption|]. cbn [concat]. rewrite app_length. lia.
Qed.

Lemma pay_from_last : forall cs final o, (length (concat cs) <= o)%nat ->
  pay_from (cs ++ [final]) o = [EPayload (skipn o (concat (cs ++ [final]))) true].
Proof.
  induction cs as [|c cs IH]; intros final o H; cbn [app pay_from concat] in *.
  - rewrite app_nil_r. destruct (Nat.ltb_spec o (length final)); [reflexivity|]. rewrite skipn_all2 by lia. reflexivity.
  - rewrite app_length in H. replace (o <? length c)%nat with false by (symmetry; apply Nat.ltb_ge; lia).
    rewrite IH by lia. rewrite (skipn_app o c), (skipn_all2 c) by lia. reflexivity.
Qed.

(** C20: a cut that splits no option value and leaves the payload in the last
    chunk is invisible: the report is that of the message in one piece. *)
Theorem C20_aligned : forall m cs final d, msg_ok m -> m_opts m <> [] \/ m_pay m <> None -> idle d ->
  Forall (fun c => c <> []) (cs ++ [final]) -> concat (cs ++ [final]) = msg_bytes m ->
  (forall num l o, In (num, l, o) (views 0 (4 + length (m_tok m)) (m_opts m)) -> uncut (cs ++ [final]) o (N.to_nat l)) ->
  (m_pay m <> None -> (length (concat cs) <= length (hdr_bytes (m_hdr m) ++ m_tok m ++ opts_bytes 0 (m_opts m)) + 1)%nat) ->
  exists F d1, idle d1 /\ forall fuel, (F <= fuel)%nat -> dec_chunks fuel cs final d = Ok (msg_events m, d1).
Proof.
  intros m cs final d Hm Hne Hd Hf Hs Hu Hp. destruct (C20_message m cs final d Hm Hne Hd Hf Hs) as (F & d1 & H1 & H2).
  exists F, d1. split; [exact H1|]. intros fuel Hfu. rewrite (H2 fuel Hfu). do 2 f_equal.
  unfold chunk_events, msg_events. f_equal.
  assert (E1 : map (opt_view (cs ++ [final]) 0) (views 0 (4 + length (m_tok m)) (m_opts m)) = opt_events (m_opts m)).
  { transitivity (map (vev 0 (msg_bytes m)) (views 0 (4 + length (m_tok m)) (m_opts m))).
    - apply map_ext_in. intros [[num l] o] Hin. unfold opt_view. rewrite Nat.sub_0_r, <- Hs. apply uncut_event. eapply Hu. exact Hin.
    - unfold msg_bytes. rewrite (app_assoc (hdr_bytes (m_hdr m))).
      replace (4 + length (m_tok m))%nat with (length (hdr_bytes (m_hdr m) ++ m_tok m)) by (rewrite app_length; reflexivity).
      apply views_events. }
  rewrite E1. do 2 f_equal.
  destruct (m_pay m) as [b|] eqn:Eb; [|reflexivity]. rewrite pay_from_last by (apply Hp; discriminate).
  rewrite Hs. unfold msg_bytes. rewrite Eb. cbn [pay_bytes pay_events]. do 3 f_equal.
  replace (hdr_bytes (m_hdr m) ++ m_tok m ++ opts_bytes 0 (m_opts m) ++ 255 :: b)
    with ((hdr_bytes (m_hdr m) ++ m_tok m ++ opts_bytes 0 (m_opts m)) ++ 255 :: b) by (rewrite <- !app_assoc; reflexivity).
  rewrite skipn_app, skipn_all2 by lia.
  cbn [app]. match goal with |- skipn ?x _ = _ => replace x with 1%nat by lia end. reflexivity.
Qed.
Print Assumptions C20_aligned.

(** C20, the full claim, is false: a split option value and a payload that goes on
    in a later chunk are cut short, and the payload event is repeated. *)
Theorem C20_bytes_delivered_refuted : exists m cs final d es d1, msg_ok m /\ idle d /\
  Forall (fun c => c <> []) (cs ++ [final]) /\ concat (cs ++ [final]) = msg_bytes m /\
  dec_chunks 40 cs final d = Ok (es, d1) /\
  In (11, [104; 105]) (m_opts m) /\ In (EOption 11 [104] false) es /\ ~ In (EOption 11 [104; 105] true) es /\
  m_pay m = Some [1; 2; 3] /\
  es = [EHeader (m_hdr m); EToken []; EOptStart; EOption 11 [104] false; EOptDone;
        EPayload [1; 2] false; EPayload [] false; ECompleted].
Proof.
  exists (Msg (Hdr 64 1 0 1) [] [(11, [104; 105])] (Some [1; 2; 3])), [[64; 1]; [0; 1; 178; 104]; [105; 255; 1; 2]], [3], sample_dec.
  eexists. eexists. split; [|split; [apply sample_idle|split; [|split; [reflexivity|split; [vm_compute; reflexivity|]]]]].
  - unfold msg_ok, hdr_ok, bytes_ok, byte_ok. cbn. repeat split; repeat constructor; try lia.
  - repeat constructor; discriminate.
  - split; [left; reflexivity|]. split; [right; right; right; left; reflexivity|].
    split; [|split; reflexivity]. intro H. repeat (destruct H as [H|H]; [discriminate|]). destruct H.
Qed.
Print Assumptions C20_bytes_delivered_refuted.

(** the hypotheses of C20 are met by real cuts *)
Example C20_case : msg_ok sample_msg /\ idle sample_dec /\
  (forall cs, In cs [[[66]; [1; 18; 52; 170]; [187; 49]; [104; 130; 97; 98]; [0; 225; 0; 20]; [1; 255]]; [[66;1;18;52;170;187;49;104;130;97;98;0;225;0;20]; [1; 255]]] ->
    Forall (fun c => c <> []) (cs ++ [[104; 105]]) /\ concat (cs ++ [[104; 105]]) = msg_bytes sample_msg /\
    exists d1, dec_chunks 40 cs [104; 105] sample_dec = Ok (msg_events sample_msg, d1)).
Proof.
  split; [apply C14_case|]. split; [apply sample_idle|]. intros cs [<-|[<-|[]]];
    (split; [repeat constructor; discriminate|split; [reflexivity|eexists; vm_compute; reflexivity]]).
Qed.
