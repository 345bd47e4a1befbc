(** C54: the servers made of the library's observers, from the bytes of a datagram to
    the bytes of the reply. *)
From Coq Require Import ZArith.
From Verif Require Import Base UIntModel HeaderModel HeaderSpec HeaderProofs OptEncModel OptSpec StreambufModel OptDecModel OptDecSpec OptDecProofs
  DecoderModel DecoderSpec DecoderProofs DecoderProps ChunkSpec ChunkProofs ChunkProps ContextModel ReplyProps UriModel UriSpec UriProofs UriProps
  SbDecModel SbDecSpec SbDecProofs SbDecProps AppModel AppSpec AppProofs.
Local Open Scope N_scope.

(** the datagram [L] makes the server send exactly [rs], whatever memory held before *)
Definition answers (sg neg eat : bool) (cap : nat) (os : list uobs) (rows : list row) (L rs : list (list N)) : Prop :=
  forall d junk text, idle d -> length junk = 8%nat ->
  exists F a, forall fuel, (F <= fuel)%nat -> serve fuel sg neg eat cap os rows junk text d L = Ok (a, rs).

(** message [m] arrives in the segments [L]; [sg] and [neg] exclude what C53 found not
    to be decoded *)
Definition arrives (sg neg : bool) (m : msg) (L : list (list N)) : Prop :=
  msg_ok m /\ concat L = msg_bytes m /\
  (sg = true -> ~ In 255 (hdr_bytes (m_hdr m) ++ m_tok m)) /\
  (neg = true -> m_pay m = None -> ~ exists os n, m_opts m = os ++ [(n, [])]).

(** no segment ends inside a Uri-Path value *)
Definition whole_path (m : msg) (L : list (list N)) : Prop :=
  forall l o, In (11, l, o) (views 0 (4 + length (m_tok m)) (m_opts m)) -> uncut L o (N.to_nat l).

(** the path without what lies beyond the end of the segment in which a value begins *)
Definition seen_path (m : msg) (L : list (list N)) : list (list N) :=
  uri_segs (map (opt_view L 0) (views 0 (4 + length (m_tok m)) (m_opts m))).

Lemma opts_are : forall L vs, Forall is_option (map (opt_view L 0) vs).
Proof.
  intros L. induction vs as [|[[n l] o] vs IH]; constructor; [|exact IH]. cbn [opt_view]. generalize (o - 0)%nat. clear.
  induction L as [|c r IH]; intros q; cbn [opt_at]; [do 3 eexists; reflexivity|]. destruct (_ <? _)%nat; [do 3 eexists; reflexivity|apply IH].
Qed.

Lemma pays_are : forall eat L p, Forall is_payload (payload_report eat L p).
Proof.
  intros eat L p. unfold payload_report. destruct (concat (drop p L)); [repeat constructor; do 2 eexists; reflexivity|].
  destruct eat; [repeat constructor; do 2 eexists; reflexivity|]. clear. induction (drop p L) as [|c r IH]; [constructor|].
  cbn [seg_pays]. destruct c; [exact IH|]. constructor; [do 2 eexists; reflexivity|exact IH].
Qed.

Lemma bare_num : forall L n l o, exists v c, opt_at L n l o = EOption n v c.
Proof.
  induction L as [|c r IH]; intros n l o; cbn [opt_at]; [do 2 eexists; reflexivity|]. destruct (_ <? _)%nat; [do 2 eexists; reflexivity|apply IH].
Qed.

Lemma segs_view : forall L vs, (forall l o, In (11, l, o) vs -> uncut L o (N.to_nat l)) ->
  uri_segs (map (opt_view L 0) vs) = uri_segs (map (vev 0 (concat L)) vs).
Proof.
  intros L. induction vs as [|[[n l] o] vs IH]; intros H; [reflexivity|]. unfold uri_segs in *. cbn [map flat_map].
  rewrite IH by (intros; apply H; right; assumption). f_equal. cbn [opt_view]. rewrite Nat.sub_0_r.
  destruct (N.eqb_spec n 11) as [->|Hn].
  - rewrite uncut_event by (apply H; left; reflexivity). reflexivity.
  - destruct (bare_num L n l o) as (v & c & ->). cbn [vev seg_of]. apply N.eqb_neq in Hn. rewrite Hn. reflexivity.
Qed.

Lemma segs_opts : forall os, uri_segs (opt_events os) = path_of os.
Proof.
  induction os as [|[n v] os IH]; [reflexivity|]. unfold uri_segs, path_of in *. cbn [opt_events map flat_map filter fst snd seg_of].
  destruct (n =? 11); cbn [map snd app]; fold (opt_events os); rewrite IH; reflexivity.
Qed.

Lemma arrival : forall sg neg eat m L d, arrives sg neg m L -> idle d ->
  exists opts pays, sb_reports sg neg eat L d ([EHeader (m_hdr m); EToken (m_tok m); EOptStart] ++ opts ++ [EOptDone] ++ pays ++ [ECompleted]) /\
    Forall is_option opts /\ Forall is_payload pays /\ uri_segs opts = seen_path m L.
Proof.
  intros sg neg eat m L d (Hm & HL & Hs & Hneg) Hd.
  assert (Hcase : (m_opts m <> [] \/ m_pay m <> None) \/ (m_opts m = [] /\ m_pay m = None)).
  { destruct (m_opts m); [destruct (m_pay m); [left; right; discriminate|right; split; reflexivity]|left; left; discriminate]. }
  destruct Hcase as [Hne|(E1 & E2)].
  - exists (map (opt_view L 0) (views 0 (4 + length (m_tok m)) (m_opts m))).
    exists (match m_pay m with None => [] | Some _ => payload_report eat L (length (hdr_bytes (m_hdr m) ++ m_tok m ++ opts_bytes 0 (m_opts m)) + 1) end).
    split; [exact (C53_message sg neg eat L d m Hm Hne Hd Hs Hneg HL)|]. split; [apply opts_are|].
    split; [destruct (m_pay m); [apply pays_are|constructor]|]. reflexivity.
  - destruct m as [h tok os p]. cbn [m_hdr m_tok m_opts m_pay] in *. subst os p. destruct Hm as (A & B & C & D & _). cbn [m_hdr m_tok] in *.
    unfold msg_bytes in HL. cbn [m_hdr m_tok m_opts m_pay opts_bytes pay_bytes] in HL. rewrite !app_nil_r in HL.
    assert (R := C53_bare sg neg eat L d h tok A D Hd B C Hs HL).
    exists []. eexists. split; [exact R|]. split; [constructor|]. split; [|reflexivity].
    destruct tok; [|constructor]. destruct (ostate_eqb _ _); repeat constructor; do 2 eexists; reflexivity.
Qed.

Lemma seen_whole : forall m L, concat L = msg_bytes m -> whole_path m L -> seen_path m L = path_of (m_opts m).
Proof.
  intros m L HL Hu. unfold seen_path. rewrite segs_view by exact Hu. rewrite HL. unfold msg_bytes. rewrite (app_assoc (hdr_bytes (m_hdr m))).
  replace (4 + length (m_tok m))%nat with (length (hdr_bytes (m_hdr m) ++ m_tok m)) by (rewrite app_length; reflexivity).
  rewrite views_events. apply segs_opts.
Qed.

(** what a set of repliers sends, from what each sends at the two points *)
Lemma server_answers : forall sg neg eat cap rs rows m L r1 r2, arrives sg neg m L -> Forall replier rs ->
  (forall a, holds (a_ctx a) (m_hdr m) (m_tok m) -> a_uri a = m3_walk (seen_path m L) (m3_init rows) ->
     subject_notify cap rs EOptDone a = Ok (a, r1) /\ subject_notify cap rs ECompleted a = Ok (a, r2)) ->
  answers sg neg eat cap (server rs) rows L (r1 ++ r2).
Proof.
  intros sg neg eat cap rs rows m L r1 r2 Ha Hr Hn d junk text Hd Hj.
  destruct (arrival sg neg eat m L d Ha Hd) as (opts & pays & (F & d1 & s1 & _ & _ & Hrun) & Ho & Hp & Hseg).
  destruct Ha as (Hm & _). destruct Hm as (_ & Ht & H8 & _). rewrite <- tkl_mod in Ht.
  destruct (run_report cap rs (m_hdr m) (m_tok m) opts pays rows junk text r1 r2 Hr Ht H8 Hj Ho Hp) as (a & A1 & A2 & A3).
  rewrite Hseg in A2. destruct (Hn a A1 A2) as (N1 & N2). destruct (A3 N1 N2) as (a1 & E).
  exists F, a1. intros fuel Hf. unfold serve. rewrite (Hrun fuel Hf). cbn [bind fst]. exact E.
Qed.

(** ** Tables *)

Definition good_table (ts : list tree) : Prop :=
  NoDup (map r_id (forest_rows ts)) /\ unique_siblings (forest_rows ts) /\ ids_real (forest_rows ts).

Lemma no_empty_path : forall ts id, ~ In (id, []) (forest_paths ts).
Proof.
  intros ts id H. unfold forest_paths in H. apply in_flat_map in H. destruct H as (t & _ & H). revert H.
  assert (G : forall above, ~ In (id, []) (tree_paths above t)); [|apply G].
  induction t as [s i cs IH] using tree_ind2; intros above H. cbn [tree_paths] in H. destruct H as [H|H].
  - apply (f_equal snd) in H. destruct above; discriminate H.
  - apply in_flat_map in H. destruct H as (c & C1 & C2). rewrite Forall_forall in IH. exact (IH c C1 _ C2).
Qed.

Lemma found_iff : forall ts path id, good_table ts -> id <> NONE ->
  (m3_found (m3_walk path (m3_init (forest_rows ts))) = id <-> In (id, path) (forest_paths ts)).
Proof.
  intros ts path id (A & B & C) Hid. destruct path as [|s path].
  - split; [intros H; cbn in H; congruence|intros H; destruct (no_empty_path _ _ H)].
  - unfold m3_walk. apply C37_forest; try assumption. discriminate.
Qed.

Lemma found_none : forall ts path, good_table ts ->
  (m3_found (m3_walk path (m3_init (forest_rows ts))) = NONE <-> forall id, ~ In (id, path) (forest_paths ts)).
Proof.
  intros ts path (A & B & C). destruct path as [|s path].
  - split; [intros _ id; apply no_empty_path|reflexivity].
  - unfold m3_walk. apply C37_forest_none; try assumption. discriminate.
Qed.

(** ** The boilerplate server *)

Lemma boilerplate_seen : forall sg neg eat cap ts vid text m L, good_table ts -> vid <> NONE -> arrives sg neg m L ->
  (In (vid, seen_path m L) (forest_paths ts) ->
     answers sg neg eat cap [OHeader; OToken; OUri; OBoiler vid text] (forest_rows ts) L [firstn cap (version_answer (m_hdr m) (m_tok m) text)]) /\
  (~ In (vid, seen_path m L) (forest_paths ts) ->
     answers sg neg eat cap [OHeader; OToken; OUri; OBoiler vid text] (forest_rows ts) L [firstn cap (not_found (m_hdr m) (m_tok m))]).
Proof.
  intros sg neg eat cap ts vid text m L Ht Hv Ha. assert (Hh : hdr_ok (m_hdr m)) by apply Ha. split; intros Hin.
  - apply (server_answers sg neg eat cap [OBoiler vid text] (forest_rows ts) m L [] [firstn cap (version_answer (m_hdr m) (m_tok m) text)] Ha); [repeat constructor|].
    intros a A1 A2. split; [reflexivity|]. cbn [subject_notify obs_notify]. rewrite A2.
    rewrite (proj2 (Z.eqb_eq _ _) (proj2 (found_iff ts _ vid Ht Hv) Hin)).
    destruct (version_cut (a_ctx a) _ _ text cap Hh A1) as (b & E1 & E2). rewrite E1. cbn [bind fst snd app]. rewrite E2. reflexivity.
  - apply (server_answers sg neg eat cap [OBoiler vid text] (forest_rows ts) m L [] [firstn cap (not_found (m_hdr m) (m_tok m))] Ha); [repeat constructor|].
    intros a A1 A2. split; [reflexivity|]. cbn [subject_notify obs_notify]. rewrite A2.
    destruct (Z.eqb_spec (m3_found (m3_walk (seen_path m L) (m3_init (forest_rows ts)))) vid) as [E|E]; [destruct (Hin (proj1 (found_iff ts _ vid Ht Hv) E))|].
    destruct (reply_cut (a_ctx a) _ _ code_not_found cap Hh A1 eq_refl) as (b & E1 & E2). rewrite E1. cbn [bind fst snd app]. rewrite E2. reflexivity.
Qed.

(** C54: every message gets exactly one answer: the version if its path is that node,
    otherwise 4.04; always an acknowledgement with the message's version, id and token.
    Of the answer as much is sent as the buffer of [cap] bytes takes. *)
Theorem C54_boilerplate : forall sg neg eat cap ts vid text m L, good_table ts -> vid <> NONE -> arrives sg neg m L -> whole_path m L ->
  (In (vid, path_of (m_opts m)) (forest_paths ts) ->
     answers sg neg eat cap [OHeader; OToken; OUri; OBoiler vid text] (forest_rows ts) L [firstn cap (version_answer (m_hdr m) (m_tok m) text)]) /\
  (~ In (vid, path_of (m_opts m)) (forest_paths ts) ->
     answers sg neg eat cap [OHeader; OToken; OUri; OBoiler vid text] (forest_rows ts) L [firstn cap (not_found (m_hdr m) (m_tok m))]).
Proof.
  intros sg neg eat cap ts vid text m L Ht Hv Ha Hw. rewrite <- (seen_whole m L (proj1 (proj2 Ha)) Hw).
  apply boilerplate_seen; assumption.
Qed.
Print Assumptions C54_boilerplate.

(** C54: which is all of it if it fits. *)
Theorem C54_boilerplate_whole : forall sg neg eat cap ts vid text m L, good_table ts -> vid <> NONE -> arrives sg neg m L -> whole_path m L ->
  (6 + length (m_tok m) + length text <= cap)%nat ->
  (In (vid, path_of (m_opts m)) (forest_paths ts) ->
     answers sg neg eat cap [OHeader; OToken; OUri; OBoiler vid text] (forest_rows ts) L [version_answer (m_hdr m) (m_tok m) text]) /\
  (~ In (vid, path_of (m_opts m)) (forest_paths ts) ->
     answers sg neg eat cap [OHeader; OToken; OUri; OBoiler vid text] (forest_rows ts) L [not_found (m_hdr m) (m_tok m)]).
Proof.
  intros sg neg eat cap ts vid text m L Ht Hv Ha Hw Hc. assert (E := C54_boilerplate sg neg eat cap ts vid text m L Ht Hv Ha Hw).
  rewrite !firstn_all2 in E by (rewrite version_length || (unfold not_found; rewrite answer_length); lia). exact E.
Qed.
Print Assumptions C54_boilerplate_whole.

(** C54 refuted: the server makes its buffer with 32 bytes.  If it does not grow by itself
    (embr, external), the version text is cut without notice: a client with a token of eight
    bytes gets at most 18 characters of it. *)
Theorem C54_version_cut_refuted : forall sg neg eat ts vid text m L, good_table ts -> vid <> NONE -> arrives sg neg m L -> whole_path m L ->
  In (vid, path_of (m_opts m)) (forest_paths ts) -> (26 < length (m_tok m) + length text)%nat ->
  exists part, answers sg neg eat 32 [OHeader; OToken; OUri; OBoiler vid text] (forest_rows ts) L [version_answer (m_hdr m) (m_tok m) part] /\
    length part = (26 - length (m_tok m))%nat /\ (length part < length text)%nat /\ exists rest, text = part ++ rest.
Proof.
  intros sg neg eat ts vid text m L Ht Hv Ha Hw Hin Hl. exists (firstn (26 - length (m_tok m)) text).
  assert (H8 : (length (m_tok m) <= 8)%nat) by apply Ha.
  assert (E := proj1 (C54_boilerplate sg neg eat 32 ts vid text m L Ht Hv Ha Hw) Hin).
  replace (firstn 32 (version_answer (m_hdr m) (m_tok m) text)) with (version_answer (m_hdr m) (m_tok m) (firstn (26 - length (m_tok m)) text)) in E.
  - split; [exact E|]. rewrite firstn_length. split; [lia|]. split; [lia|]. exists (skipn (26 - length (m_tok m)) text). symmetry. apply firstn_skipn.
  - unfold version_answer, answer.
    set (w := wire _). set (o := opts_bytes 0 _).
    change (pay_bytes (Some text)) with ([255] ++ text). change (pay_bytes (Some (firstn (26 - length (m_tok m)) text))) with ([255] ++ firstn (26 - length (m_tok m)) text).
    assert (W : length w = 4%nat) by reflexivity. assert (O : length o = 1%nat) by reflexivity. clearbody w o.
    rewrite !firstn_app. rewrite (firstn_all2 w) by lia. rewrite (firstn_all2 (m_tok m)) by lia. rewrite (firstn_all2 o) by lia.
    rewrite (firstn_all2 [255]) by (cbn [length]; lia). cbn [length]. rewrite W, O.
    replace (32 - 4 - length (m_tok m) - 1 - 1)%nat with (26 - length (m_tok m))%nat by lia. reflexivity.
Qed.
Print Assumptions C54_version_cut_refuted.

(** C54 refuted without that hypothesis: what lies beyond the end of a segment is not
    matched, so a request for a node can get 4.04 and a request for another path can
    get the node. *)
Theorem C54_cut_path_refuted : forall sg neg eat cap ts vid text m L, good_table ts -> vid <> NONE -> arrives sg neg m L ->
  (In (vid, seen_path m L) (forest_paths ts) ->
     answers sg neg eat cap [OHeader; OToken; OUri; OBoiler vid text] (forest_rows ts) L [firstn cap (version_answer (m_hdr m) (m_tok m) text)]) /\
  (~ In (vid, seen_path m L) (forest_paths ts) ->
     answers sg neg eat cap [OHeader; OToken; OUri; OBoiler vid text] (forest_rows ts) L [firstn cap (not_found (m_hdr m) (m_tok m))]).
Proof. exact boilerplate_seen. Qed.
Print Assumptions C54_cut_path_refuted.

(** ** The library's own repliers *)

(** C54: Auto404Observer and VersionObserver together: 4.04 exactly for the paths that
    are not in the table, the version for its node, silence for the other nodes; cut to
    the size of the buffer. *)
Theorem C54_auto404 : forall sg neg eat cap ts vid text m L, good_table ts -> vid <> NONE -> arrives sg neg m L -> whole_path m L ->
  let srv := [OHeader; OToken; OUri; OAuto404; OVersion vid text] in
  ((forall id, ~ In (id, path_of (m_opts m)) (forest_paths ts)) -> answers sg neg eat cap srv (forest_rows ts) L [firstn cap (not_found (m_hdr m) (m_tok m))]) /\
  (In (vid, path_of (m_opts m)) (forest_paths ts) -> answers sg neg eat cap srv (forest_rows ts) L [firstn cap (version_answer (m_hdr m) (m_tok m) text)]) /\
  (forall id, id <> vid -> In (id, path_of (m_opts m)) (forest_paths ts) -> answers sg neg eat cap srv (forest_rows ts) L []).
Proof.
  intros sg neg eat cap ts vid text m L Ht Hv Ha Hw srv. rewrite <- (seen_whole m L (proj1 (proj2 Ha)) Hw). assert (Hh : hdr_ok (m_hdr m)) by apply Ha.
  assert (G : forall r1 r2, (forall a, holds (a_ctx a) (m_hdr m) (m_tok m) -> a_uri a = m3_walk (seen_path m L) (m3_init (forest_rows ts)) ->
     subject_notify cap [OAuto404; OVersion vid text] EOptDone a = Ok (a, r1) /\ subject_notify cap [OAuto404; OVersion vid text] ECompleted a = Ok (a, r2)) ->
     answers sg neg eat cap srv (forest_rows ts) L (r1 ++ r2)).
  { intros r1 r2. apply (server_answers sg neg eat cap [OAuto404; OVersion vid text] (forest_rows ts) m L r1 r2 Ha). repeat constructor. }
  split; [|split].
  - intros Hin. apply (G [firstn cap (not_found (m_hdr m) (m_tok m))] []). intros a A1 A2. assert (E := proj2 (found_none ts _ Ht) Hin). rewrite <- A2 in E.
    cbn [subject_notify obs_notify bind fst snd]. rewrite E. rewrite Z.eqb_refl. destruct (Z.eqb_spec NONE vid) as [E0|_]; [congruence|].
    unfold make_encoder_reply.
    destruct (reply_cut (a_ctx a) _ _ code_not_found cap Hh A1 eq_refl) as (b & E1 & E2). rewrite E1. cbn [bind fst snd app]. rewrite E2. split; reflexivity.
  - intros Hin. apply (G [] [firstn cap (version_answer (m_hdr m) (m_tok m) text)]). intros a A1 A2. assert (E := proj2 (found_iff ts _ vid Ht Hv) Hin). rewrite <- A2 in E.
    cbn [subject_notify obs_notify bind fst snd]. rewrite E. rewrite Z.eqb_refl. destruct (Z.eqb_spec vid NONE) as [E0|_]; [congruence|].
    destruct (version_cut (a_ctx a) _ _ text cap Hh A1) as (b & E1 & E2). rewrite E1. cbn [bind fst snd app]. rewrite E2. split; reflexivity.
  - intros id Hne Hin. apply (G [] []). intros a A1 A2.
    assert (Hid : id <> NONE).
    { intros ->. apply (in_map fst) in Hin. cbn [fst] in Hin. unfold forest_paths in Hin. rewrite forest_paths_ids, <- (forest_rows_ids ts NONE) in Hin.
      apply in_map_iff in Hin. destruct Hin as (x & X1 & X2). destruct Ht as (_ & _ & Ht). unfold ids_real in Ht. rewrite Forall_forall in Ht.
      exact (Ht x X2 X1). }
    assert (E := proj2 (found_iff ts _ id Ht Hid) Hin). rewrite <- A2 in E. cbn [subject_notify obs_notify bind fst snd]. rewrite E.
    destruct (Z.eqb_spec id NONE); [congruence|]. destruct (Z.eqb_spec id vid); [congruence|]. split; reflexivity.
Qed.
Print Assumptions C54_auto404.

Theorem C54_auto404_whole : forall sg neg eat cap ts vid text m L, good_table ts -> vid <> NONE -> arrives sg neg m L -> whole_path m L ->
  (6 + length (m_tok m) + length text <= cap)%nat ->
  let srv := [OHeader; OToken; OUri; OAuto404; OVersion vid text] in
  ((forall id, ~ In (id, path_of (m_opts m)) (forest_paths ts)) -> answers sg neg eat cap srv (forest_rows ts) L [not_found (m_hdr m) (m_tok m)]) /\
  (In (vid, path_of (m_opts m)) (forest_paths ts) -> answers sg neg eat cap srv (forest_rows ts) L [version_answer (m_hdr m) (m_tok m) text]).
Proof.
  intros sg neg eat cap ts vid text m L Ht Hv Ha Hw Hc srv. destruct (C54_auto404 sg neg eat cap ts vid text m L Ht Hv Ha Hw) as (E1 & E2 & _).
  rewrite firstn_all2 in E1 by (unfold not_found; rewrite answer_length; lia). rewrite firstn_all2 in E2 by (rewrite version_length; lia).
  split; assumption.
Qed.
Print Assumptions C54_auto404_whole.

Lemma answer_hdr : forall h code, hdr_ok h -> code < 256 -> exists h', hdr_ok h' /\
  hdr_bytes h' = wire (Fields (hdr_version h) ACK (hdr_tkl h) code (hdr_mid h)) /\
  hdr_version h' = hdr_version h /\ hdr_type h' = ACK /\ hdr_tkl h' = hdr_tkl h /\ hdr_mid h' = hdr_mid h.
Proof.
  intros h code Hh Hc. destruct (reply_hdr h code Hh Hc) as [Hok Hw]. exists (hdr_set_type ACK (hdr_set_code code h)).
  split; [exact Hok|]. split; [exact Hw|]. destruct (wire_fields_of _ Hok) as [Hw' Hf']. rewrite <- Hw' in Hw.
  apply wire_inj in Hw; [|exact Hf'|].
  2:{ destruct (wire_fields_of h Hh) as [_ (V & T & K & C & M)]. unfold fields_of in *. cbn [f_ver f_type f_tkl f_code f_mid] in *. repeat split; cbn; auto. }
  unfold fields_of in Hw. exact (conj (f_equal f_ver Hw) (conj (f_equal f_type Hw) (conj (f_equal f_tkl Hw) (f_equal f_mid Hw)))).
Qed.

(** a Uri-Path observer in front of the echo changes nothing that is sent *)
Lemma without_uri : forall cap es c u1 u2 t a rs,
  app_run cap [OHeader; OToken; OUri; OEcho] es (App c u1 t) = Ok (a, rs) ->
  app_run cap echo_server es (App c u2 t) = Ok (App (a_ctx a) u2 (a_text a), rs).
Proof.
  intros cap. unfold echo_server. induction es as [|e es IH]; intros c u1 u2 t a rs H.
  - cbn [app_run] in *. injection H as <- <-. reflexivity.
  - assert (G : forall c' u' v' t' l, (forall a rs, bind (app_run cap [OHeader; OToken; OUri; OEcho] es (App c' u' t')) (fun y => Ok (fst y, l ++ snd y)) = Ok (a, rs) ->
                bind (app_run cap [OHeader; OToken; OEcho] es (App c' v' t')) (fun y => Ok (fst y, l ++ snd y)) = Ok (App (a_ctx a) v' (a_text a), rs))).
    { intros c' u' v' t' l a0 rs0 E. destruct (app_run cap [OHeader; OToken; OUri; OEcho] es (App c' u' t')) as [[a1 r1]| |] eqn:E1; try discriminate E.
      cbn [bind fst snd] in E. injection E as <- <-. rewrite (IH c' u' v' t' a1 r1 E1). reflexivity. }
    destruct e as [h|tok| |n v cc|  |v cc|];
      cbn [app_run subject_notify obs_notify ctx_notify bind fst snd app a_ctx a_uri a_text] in *.
    all: try (destruct (n =? 11); cbn [bind fst snd app a_ctx a_uri a_text] in *).
    all: try exact (G _ _ _ _ [] _ _ H).
    + destruct (ctx_set_token tok c) as [c1| |]; try discriminate H. cbn [bind fst snd app a_ctx a_uri a_text] in *. exact (G _ _ _ _ [] _ _ H).
    + destruct (make_encoder_reply cap c code_valid) as [b| |]; try discriminate H. cbn [bind fst snd app a_ctx a_uri a_text] in *. exact (G _ _ _ _ [app_reply b] _ _ H).
Qed.

Lemma echo_without_uri : forall sg neg eat cap L rs,
  answers sg neg eat cap [OHeader; OToken; OUri; OEcho] [] L rs -> answers sg neg eat cap echo_server [] L rs.
Proof.
  intros sg neg eat cap L rs H d junk text Hd Hj. destruct (H d junk text Hd Hj) as (F & a & E).
  exists F, (App (a_ctx a) (m3_init []) (a_text a)). intros fuel Hf. specialize (E fuel Hf). unfold serve in *.
  destruct (sbd_run fuel sg neg eat d (SBuf [] L)) as [x| |]; try discriminate E. cbn [bind] in *. exact (without_uri _ _ _ _ _ _ _ _ E).
Qed.

(** C54: the echo server acknowledges every message with 2.03; of the answer as much is
    sent as its buffer of [cap] bytes takes. *)
Theorem C54_echo : forall sg neg eat cap m L, arrives sg neg m L ->
  answers sg neg eat cap echo_server [] L [firstn cap (answer (m_hdr m) (m_tok m) 67 [] None)].
Proof.
  intros sg neg eat cap m L Ha. assert (Hh : hdr_ok (m_hdr m)) by apply Ha. apply echo_without_uri.
  apply (server_answers sg neg eat cap [OEcho] [] m L [] [firstn cap (answer (m_hdr m) (m_tok m) 67 [] None)] Ha); [repeat constructor|].
  intros a A1 A2. split; [reflexivity|]. cbn [subject_notify obs_notify]. unfold make_encoder_reply.
  destruct (reply_cut (a_ctx a) _ _ code_valid cap Hh A1 eq_refl) as (b & E1 & E2). rewrite E1. cbn [bind fst snd app]. rewrite E2. reflexivity.
Qed.
Print Assumptions C54_echo.

(** C54: which is all of it if the header and the token fit. *)
Theorem C54_echo_whole : forall sg neg eat cap m L, arrives sg neg m L -> (4 + length (m_tok m) <= cap)%nat ->
  answers sg neg eat cap echo_server [] L [answer (m_hdr m) (m_tok m) 67 [] None].
Proof.
  intros sg neg eat cap m L Ha Hc. assert (E := C54_echo sg neg eat cap m L Ha).
  rewrite firstn_all2 in E by (unfold answer; cbn [opts_bytes pay_bytes]; rewrite !app_nil_r, app_length; change (length (wire _)) with 4%nat; exact Hc).
  exact E.
Qed.
Print Assumptions C54_echo_whole.

(** C54 refuted: the server makes its buffer with 8 bytes.  If it does not grow by
    itself (embr, external), a token of more than four bytes is cut: the reply
    announces more token bytes than it has. *)
Theorem C54_echo_short_refuted : forall sg neg eat m L, arrives sg neg m L -> (4 < length (m_tok m))%nat ->
  exists bs, answers sg neg eat 8 echo_server [] L [bs] /\ length bs = 8%nat /\
    (length bs < 4 + N.to_nat (nth 0%nat bs 0%N mod 16))%nat.
Proof.
  intros sg neg eat m L Ha Hc. eexists. split; [exact (C54_echo sg neg eat 8 m L Ha)|].
  destruct Ha as ((Hh & Ht & _) & _).
  assert (El : length (firstn 8 (answer (m_hdr m) (m_tok m) 67 [] None)) = 8%nat).
  { rewrite firstn_length. unfold answer. cbn [opts_bytes pay_bytes]. rewrite !app_nil_r, app_length. change (length (wire _)) with 4%nat. lia. }
  split; [exact El|]. rewrite El. destruct (reply_hdr (m_hdr m) 67 Hh eq_refl) as [_ Hw].
  unfold answer. rewrite <- Hw. cbn [hdr_bytes app firstn nth].
  assert (E : h0 (hdr_set_type ACK (hdr_set_code 67 (m_hdr m))) mod 16 = h0 (m_hdr m) mod 16).
  { destruct (answer_hdr (m_hdr m) 67 Hh eq_refl) as (h' & A & B & C & T & D & E).
    rewrite <- B in Hw. assert (Q := f_equal (fun l => nth 0%nat l 0) Hw). change (h0 (hdr_set_type ACK (hdr_set_code 67 (m_hdr m))) = h0 h') in Q.
    rewrite Q, <- !tkl_mod. exact D. }
  rewrite E, Ht. lia.
Qed.
Print Assumptions C54_echo_short_refuted.

(** ** Findings *)

(** the answer of a server, as a message that can arrive at a server *)
Lemma answer_arrives : forall sg neg h tok code, hdr_ok h -> bytes_ok tok -> hdr_tkl h = N.of_nat (length tok) -> (length tok <= 8)%nat -> code < 256 ->
  (sg = true -> ~ In 255 (answer h tok code [] None)) ->
  exists m, arrives sg neg m [answer h tok code [] None] /\ m_tok m = tok /\ m_opts m = [] /\ hdr_type (m_hdr m) = ACK /\
    forall c, answer (m_hdr m) (m_tok m) c [] None = answer h tok c [] None.
Proof.
  intros sg neg h tok code Hh Hb Ht H8 Hc Hs. destruct (answer_hdr h code Hh Hc) as (h' & A & B & C & T & D & E).
  assert (X : answer h tok code [] None = hdr_bytes h' ++ tok) by (unfold answer; cbn [opts_bytes pay_bytes]; rewrite B, !app_nil_r; reflexivity).
  exists (Msg h' tok [] None). split; [|split; [reflexivity|split; [reflexivity|split; [exact T|]]]].
  - unfold arrives. cbn [m_hdr m_tok m_opts m_pay]. split.
    + unfold msg_ok. cbn [m_hdr m_tok m_opts m_pay]. rewrite <- tkl_mod, D. repeat split; auto.
    + split; [cbn [concat]; rewrite X; unfold msg_bytes; cbn [m_hdr m_tok m_opts m_pay opts_bytes pay_bytes]; rewrite !app_nil_r; reflexivity|].
      split; [rewrite <- X; exact Hs|]. intros _ _ (os & n & Q); destruct os; discriminate.
  - intros c. cbn [m_hdr m_tok]. unfold answer. rewrite C, D, E. reflexivity.
Qed.

(** C54 refuted: a server should not answer an acknowledgement (RFC 7252, 4.2).  These
    do: the 4.04 one boilerplate server sends makes another one send the same 4.04
    back, so that two of them never stop once a datagram with a forged sender has
    reached one. *)
Theorem C54_storm_refuted : forall sg neg eat cap ts vid text h tok, good_table ts -> vid <> NONE ->
  hdr_ok h -> bytes_ok tok -> hdr_tkl h = N.of_nat (length tok) -> (length tok <= 8)%nat -> (6 + length tok + length text <= cap)%nat ->
  (sg = true -> ~ In 255 (not_found h tok)) ->
  answers sg neg eat cap [OHeader; OToken; OUri; OBoiler vid text] (forest_rows ts) [not_found h tok] [not_found h tok] /\
  answers sg neg eat cap [OHeader; OToken; OUri; OAuto404; OVersion vid text] (forest_rows ts) [not_found h tok] [not_found h tok].
Proof.
  intros sg neg eat cap ts vid text h tok Ht Hv Hh Hb Hk H8 Hc Hs.
  destruct (answer_arrives sg neg h tok 132 Hh Hb Hk H8 eq_refl Hs) as (m & A & B & C & _ & D). assert (D' := D 132).
  assert (W : whole_path m [not_found h tok]) by (intros l o; rewrite C; intros []).
  assert (P : forall id, ~ In (id, path_of (m_opts m)) (forest_paths ts)) by (intro id; rewrite C; apply no_empty_path).
  assert (Hc' : (6 + length (m_tok m) + length text <= cap)%nat) by (rewrite B; exact Hc).
  destruct (C54_boilerplate_whole sg neg eat cap ts vid text m _ Ht Hv A W Hc') as [_ R].
  destruct (C54_auto404_whole sg neg eat cap ts vid text m _ Ht Hv A W Hc') as [R2 _].
  specialize (R (P vid)). specialize (R2 P). unfold not_found in *. rewrite D' in R, R2. split; assumption.
Qed.
Print Assumptions C54_storm_refuted.

(** C54 refuted, in the same way, for the echo server: its 2.03 is answered by 2.03. *)
Theorem C54_echo_storm_refuted : forall sg neg eat cap h tok, hdr_ok h -> bytes_ok tok -> hdr_tkl h = N.of_nat (length tok) -> (length tok <= 8)%nat ->
  (4 + length tok <= cap)%nat -> (sg = true -> ~ In 255 (answer h tok 67 [] None)) ->
  answers sg neg eat cap echo_server [] [answer h tok 67 [] None] [answer h tok 67 [] None].
Proof.
  intros sg neg eat cap h tok Hh Hb Hk H8 Hc Hs.
  destruct (answer_arrives sg neg h tok 67 Hh Hb Hk H8 eq_refl Hs) as (m & A & B & _ & _ & D). rewrite <- (D 67) at 2.
  apply C54_echo_whole; [exact A|rewrite B; exact Hc].
Qed.
Print Assumptions C54_echo_storm_refuted.

(** ** The path as text *)

Definition path_text (path : list (list N)) : list N := flat_map (fun s => s ++ [47]) path.

Lemma build_options : forall cap es, Forall is_option es -> forall a,
  (length (a_text a ++ path_text (uri_segs es)) <= 127)%nat ->
  app_run cap [OBuild] es a = Ok (App (a_ctx a) (a_uri a) (a_text a ++ path_text (uri_segs es)), []).
Proof.
  intros cap es. induction 1 as [|e es (n & v & c & ->) Hes IH]; intros [c0 u t] H.
  - cbn [app_run a_ctx a_uri a_text uri_segs flat_map path_text]. rewrite app_nil_r. reflexivity.
  - unfold uri_segs, path_text in *. cbn [app_run subject_notify obs_notify flat_map seg_of a_ctx a_uri a_text] in *.
    destruct (n =? 11) eqn:En.
    + cbn [app flat_map] in *. rewrite <- !app_assoc in H. rewrite !app_length in H. cbn [length] in H. unfold text_add, text_cap.
      rewrite (proj2 (Nat.leb_le (length (t ++ v)) 127)) by (rewrite app_length; lia). cbn [bind].
      rewrite (proj2 (Nat.leb_le (length ((t ++ v) ++ [47])) 127)) by (rewrite !app_length; cbn [length]; lia). cbn [bind fst snd].
      rewrite IH by (cbn [a_text]; rewrite !app_length; cbn [length]; lia). cbn [bind fst snd a_ctx a_uri a_text app]. rewrite <- !app_assoc. reflexivity.
    + cbn [app bind fst snd] in *. rewrite (IH (App c0 u t)) by exact H. reflexivity.
Qed.

Lemma build_quiet : forall cap es a, Forall is_payload es -> app_run cap [OBuild] es a = Ok (a, []).
Proof.
  intros cap es a. induction 1 as [|e es (v & c & ->) _ IH]; [reflexivity|]. cbn [app_run subject_notify obs_notify bind fst snd app]. rewrite IH. reflexivity.
Qed.

(** C54: _UriBuilderObserver leaves the segments of this message's path, each followed
    by a slash, whatever it held before; as long as that fits its 127 characters. *)
Theorem C54_uri_text : forall sg neg eat cap rows m L d junk text, arrives sg neg m L -> whole_path m L -> idle d ->
  (length (path_text (path_of (m_opts m))) <= 127)%nat ->
  exists F a, (forall fuel, (F <= fuel)%nat -> serve fuel sg neg eat cap [OBuild] rows junk text d L = Ok (a, [])) /\
    a_text a = path_text (path_of (m_opts m)).
Proof.
  intros sg neg eat cap rows m L d junk text Ha Hw Hd Hl.
  destruct (arrival sg neg eat m L d Ha Hd) as (opts & pays & (F & d1 & s1 & _ & _ & Hrun) & Ho & Hp & Hseg).
  rewrite (seen_whole m L (proj1 (proj2 Ha)) Hw) in Hseg.
  exists F, (App (ctx_new junk) (m3_init rows) (path_text (path_of (m_opts m)))). split; [|reflexivity].
  intros fuel Hf. unfold serve. rewrite (Hrun fuel Hf). cbn [bind fst].
  cbn [app app_run subject_notify obs_notify bind fst snd app_new a_ctx a_uri a_text].
  rewrite run_app, (build_options cap opts Ho) by (cbn [a_text app]; rewrite Hseg; exact Hl).
  cbn [app app_run subject_notify obs_notify bind fst snd a_ctx a_uri a_text]. rewrite Hseg, run_app, build_quiet by exact Hp.
  reflexivity.
Qed.
Print Assumptions C54_uri_text.

Lemma build_overflow : forall cap es, Forall is_option es -> forall a rest,
  (length (a_text a) <= 127 < length (a_text a ++ path_text (uri_segs es)))%nat ->
  app_run cap [OBuild] (es ++ rest) a = Fault.
Proof.
  intros cap es. induction 1 as [|e es (n & v & c & ->) Hes IH]; intros [c0 u t] rest H.
  - cbn [a_text uri_segs flat_map path_text] in H. rewrite app_nil_r in H. lia.
  - unfold uri_segs, path_text in *. cbn [app app_run subject_notify obs_notify flat_map seg_of a_ctx a_uri a_text] in *.
    destruct (n =? 11) eqn:En.
    + cbn [app flat_map] in *. rewrite <- !app_assoc in H. rewrite !app_length in H. cbn [length] in H. unfold text_add, text_cap.
      destruct (length (t ++ v) <=? 127)%nat eqn:E1; [|reflexivity]. apply Nat.leb_le in E1. cbn [bind].
      destruct (length ((t ++ v) ++ [47%N]) <=? 127)%nat eqn:E2; [|reflexivity]. apply Nat.leb_le in E2. cbn [bind fst snd].
      rewrite IH; [reflexivity|]. cbn [a_text]. split; [exact E2|]. rewrite !app_length in *. cbn [length] in *. lia.
    + cbn [app bind fst snd] in *. rewrite (IH (App c0 u t)) by exact H. reflexivity.
Qed.

(** C54: a longer path does not fit, and nothing checks that before the bytes are added:
    any such datagram, from anybody, overruns the observer (or stops it in an assertion
    of the string class). *)
Theorem C54_uri_long_refuted : forall sg neg eat cap rows m L d junk text, arrives sg neg m L -> whole_path m L -> idle d ->
  (127 < length (path_text (path_of (m_opts m))))%nat ->
  exists F, forall fuel, (F <= fuel)%nat -> serve fuel sg neg eat cap [OBuild] rows junk text d L = Fault.
Proof.
  intros sg neg eat cap rows m L d junk text Ha Hw Hd Hl.
  destruct (arrival sg neg eat m L d Ha Hd) as (opts & pays & (F & d1 & s1 & _ & _ & Hrun) & Ho & Hp & Hseg).
  rewrite (seen_whole m L (proj1 (proj2 Ha)) Hw) in Hseg. exists F.
  intros fuel Hf. unfold serve. rewrite (Hrun fuel Hf). cbn [bind fst].
  cbn [app app_run subject_notify obs_notify bind fst snd app_new a_ctx a_uri a_text].
  rewrite build_overflow; [reflexivity|exact Ho|]. cbn [a_text app length]. rewrite Hseg. split; [lia|exact Hl].
Qed.
Print Assumptions C54_uri_long_refuted.


(** ** A case *)

(** the table of test/rtos/esp32/boilerplate-subject/main/app.cpp 19-30 *)
Definition bp_table : list tree :=
  [Tree [118;49] 0%Z
     [Tree [97;112;105] 1%Z
        [Tree [115;116;97;116;115] 5%Z []; Tree [116;101;115;116] 3%Z []; Tree [118;101;114;115;105;111;110] 4%Z []]];
   Tree [46;119;101;108;108;45;107;110;111;119;110] 20%Z [Tree [99;111;114;101] 21%Z []]].

Lemma bp_good : good_table bp_table.
Proof.
  split; [|split].
  - cbn. repeat constructor; cbn; intuition discriminate.
  - unfold unique_siblings. cbn. repeat (constructor; [cbn; intuition discriminate|]). constructor.
  - unfold ids_real. cbn. repeat constructor; discriminate.
Qed.

(** GET /v1/api/version, confirmable, token 7, with a Uri-Query and no payload *)
Definition bp_get : msg :=
  Msg (Hdr 65 1 18 52) [7] [(11, [118;49]); (11, [97;112;105]); (11, [118;101;114;115;105;111;110]); (15, [120])] None.

(** the same in two segments, the first of [k] bytes *)
Definition bp_cut (k : nat) : list (list N) := [firstn k (msg_bytes bp_get); skipn k (msg_bytes bp_get)].

Lemma bp_arrives : forall sg neg k, arrives sg neg bp_get (bp_cut k).
Proof.
  intros sg neg k. unfold arrives. split.
  { unfold msg_ok. split; [apply hdr_ok_iff; repeat split; vm_compute; reflexivity|]. split; [reflexivity|]. split; [cbn; lia|].
    split; [repeat constructor|]. split; [|exact I]. cbn. repeat (split; [try lia; repeat constructor|]). exact I. }
  split; [unfold bp_cut; cbn [concat]; rewrite app_nil_r; apply firstn_skipn|].
  split; [intros _; vm_compute; intuition discriminate|]. intros _ _ (os & n & H).
  apply (f_equal (@rev opt)) in H. rewrite rev_app_distr in H. cbn in H. discriminate.
Qed.

Lemma uncut_two : forall x y o l, (length x <= o \/ o + l <= length x)%nat -> uncut [x; y] o l.
Proof.
  intros x y o l H a b E Hb. destruct a as [|a1 [|a2 a]]; cbn in E.
  - cbn. lia.
  - injection E as <- _. cbn. rewrite app_nil_r. lia.
  - injection E as _ _ E. symmetry in E. apply app_eq_nil in E. destruct E; congruence.
Qed.

Lemma bp_whole : forall k, In k [20; 22]%nat -> whole_path bp_get (bp_cut k).
Proof.
  intros k Hk l o H. apply uncut_two. rewrite firstn_length. change (length (msg_bytes bp_get)) with 22%nat.
  assert (E : (o + N.to_nat l <= 20)%nat); [|destruct Hk as [<-|[<-|[]]]; cbn [Nat.min]; lia].
  vm_compute in H. repeat destruct H as [H|H]; try discriminate; try contradiction; injection H as <- <-; vm_compute; lia.
Qed.

Example C54_case :
  good_table bp_table /\
  (* in one piece, or cut in front of the Uri-Query: the version *)
  (forall sg neg eat, answers sg neg eat 64 [OHeader; OToken; OUri; OBoiler 4 [49;46;48]] (forest_rows bp_table) (bp_cut 22)
     [[97; 69; 18; 52; 7; 192; 255; 49; 46; 48]]) /\
  whole_path bp_get (bp_cut 20) /\
  (* cut inside "version": 4.04 *)
  (forall sg neg eat, answers sg neg eat 64 [OHeader; OToken; OUri; OBoiler 4 [49;46;48]] (forest_rows bp_table) (bp_cut 17)
     [[97; 132; 18; 52; 7]]) /\
  seen_path bp_get (bp_cut 17) = [[118;49]; [97;112;105]; [118;101;114;115]] /\
  (* Auto404Observer has nothing to say about /v1/api *)
  (exists a, serve 100 false false false 64 [OHeader; OToken; OUri; OAuto404; OVersion 4 [49]] (forest_rows bp_table) [0;0;0;0;0;0;0;0] [] sample_dec
     [msg_bytes (Msg (Hdr 64 1 0 9) [] [(11, [118;49]); (11, [97;112;105])] None)] = Ok (a, [])) /\
  (exists a, serve 100 false false false 64 [OBuild] [] [] [1;2;3] sample_dec (bp_cut 20) = Ok (a, []) /\
     a_text a = [118;49;47;97;112;105;47;118;101;114;115;105;111;110;47]) /\
  (* a segment of 126 characters and its slash fit, one of 127 does not *)
  (exists a, serve 100 false false false 64 [OBuild] [] [] [] sample_dec [msg_bytes (Msg (Hdr 64 1 0 9) [] [(11, repeat 97 126)] None)] = Ok (a, [])) /\
  serve 100 false false false 64 [OBuild] [] [] [] sample_dec [msg_bytes (Msg (Hdr 64 1 0 9) [] [(11, repeat 97 127)] None)] = Fault.
Proof.
  split; [exact bp_good|]. split; [|split; [|split; [|split; [reflexivity|split; [|split; [|split]]]]]].
  - intros sg neg eat. apply (C54_boilerplate_whole sg neg eat 64 bp_table 4 [49;46;48] bp_get (bp_cut 22) bp_good); [discriminate|apply bp_arrives| | |].
    + apply bp_whole. cbn; tauto.
    + cbn; lia.
    + vm_compute. tauto.
  - apply bp_whole. cbn; tauto.
  - intros sg neg eat. apply (C54_cut_path_refuted sg neg eat 64 bp_table 4 [49;46;48] bp_get (bp_cut 17) bp_good); [discriminate|apply bp_arrives|].
    vm_compute. intuition discriminate.
  - eexists. vm_compute. reflexivity.
  - eexists. split; vm_compute; reflexivity.
  - eexists. vm_compute. reflexivity.
  - vm_compute. reflexivity.
Qed.

(** a ping to the echo server, its token three and five bytes long *)
Example C54_echo_case :
  answers false false false 8 echo_server [] [[67; 1; 18; 52; 7; 8; 9]] [[99; 67; 18; 52; 7; 8; 9]] /\
  answers false false false 8 echo_server [] [[69; 1; 18]; [52; 7; 8; 9; 10; 11]] [[101; 67; 18; 52; 7; 8; 9; 10]].
Proof.
  split.
  - apply (C54_echo_whole false false false 8 (Msg (Hdr 67 1 18 52) [7;8;9] [] None)); [|cbn; lia].
    split; [unfold msg_ok, hdr_ok, bytes_ok, byte_ok; cbn; repeat split; repeat constructor; try lia|].
    split; [reflexivity|split; discriminate].
  - apply (C54_echo false false false 8 (Msg (Hdr 69 1 18 52) [7;8;9;10;11] [] None)).
    split; [unfold msg_ok, hdr_ok, bytes_ok, byte_ok; cbn; repeat split; repeat constructor; try lia|].
    split; [reflexivity|split; discriminate].
Qed.

(** the boilerplate server with its buffer of 32 bytes and a version of 20 characters *)
Example C54_version_case :
  answers false false false 32 [OHeader; OToken; OUri; OBoiler 4 (repeat 48 20)] (forest_rows bp_table)
    [[72; 1; 18; 52] ++ [1;2;3;4;5;6;7;8] ++ [178;118;49; 3;97;112;105; 7;118;101;114;115;105;111;110]]
    [[104; 69; 18; 52; 1;2;3;4;5;6;7;8; 192; 255] ++ repeat 48 18].
Proof.
  set (m := Msg (Hdr 72 1 18 52) [1;2;3;4;5;6;7;8] [(11, [118;49]); (11, [97;112;105]); (11, [118;101;114;115;105;111;110])] None).
  apply (C54_boilerplate false false false 32 bp_table 4 (repeat 48 20) m [msg_bytes m] bp_good); [discriminate| | |].
  - split; [unfold msg_ok, hdr_ok, bytes_ok, byte_ok; cbn; repeat split; repeat constructor; try lia|].
    split; [reflexivity|split; discriminate].
  - intros l o _ a b E Hb. destruct a as [|a1 a]; [cbn; lia|]. injection E as _ E. symmetry in E. apply app_eq_nil in E. destruct E; congruence.
  - vm_compute. tauto.
Qed.
