(** C56: the example servers, from datagram to datagram. *)
From Coq Require Import ZArith.
From Verif Require Import Base HeaderModel HeaderSpec HeaderProofs OptEncModel OptSpec StreambufModel StreambufProofs OptDecModel DecoderModel DecoderSpec DecoderProofs
  ContextModel UriModel UriSpec UriProofs UriProps AppModel NetDecModel NetDecSpec NetDecProofs NetDecProps NetbufModel NetbufProofs NetbufProps ReplyProps ObserveModel
  RespModel RespSpec RespProofs.
Local Open Scope N_scope.

(** C56, ping: any datagram that holds a header and its token gets 2.05 with the same
    message id and token and nothing else, acknowledged if it was confirmable, whatever
    follows the token and whatever was in memory, in both builds. *)
Theorem C56_ping : forall debug cap fuel jh junk h tok rest d, hdr_ok jh -> hdr_ok h -> idle d -> bytes_ok tok ->
  h0 h mod 16 = len tok -> (length tok <= 8)%nat -> (4 + length tok <= cap)%nat -> answerable h ->
  ping false debug cap fuel jh junk (hdr_bytes h ++ tok ++ rest) d = Ok (answer_head 69 h tok).
Proof.
  intros debug cap fuel jh junk h tok rest d Hj Hh Hd Hk Ht H8 Hc R.
  destruct (C55_header_token true d h tok rest Hd Hk Ht H8) as (x1 & x2 & A & B & _).
  rewrite <- tkl_mod in Ht. unfold len in Ht. destruct (begin_ok junk _ _ _ _ _ _ A B H8 Ht) as (k & K1 & K2 & K3).
  unfold ping. rewrite K1. cbn [bind fst snd].
  destruct (head_sink debug cap jh k code_content h tok Hj Hh eq_refl K2 K3 Ht Hc R) as (b & -> & S1 & _). cbn [bind]. rewrite S1. reflexivity.
Qed.
Print Assumptions C56_ping.

(** ... also where the options are skipped, if the request is well-formed *)
Theorem C56_ping_skip : forall debug cap fuel jh junk m d, hdr_ok jh -> msg_ok m -> idle d -> (length (m_opts m) < fuel)%nat ->
  (4 + length (m_tok m) <= cap)%nat -> answerable (m_hdr m) ->
  ping true debug cap fuel jh junk (msg_bytes m) d = Ok (answer_head 69 (m_hdr m) (m_tok m)).
Proof.
  intros debug cap fuel jh junk m d Hj Hm Hd Hf Hc R. destruct (message_parts junk m d fuel Hm Hd Hf) as (k & x & K1 & K2 & K3 & _ & y & K4).
  destruct Hm as (Hh & Ht & H8 & _). rewrite <- tkl_mod in Ht. unfold ping. rewrite K1. cbn [bind fst snd]. rewrite K4. cbn [bind].
  destruct (head_sink debug cap jh k code_content _ _ Hj Hh eq_refl K2 K3 Ht Hc R) as (b & -> & S1 & _). cbn [bind]. rewrite S1. reflexivity.
Qed.
Print Assumptions C56_ping_skip.

(** An acknowledgement or a reset stops the server by an assertion: two ping servers, or
    anyone who acknowledges, can do it with four bytes. *)
Theorem C56_ack_refuted : forall debug cap fuel jh junk h tok rest d, hdr_ok jh -> hdr_ok h -> idle d -> bytes_ok tok ->
  h0 h mod 16 = len tok -> (length tok <= 8)%nat -> ~ answerable h ->
  ping false debug cap fuel jh junk (hdr_bytes h ++ tok ++ rest) d = Fault.
Proof.
  intros debug cap fuel jh junk h tok rest d Hj Hh Hd Hk Ht H8 R.
  destruct (C55_header_token true d h tok rest Hd Hk Ht H8) as (x1 & x2 & A & B & _).
  rewrite <- tkl_mod in Ht. unfold len in Ht. destruct (begin_ok junk _ _ _ _ _ _ A B H8 Ht) as (k & K1 & K2 & K3).
  unfold ping. rewrite K1. cbn [bind fst snd]. rewrite (head_fault debug cap jh k code_content h tok Hj Hh K2 K3 R). reflexivity.
Qed.
Print Assumptions C56_ack_refuted.

(** The text of the path the servers collect: the values the iterator shows. *)
Definition seen_path (m : msg) : list (list N) := values_of 11 (shown (has (m_pay m)) (m_opts m)).

(** C56, uri: the exact reply to every well-formed request: 2.03 if and only if the path
    seen is the one segment test, 4.04 otherwise, with the path seen as payload, cut off
    at the end of the netbuf. *)
Theorem C56_uri : forall cap fuel jh junk m d, hdr_ok jh -> msg_ok m -> idle d -> (length (m_opts m) < fuel)%nat ->
  (4 + length (m_tok m) <= cap)%nat -> answerable (m_hdr m) -> (length (slashed (seen_path m)) <= 127)%nat ->
  exists code, uri_server false cap fuel jh junk (msg_bytes m) d = Ok (sent cap code (m_hdr m) (m_tok m) (slashed (seen_path m))) /\
    (seen_path m = [[116; 101; 115; 116]] -> code = 67) /\ (seen_path m <> [[116; 101; 115; 116]] -> code = 132).
Proof.
  intros cap fuel jh junk m d Hj Hm Hd Hf Hc R L. destruct (message_parts junk m d fuel Hm Hd Hf) as (k & x & K1 & K2 & K3 & K4 & _).
  destruct Hm as (Hh & Ht & H8 & _). rewrite <- tkl_mod in Ht. unfold uri_server. rewrite K1. cbn [bind fst snd]. rewrite K4. cbn [bind]. rewrite kept_uri by reflexivity.
  rewrite uri_text by exact L. cbn [bind app]. fold (seen_path m).
  exists (if str_eqb (slashed (seen_path m)) txt_test then code_valid else code_not_found). split; [|split].
  - apply reply_sent; auto. destruct (str_eqb _ _); reflexivity.
  - intros ->. reflexivity.
  - intro Ne. destruct (str_eqb (slashed (seen_path m)) txt_test) eqn:E; [|reflexivity]. apply str_eqb_eq, test_iff in E. contradiction.
Qed.
Print Assumptions C56_uri.

(** ... a longer one runs over the 128 characters of the string. *)
Theorem C56_uri_long : forall debug cap fuel jh junk m d, msg_ok m -> idle d -> (length (m_opts m) < fuel)%nat ->
  (127 < length (slashed (seen_path m)))%nat -> uri_server debug cap fuel jh junk (msg_bytes m) d = Fault.
Proof.
  intros debug cap fuel jh junk m d Hm Hd Hf L. destruct (message_parts junk m d fuel Hm Hd Hf) as (k & x & K1 & K2 & K3 & K4 & _).
  unfold uri_server. rewrite K1. cbn [bind fst snd]. rewrite K4. cbn [bind]. rewrite kept_uri by reflexivity. rewrite uri_long; [reflexivity|exact L|cbn; lia].
Qed.
Print Assumptions C56_uri_long.

(** That a request for /test gets 2.03 is false: whatever header, token and payload it has,
    if the path is all it has in options it gets 4.04; without a payload the reply ends
    with the marker. *)
Theorem C56_uri_test_refuted : forall cap fuel jh junk m d, hdr_ok jh -> msg_ok m -> idle d -> (1 < fuel)%nat ->
  (6 + length (m_tok m) <= cap)%nat -> answerable (m_hdr m) -> m_opts m = [(11, [116; 101; 115; 116])] ->
  uri_server false cap fuel jh junk (msg_bytes m) d =
    Ok (answer_head 132 (m_hdr m) (m_tok m) ++ 255 :: match m_pay m with None => [] | Some _ => [47] end).
Proof.
  intros cap fuel jh junk m d Hj Hm Hd Hf Hc R E.
  assert (P : seen_path m = match m_pay m with None => [] | Some _ => [[]] end) by (unfold seen_path; rewrite E; destruct (m_pay m); reflexivity).
  destruct (C56_uri cap fuel jh junk m d Hj Hm Hd) as (code & -> & _ & C); [rewrite E; exact Hf|lia|exact R| |].
  - rewrite P. destruct (m_pay m); cbn; lia.
  - rewrite C by (rewrite P; destruct (m_pay m); discriminate). unfold sent. rewrite P.
    assert (L : length (answer_head 132 (m_hdr m) (m_tok m)) = (4 + length (m_tok m))%nat) by (unfold answer_head, reply_wire; rewrite app_length; reflexivity).
    f_equal. destruct (m_pay m); unfold slashed; cbn [map concat app]; apply firstn_all2; rewrite app_length, L; cbn [length]; lia.
Qed.
Print Assumptions C56_uri_test_refuted.

(** C56, observe: the exact reply and the exact list of sessions after every well-formed
    request: the last Observe option seen decides the code, each one seen that asks to
    register adds a session. *)
Theorem C56_observe : forall A cap fuel size jh junk m d (a : A) regs, hdr_ok jh -> msg_ok m -> idle d -> (length (m_opts m) < fuel)%nat ->
  (4 + length (m_tok m) <= cap)%nat -> answerable (m_hdr m) -> (length (slashed (seen_path m)) <= 127)%nat ->
  let seen := values_of 6 (shown (has (m_pay m)) (m_opts m)) in
  (length regs + length (filter registers seen) <= size)%nat ->
  obs_server false cap fuel size jh junk (msg_bytes m) d a regs =
    Ok (sent cap (last (map observe_code seen) 132) (m_hdr m) (m_tok m) (slashed (seen_path m)),
        regs ++ map (fun _ => Session 0 a (m_tok m)) (filter registers seen)).
Proof.
  intros A cap fuel size jh junk m d a regs Hj Hm Hd Hf Hc R L seen Z. destruct (message_parts junk m d fuel Hm Hd Hf) as (k & x & K1 & K2 & K3 & K4 & _).
  destruct Hm as (Hh & Ht & H8 & _). rewrite <- tkl_mod in Ht. unfold obs_server. rewrite K1. cbn [bind fst snd]. rewrite K4. cbn [bind]. rewrite kept_observe by reflexivity.
  rewrite (observe_run A size k a _ K3 _ [] _ _ L Z). cbn [bind app]. fold (seen_path m). fold seen.
  assert (G : forall vs x, x < 256 -> last (map observe_code vs) x < 256).
  { induction vs as [|v vs IH]; intros y Y; [exact Y|]. cbn [map]. rewrite last_cons. apply IH. unfold observe_code. destruct v as [|[|[p|p|]] v]; reflexivity. }
  rewrite (reply_sent cap jh k _ (m_hdr m) (m_tok m) _ Hj Hh); auto. apply G. reflexivity.
Qed.
Print Assumptions C56_observe.

(** So a request that deregisters (RFC 7641 2) registers once more: the Observe option of a
    request with nothing before it is always taken for 0. *)
Theorem C56_deregister_refuted : forall A cap fuel size jh junk m d (a : A) regs v r, hdr_ok jh -> msg_ok m -> idle d -> (length (m_opts m) < fuel)%nat ->
  (4 + length (m_tok m) <= cap)%nat -> answerable (m_hdr m) -> (length (slashed (seen_path m)) <= 127)%nat -> (length regs < size)%nat ->
  m_opts m = (6, v) :: r -> ~ In 6 (map fst r) -> r <> [] \/ m_pay m <> None ->
  obs_server false cap fuel size jh junk (msg_bytes m) d a regs =
    Ok (sent cap 67 (m_hdr m) (m_tok m) (slashed (seen_path m)), regs ++ [Session 0 a (m_tok m)]).
Proof.
  intros A cap fuel size jh junk m d a regs v r Hj Hm Hd Hf Hc R L Z E N6 NE.
  assert (V : values_of 6 (shown (has (m_pay m)) (m_opts m)) = [[]]).
  { rewrite E. destruct r as [|[n2 v2] [|[n3 v3] r]].
    - destruct NE as [C|C]; [congruence|]. destruct (m_pay m); [reflexivity|congruence].
    - reflexivity.
    - cbn [shown values_of]. change (6 =? 6) with true. cbv iota. f_equal. cbn [map fst In] in N6.
      destruct (N.eqb_spec n3 6) as [->|_]; [tauto|]. apply values_none. intros w I. apply shown_numbers in I. tauto. }
  rewrite (C56_observe A cap fuel size jh junk m d a regs Hj Hm Hd); auto; [rewrite V; reflexivity|rewrite V; cbn; lia].
Qed.
Print Assumptions C56_deregister_refuted.

(** ... and one with an option before it is not seen at all: 4.04 and no session. *)
Theorem C56_second_observe_refuted : forall A cap fuel size jh junk m d (a : A) regs n1 v1 v r, hdr_ok jh -> msg_ok m -> idle d -> (length (m_opts m) < fuel)%nat ->
  (4 + length (m_tok m) <= cap)%nat -> answerable (m_hdr m) -> (length (slashed (seen_path m)) <= 127)%nat -> (length regs <= size)%nat ->
  m_opts m = (n1, v1) :: (6, v) :: r -> n1 <> 6 -> ~ In 6 (map fst r) ->
  obs_server false cap fuel size jh junk (msg_bytes m) d a regs = Ok (sent cap 132 (m_hdr m) (m_tok m) (slashed (seen_path m)), regs).
Proof.
  intros A cap fuel size jh junk m d a regs n1 v1 v r Hj Hm Hd Hf Hc R L Z E N1 N6.
  assert (V : values_of 6 (shown (has (m_pay m)) (m_opts m)) = []).
  { rewrite E. destruct r as [|[n3 v3] r]; cbn [shown values_of]; (destruct (N.eqb_spec n1 6) as [->|_]; [congruence|]); [reflexivity|].
    cbn [map fst In] in N6. destruct (N.eqb_spec n3 6) as [->|_]; [tauto|]. apply values_none. intros w I. apply shown_numbers in I. tauto. }
  rewrite (C56_observe A cap fuel size jh junk m d a regs Hj Hm Hd); auto; [rewrite V; cbn; rewrite app_nil_r; reflexivity|rewrite V; cbn; lia].
Qed.
Print Assumptions C56_second_observe_refuted.

(** C56, discoverable: whatever the tables (without empty segments), the node found is none
    or a root, the one segment seen. *)
Theorem C56_found : forall rows m, Forall (fun r => r_seg r <> []) rows -> msg_ok m ->
  let f := m3_found (rs_match (shown (has (m_pay m)) (m_opts m)) (m3_init rows)) in
  f = NONE \/ exists r, In r rows /\ r_parent r = NONE /\ r_id r = f /\ seen_path m = [r_seg r].
Proof. intros rows m Hr (_ & _ & _ & _ & Ho & _). apply found_root; assumption. Qed.
Print Assumptions C56_found.

(** So the links are never sent: each well-formed request gets the code for found or not
    and a marker with nothing behind it, if the node of the links is not a root. *)
Theorem C56_discover_refuted : forall cap fuel jh rows cd extra core junk m d, hdr_ok jh -> msg_ok m -> idle d -> (length (m_opts m) < fuel)%nat ->
  (4 + length (m_tok m) < cap)%nat -> answerable (m_hdr m) -> Forall (fun r => r_seg r <> []) rows ->
  core <> NONE -> (forall r, In r rows -> r_id r = core -> r_parent r <> NONE) ->
  exists code, core_server false cap fuel jh rows cd extra core junk (msg_bytes m) d = Ok (answer_head code (m_hdr m) (m_tok m) ++ [255]) /\
    (code = 132 \/ code = 69 /\ exists r, In r rows /\ r_parent r = NONE /\ seen_path m = [r_seg r]).
Proof.
  intros cap fuel jh rows cd extra core junk m d Hj Hm Hd Hf Hc R Hr C1 C2. pose proof (C56_found rows m Hr Hm) as F.
  destruct (message_parts junk m d fuel Hm Hd Hf) as (k & x & K1 & K2 & K3 & K4 & _).
  destruct Hm as (Hh & Ht & H8 & _). rewrite <- tkl_mod in Ht. unfold core_server. rewrite K1. cbn [bind fst snd]. rewrite K4. cbn [bind]. rewrite kept_match by reflexivity.
  set (f := m3_found (rs_match (shown (has (m_pay m)) (m_opts m)) (m3_init rows))) in *.
  set (code := if Z.eqb f NONE then code_not_found else code_content).
  assert (Cc : code < 256) by (unfold code; destruct (Z.eqb f NONE); reflexivity).
  assert (Cl : (4 + length (m_tok m) <= cap)%nat) by lia.
  destruct (head_sink false cap jh k code _ _ Hj Hh Cc K2 K3 Ht Cl R) as (b & -> & S1 & S2 & S3 & _). cbn [bind].
  unfold nbe_payload_header, assert_not_state, assert_state, nbe_marker_written. rewrite S3, S2, S1. cbn [negb orb bind].
  destruct (cap - (4 + length (m_tok m)))%nat as [|room] eqn:Er; [lia|]. cbn [sputc bind snd n_sink n_set_state n_set_marker n_set_sink n_set_enc s_out].
  assert (Nc : Z.eqb f core = false).
  { apply Z.eqb_neq. intros E. destruct F as [F|(r & I & P & Q & _)]; [congruence|]. apply (C2 r I); congruence. }
  rewrite Nc. exists code. split; [reflexivity|]. unfold code. destruct (Z.eqb_spec f NONE) as [_|NE]; [left; reflexivity|].
  right. split; [reflexivity|]. destruct F as [F|(r & I & P & Q & V)]; [congruence|]. exists r. auto.
Qed.
Print Assumptions C56_discover_refuted.

(** The rest of that server is right: from options that were all visited the node of the
    path is found ... *)
Theorem C56_path_found : forall ts os id, NoDup (map r_id (forest_rows ts)) -> unique_siblings (forest_rows ts) -> ids_real (forest_rows ts) -> id <> NONE ->
  let path := map snd (filter (fun o => fst o =? 11) os) in path <> [] ->
  (m3_found (rs_match os (m3_init (forest_rows ts))) = id <-> In (id, path) (forest_paths ts)).
Proof.
  intros ts os id A B C D path E. rewrite match_path. replace (values_of 11 os) with path; [apply C37_forest; assumption|].
  unfold path. clear. induction os as [|[n v] os IH]; [reflexivity|]. cbn [filter fst values_of]. destruct (n =? 11); cbn [map snd]; rewrite IH; reflexivity.
Qed.
Print Assumptions C56_path_found.

(** ... and the text is the links of C38 with their extras, separated by commas, cut one
    before the end of the buffer; without any link it is a fault. *)
Fixpoint join (sep : N) (ts : list (list N)) : list N :=
  match ts with [] => [] | [t] => t | t :: r => t ++ sep :: join sep r end.
Lemma join_commas : forall ts, ts <> [] -> concat (map (fun t => t ++ [44]) ts) = join 44 ts ++ [44].
Proof.
  induction ts as [|t ts IH]; intros H; [congruence|]. cbn [map concat]. destruct ts as [|u ts]; [cbn; now rewrite app_nil_r|].
  rewrite IH by discriminate. change (join 44 (t :: u :: ts)) with (t ++ 44 :: join 44 (u :: ts)). rewrite <- !app_assoc. reflexivity.
Qed.
Lemma cut_last : forall (l : list N) x n, (0 < n)%nat -> removelast (firstn n (l ++ [x])) = firstn (n - 1) l.
Proof.
  induction l as [|a l IH]; intros x n H; destruct n as [|n]; try lia.
  - cbn. rewrite firstn_nil. cbn. now rewrite firstn_nil.
  - cbn [app firstn]. destruct n as [|n]; [reflexivity|].
    change (S (S n) - 1)%nat with (S n). cbn [firstn]. specialize (IH x (S n) ltac:(lia)). cbn [Nat.sub] in IH. rewrite Nat.sub_0_r in IH. rewrite <- IH.
    destruct l; reflexivity.
Qed.
Theorem C56_links : forall cd extra ts room, NoDup (map r_id (forest_rows ts)) -> ids_real (forest_rows ts) -> Forall (fun t => height t <= 10)%nat ts ->
  let texts := map (fun l => snd l ++ extra (fst l)) (links cd (forest_paths ts)) in
  (texts <> [] -> (0 < room)%nat -> core_text cd extra (forest_rows ts) room = Ok (firstn (room - 1) (join 44 texts))) /\
  (texts = [] -> core_text cd extra (forest_rows ts) room = Fault).
Proof.
  intros cd extra ts room A B C texts. destruct (C38_links cd ts A B C) as (st & W). unfold core_text. rewrite W. cbn [bind fst].
  replace (map (fun l : Z * list N => snd l ++ extra (fst l) ++ [44]) (links cd (forest_paths ts))) with (map (fun t => t ++ [44]) texts).
  2: { unfold texts. rewrite map_map. apply map_ext. intros l. now rewrite app_assoc. }
  split; intros H.
  - intros R. rewrite join_commas by exact H. rewrite <- (cut_last _ 44 room R).
    destruct (firstn room (join 44 texts ++ [44])) eqn:F; [|reflexivity]. exfalso. destruct room as [|r]; [lia|]. destruct (join 44 texts); discriminate.
  - rewrite H. cbn [map concat]. rewrite firstn_nil. reflexivity.
Qed.
Print Assumptions C56_links.

(** In builds with the assertions none of the three servers with a payload ever replies, to
    any datagram at all. *)
Theorem C56_debug_refuted : forall cap fuel jh junk c d,
  (forall out, uri_server true cap fuel jh junk c d <> Ok out) /\
  (forall A size (a : A) regs out, obs_server true cap fuel size jh junk c d a regs <> Ok out) /\
  (forall rows cd extra core out, core_server true cap fuel jh rows cd extra core junk c d <> Ok out).
Proof.
  intros cap fuel jh junk c d. split; [|split].
  - intro out. unfold uri_server. destruct (rs_begin junk c d) as [[k x]| |]; cbn [bind fst snd]; try discriminate.
    destruct (rs_options _ fuel c x) as [os| |]; cbn [bind]; try discriminate. destruct (rs_uri os []) as [uri| |]; cbn [bind]; try discriminate. apply reply_debug.
  - intros A size a regs out. unfold obs_server. destruct (rs_begin junk c d) as [[k x]| |]; cbn [bind fst snd]; try discriminate.
    destruct (rs_options _ fuel c x) as [os| |]; cbn [bind]; try discriminate.
    destruct (rs_observe size k a os [] code_not_found regs) as [[[uri code] regs1]| |]; cbn [bind]; try discriminate.
    destruct (rs_reply true cap jh k code uri) as [o| |] eqn:E; cbn [bind]; try discriminate. destruct (reply_debug _ _ _ _ _ _ E).
  - intros rows cd extra core out. unfold core_server. destruct (rs_begin junk c d) as [[k x]| |]; cbn [bind fst snd]; try discriminate.
    destruct (rs_options _ fuel c x) as [os| |]; cbn [bind]; try discriminate. destruct (rs_head true cap jh k _) as [b| |] eqn:E; cbn [bind]; try discriminate.
    destruct (head_debug _ _ _ _ _ E) as [A B]. rewrite (payload_header_debug b A B). discriminate.
Qed.
Print Assumptions C56_debug_refuted.

(** A case for each: GET, message id 0x1234, token 7, Uri-Path test; the same with Observe 1;
    with an If-Match before it; and one for /.well-known/core. *)
Definition get_head : hdr := Hdr 65 1 18 52.
Definition get_test : msg := Msg get_head [7] [(11, [116; 101; 115; 116])] None.
Definition get_cancel : msg := Msg get_head [7] [(6, [1]); (11, [116; 101; 115; 116])] None.
Definition get_match : msg := Msg get_head [7] [(1, [9]); (6, [0]); (11, [116; 101; 115; 116])] None.
Definition get_core : msg := Msg get_head [7] [(11, [46; 119; 101; 108; 108; 45; 107; 110; 111; 119; 110]); (11, [99; 111; 114; 101])] None.
(** two If-Match options in front: now the third option is the path *)
Definition get_seen : msg := Msg get_head [7] [(1, [9]); (1, [8]); (11, [116; 101; 115; 116])] None.

Example C56_hypotheses : Forall (fun m => msg_ok m /\ answerable (m_hdr m) /\ m_opts m <> []) [get_test; get_cancel; get_match; get_core; get_seen].
Proof.
  assert (H : hdr_ok get_head) by (apply hdr_ok_iff; repeat split; vm_compute; reflexivity).
  assert (T : bytes_ok [7]) by (repeat constructor; unfold byte_ok; lia).
  repeat apply Forall_cons; [..|apply Forall_nil]; (split; [|split; [left; reflexivity|discriminate]]);
    (split; [exact H|]); (split; [reflexivity|]); (split; [cbn; lia|]); (split; [exact T|]); (split; [|exact I]);
    cbn; unfold len, bytes_ok, byte_ok; cbn; repeat split; try lia; repeat constructor; lia.
Qed.

Definition old_mem : dec := Dec Uninitialized (Hdr 0 0 0 0) 0 [0; 0; 0; 0; 0; 0; 0; 0] 0 (ODec OptionDone 9 9 9 9 0) (Holder 0 0).
Definition no_junk : list N := [3; 3; 3; 3; 3; 3; 3; 3].

Example C56_memory : idle old_mem /\ hdr_ok get_head /\ Forall (fun r => r_seg r <> []) core_rows /\ id_core <> NONE /\
  (forall r, In r core_rows -> r_id r = id_core -> r_parent r <> NONE).
Proof.
  split; [split; [left; reflexivity|]; unfold dec_mem, od_bytes, byte_ok; cbn; repeat split; try lia; repeat constructor; unfold byte_ok; lia|]. split; [apply hdr_ok_iff; repeat split; vm_compute; reflexivity|].
  split; [repeat constructor; discriminate|]. split; [discriminate|]. intros r I E. cbn in I. intuition (subst; cbn in *; discriminate).
Qed.

Example C56_case :
  ping true true 64 9 get_head no_junk (msg_bytes get_test) old_mem = Ok [97; 69; 18; 52; 7] /\
  uri_server false 64 9 get_head no_junk (msg_bytes get_test) old_mem = Ok [97; 132; 18; 52; 7; 255] /\
  uri_server false 64 9 get_head no_junk (msg_bytes get_seen) old_mem = Ok [97; 67; 18; 52; 7; 255; 116; 101; 115; 116; 47] /\
  obs_server false 64 9 4 get_head no_junk (msg_bytes get_cancel) old_mem 5 [] = Ok ([97; 67; 18; 52; 7; 255], [Session 0 5 [7]]) /\
  obs_server false 64 9 4 get_head no_junk (msg_bytes get_match) old_mem 5 [] = Ok ([97; 132; 18; 52; 7; 255; 116; 101; 115; 116; 47], []) /\
  core_server false 64 9 get_head core_rows [] (fun _ => []) id_core no_junk (msg_bytes get_core) old_mem = Ok [97; 132; 18; 52; 7; 255].
Proof. repeat split. Qed.

(** The tables of the example (discoverable/main.cpp 18-33, 36-48): v1/api/test1, v1/api/test2,
    .well-known/core. *)
Definition demo : list tree :=
  [Tree [118; 49] 0 [Tree [97; 112; 105] 1 [Tree [116; 101; 115; 116; 49] 2 []; Tree [116; 101; 115; 116; 50] 3 []]];
   Tree [46; 119; 101; 108; 108; 45; 107; 110; 111; 119; 110] 4 [Tree [99; 111; 114; 101] 5 []]].
Definition demo_data : list core_data := [CoreData 2 [114] [105]; CoreData 3 [115] [105]].
Example C56_tables : core_rows = forest_rows demo /\ NoDup (map r_id core_rows) /\ unique_siblings core_rows /\ ids_real core_rows /\ Forall (fun t => height t <= 10)%nat demo /\
  m3_found (rs_match [(3, [1]); (11, [46; 119; 101; 108; 108; 45; 107; 110; 111; 119; 110]); (11, [99; 111; 114; 101]); (15, [99])] (m3_init core_rows)) = id_core /\
  core_text demo_data (fun i => if Z.eqb i 2 then [59; 116] else []) core_rows 100 = (* </v1/api/test1>;rt="r";if="i";t,</v1/api/test2>;rt="s";if="i" *)
    Ok [60; 47; 118; 49; 47; 97; 112; 105; 47; 116; 101; 115; 116; 49; 62; 59; 114; 116; 61; 34; 114; 34; 59; 105; 102; 61; 34; 105; 34; 59; 116; 44;
        60; 47; 118; 49; 47; 97; 112; 105; 47; 116; 101; 115; 116; 50; 62; 59; 114; 116; 61; 34; 115; 34; 59; 105; 102; 61; 34; 105; 34] /\
  core_text demo_data (fun _ => []) core_rows 5 = Ok [60; 47; 118; 49].
Proof.
  split; [reflexivity|]. split; [repeat constructor; cbn; intuition discriminate|]. split; [repeat constructor; cbn; intuition discriminate|].
  split; [repeat constructor; discriminate|]. split; [repeat constructor; cbn; lia|]. vm_compute. repeat split.
Qed.
