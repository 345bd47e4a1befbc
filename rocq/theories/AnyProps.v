(** C83: the boilerplate server on any datagram at all. *)
From Coq Require Import ZArith.
From Verif Require Import Base UIntModel HeaderModel HeaderSpec HeaderProofs OptEncModel OptSpec StreambufModel OptDecModel OptDecSpec OptDecProofs
  DecoderModel DecoderSpec DecoderProofs DecoderProps ChunkSpec ChunkProofs ChunkProps ContextModel ReplyProps UriModel UriSpec UriProofs UriProps
  SbDecModel SbDecSpec SbDecProofs SbDecProps AppModel AppSpec AppProofs AppProps CanonSpec CanonProps HeadCutSpec HeadCutProofs AnySpec AnyProofs.
Local Open Scope N_scope.

(** the server runs into an assertion or undefined behaviour *)
Definition server_stops (sg neg eat : bool) (cap : nat) (os : list uobs) (rows : list row) (L : list (list N)) : Prop :=
  forall d junk text, idle d -> length junk = 8%nat ->
  exists F, forall fuel, (F <= fuel)%nat -> serve fuel sg neg eat cap os rows junk text d L = Fault.

(** the decoder reports header, token, path, whatever its memory held before *)
Definition heard (sg neg eat : bool) (L : list (list N)) (h : hdr) (tok : list N) (path : list (list N)) : Prop :=
  forall d, idle d -> exists opts pays, Forall is_option opts /\ Forall is_payload pays /\ uri_segs opts = path /\
    sb_reports sg neg eat L d ([EHeader h; EToken tok; EOptStart] ++ opts ++ [EOptDone] ++ pays ++ [ECompleted]).

(** from what the decoder reports to what the server sends *)
Lemma told : forall sg neg eat cap rs rows L h tok path r1 r2, heard sg neg eat L h tok path -> Forall replier rs ->
  h0 h mod 16 = N.of_nat (length tok) -> (length tok <= 8)%nat ->
  (forall a, holds (a_ctx a) h tok -> a_uri a = m3_walk path (m3_init rows) ->
     subject_notify cap rs EOptDone a = Ok (a, r1) /\ subject_notify cap rs ECompleted a = Ok (a, r2)) ->
  answers sg neg eat cap (server rs) rows L (r1 ++ r2).
Proof.
  intros sg neg eat cap rs rows L h tok path r1 r2 HR Hrs Hk H8 Hn d junk tx Hd Hj. rewrite <- tkl_mod in Hk.
  destruct (HR d Hd) as (opts & pays & Ho & Hp & Hseg & (F & d1 & s1 & _ & _ & Hrun)).
  destruct (run_report cap rs h tok opts pays rows junk tx r1 r2 Hrs Hk H8 Hj Ho Hp) as (a & A1 & A2 & A3).
  rewrite Hseg in A2. destruct (Hn a A1 A2) as (N1 & N2). destruct (A3 N1 N2) as (a1 & E).
  exists F, a1. intros fuel Hf. unfold serve. rewrite (Hrun fuel Hf). cbn [bind fst]. exact E.
Qed.

Lemma stop_of_fault : forall sg neg eat cap os rows L, (forall d, idle d -> sb_faults sg neg eat L d) -> server_stops sg neg eat cap os rows L.
Proof.
  intros sg neg eat cap os rows L H d junk text Hd _. destruct (H d Hd) as (F & HF). exists F. intros fuel Hf. unfold serve. rewrite HF by exact Hf. reflexivity.
Qed.

Lemma at_drop : forall L n l o, exists c, opt_at L n l o = EOption n (firstn (N.to_nat l) (hd [] (drop o L))) c.
Proof.
  induction L as [|s r IH]; intros n l o; cbn [opt_at drop].
  - eexists. cbn [hd]. rewrite firstn_nil. reflexivity.
  - destruct (o <? length s)%nat; [eexists; reflexivity|]. apply IH.
Qed.

Lemma segs_path : forall L vs, uri_segs (map (opt_view L 0) vs) = path_in L vs.
Proof.
  intros L. induction vs as [|[[n l] o] vs IH]; [reflexivity|]. unfold uri_segs, path_in in *. cbn [map flat_map]. rewrite IH. f_equal.
  cbn [opt_view]. rewrite Nat.sub_0_r. destruct (at_drop L n l o) as (c & ->). reflexivity.
Qed.

Lemma segs_app : forall a b, uri_segs (a ++ b) = uri_segs a ++ uri_segs b.
Proof. intros a b. apply flat_map_app. Qed.

(** ** Reading header and token *)

Lemma read_split : forall bs, padded_with_ff bs = hdr_bytes (read_header bs) ++ read_token bs ++ skipn (4 + length (read_token bs)) (padded_with_ff bs).
Proof.
  intros bs. unfold read_token. set (p := padded_with_ff bs).
  assert (Hp : (19 <= length p)%nat) by (unfold p, padded_with_ff; rewrite app_length, repeat_length; lia).
  unfold read_header. fold p. destruct p as [|a [|b [|c [|e p]]]]; cbn [length] in Hp; try lia.
  cbn [nth hdr_bytes h0 h1 h2 h3 app skipn]. do 4 f_equal. set (k := N.to_nat (a mod 16)).
  assert (Hk : (k < 16)%nat) by (unfold k; assert (a mod 16 < 16) by (apply N.mod_lt; discriminate); lia).
  rewrite firstn_length_le by lia. cbn [Nat.add skipn]. symmetry. apply firstn_skipn.
Qed.

Lemma read_len : forall bs, h0 (read_header bs) mod 16 = N.of_nat (length (read_token bs)).
Proof.
  intros bs. unfold read_token. set (k := h0 (read_header bs) mod 16).
  assert (Hk : k < 16) by (apply N.mod_lt; discriminate).
  rewrite firstn_length_le; [lia|]. unfold padded_with_ff. rewrite skipn_length, app_length, repeat_length. lia.
Qed.

Lemma read_ok : forall bs, bytes_ok bs -> hdr_ok (read_header bs) /\ bytes_ok (read_token bs).
Proof.
  intros bs Hb. assert (Hp : bytes_ok (padded_with_ff bs)).
  { apply bytes_ok_app. split; [exact Hb|]. apply Forall_forall. intros x Hx. apply repeat_spec in Hx. subst x. unfold byte_ok. lia. }
  rewrite read_split in Hp. apply bytes_ok_app in Hp. destruct Hp as (A & B). apply bytes_ok_app in B. destruct B as (B & _).
  split; [exact A|exact B].
Qed.

Lemma read_whole : forall bs, (4 + length (read_token bs) <= length bs)%nat -> bs = hdr_bytes (read_header bs) ++ read_token bs ++ read_rest bs.
Proof.
  intros bs H. assert (S := read_split bs). unfold padded_with_ff in S at 1. unfold read_rest.
  set (h := read_header bs) in *. set (t := read_token bs) in *.
  assert (E : firstn (length bs) (bs ++ repeat 255 19) = bs) by (rewrite firstn_app, firstn_all, Nat.sub_diag; apply app_nil_r).
  rewrite S in E. rewrite app_assoc in *. assert (LL : length (hdr_bytes h ++ t) = (4 + length t)%nat) by (rewrite app_length; reflexivity).
  rewrite firstn_app, firstn_all2 in E by lia. rewrite <- E at 1. f_equal.
  assert (X : skipn (4 + length t) (padded_with_ff bs) = skipn (4 + length t) bs ++ repeat 255 19).
  { unfold padded_with_ff. rewrite skipn_app. replace (4 + length t - length bs)%nat with 0%nat by lia. reflexivity. }
  rewrite X, LL, firstn_app, skipn_length, Nat.sub_diag. cbn [firstn]. rewrite app_nil_r.
  apply firstn_all2. rewrite skipn_length. lia.
Qed.

Lemma read_short : forall bs, (length bs < 4 + length (read_token bs))%nat -> exists k, hdr_bytes (read_header bs) ++ read_token bs = bs ++ repeat 255 k.
Proof.
  intros bs H. assert (S := read_split bs). rewrite app_assoc in S. set (q := hdr_bytes (read_header bs) ++ read_token bs) in *.
  assert (LL : length q = (4 + length (read_token bs))%nat) by (unfold q; rewrite app_length; reflexivity).
  assert (E : q = firstn (length q) (padded_with_ff bs)) by (rewrite S, firstn_app, firstn_all, Nat.sub_diag; cbn [firstn]; now rewrite app_nil_r).
  exists (length q - length bs)%nat. rewrite E at 1. unfold padded_with_ff. rewrite firstn_app, firstn_all2 by lia. f_equal.
  assert (L15 : (length (read_token bs) < 16)%nat) by (assert (K := read_len bs); assert (h0 (read_header bs) mod 16 < 16) by (apply N.mod_lt; discriminate); lia).
  rewrite LL. assert (K : (4 + length (read_token bs) - length bs <= 19)%nat) by lia. revert K. generalize (4 + length (read_token bs) - length bs)%nat.
  clear. intros n Hn. replace 19%nat with (n + (19 - n))%nat by lia. rewrite repeat_app, firstn_app, repeat_length, Nat.sub_diag, firstn_all2 by (rewrite repeat_length; lia).
  apply app_nil_r.
Qed.

(** ** Every datagram *)

Lemma reads_heard : forall sg neg eat L, bytes_ok (concat L) ->
  let bs := concat L in let h := read_header bs in let tok := read_token bs in
  (sg = true -> (4 + length tok <= length bs)%nat /\ ~ In 255 (hdr_bytes h ++ tok) /\ (length tok <= 8)%nat) ->
  exists o, reads neg L o /\
  match o with
  | Stops => forall d, idle d -> sb_faults sg neg eat L d
  | Hears path => heard sg neg eat L h tok path /\ (length tok <= 8)%nat
  end.
Proof.
  intros sg neg eat L Hok bs h tok Hs. unfold reads. cbv zeta. fold bs. fold tok.
  destruct (read_ok bs Hok) as (Hh & Hbt). fold h in Hh. fold tok in Hbt.
  assert (Hk : h0 h mod 16 = N.of_nat (length tok)) by apply read_len.
  destruct (Nat.ltb_spec 8 (length tok)) as [H8|H8].
  { destruct sg; [destruct (Hs eq_refl) as (_ & _ & X); lia|].
    exists Stops. split; [reflexivity|]. intros d Hd.
    apply (C53_long_token_refuted neg eat L d h (tok ++ skipn (4 + length tok) (padded_with_ff bs)) 19 Hd ltac:(lia)).
    symmetry. exact (read_split bs). }
  assert (CS : (read_rest bs = [] /\ heard sg neg eat L h tok []) \/ (read_rest bs <> [] /\ bs = hdr_bytes h ++ tok ++ read_rest bs)).
  { destruct (Nat.le_gt_cases (4 + length tok) (length bs)) as [Hl|Hl].
    - assert (W := read_whole bs Hl). fold h tok in W. destruct (read_rest bs) as [|x y] eqn:E; [left; split; [reflexivity|]|right; split; [discriminate|exact W]].
      intros d Hd. rewrite app_nil_r in W.
      assert (R := C53_bare sg neg eat L d h tok Hh Hbt Hd Hk H8 (fun e => proj1 (proj2 (Hs e))) W).
      exists []. eexists. split; [constructor|]. split; [|split; [reflexivity|exact R]].
      destruct tok; [destruct (ostate_eqb _ _)|]; repeat constructor; do 2 eexists; reflexivity.
    - left. assert (E : read_rest bs = []) by (unfold read_rest; fold tok; apply skipn_all2; lia). split; [exact E|].
      destruct sg; [destruct (Hs eq_refl) as (X & _); lia|].
      destruct (read_short bs Hl) as (k & W). fold h tok in W. intros d Hd. exists [].
      destruct tok as [|t0 t] eqn:Et.
      + rewrite app_nil_r in W. exists (if ostate_eqb (d_st (k_od d)) OPayload then [EPayload [] true] else []).
        split; [constructor|]. split; [destruct (ostate_eqb _ _); repeat constructor; do 2 eexists; reflexivity|]. split; [reflexivity|].
        apply of_SR. apply (padded_bare L neg eat h k d Hd); [rewrite tkl_mod; exact Hk|exact W].
      + exists []. split; [constructor|]. split; [constructor|]. split; [reflexivity|].
        apply (C53_padded_refuted neg eat L d h (t0 :: t) k Hd Hbt Hk); [cbn [length] in *; lia|exact W]. }
  destruct CS as [(E & A)|(Hr & W)].
  { rewrite E. exists (Hears []). split; [reflexivity|]. split; [exact A|exact H8]. }
  assert (HS : sg = true -> ~ In 255 (hdr_bytes h ++ tok)) by (intros e; apply (Hs e)).
  assert (R := fun d Hd => C53_refines_parser sg neg eat L d h tok (read_rest bs) Hok Hd Hk H8 Hr HS W).
  assert (W2 : concat L = (hdr_bytes h ++ tok) ++ read_rest bs) by (rewrite <- app_assoc; exact W).
  assert (LL : length (hdr_bytes h ++ tok) = (4 + length tok)%nat) by (rewrite app_length; reflexivity).
  rewrite <- tkl_mod in Hk. 
  assert (RI := fun vs => stream_inhead L sg eat h tok (hdr_bytes h ++ tok) (read_rest bs) vs Hok Hk H8 (skims_clean _ _ HS) Hr W2).
  rewrite LL in RI.
  destruct (parse 0 (4 + length tok) (read_rest bs)) as [vs e] eqn:EP.
  assert (OA : forall x, Forall is_option (map (opt_view L 0) vs ++ match x with None => [] | Some (n, c) => [EOption n [] c] end)).
  { intros x. apply Forall_app. split; [apply opts_are|]. destruct x as [[n c]|]; repeat constructor. do 3 eexists; reflexivity. }
  destruct e.
  - exists (Hears (path_in L vs)). split; [reflexivity|]. split; [|exact H8].
    intros d Hd. exists (map (opt_view L 0) vs), []. split; [apply opts_are|]. split; [constructor|]. split; [apply segs_path|]. exact (R d Hd).
  - exists (Hears (path_in L vs)). split; [reflexivity|]. split; [|exact H8].
    intros d Hd. exists (map (opt_view L 0) vs), (payload_report eat L at_). split; [apply opts_are|]. split; [apply pays_are|]. split; [apply segs_path|].
    exact (R d Hd).
  - exists Stops. split; [reflexivity|exact R].
  - destruct neg; [exists Stops; split; [reflexivity|exact R]|]. destruct (RI vs eq_refl) as (pre & b & r & C & Q).
    eexists. split; [exists pre, b, r; split; [exact C|reflexivity]|].
    destruct ((b / 16 =? 15) || (b mod 16 =? 15)).
    + intros d Hd. apply of_SF. exact (Q d Hd).
    + split; [|exact H8]. intros d Hd. exists (map (opt_view L 0) vs ++ [EOption (cut_num (last_num vs 0) b r) [] (cut_len (last_vlen vs 0) b =? 0)]), [].
      split; [exact (OA (Some (_, _)))|]. split; [constructor|]. split.
      * rewrite segs_app, segs_path. unfold uri_segs. cbn [flat_map seg_of]. destruct (cut_num (last_num vs 0) b r =? 11); reflexivity.
      * apply of_SR. rewrite <- app_assoc. exact (Q d Hd).
  - destruct neg; [exists Stops; split; [reflexivity|exact R]|]. eexists. split; [reflexivity|]. split; [|exact H8].
    intros d Hd. exists (map (opt_view L 0) vs ++ [EOption num [] (l =? 0)]), [].
    split; [exact (OA (Some (_, _)))|]. split; [constructor|]. split.
    + rewrite segs_app, segs_path. unfold uri_segs. cbn [flat_map seg_of]. destruct (num =? 11); reflexivity.
    + rewrite <- app_assoc. exact (R d Hd).
  - destruct neg; [exists Stops; split; [reflexivity|exact R]|]. eexists. split; [reflexivity|]. split; [|exact H8].
    intros d Hd. exists (map (opt_view L 0) vs), []. split; [apply opts_are|]. split; [constructor|].
    split; [apply segs_path|]. exact (R d Hd).
Qed.

(** C83: what the servers send for any bytes whatever, in any segments, with a buffer of any
    size.  Where [char] is signed the
    header and token must be there and free of 0xFF (C53 says what happens otherwise). *)
Theorem C83_any_size : forall sg neg eat cap ts vid text L, good_table ts -> vid <> NONE -> bytes_ok (concat L) ->
  let bs := concat L in let h := read_header bs in let tok := read_token bs in
  (sg = true -> (4 + length tok <= length bs)%nat /\ ~ In 255 (hdr_bytes h ++ tok) /\ (length tok <= 8)%nat) ->
  let send os rows := answers sg neg eat cap ([OHeader; OToken; OUri] ++ os) rows L in
  exists o, reads neg L o /\
  match o with
  | Stops => forall os rows, server_stops sg neg eat cap os rows L
  | Hears path => (length tok <= 8)%nat /\
      (In (vid, path) (forest_paths ts) -> send [OBoiler vid text] (forest_rows ts) [firstn cap (version_answer h tok text)]) /\
      (~ In (vid, path) (forest_paths ts) -> send [OBoiler vid text] (forest_rows ts) [firstn cap (not_found h tok)]) /\
      ((forall id, ~ In (id, path) (forest_paths ts)) -> send [OAuto404; OVersion vid text] (forest_rows ts) [firstn cap (not_found h tok)]) /\
      (In (vid, path) (forest_paths ts) -> send [OAuto404; OVersion vid text] (forest_rows ts) [firstn cap (version_answer h tok text)]) /\
      (forall id, id <> vid -> In (id, path) (forest_paths ts) -> send [OAuto404; OVersion vid text] (forest_rows ts) []) /\
      answers sg neg eat cap echo_server [] L [firstn cap (answer h tok 67 [] None)]
  end.
Proof.
  intros sg neg eat cap ts vid text L Ht Hv Hok bs h tok Hs send.
  destruct (read_ok bs Hok) as (Hh & _). fold h in Hh.
  assert (Hk : h0 h mod 16 = N.of_nat (length tok)) by apply read_len.
  destruct (reads_heard sg neg eat L Hok Hs) as (o & HR & HO). exists o. split; [exact HR|]. clear HR.
  destruct o as [|path]; [intros os rows; now apply stop_of_fault|]. fold bs h tok in HO. destruct HO as (HO & H8).
  assert (G : forall rs rows r1 r2, Forall replier rs -> (forall a, holds (a_ctx a) h tok -> a_uri a = m3_walk path (m3_init rows) ->
     subject_notify cap rs EOptDone a = Ok (a, r1) /\ subject_notify cap rs ECompleted a = Ok (a, r2)) -> send rs rows (r1 ++ r2)).
  { intros rs rows r1 r2 Hrs. exact (told sg neg eat cap rs rows L h tok path r1 r2 HO Hrs Hk H8). }
  split; [exact H8|]. split; [|split; [|split; [|split; [|split]]]].
  - intros Hin. apply (G [OBoiler vid text] (forest_rows ts) [] [firstn cap (version_answer h tok text)]); [repeat constructor|]. intros a A1 A2. split; [reflexivity|].
    cbn [subject_notify obs_notify]. rewrite A2, (proj2 (Z.eqb_eq _ _) (proj2 (found_iff ts _ vid Ht Hv) Hin)).
    destruct (version_cut (a_ctx a) _ _ text cap Hh A1) as (b & E1 & E2). rewrite E1. cbn [bind fst snd app]. rewrite E2. reflexivity.
  - intros Hin. apply (G [OBoiler vid text] (forest_rows ts) [] [firstn cap (not_found h tok)]); [repeat constructor|]. intros a A1 A2. split; [reflexivity|].
    cbn [subject_notify obs_notify]. rewrite A2.
    destruct (Z.eqb_spec (m3_found (m3_walk path (m3_init (forest_rows ts)))) vid) as [E|E]; [destruct (Hin (proj1 (found_iff ts _ vid Ht Hv) E))|].
    destruct (reply_cut (a_ctx a) _ _ code_not_found cap Hh A1 eq_refl) as (b & E1 & E2). rewrite E1. cbn [bind fst snd app]. rewrite E2. reflexivity.
  - intros Hin. apply (G [OAuto404; OVersion vid text] (forest_rows ts) [firstn cap (not_found h tok)] []); [repeat constructor|]. intros a A1 A2.
    assert (E := proj2 (found_none ts _ Ht) Hin). rewrite <- A2 in E.
    cbn [subject_notify obs_notify bind fst snd]. rewrite E. rewrite Z.eqb_refl. destruct (Z.eqb_spec NONE vid) as [E0|_]; [congruence|].
    unfold make_encoder_reply. destruct (reply_cut (a_ctx a) _ _ code_not_found cap Hh A1 eq_refl) as (b & E1 & E2). rewrite E1. cbn [bind fst snd app]. rewrite E2. split; reflexivity.
  - intros Hin. apply (G [OAuto404; OVersion vid text] (forest_rows ts) [] [firstn cap (version_answer h tok text)]); [repeat constructor|]. intros a A1 A2.
    assert (E := proj2 (found_iff ts _ vid Ht Hv) Hin). rewrite <- A2 in E.
    cbn [subject_notify obs_notify bind fst snd]. rewrite E. rewrite Z.eqb_refl. destruct (Z.eqb_spec vid NONE) as [E0|_]; [congruence|].
    destruct (version_cut (a_ctx a) _ _ text cap Hh A1) as (b & E1 & E2). rewrite E1. cbn [bind fst snd app]. rewrite E2. split; reflexivity.
  - intros id Hne Hin. apply (G [OAuto404; OVersion vid text] (forest_rows ts) [] []); [repeat constructor|]. intros a A1 A2.
    assert (Hid : id <> NONE).
    { intros ->. apply (in_map fst) in Hin. cbn [fst] in Hin. unfold forest_paths in Hin. rewrite forest_paths_ids, <- (forest_rows_ids ts NONE) in Hin.
      apply in_map_iff in Hin. destruct Hin as (x & X1 & X2). destruct Ht as (_ & _ & Ht). unfold ids_real in Ht. rewrite Forall_forall in Ht.
      exact (Ht x X2 X1). }
    assert (E := proj2 (found_iff ts _ id Ht Hid) Hin). rewrite <- A2 in E. cbn [subject_notify obs_notify bind fst snd]. rewrite E.
    destruct (Z.eqb_spec id NONE); [congruence|]. destruct (Z.eqb_spec id vid); [congruence|]. split; reflexivity.
  - apply echo_without_uri. apply (G [OEcho] [] [] [firstn cap (answer h tok 67 [] None)]); [repeat constructor|]. intros a A1 A2. split; [reflexivity|].
    cbn [subject_notify obs_notify]. unfold make_encoder_reply.
    destruct (reply_cut (a_ctx a) _ _ code_valid cap Hh A1 eq_refl) as (b & E1 & E2). rewrite E1. cbn [bind fst snd app]. rewrite E2. reflexivity.
Qed.
Print Assumptions C83_any_size.

(** C83: with a buffer that holds the longest answer. *)
Theorem C83_any : forall sg neg eat cap ts vid text L, good_table ts -> vid <> NONE -> bytes_ok (concat L) -> (14 + length text <= cap)%nat ->
  let bs := concat L in let h := read_header bs in let tok := read_token bs in
  (sg = true -> (4 + length tok <= length bs)%nat /\ ~ In 255 (hdr_bytes h ++ tok) /\ (length tok <= 8)%nat) ->
  let send os rows := answers sg neg eat cap ([OHeader; OToken; OUri] ++ os) rows L in
  exists o, reads neg L o /\
  match o with
  | Stops => forall os rows, server_stops sg neg eat cap os rows L
  | Hears path =>
      (In (vid, path) (forest_paths ts) -> send [OBoiler vid text] (forest_rows ts) [version_answer h tok text]) /\
      (~ In (vid, path) (forest_paths ts) -> send [OBoiler vid text] (forest_rows ts) [not_found h tok]) /\
      ((forall id, ~ In (id, path) (forest_paths ts)) -> send [OAuto404; OVersion vid text] (forest_rows ts) [not_found h tok]) /\
      (In (vid, path) (forest_paths ts) -> send [OAuto404; OVersion vid text] (forest_rows ts) [version_answer h tok text]) /\
      (forall id, id <> vid -> In (id, path) (forest_paths ts) -> send [OAuto404; OVersion vid text] (forest_rows ts) []) /\
      answers sg neg eat cap echo_server [] L [answer h tok 67 [] None]
  end.
Proof.
  intros sg neg eat cap ts vid text L Ht Hv Hok Hc bs h tok Hs send.
  destruct (C83_any_size sg neg eat cap ts vid text L Ht Hv Hok Hs) as (o & HR & H). exists o. split; [exact HR|].
  destruct o as [|path]; [exact H|]. fold bs h tok in H. destruct H as (H8 & H).
  rewrite !(firstn_all2 (version_answer h tok text)) in H by (rewrite version_length; lia).
  rewrite !(firstn_all2 (not_found h tok)) in H by (unfold not_found; rewrite answer_length; lia).
  rewrite (firstn_all2 (answer h tok 67 [] None)) in H by (rewrite answer_length; lia). exact H.
Qed.
Print Assumptions C83_any.

Lemma last_nat_cons : forall (l : list nat) a d, last (a :: l) d = last l a.
Proof. induction l as [|x l IH]; intros a d; [reflexivity|]. transitivity (last (x :: l) d); [reflexivity|]. rewrite !IH. reflexivity. Qed.

(** the marker comes right after the last option *)
Lemma marker_at : forall n prev off bs vs p, oparse n prev off bs = (vs, EndMarker p) ->
  p = (last (map (fun v => snd v + N.to_nat (snd (fst v)))%nat vs) off + 1)%nat.
Proof.
  induction n as [|n IH]; intros prev off bs vs p H; [destruct bs; discriminate|]. destruct bs as [|b r]; [discriminate|]. cbn [oparse] in H.
  destruct (b =? 255); [injection H as <- <-; reflexivity|].
  destruct (take_ext (b / 16) r) as [delta r1| |]; try discriminate. destruct (take_ext (b mod 16) r1) as [l r2| |]; try discriminate.
  destruct r2 as [|c s]; [discriminate|]. destruct (_ <? _)%nat; [discriminate|].
  destruct (oparse n _ _ _) as [vs1 e] eqn:E. injection H as <- ->. apply IH in E. rewrite E. cbn [map fst snd]. rewrite last_nat_cons. reflexivity.
Qed.

Lemma cut_once : forall prev off bs vs p1 b1 r1 p2 b2 r2, cut_after prev off bs p1 b1 r1 vs -> cut_after prev off bs p2 b2 r2 vs -> p1 = p2 /\ b1 = b2 /\ r1 = r2.
Proof.
  intros prev off bs vs p1 b1 r1 p2 b2 r2 (A & _ & _ & B) (C & _ & _ & D). apply marker_at in B, D.
  assert (EL : length p1 = length p2) by lia. clear B D. rewrite A in C. clear A. revert p2 C EL.
  induction p1 as [|x p1 IH]; intros [|y p2] C EL; try discriminate; cbn [app] in C.
  - injection C as -> ->. auto.
  - injection C as -> C. injection EL as EL. destruct (IH p2 C EL) as (-> & -> & ->). auto.
Qed.

(** C83: there is only one way to read a datagram. *)
Theorem C83_one_reading : forall neg L o1 o2, reads neg L o1 -> reads neg L o2 -> o1 = o2.
Proof.
  intros neg L o1 o2. unfold reads. cbv zeta. destruct (_ <? _)%nat; [congruence|]. destruct (parse _ _ _) as [vs e].
  destruct e; try congruence. destruct neg; [congruence|]. intros (p1 & b1 & r1 & C1 & ->) (p2 & b2 & r2 & C2 & ->).
  destruct (cut_once _ _ _ _ _ _ _ _ _ _ C1 C2) as (-> & -> & ->). reflexivity.
Qed.
Print Assumptions C83_one_reading.

(** C83: where [char] is unsigned every datagram whatever either stops the boilerplate server or is
    answered, by one of two datagrams, which carry the id and token that were read. *)
Theorem C83_every_datagram : forall neg eat cap ts vid text L, good_table ts -> vid <> NONE -> bytes_ok (concat L) -> (14 + length text <= cap)%nat ->
  let h := read_header (concat L) in let tok := read_token (concat L) in
  let send := answers false neg eat cap [OHeader; OToken; OUri; OBoiler vid text] (forest_rows ts) L in
  (forall os rows, server_stops false neg eat cap os rows L) \/ send [version_answer h tok text] \/ send [not_found h tok].
Proof.
  intros neg eat cap ts vid text L Ht Hv Hok Hc h tok send.
  destruct (C83_any false neg eat cap ts vid text L Ht Hv Hok Hc ltac:(discriminate)) as ([|path] & _ & H); [left; exact H|right].
  destruct H as (A & B & _). fold h tok in A, B.
  assert (D : In (vid, path) (forest_paths ts) \/ ~ In (vid, path) (forest_paths ts)).
  { destruct (in_dec (fun a b : Z * list (list N) => ltac:(repeat decide equality)) (vid, path) (forest_paths ts)); auto. }
  destruct D as [D|D]; [left; exact (A D)|right; exact (B D)].
Qed.
Print Assumptions C83_every_datagram.

(** ** What is answered that should not be *)

Lemma read_of : forall h tok rest, hdr_ok h -> h0 h mod 16 = N.of_nat (length tok) ->
  let bs := hdr_bytes h ++ tok ++ rest in read_header bs = h /\ read_token bs = tok /\ read_rest bs = rest.
Proof.
  intros [a b c e] tok rest Hh Hk bs. cbn [h0] in Hk.
  assert (E1 : read_header bs = Hdr a b c e) by reflexivity.
  assert (E2 : read_token bs = tok).
  { unfold read_token. rewrite E1. cbn [h0]. rewrite Hk, Nat2N.id. unfold padded_with_ff, bs. rewrite <- !app_assoc. cbn [hdr_bytes h0 h1 h2 h3 app skipn].
    rewrite firstn_app, firstn_all, Nat.sub_diag. apply app_nil_r. }
  split; [exact E1|]. split; [exact E2|]. unfold read_rest. rewrite E2. unfold bs. cbn [hdr_bytes h0 h1 h2 h3 app Nat.add skipn].
  rewrite skipn_app, skipn_all, Nat.sub_diag. reflexivity.
Qed.

Lemma path_in_one : forall dg vs, path_in [dg] vs = uri_segs (map (vev 0 dg) vs).
Proof.
  intros dg. induction vs as [|[[n l] o] vs IH]; [reflexivity|]. unfold path_in, uri_segs in *. cbn [map flat_map]. rewrite IH. f_equal.
  cbn [vev seg_of drop]. rewrite Nat.sub_0_r. destruct (n =? 11); [|reflexivity]. f_equal. destruct (Nat.ltb_spec o (length dg)); [reflexivity|].
  cbn [hd]. rewrite skipn_all2 by lia. reflexivity.
Qed.

(** from the reading to the boilerplate server *)
Lemma hears_boiler : forall sg eat cap ts vid text h tok rest path, good_table ts -> vid <> NONE -> hdr_ok h -> bytes_ok (tok ++ rest) ->
  h0 h mod 16 = N.of_nat (length tok) -> (length tok <= 8)%nat -> (14 + length text <= cap)%nat -> (sg = true -> ~ In 255 (hdr_bytes h ++ tok)) ->
  let dg := hdr_bytes h ++ tok ++ rest in reads false [dg] (Hears path) ->
  let send := answers sg false eat cap [OHeader; OToken; OUri; OBoiler vid text] (forest_rows ts) [dg] in
  (In (vid, path) (forest_paths ts) -> send [version_answer h tok text]) /\ (~ In (vid, path) (forest_paths ts) -> send [not_found h tok]).
Proof.
  intros sg eat cap ts vid text h tok rest path Ht Hv Hh Hb Hk H8 Hc Hs dg HR send.
  assert (Ec : concat [dg] = dg) by apply app_nil_r.
  assert (Hok : bytes_ok (concat [dg])) by (rewrite Ec; apply bytes_ok_app; split; assumption).
  destruct (read_of h tok rest Hh Hk) as (R1 & R2 & R3). fold dg in R1, R2, R3.
  destruct (C83_any sg false eat cap ts vid text [dg] Ht Hv Hok Hc) as (o & HO & H).
  { rewrite Ec, R1, R2. intros e. split; [unfold dg; rewrite !app_length; cbn [length hdr_bytes]; lia|]. split; [exact (Hs e)|exact H8]. }
  rewrite (C83_one_reading _ _ _ _ HO HR) in H. rewrite Ec, R1, R2 in H. destruct H as (A & B & _). split; assumption.
Qed.

(** C83, what is false: that only well formed messages are acted on.  Options written in one of the
    second ways of C82 are answered as if they had been written properly ... *)
Theorem C83_spelled_refuted : forall sg eat cap ts vid text h tok os bs p, good_table ts -> vid <> NONE -> hdr_ok h -> bytes_ok tok ->
  h0 h mod 16 = N.of_nat (length tok) -> (length tok <= 8)%nat -> (14 + length text <= cap)%nat -> (sg = true -> ~ In 255 (hdr_bytes h ++ tok)) ->
  spelled 0 os bs -> match p with None => True | Some b => bytes_ok b end ->
  let send := answers sg false eat cap [OHeader; OToken; OUri; OBoiler vid text] (forest_rows ts) [hdr_bytes h ++ tok ++ bs ++ pay_bytes p] in
  (In (vid, path_of os) (forest_paths ts) -> send [version_answer h tok text]) /\ (~ In (vid, path_of os) (forest_paths ts) -> send [not_found h tok]).
Proof.
  intros sg eat cap ts vid text h tok os bs p Ht Hv Hh Hb Hk H8 Hc Hs HS Hp send.
  apply hears_boiler; try assumption.
  { apply bytes_ok_app. split; [exact Hb|]. apply bytes_ok_app. split; [eapply spelled_ok; exact HS|].
    destruct p; cbn; [constructor; [unfold byte_ok; lia|exact Hp]|constructor]. }
  set (dg := hdr_bytes h ++ tok ++ bs ++ pay_bytes p).
  destruct (read_of h tok (bs ++ pay_bytes p) Hh Hk) as (R1 & R2 & R3). fold dg in R1, R2, R3.
  unfold reads. cbv zeta. replace (concat [dg]) with dg by (symmetry; apply app_nil_r). rewrite R2, R3.
  rewrite (proj2 (Nat.ltb_ge 8 (length tok)) H8).
  destruct (parse_spelled 0 os bs HS (hdr_bytes h ++ tok) p Hp) as (vs & e & EP & E1 & E2 & EV).
  replace (length (hdr_bytes h ++ tok)) with (4 + length tok)%nat in EP by (rewrite app_length; reflexivity). rewrite EP.
  rewrite <- !app_assoc in EV. fold dg in EV. apply (f_equal uri_segs) in EV. rewrite !segs_app, segs_opts in EV.
  assert (ET : uri_segs [EOptDone] ++ uri_segs (pay_events p) ++ uri_segs [ECompleted] = []) by (destruct p; reflexivity).
  rewrite ET, app_nil_r in EV. rewrite <- EV, path_in_one. clear EV ET.
  destruct e; try congruence; cbn [opt_tail]; unfold uri_segs at 2; cbn [flat_map seg_of]; rewrite ?app_nil_r; reflexivity.
Qed.
Print Assumptions C83_spelled_refuted.

(** ... a request that lost its end inside a Uri-Path value is answered as if it asked for what is left
    of it, which may be another resource ... *)
Theorem C83_cut_value_refuted : forall sg eat cap ts vid text h tok os v w, good_table ts -> vid <> NONE ->
  msg_ok (Msg h tok (os ++ [(11, v ++ w)]) None) -> v <> [] -> w <> [] -> (14 + length text <= cap)%nat -> (sg = true -> ~ In 255 (hdr_bytes h ++ tok)) ->
  let dg := hdr_bytes h ++ tok ++ opts_bytes 0 os ++ opt_head (11 - last_number 0 os) (len (v ++ w)) ++ v in
  msg_bytes (Msg h tok (os ++ [(11, v ++ w)]) None) = dg ++ w /\
  let send := answers sg false eat cap [OHeader; OToken; OUri; OBoiler vid text] (forest_rows ts) [dg] in
  (In (vid, path_of os ++ [v]) (forest_paths ts) -> send [version_answer h tok text]) /\
  (~ In (vid, path_of os ++ [v]) (forest_paths ts) -> send [not_found h tok]).
Proof.
  intros sg eat cap ts vid text h tok os v w Ht Hv Hm Hnv Hnw Hc Hs dg.
  destruct Hm as (A & B & C & D & E & _). cbn [m_hdr m_tok m_opts] in *.
  apply opts_ok_app in E. destruct E as (E1 & E2). cbn in E2. destruct E2 as (E2 & E3 & E4 & E5 & _).
  set (prev := last_number 0 os) in *. set (hb := opt_head (11 - prev) (len (v ++ w))) in *.
  assert (Hbv : bytes_ok v) by (apply bytes_ok_app in E5; tauto).
  assert (Hlv : (0 < length v < length (v ++ w))%nat).
  { rewrite app_length. destruct v; [congruence|]. destruct w; [congruence|]. cbn [length]. lia. }
  assert (Hfv : firstn (length v) (v ++ w) = v) by (rewrite firstn_app, firstn_all, Nat.sub_diag; apply app_nil_r).
  assert (Hhb : bytes_ok (hb ++ v)) by (apply bytes_ok_app; split; [apply opt_head_ok; lia|exact Hbv]).
  split.
  { unfold dg, msg_bytes. cbn [m_hdr m_tok m_opts m_pay pay_bytes]. rewrite opts_bytes_app. cbn [opts_bytes]. fold prev hb. rewrite !app_nil_r, <- !app_assoc. reflexivity. }
  apply hears_boiler; try assumption.
  { apply bytes_ok_app. split; [exact D|]. apply bytes_ok_app. split; [now apply opts_bytes_ok|exact Hhb]. }
  destruct (read_of h tok (opts_bytes 0 os ++ hb ++ v) A B) as (R1 & R2 & R3). fold dg in R1, R2, R3.
  unfold reads. cbv zeta. change (hdr_bytes h ++ tok ++ opts_bytes 0 os ++ hb ++ v) with dg.
  replace (concat [dg]) with dg by (symmetry; apply app_nil_r). rewrite R2, R3.
  rewrite (proj2 (Nat.ltb_ge 8 (length tok)) C).
  rewrite parse_opts; [|assumption|exact Hhb|left; unfold hb, opt_head; discriminate]. cbv zeta. fold prev.
  assert (PC := parse_cut prev (4 + length tok + length (opts_bytes 0 os)) 11 (v ++ w) (length v) E2 E3 E4 Hlv). fold hb in PC. rewrite Hfv in PC.
  rewrite PC. cbn [fst snd]. f_equal. unfold path_in. rewrite flat_map_app. f_equal.
  - change (path_of os = path_in [dg] (views 0 (4 + length tok) os)). rewrite path_in_one. unfold dg. rewrite (app_assoc (hdr_bytes h)).
    replace (4 + length tok)%nat with (length (hdr_bytes h ++ tok)) by (rewrite app_length; reflexivity). rewrite views_events, segs_opts. reflexivity.
  - cbn [flat_map drop]. change (11 =? 11) with true. cbn iota. rewrite app_nil_r. f_equal.
    assert (EO : dg = (hdr_bytes h ++ tok ++ opts_bytes 0 os ++ hb) ++ v) by (unfold dg; rewrite <- !app_assoc; reflexivity).
    assert (LO : length (hdr_bytes h ++ tok ++ opts_bytes 0 os ++ hb) = (4 + length tok + length (opts_bytes 0 os) + length hb)%nat)
      by (rewrite !app_length; cbn [length hdr_bytes]; lia).
    rewrite <- LO, (proj2 (Nat.ltb_lt _ (length dg))) by (rewrite EO, (app_length _ v); lia). cbn [hd].
    rewrite EO, skipn_app, skipn_all, Nat.sub_diag. cbn [app skipn]. unfold len. rewrite Nat2N.id. symmetry. apply firstn_all2. lia.
Qed.
Print Assumptions C83_cut_value_refuted.

(** ... and where [char] is unsigned a datagram that ends inside its header or token is answered 4.04,
    with 0xFF for the bytes of id and token that never came. *)
Theorem C83_short_refuted : forall neg eat cap ts vid text L, good_table ts -> vid <> NONE -> bytes_ok (concat L) -> (14 + length text <= cap)%nat ->
  let h := read_header (concat L) in let tok := read_token (concat L) in
  (length (concat L) < 4 + length tok)%nat -> (length tok <= 8)%nat ->
  answers false neg eat cap [OHeader; OToken; OUri; OBoiler vid text] (forest_rows ts) L [not_found h tok].
Proof.
  intros neg eat cap ts vid text L Ht Hv Hok Hc h tok Hl H8.
  destruct (C83_any false neg eat cap ts vid text L Ht Hv Hok Hc ltac:(discriminate)) as (o & HR & H).
  assert (E : o = Hears []).
  { unfold reads in HR. cbv zeta in HR. fold tok in HR. rewrite (proj2 (Nat.ltb_ge 8 (length tok)) H8) in HR.
    unfold read_rest in HR. fold tok in HR. rewrite skipn_all2 in HR by lia. exact HR. }
  rewrite E in H. destruct H as (_ & B & _). apply B. apply no_empty_path.
Qed.
Print Assumptions C83_short_refuted.

(** ** Cases *)

(** GET /v1/api/version for node 4 of the boilerplate table: the deltas to 11, 11 and 11 written
    as 65547, 65536 and 65536; and /v1/api/versionx without its last byte. *)
Definition any_spelled : list N :=
  [65; 1; 18; 52; 7] ++ opt_head 65547 2 ++ [118;49] ++ opt_head 65536 3 ++ [97;112;105] ++ opt_head 65536 7 ++ [118;101;114;115;105;111;110].
Definition any_cut : list N :=
  [65; 1; 18; 52; 7] ++ opts_bytes 0 [(11, [118;49]); (11, [97;112;105])] ++ opt_head 0 8 ++ [118;101;114;115;105;111;110].

Example C83_case :
  good_table bp_table /\
  spelled 0 [(11, [118;49]); (11, [97;112;105]); (11, [118;101;114;115;105;111;110])] (skipn 5 any_spelled) /\
  (forall sg eat, answers sg false eat 64 [OHeader; OToken; OUri; OBoiler 4 [49;46;48]] (forest_rows bp_table) [any_spelled] [[97; 69; 18; 52; 7; 192; 255; 49; 46; 48]]) /\
  (forall sg eat, answers sg false eat 64 [OHeader; OToken; OUri; OBoiler 4 [49;46;48]] (forest_rows bp_table) [any_cut] [[97; 69; 18; 52; 7; 192; 255; 49; 46; 48]]) /\
  (* three bytes: id 0x12FF and token 0xFF 0xFF *)
  (forall neg eat, answers false neg eat 64 [OHeader; OToken; OUri; OBoiler 4 [49;46;48]] (forest_rows bp_table) [[66; 1]; []; [18]] [[98; 132; 18; 255; 255; 255]]) /\
  (* an option header of which only one byte came: the path gets an empty segment *)
  reads false [[64; 1; 0; 1; 177; 97; 13]] (Hears [[97]; []]) /\ reads true [[64; 1; 0; 1; 177; 97; 13]] Stops /\
  reads false [[64; 1; 0; 1; 177; 97; 15]] Stops /\ reads false [[]] Stops /\ reads false [[64; 1; 0; 1; 178; 97]; [98]] (Hears [[97]]).
Proof.
  assert (SP : spelled 0 [(11, [118;49]); (11, [97;112;105]); (11, [118;101;114;115;105;111;110])] (skipn 5 any_spelled)).
  { unfold any_spelled. change (skipn 5 _) with (opt_head 65547 2 ++ [118;49] ++ opt_head 65536 3 ++ [97;112;105] ++ opt_head 65536 7 ++ [118;101;114;115;105;111;110] ++ []).
    repeat (apply sp_opt; [reflexivity|reflexivity|reflexivity|reflexivity|repeat constructor|]). constructor. }
  split; [exact bp_good|]. split; [exact SP|]. split; [|split; [|split; [|repeat split]]].
  - intros sg eat.
    assert (X := C83_spelled_refuted sg eat 64 bp_table 4 [49;46;48] (Hdr 65 1 18 52) [7] [(11, [118;49]); (11, [97;112;105]); (11, [118;101;114;115;105;111;110])] (skipn 5 any_spelled) None bp_good ltac:(discriminate)).
    destruct X as (X & _); [repeat constructor|repeat constructor|reflexivity|cbn; lia|cbn; lia|cbn; intuition discriminate|exact SP|exact I|].
    apply X. vm_compute. tauto.
  - intros sg eat.
    assert (X := C83_cut_value_refuted sg eat 64 bp_table 4 [49;46;48] (Hdr 65 1 18 52) [7] [(11, [118;49]); (11, [97;112;105])] [118;101;114;115;105;111;110] [120] bp_good ltac:(discriminate)).
    destruct X as (_ & X & _); [unfold msg_ok, hdr_ok, bytes_ok, byte_ok; cbn; repeat split; repeat constructor; try lia|discriminate|discriminate|cbn; lia|cbn; intuition discriminate|].
    apply X. vm_compute. tauto.
  - intros neg eat. apply (C83_short_refuted neg eat 64 bp_table 4 [49;46;48] [[66; 1]; []; [18]] bp_good); [discriminate|repeat constructor|cbn; lia|vm_compute; lia|vm_compute; lia].
  - exists [177; 97], 13, []. split; [|vm_compute; reflexivity]. split; [reflexivity|]. split; [discriminate|].
    split; [right; exists 0, []; split; reflexivity|vm_compute; reflexivity].
  - exists [177; 97], 15, []. split; [|vm_compute; reflexivity]. split; [reflexivity|]. split; [discriminate|].
    split; [right; exists 0, []; split; reflexivity|vm_compute; reflexivity].
Qed.
