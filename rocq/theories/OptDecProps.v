(** C10-C13: the option decoder. *)
From Verif Require Import Base OptEncModel OptSpec OptDecModel OptDecSpec OptDecProofs.
Local Open Scope N_scope.

(** C10: on every byte stream a freshly constructed option decoder (whatever
    its uninitialised storage holds) does what the RFC parser says. *)
Theorem C10_refines_parser : forall bs d h off,
  d_st d = FirstByte -> hd_num h < 65536 -> bytes_ok bs ->
  match parse (hd_num h) off bs with
  | (vs, EndReserved) => od_drive d h off bs = Fault
  | (vs, EndMarker p) => exists d1 h1, od_drive d h off bs = Ok (vs, d1, h1, p) /\ d_st d1 = OPayload
  | (vs, EndClean) => exists d1 h1, od_drive d h off bs = Ok (vs, d1, h1, off + length bs)%nat /\
                        (d_st d1 = FirstByte \/ d_st d1 = OptionValueDone)
  | (vs, EndInHead) => exists d1 h1, od_drive d h off bs = Ok (vs, d1, h1, off + length bs)%nat /\
                         In (d_st d1) [OptionDelta; OptionDeltaDone; OptionLength; OptionLengthDone]
  | (vs, EndAfterHead num l) =>
      exists d1, od_drive d h off bs = Ok (vs, d1, Holder num l, off + length bs)%nat /\
        In (d_st d1) [OptionDeltaDone; OptionLengthDone; OptionDeltaAndLengthDone]
  | (vs, EndInValue k) => exists d1 h1, od_drive d h off bs = Ok (vs, d1, h1, off + length bs)%nat /\
                            d_st d1 = OptionValue /\ od_vlen d1 = k
  end.
Proof.
  intros bs d h off Hd Hh Hok.
  assert (Hp : d_st d <> OPayload) by congruence.
  assert (H := drive_parse (length bs) bs d h off (le_n _) (or_introl Hd) Hh Hok).
  fold (parse (hd_num h) off bs) in H. unfold refines in H.
  destruct (parse (hd_num h) off bs) as [vs e]. cbn [fst snd] in H. destruct e.
  - destruct H as (d1 & h1 & o1 & Hm & He & ->). exists d1, h1.
    split; [now apply mrun_drive|exact He].
  - destruct H as (d1 & h1 & o1 & Hm & He & ->). exists d1, h1.
    split; [now apply mrun_drive|exact He].
  - destruct H as (pre & c & post & d1 & h1 & o1 & -> & Hne & Hm & Hq & Hf).
    apply mrun_drive; [assumption|].
    change (@Fault oout) with (addv vs Fault).
    exact (mrun_app _ _ _ _ _ Hm (c :: post) Hq _ (Hf post)).
  - destruct H as (d1 & h1 & o1 & Hm & He & ->). exists d1, h1.
    split; [now apply mrun_drive|]. unfold midhead in He.
    destruct (d_st d1); cbn; tauto.
  - destruct H as (d1 & h1 & o1 & Hm & He & -> & ->). exists d1.
    split; [now apply mrun_drive|].
    destruct He as (R1 & R2 & R3 & R4 & R5 & R6 & R7). destruct (R7 0) as (d3 & E & E3 & _).
    unfold od_step in E. destruct (d_st d1) eqn:Ed; cbn; try tauto.
    + destruct (od_put (d_pos d1) 0 d1) as [x| |]; cbn [bind] in E; try discriminate.
      destruct (process_option_size _ _); discriminate.
    + destruct (od_put (d_pos d1) 0 d1) as [x| |]; cbn [bind] in E; try discriminate.
      destruct (process_option_size _ _); discriminate.
    + discriminate.
    + discriminate.
  - destruct H as (d1 & h1 & o1 & Hm & He & Hv & Hk & ->). exists d1, h1.
    split; [now apply mrun_drive|]. auto.
Qed.
Print Assumptions C10_refines_parser.

(** C10: an encoded option list followed by a payload marker. *)
Theorem C10_options_then_marker : forall os d p,
  d_st d = FirstByte -> opts_ok 0 os -> bytes_ok p ->
  exists d1 h1, od_drive d holder_reset 0 (opts_bytes 0 os ++ 255 :: p)
    = Ok (views 0 0 os, d1, h1, length (opts_bytes 0 os) + 1)%nat /\ d_st d1 = OPayload.
Proof.
  intros os d p Hd Ho Hp.
  assert (Hok : bytes_ok (255 :: p)) by (constructor; [unfold byte_ok; lia|assumption]).
  assert (H := C10_refines_parser (opts_bytes 0 os ++ 255 :: p) d holder_reset 0 Hd
    ltac:(cbn; lia) ltac:(apply bytes_ok_app; split; [now apply opts_bytes_ok|assumption])).
  cbn [hd_num holder_reset] in H. rewrite parse_opts in H; [|assumption|assumption|left; discriminate].
  cbn zeta in H. unfold parse at 1 2 in H. cbn [length oparse] in H.
  change (255 =? 255) with true in H. cbn iota in H. cbn [fst snd] in H.
  rewrite app_nil_r in H. exact H.
Qed.
Print Assumptions C10_options_then_marker.

(** C10: an option list that ends the stream, last option with a value (an empty
    last option needs the end-of-message calls, see C14). *)
Theorem C10_options_at_end : forall os d,
  d_st d = FirstByte -> opts_ok 0 os -> ends_in_value os ->
  exists d1 h1, od_drive d holder_reset 0 (opts_bytes 0 os)
    = Ok (views 0 0 os, d1, h1, length (opts_bytes 0 os)) /\ d_st d1 = OptionValueDone.
Proof.
  intros os d Hd Ho He.
  assert (H := C10_refines_parser (opts_bytes 0 os) d holder_reset 0 Hd
    ltac:(cbn; lia) ltac:(now apply opts_bytes_ok)).
  cbn [hd_num holder_reset] in H.
  replace (parse 0 0 (opts_bytes 0 os)) with (views 0 0 os, EndClean) in H.
  2:{ rewrite <- (app_nil_r (opts_bytes 0 os)).
      rewrite parse_opts; [|assumption|constructor|right; assumption].
      cbn. rewrite app_nil_r. reflexivity. }
  destruct H as (d1 & h1 & H & [Hs|Hs]); exists d1, h1; (split; [exact H|]); [|exact Hs].
  exfalso.
  assert (HM := mrun_not_first _ _ _ _ _ (od_drive_run d holder_reset 0 (opts_bytes 0 os) ltac:(congruence))).
  rewrite H in HM. apply HM; [|exact Hs].
  destruct os as [|[n v] os]; [destruct He|]. cbn [opts_bytes]. unfold opt_head. cbn. lia.
Qed.
Print Assumptions C10_options_at_end.

Example C10_case :
  opts_ok 0 [(11, [97; 98]); (11, []); (300, [1]); (5000, repeat 7 20%nat)] /\
  ends_in_value [(11, [97; 98]); (11, []); (300, [1]); (5000, repeat 7 20%nat)] /\
  views 0 0 [(11, [97; 98]); (11, []); (300, [1]); (5000, repeat 7 20%nat)]
   = [(11, 2, 1%nat); (11, 0, 4%nat); (300, 1, 7%nat); (5000, 20, 12%nat)] /\
  forall g, exists d1 h1,
  od_drive (ODec FirstByte g g g g g) holder_reset 0
    (opts_bytes 0 [(11, [97; 98]); (11, []); (300, [1]); (5000, repeat 7 20%nat)])
  = Ok ([(11, 2, 1%nat); (11, 0, 4%nat); (300, 1, 7%nat); (5000, 20, 12%nat)], d1, h1, 32%nat).
Proof.
  split; [|split; [|split]].
  - cbn [opts_ok]. unfold len, bytes_ok, byte_ok. repeat split; try lia; repeat constructor; cbn; lia.
  - cbn. discriminate.
  - reflexivity.
  - intros g. do 2 eexists. vm_compute. reflexivity.
Qed.

(** C10: RFC 7252 allows declared lengths up to 65804; from 65536 on the decoder
    keeps only 16 bits, so it takes 268 bytes for an option that declares 65804. *)
Theorem C10_length_beyond_16bit_refuted :
  exists bs, bytes_ok bs /\ firstn 3 bs = [14; 255; 255] /\ 269 + 65535 = 65804 /\
    exists d1 h1, od_drive (ODec FirstByte 0 0 0 0 0) holder_reset 0 bs = Ok ([(0, 268, 3%nat)], d1, h1, 4%nat).
Proof.
  exists [14; 255; 255; 0]. repeat split.
  - unfold bytes_ok, byte_ok. repeat constructor; lia.
  - do 2 eexists. vm_compute. reflexivity.
Qed.
Print Assumptions C10_length_beyond_16bit_refuted.

(** C11: after any complete options, a header byte with a reserved nibble (other
    than the payload marker) and at least three more bytes: the options before
    are reported, none for the bad header, and some byte [c] among the next ones
    makes the decoder fault whatever follows. *)
Theorem C11_reserved_nibble : forall os d b r,
  d_st d = FirstByte -> opts_ok 0 os -> bytes_ok (b :: r) ->
  b <> 255 -> b / 16 = 15 \/ b mod 16 = 15 -> (3 <= length r)%nat ->
  od_drive d holder_reset 0 (opts_bytes 0 os ++ b :: r) = Fault /\
  exists pre c post d1 h1 o1,
    opts_bytes 0 os ++ b :: r = pre ++ c :: post /\
    od_drive d holder_reset 0 pre = Ok (views 0 0 os, d1, h1, o1) /\
    forall post', od_drive d1 h1 o1 (c :: post') = Fault.
Proof.
  intros os d b r Hd Ho Hok Hb Hn Hl.
  assert (Hok' : bytes_ok (opts_bytes 0 os ++ b :: r))
    by (apply bytes_ok_app; split; [now apply opts_bytes_ok|assumption]).
  assert (H := drive_parse _ _ d holder_reset 0 (le_n _) (or_introl Hd) ltac:(cbn; lia) Hok').
  cbn [hd_num holder_reset] in H. fold (parse 0 0 (opts_bytes 0 os ++ b :: r)) in H.
  rewrite parse_opts in H; [|assumption|assumption|left; discriminate]. cbn zeta in H.
  assert (EP : forall prev o, parse prev o (b :: r) = ([], EndReserved)).
  { intros prev o. unfold parse. cbn [length oparse].
    replace (b =? 255) with false by (symmetry; now apply N.eqb_neq).
    assert (Hlo : b mod 16 < 16) by (apply N.mod_lt; discriminate).
    assert (Hhi : b / 16 < 16) by (inversion Hok; subst; unfold byte_ok in *; lia).
    destruct (take_ext_cases (b / 16) r) as
      [(N1 & ->)|[(N1 & E & _)|[(N1 & a & s & E & ->)|[(N1 & a & E & _)|[(N1 & a & c & s & E & ->)|(N1 & a & s & E & ->)]]]]];
      try (subst r; cbn in Hl; lia); try reflexivity;
    (destruct Hn as [Hn|Hn]; [lia|]);
    match goal with |- context [take_ext (b mod 16) ?x] =>
      destruct (take_ext_cases (b mod 16) x) as
      [(N2 & E2)|[(N2 & Ex & E2)|[(N2 & a' & s' & Ex & E2)|[(N2 & a' & Ex & E2)|[(N2 & a' & c' & s' & Ex & E2)|(N2 & a' & s' & Ex & E2)]]]]]
    end; try lia; try (subst; cbn in Hl; lia); rewrite E2; reflexivity. }
  rewrite !EP in H. cbn [fst snd] in H. rewrite app_nil_r in H.
  unfold refines in H. cbn [fst snd] in H.
  destruct H as (pre & c & post & d1 & h1 & o1 & E & Hne & Hm & Hq & Hf). split.
  - rewrite E. apply mrun_drive; [congruence|].
    change (@Fault oout) with (addv (views 0 0 os) Fault).
    exact (mrun_app _ _ _ _ _ Hm (c :: post) Hq _ (Hf post)).
  - exists pre, c, post, d1, h1, o1. split; [exact E|]. split.
    + apply mrun_drive; [congruence|exact Hm].
    + intros post'. apply mrun_drive; [assumption|apply Hf].
Qed.
Print Assumptions C11_reserved_nibble.

(** C11, step level: in every reachable state, the only way a byte makes the
    decoder fail is the assertion about a reserved nibble (or feeding it after
    the payload marker). *)
Theorem C11_only_reserved : forall d b, od_reach d -> byte_ok b -> od_step b d = Fault ->
  d_st d = OPayload \/
  (d_st d = OptionDelta /\ d_b0 d / 16 = 15) \/
  (d_st d = OptionLength /\ d_b0 d mod 16 = 15).
Proof.
  intros d b Hr Hb H.
  destruct (od_step_inv b d (od_reach_inv d Hr) Hb) as [(d1 & p & E & _)|(_ & E)]; [congruence|].
  unfold raw_delta, raw_length in E. rewrite nib_hi, nib_lo in E. exact E.
Qed.
Print Assumptions C11_only_reserved.

Example C11_case : forall g, od_drive (ODec FirstByte g g g g g) holder_reset 0 [177; 97; 31; 1; 2; 3] = Fault /\
  exists d1 h1, od_drive (ODec FirstByte g g g g g) holder_reset 0 [177; 97; 31] = Ok ([(11, 1, 1%nat)], d1, h1, 3%nat).
Proof. intros g. split; [vm_compute; reflexivity|]. do 2 eexists. vm_compute. reflexivity. Qed.

(** C12: any cut into chunks, from any state in which the decoder may be fed. *)
Theorem C12_chunk_split : forall cs d h off, d_st d <> OPayload ->
  od_drive_chunks d h off cs = od_drive d h off (concat cs).
Proof. intros. now apply od_drive_chunks_eq. Qed.
Print Assumptions C12_chunk_split.

(** ... hence two ways of cutting the same bytes agree. *)
Theorem C12_two_cuts : forall cs cs' d h off, d_st d <> OPayload -> concat cs = concat cs' ->
  od_drive_chunks d h off cs = od_drive_chunks d h off cs'.
Proof. intros cs cs' d h off Hp E. rewrite !C12_chunk_split by assumption. now rewrite E. Qed.
Print Assumptions C12_two_cuts.

Example C12_case : exists d1 h1,
  od_drive_chunks (ODec FirstByte 0 0 0 0 0) holder_reset 0 [[221]; [1]; [0; 5; 5]; [5;5;5;5;5;5;5;5;5;5;5]; [255]; [9]]
  = Ok ([(14, 13, 3%nat)], d1, h1, 17%nat) /\ d_st d1 = OPayload.
Proof. do 2 eexists. split; vm_compute; reflexivity. Qed.

(** C13: every call ends (the fuel of the model is never used up), from any state
    at all, and consumes at most the bytes offered. *)
Theorem C13_chunk_terminates : forall d h bs, d_st d <> OPayload -> bs <> [] ->
  od_chunk d h bs <> NoFuel /\
  forall d1 h1 n, od_chunk d h bs = Ok (d1, h1, n) -> (n <= length bs)%nat.
Proof.
  intros d h bs Hp Hb. assert (H := od_chunk_post d h bs Hp (or_introl Hb)).
  unfold chunk_post in H. destruct (od_chunk d h bs) as [[[d1 h1] n]| |].
  - split; [discriminate|]. intros ? ? ? E. injection E as <- <- <-. lia.
  - split; discriminate.
  - destruct H.
Qed.
Print Assumptions C13_chunk_terminates.

(** C13: the 4 byte scratch buffer.  In every reachable state the position that
    a byte would be stored at is 1 or 2; the storage index is only used in these
    two states. *)
Theorem C13_buffer_index : forall d, od_reach d ->
  d_st d = OptionDelta \/ d_st d = OptionLength -> d_pos d = 1 \/ d_pos d = 2.
Proof.
  intros d Hr H. assert (Hi := od_reach_inv d Hr). unfold od_inv in Hi.
  destruct H as [H|H]; rewrite H in Hi; tauto.
Qed.
Print Assumptions C13_buffer_index.

(** C13: repeated calls on a chunk finish it, find the marker or fault (and a
    fault is the reserved-nibble assertion, by C11_only_reserved). *)
Theorem C13_drive_total : forall d h off bs, d_st d <> OPayload ->
  od_drive d h off bs = Fault \/
  exists vs d1 h1 o1, od_drive d h off bs = Ok (vs, d1, h1, o1) /\
    (off <= o1 <= off + length bs)%nat /\ (d_st d1 = OPayload \/ o1 = off + length bs)%nat.
Proof.
  intros d h off bs Hp. assert (H := od_drive_run d h off bs Hp).
  assert (HN := mrun_nofuel _ _ _ _ _ H). assert (HE := mrun_end _ _ _ _ _ H).
  revert HN HE. clear H.
  destruct (od_drive d h off bs) as [[[[vs d1] h1] o1]| |]; intros HN HE; [right|left; reflexivity|exfalso; apply HN; reflexivity].
  exists vs, d1, h1, o1. split; [reflexivity|]. exact HE.
Qed.
Print Assumptions C13_drive_total.

Example C13_case : od_reach (ODec OptionDelta 238 9 0 0 2) /\
  od_chunk (ODec FirstByte 1 2 3 4 5) holder_reset [238; 9; 9; 1; 2; 7]
  = Ok (ODec ValueStart 238 1 2 4 2, Holder 2582 527, 5%nat).
Proof.
  split; [|reflexivity].
  assert (B : forall x, x < 256 -> byte_ok x) by (intros; assumption).
  eapply or_step with (b := 9) (d := ODec OptionDelta 238 0 0 0 1); [|apply B; lia|reflexivity].
  eapply or_step with (b := 238) (d := ODec FirstByteDone 238 0 0 0 1); [|apply B; lia|reflexivity].
  eapply or_step with (b := 238) (d := ODec FirstByte 0 0 0 0 0); [|apply B; lia|reflexivity].
  apply or_init. reflexivity.
Qed.
