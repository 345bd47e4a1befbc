(** C08, C09, C23: option header encoder and bounded output. *)
From Verif Require Import Base UIntModel HeaderModel OptEncModel OptSpec StreambufModel
  OptEncProofs StreambufProofs.
Local Open Scope N_scope.

(** C08: any sequence of options within the range, from any encoder state whose current
    option number is [prev]; *)
Theorem C08_options : forall os st prev pos room out,
  opts_within enc_range prev os ->
  (length (opts_bytes prev os) <= room)%nat ->
  exists b, sb_run (map (fun o => COptArray (fst o) (snd o)) os) (SB (OEnc st prev pos) (Sink room out))
            = Ok (repeat true (length os), b) /\
    s_out (sb_sink b) = out ++ opts_bytes prev os /\
    e_cur (sb_enc b) = last_number prev os.
Proof.
  intros os st prev pos room out Hw Hr.
  destruct (sb_run_opts os st prev pos room out Hw Hr) as (st' & p & E).
  eexists. split; [exact E|]. split; reflexivity.
Qed.
Print Assumptions C08_options.

(** in particular of short ones *)
Theorem C08_short_options : forall os st prev pos room out,
  opts_within enc_short prev os ->
  (length (opts_bytes prev os) <= room)%nat ->
  exists b, sb_run (map (fun o => COptArray (fst o) (snd o)) os) (SB (OEnc st prev pos) (Sink room out))
            = Ok (repeat true (length os), b) /\
    s_out (sb_sink b) = out ++ opts_bytes prev os /\
    e_cur (sb_enc b) = last_number prev os.
Proof.
  intros os st prev pos room out Hw Hr. apply C08_options; [|exact Hr].
  clear Hr. revert prev Hw. induction os as [|[n v] os IH]; intros prev Hw; cbn in *; [exact I|].
  destruct Hw as (A & B & C & D). unfold enc_range. auto.
Qed.
Print Assumptions C08_short_options.

Example C08_case : opts_within enc_short 0 [(11, [97;98]); (11, []); (60, [1]); (2048, [7;8])] /\
  opts_bytes 0 [(11, [97;98]); (11, []); (60, [1]); (2048, [7;8])]
   = [178; 97; 98; 0; 209; 36; 1; 226; 6; 183; 7; 8].
Proof.
  split; [|reflexivity].
  cbn [opts_within]. unfold enc_short, len. cbn [length].
  repeat split; try lia.
Qed.

(** C08/C09: the exact set of (delta, length) pairs for which a header call that
    reports success has written what RFC 7252 demands. *)
Theorem C08_header_exact : forall num l st cur pos room out b,
  cur <= num -> num < 65536 -> l < 65536 ->
  sb_option num l (SB (OEnc st cur pos) (Sink room out)) = Ok (true, b) ->
  (s_out (sb_sink b) = out ++ opt_head (num - cur) l <->
   enc_short (num - cur) l \/ enc_long (num - cur) l).
Proof. exact sb_option_exact. Qed.
Print Assumptions C08_header_exact.

(** the calls the previous theorem is about do succeed when there is room *)
Theorem C08_header_succeeds : forall num l st cur pos room out,
  cur <= num -> num < 65536 -> enc_short (num - cur) l \/ enc_long (num - cur) l ->
  (length (opt_head (num - cur) l) <= room)%nat ->
  exists b, sb_option num l (SB (OEnc st cur pos) (Sink room out)) = Ok (true, b).
Proof.
  intros num l st cur pos room out Hc Hn Hg Hr.
  destruct (sb_option_good num l st cur pos room out Hc Hn Hg Hr) as (p & E). eauto.
Qed.
Print Assumptions C08_header_succeeds.

(** C09: full claim (every length below 65266 is encoded as RFC 7252 demands) is
    false: 13 bytes, first option. *)
Theorem C09_long_values_refuted :
  exists num l room b, num < 65536 /\ l < 65266 /\
    sb_option num l (sb_init room) = Ok (true, b) /\
    s_out (sb_sink b) <> opt_head num l.
Proof.
  exists 11, 13, 300%nat.
  destruct (sb_option 11 13 (sb_init 300)) as [[[|] b]| |] eqn:E;
    try (exfalso; revert E; vm_compute; discriminate).
  exists b. repeat split; try lia.
  intro H. revert H.
  replace b with (match sb_option 11 13 (sb_init 300) with Ok (_, b) => b | _ => b end)
    by (rewrite E; reflexivity).
  vm_compute. discriminate.
Qed.
Print Assumptions C09_long_values_refuted.

(** what holds: for 13..241 bytes only 26 with an unextended delta is right *)
Theorem C09_long_exact : forall num l st cur pos room out b,
  cur <= num -> num < 65536 -> 13 <= l -> l <= 241 ->
  sb_option num l (SB (OEnc st cur pos) (Sink room out)) = Ok (true, b) ->
  (s_out (sb_sink b) = out ++ opt_head (num - cur) l <-> (l = 26 /\ num - cur < 13)).
Proof.
  intros num l st cur pos room out b Hc Hn Hl Hl' H.
  rewrite (sb_option_exact num l st cur pos room out b Hc Hn ltac:(lia) H).
  unfold enc_short, enc_long. lia.
Qed.
Print Assumptions C09_long_exact.

(** and for longer values only when the low extension byte happens to be 13 or 14
    (and the high one is not 13), again with an unextended delta *)
Theorem C09_longer_exact : forall num l st cur pos room out b,
  cur <= num -> num < 65536 -> 242 <= l -> l < 65536 ->
  sb_option num l (SB (OEnc st cur pos) (Sink room out)) = Ok (true, b) ->
  (s_out (sb_sink b) = out ++ opt_head (num - cur) l <->
   num - cur < 13 /\ 269 <= l /\ l <= 65265 /\ (l - 269) / 256 <> 13 /\
   ((l - 269) mod 256 = 13 \/ (l - 269) mod 256 = 14)).
Proof.
  intros num l st cur pos room out b Hc Hn Hl Hl' H.
  rewrite (sb_option_exact num l st cur pos room out b Hc Hn ltac:(lia) H).
  unfold enc_short, enc_long. split; intro G.
  - destruct G as [G|[G [G'|G']]]; try lia; tauto.
  - right. tauto.
Qed.
Print Assumptions C09_longer_exact.

Example C09_case :
  sb_option 11 26 (sb_init 300) = Ok (true, SB (OEnc OptionLengthDone 11 1) (Sink 298 [189; 13])) /\
  opt_head 11 26 = [189; 13] /\
  match sb_option 11 20 (sb_init 300) with
  | Ok (true, b) => length (s_out (sb_sink b)) = 257%nat
  | _ => False
  end.
Proof. split; [vm_compute; reflexivity|split; [reflexivity|vm_compute; reflexivity]]. Qed.

(** C23: at a smaller capacity the output is the larger one's prefix. *)
Theorem C23_truncation_only : forall cs c1 c2 x1 b1 x2 b2, (c1 <= c2)%nat ->
  sb_run cs (sb_init c1) = Ok (x1, b1) -> sb_run cs (sb_init c2) = Ok (x2, b2) ->
  s_out (sb_sink b1) = firstn c1 (s_out (sb_sink b2)).
Proof. exact sb_run_caps. Qed.
Print Assumptions C23_truncation_only.

(** every call terminates and stays inside the buffer *)
Theorem C23_bounded : forall cs c, (forall n v, In (COptInt n v) cs -> v < 2 ^ 32) ->
  exists x b, sb_run cs (sb_init c) = Ok (x, b) /\
    (length (s_out (sb_sink b)) + s_room (sb_sink b) = c)%nat.
Proof.
  intros cs c Hint.
  assert (Hrun : exists x b, sb_run cs (sb_init c) = Ok (x, b)).
  { generalize (sb_init c). induction cs as [|k cs IH]; intro b; cbn [sb_run]; [eauto|].
    assert (Hk : exists x b', sb_call k b = Ok (x, b')).
    { assert (Harr : forall n v, exists x b', sb_option_array n v b = Ok (x, b')).
      { intros n v. unfold sb_option_array.
        destruct (sb_option_total n (N.of_nat (length v)) b) as (y & c1 & E). rewrite E.
        cbn [bind fst snd]. destruct y; eauto. }
      destruct k as [h|t|n l|n v|n v|n v| |bs]; cbn [sb_call]; eauto.
      - apply sb_option_total.
      - unfold sb_option_str.
        destruct (sb_option_total n (N.of_nat (length v)) b) as (y & c1 & E). rewrite E.
        cbn [bind fst snd]. destruct (sputn v (sb_sink c1)). eauto.
      - unfold sb_option_int. specialize (Hint n v (or_introl eq_refl)).
        unfold layer2_set. rewrite UIntProofs.uint_set_uenc by (unfold UIntProofs.small; lia).
        cbn [bind]. rewrite UIntProofs.uenc_length.
        assert ((UIntProofs.sig v <= 4)%nat) by (apply UIntProofs.sig_le; exact Hint).
        destruct (Nat.ltb_spec 4 (UIntProofs.sig v)); [lia|]. cbn [bind]. apply Harr.
      - destruct (sb_payload b). eauto. }
    destruct Hk as (x & b' & E). rewrite E. cbn [bind fst snd].
    destruct (IH ltac:(intros n v Hin; apply (Hint n v); right; exact Hin) b') as (y & b'' & E').
    rewrite E'. cbn [bind fst snd]. eauto. }
  destruct Hrun as (x & b & E). exists x, b. split; [exact E|].
  destruct (sb_run_append _ _ _ _ E) as (t & A & B). cbn [sb_init sb_sink s_out s_room app] in *.
  rewrite A. lia.
Qed.
Print Assumptions C23_bounded.

(** flags: header-only and (non-empty) string calls report truncation exactly *)
Theorem C23_flag_header : forall num l e out r1 r2 x1 b1 x2 b2, (r1 < r2)%nat ->
  sb_option num l (SB e (Sink r1 out)) = Ok (x1, b1) ->
  sb_option num l (SB e (Sink r2 out)) = Ok (x2, b2) ->
  (x1 = true <-> s_out (sb_sink b1) = s_out (sb_sink b2)).
Proof. exact sb_option_flag. Qed.
Print Assumptions C23_flag_header.

Theorem C23_flag_string : forall num v e out r1 r2 x1 b1 x2 b2, (r1 < r2)%nat -> v <> [] ->
  sb_option_str num v (SB e (Sink r1 out)) = Ok (x1, b1) ->
  sb_option_str num v (SB e (Sink r2 out)) = Ok (x2, b2) ->
  (x1 = true <-> s_out (sb_sink b1) = s_out (sb_sink b2)).
Proof. exact sb_str_flag. Qed.
Print Assumptions C23_flag_string.

(** and so does the payload marker *)
Theorem C23_flag_payload : forall e out r1 r2, (r1 < r2)%nat ->
  let '(x1, b1) := sb_payload (SB e (Sink r1 out)) in let '(x2, b2) := sb_payload (SB e (Sink r2 out)) in
  x2 = true /\ (x1 = true <-> s_out (sb_sink b1) = s_out (sb_sink b2)).
Proof.
  intros e out r1 r2 H. destruct r2 as [|r2]; [lia|]. destruct r1 as [|r1]; unfold sb_payload; cbn.
  - split; [reflexivity|]. split; [discriminate|]. intros X. apply (f_equal (@length N)) in X. rewrite app_length in X. cbn in X. lia.
  - split; reflexivity || (split; reflexivity).
Qed.
Print Assumptions C23_flag_payload.

(** the empty string reports success even when its header did not fit *)
Theorem C23_flag_empty_string_refuted :
  exists num b, sb_option_str num [] (sb_init 0) = Ok (true, b) /\ s_out (sb_sink b) = [] /\
    exists b2, sb_option_str num [] (sb_init 9) = Ok (true, b2) /\ s_out (sb_sink b2) = [176].
Proof.
  exists 11. eexists. split; [vm_compute; reflexivity|]. split; [reflexivity|].
  eexists. split; [vm_compute; reflexivity|]. reflexivity.
Qed.
Print Assumptions C23_flag_empty_string_refuted.

(** the array overload reports whether the head of the option was written, whatever
    became of the value *)
Theorem C23_flag_array : forall num v st cur pos room out x b,
  cur <= num -> num < 65536 -> enc_short (num - cur) (len v) \/ enc_long (num - cur) (len v) ->
  sb_option_array num v (SB (OEnc st cur pos) (Sink room out)) = Ok (x, b) ->
  (x = true <-> (length (opt_head (num - cur) (len v)) <= room)%nat).
Proof.
  intros num v st cur pos room out x b Hc Hn Hg H. unfold sb_option_array in H. fold (len v) in H.
  destruct (sb_option_total num (len v) (SB (OEnc st cur pos) (Sink room out))) as (y & b1 & E). rewrite E in H. cbn [bind fst snd] in H.
  assert (X : x = y) by (destruct y; injection H as <- _; reflexivity). subst y. split.
  - intros ->. set (big := (room + 1 + length (opt_head (num - cur) (len v)))%nat).
    destruct (sb_option_good num (len v) st cur pos big out Hc Hn Hg ltac:(unfold big; lia)) as (p & G).
    pose proof (proj1 (C23_flag_header num (len v) (OEnc st cur pos) out room big true b1 true _ ltac:(unfold big; lia) E G) eq_refl) as Q.
    cbn [sb_sink s_out] in Q. destruct (sb_option_append _ _ _ _ _ E) as (t & A & B & _). cbn [sb_sink s_out s_room] in A, B.
    rewrite A in Q. apply app_inv_head in Q. subst t. lia.
  - intro L. destruct (sb_option_good num (len v) st cur pos room out Hc Hn Hg L) as (p & G). congruence.
Qed.
Print Assumptions C23_flag_array.
Example C23_flag_array_case : enc_short 11 4 /\ opt_head 11 4 = [180] /\
  (exists b, sb_option_array 11 [1; 2; 3; 4] (sb_init 0) = Ok (false, b)) /\ (exists b, sb_option_array 11 [1; 2; 3; 4] (sb_init 1) = Ok (true, b)).
Proof. split; [unfold enc_short; lia|]. split; [reflexivity|]. split; eexists; vm_compute; reflexivity. Qed.

(** the array overload reports success although the value was cut *)
Theorem C23_flag_array_refuted :
  exists num v b, sb_option_array num v (sb_init 3) = Ok (true, b) /\
    s_out (sb_sink b) = [180; 1; 2] /\ v = [1; 2; 3; 4].
Proof. exists 11, [1;2;3;4]. eexists. split; [vm_compute; reflexivity|]. split; reflexivity. Qed.
Print Assumptions C23_flag_array_refuted.

Example C23_case :
  match sb_run [COptStr 11 [97;98]; CPayload; CRaw [1;2;3]] (sb_init 5),
        sb_run [COptStr 11 [97;98]; CPayload; CRaw [1;2;3]] (sb_init 50) with
  | Ok (_, b1), Ok (_, b2) =>
      s_out (sb_sink b1) = [178;97;98;255;1] /\ s_out (sb_sink b2) = [178;97;98;255;1;2;3]
  | _, _ => False
  end.
Proof. vm_compute. split; reflexivity. Qed.
