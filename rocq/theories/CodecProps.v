(** C22: what StreambufEncoder writes, the decoder reads back. *)
From Verif Require Import Base UIntModel UIntSpec UIntProps HeaderModel OptEncModel OptSpec StreambufModel StreambufProofs OptEncProps
  OptDecModel OptDecSpec DecoderModel DecoderSpec DecoderProofs DecoderProps.
Local Open Scope N_scope.

(** the calls an application makes for a message *)
Definition msg_calls (m : msg) : list sbcall :=
  [CHeader (m_hdr m); CToken (m_tok m)] ++ map (fun o => COptArray (fst o) (snd o)) (m_opts m) ++
  match m_pay m with None => [] | Some b => [CPayload; CRaw b] end.

Lemma sb_run_app : forall a b s, sb_run (a ++ b) s =
  bind (sb_run a s) (fun x => bind (sb_run b (snd x)) (fun y => Ok (fst x ++ fst y, snd y))).
Proof.
  induction a as [|c a IH]; intros b s.
  - cbn. destruct (sb_run b s) as [[? ?]| |]; reflexivity.
  - cbn [app sb_run]. destruct (sb_call c s) as [[x s1]| |]; cbn [bind fst snd]; [|reflexivity..].
    rewrite IH. destruct (sb_run a s1) as [[xs s2]| |]; cbn [bind fst snd]; [|reflexivity..].
    destruct (sb_run b s2) as [[ys s3]| |]; reflexivity.
Qed.

Lemma sputn_fits : forall bs r out, (length bs <= r)%nat -> sputn bs (Sink r out) = (length bs, Sink (r - length bs) (out ++ bs)).
Proof.
  intros bs r out H. unfold sputn. cbn [s_room s_out]. rewrite Nat.min_l by assumption. rewrite firstn_all. reflexivity.
Qed.

(** C22, first half: the bytes are the RFC 7252 form of the message. *)
Theorem C22_encodes : forall m cap, opts_within enc_range 0 (m_opts m) -> (length (msg_bytes m) <= cap)%nat ->
  exists b, sb_run (msg_calls m) (sb_init cap) = Ok (repeat true (length (msg_calls m)), b) /\
    s_out (sb_sink b) = msg_bytes m.
Proof.
  intros [h tok os p] cap Hw Hc. unfold msg_calls, msg_bytes in *. cbn [m_hdr m_tok m_opts m_pay] in *.
  rewrite !app_length in Hc. change (length (hdr_bytes h)) with 4%nat in Hc.
  cbn [app sb_run sb_call]. unfold sb_header, sb_token, sb_write, sb_init. cbn [sb_enc sb_sink].
  rewrite sputn_fits by (cbn [hdr_bytes length]; lia). cbn [snd bind sb_enc sb_sink]. change (length (hdr_bytes h)) with 4%nat.
  rewrite sputn_fits by lia. cbn [snd bind sb_enc sb_sink]. rewrite sb_run_app.
  unfold oenc_init. cbn [app].
  match goal with |- context [sb_run (map _ os) (SB (OEnc ?st ?cu ?po) (Sink ?r ?o))] =>
    destruct (C08_options os st 0 po r o Hw ltac:(lia)) as (b & E & E1 & E2);
    pose proof (sb_run_append _ _ _ _ E) as (t & T1 & T2) end.
  rewrite E. cbn [bind fst snd].
  cbn [sb_sink s_out s_room] in T1, T2. rewrite E1 in T1. apply app_inv_head in T1. subst t.
  destruct b as [e [r o]]. cbn [sb_sink s_out s_room] in *. subst o.
  destruct p as [pb|].
  - cbn [sb_run sb_call pay_bytes length] in *. unfold sb_payload, sputc, sb_write. cbn [sb_sink s_room s_out sb_enc].
    destruct r as [|r]; [lia|]. cbn [bind fst snd sb_sink sb_enc]. rewrite sputn_fits by lia. cbn [snd bind fst].
    eexists. split.
    + cbn [length]. rewrite app_length, map_length. cbn [length repeat]. rewrite repeat_app. reflexivity.
    + cbn [sb_sink s_out]. rewrite <- !app_assoc. reflexivity.
  - cbn [sb_run bind fst snd]. eexists. split.
    + cbn [length]. rewrite !app_nil_r, map_length. reflexivity.
    + cbn [sb_sink s_out pay_bytes]. rewrite !app_nil_r, <- app_assoc. reflexivity.
Qed.
Print Assumptions C22_encodes.

(** C22: encode, then decode with any decoder object between messages. *)
Theorem C22_round_trip : forall m cap d fuel, msg_ok m -> opts_within enc_range 0 (m_opts m) ->
  m_opts m <> [] \/ m_pay m <> None -> (length (msg_bytes m) <= cap)%nat -> idle d -> (dec_fuel (msg_bytes m) <= fuel)%nat ->
  exists b d1, sb_run (msg_calls m) (sb_init cap) = Ok (repeat true (length (msg_calls m)), b) /\
    dec_run fuel (s_out (sb_sink b)) d 0 = Ok (msg_events m, d1, length (s_out (sb_sink b))).
Proof.
  intros m cap d fuel Hm Hw Hne Hc Hd Hf. destruct (C22_encodes m cap Hw Hc) as (b & E1 & E2).
  destruct (C14_whole_message m d fuel Hm Hne Hd Hf) as (d1 & E3 & _).
  exists b, d1. split; [exact E1|]. rewrite E2. exact E3.
Qed.
Print Assumptions C22_round_trip.

(** the report determines the message *)
Lemma events_inj : forall m1 m2, msg_events m1 = msg_events m2 -> m1 = m2.
Proof.
  intros [ha ta oa pa] [hb tb ob pb] E. unfold msg_events in E. cbn [m_hdr m_tok m_opts m_pay app] in E.
  injection E as -> -> E.
  assert (X : oa = ob /\ pa = pb); [|destruct X as (-> & ->); reflexivity].
  revert ob E. induction oa as [|[n1 v1] oa IH]; intros ob E.
  - destruct ob as [|[n2 v2] ob]; cbn in E; [|discriminate]. injection E as E. split; [reflexivity|].
    destruct pa, pb; cbn in E; try discriminate; [|reflexivity]. injection E as ->. reflexivity.
  - destruct ob as [|[n2 v2] ob]; cbn in E; [discriminate|]. injection E as -> -> E.
    destruct (IH ob E) as (-> & ->). auto.
Qed.

(** C22: two messages that encode to the same bytes are equal. *)
Theorem C22_injective : forall m1 m2, msg_ok m1 -> msg_ok m2 ->
  m_opts m1 <> [] \/ m_pay m1 <> None -> m_opts m2 <> [] \/ m_pay m2 <> None ->
  msg_bytes m1 = msg_bytes m2 -> m1 = m2.
Proof.
  intros m1 m2 H1 H2 N1 N2 E. apply events_inj.
  destruct (C14_whole_message m1 sample_dec _ H1 N1 sample_idle (le_n _)) as (d1 & E1 & _).
  destruct (C14_whole_message m2 sample_dec (dec_fuel (msg_bytes m1)) H2 N2 sample_idle) as (d2 & E2 & _); [rewrite E; apply le_n|].
  rewrite E in E1. rewrite E in E2. rewrite E1 in E2.
  assert (X : forall a b (c c' : dec) (n n' : nat), Ok (a, c, n) = Ok (b, c', n') -> a = b :> list event) by (intros; congruence).
  exact (X _ _ _ _ _ _ E2).
Qed.
Print Assumptions C22_injective.

Example C22_case : msg_ok sample_msg /\ opts_within enc_short 0 (m_opts sample_msg) /\
  exists b d1, sb_run (msg_calls sample_msg) (sb_init 64) = Ok ([true;true;true;true;true;true;true;true], b) /\
   dec_run 400 (s_out (sb_sink b)) sample_dec 0 = Ok (msg_events sample_msg, d1, 19%nat).
Proof.
  split; [apply C14_case|]. split; [cbn [opts_within sample_msg m_opts]; unfold enc_short, len; cbn [length]; repeat split; lia|].
  pose (b := match sb_run (msg_calls sample_msg) (sb_init 64) with Ok (_, b) => b | _ => sb_init 64 end).
  exists b, (match dec_run 400 (s_out (sb_sink b)) sample_dec 0 with Ok (_, d1, _) => d1 | _ => sample_dec end).
  split; vm_compute; reflexivity.
Qed.

(** a value of 26 bytes, one of the lengths that come out right *)
Definition long_msg : msg := Msg (Hdr 65 1 18 52) [7] [(11, repeat 97 26); (15, [98])] (Some [1]).
Example C22_long_case : msg_ok long_msg /\ opts_within enc_range 0 (m_opts long_msg) /\ ~ opts_within enc_short 0 (m_opts long_msg) /\
  exists b, sb_run (msg_calls long_msg) (sb_init 64) = Ok (repeat true 6, b) /\ s_out (sb_sink b) = [65;1;18;52;7;189;13] ++ repeat 97 26 ++ [65;98;255;1].
Proof.
  split. { unfold msg_ok, long_msg, hdr_ok, bytes_ok. cbn [m_hdr m_tok m_opts m_pay hdr_bytes]. repeat split; try (cbn [length]; lia); repeat (apply Forall_cons || apply Forall_nil); vm_compute; (reflexivity || discriminate). }
  split. { unfold long_msg. cbn [m_opts opts_within]. unfold enc_range, enc_short, enc_long, len. cbn [length repeat]. repeat split; lia. }
  split. { unfold long_msg. cbn [m_opts opts_within]. unfold enc_short, len. cbn [length repeat]. intros (_ & _ & (X & _) & _). lia. }
  eexists. split; vm_compute; reflexivity.
Qed.

(** C22: the integer overload writes the shortest big-endian form [v] of the number as the value. *)
Theorem C22_integer_option : forall num v st cur pos room out, bytes_ok v -> minimal v -> (length v <= 4)%nat ->
  cur <= num -> num < 65536 -> enc_short (num - cur) (len v) -> (length (opt_head (num - cur) (len v) ++ v) <= room)%nat ->
  exists b, sb_option_int num (be v) (SB (OEnc st cur pos) (Sink room out)) = Ok (true, b) /\
    s_out (sb_sink b) = out ++ opt_head (num - cur) (len v) ++ v /\ e_cur (sb_enc b) = num.
Proof.
  intros num v st cur pos room out Hv Hm Hl Hc Hn He Hr. unfold sb_option_int, layer2_set.
  rewrite C02_uint_unique by (auto; lia). cbn [bind]. destruct (Nat.ltb_spec 4 (length v)); [lia|]. cbn [bind].
  destruct (sb_array_good num v st cur pos room out Hc Hn (or_introl He) Hr) as (p & E). rewrite E.
  eexists. split; [reflexivity|]. split; reflexivity.
Qed.
Print Assumptions C22_integer_option.

Example C22_integer_case : exists b, sb_option_int 12 65536 (sb_init 9) = Ok (true, b) /\ s_out (sb_sink b) = [0xC3; 1; 0; 0] /\
  be [1; 0; 0] = 65536 /\ minimal [1; 0; 0].
Proof. eexists. split; [vm_compute; reflexivity|]. split; [reflexivity|]. split; [reflexivity|]. unfold minimal. cbn. lia. Qed.
