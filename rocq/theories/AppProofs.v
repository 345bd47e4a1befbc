(** Lemmas for the servers of AppModel. *)
From Coq Require Import ZArith.
From Verif Require Import Base UIntModel HeaderModel HeaderSpec HeaderProofs OptEncModel OptSpec StreambufModel StreambufProofs
  OptEncProps OptDecModel OptDecSpec DecoderModel DecoderSpec DecoderProofs CodecProps ContextModel ReplyProps UriModel SbDecModel AppModel AppSpec.
Local Open Scope N_scope.

(** * The two replies *)

Definition holds (c : ctx) (h : hdr) (tok : list N) : Prop := c_hdr c = h /\ ctx_token c = Ok tok.

Lemma reply_bytes : forall c h tok code cap, hdr_ok h -> holds c h tok -> code < 256 -> (4 + length tok <= cap)%nat ->
  build_reply c code (sb_init cap) = Ok (SB oenc_init (Sink (cap - 4 - length tok) (answer h tok code [] None))).
Proof.
  intros c h tok code cap Hh (Hc & Ht) Hk Hr. unfold build_reply. rewrite Ht, Hc. cbn [bind]. f_equal.
  destruct (reply_hdr h code Hh Hk) as [_ Hw].
  unfold sb_token, sb_header, sb_write, sb_init. cbn [sb_sink sb_enc].
  rewrite sputn_fits by (cbn [hdr_bytes length]; lia). cbn [snd]. change (length (hdr_bytes _)) with 4%nat.
  rewrite sputn_fits by lia. cbn [snd app]. rewrite Hw. unfold answer. cbn [opts_bytes pay_bytes app]. rewrite !app_nil_r. reflexivity.
Qed.

(** whatever the size of the buffer *)
Lemma reply_cut : forall c h tok code cap, hdr_ok h -> holds c h tok -> code < 256 ->
  exists b, build_reply c code (sb_init cap) = Ok b /\ app_reply b = firstn cap (answer h tok code [] None).
Proof.
  intros c h tok code cap Hh (Hc & Ht) Hk. unfold build_reply. rewrite Ht, Hc. cbn [bind]. eexists. split; [reflexivity|].
  destruct (reply_hdr h code Hh Hk) as [_ Hw]. rewrite <- Hw || idtac.
  unfold app_reply, sb_token, sb_header, sb_write, sb_init, sputn. cbn [sb_sink sb_enc snd s_out s_room app].
  unfold answer. cbn [opts_bytes pay_bytes]. rewrite !app_nil_r, <- Hw, firstn_app. f_equal.
  - destruct (Nat.min_spec (length (hdr_bytes (hdr_set_type ACK (hdr_set_code code h)))) cap) as [[A ->]|[A ->]]; [|reflexivity].
    rewrite !firstn_all2 by lia. reflexivity.
  - set (n := length (hdr_bytes (hdr_set_type ACK (hdr_set_code code h)))).
    replace (cap - Nat.min n cap)%nat with (cap - n)%nat by lia.
    destruct (Nat.min_spec (length tok) (cap - n)) as [[A ->]|[A ->]]; [|reflexivity].
    rewrite !firstn_all2 by lia. reflexivity.
Qed.

Lemma version_bytes : forall c h tok text cap, hdr_ok h -> holds c h tok -> (6 + length tok + length text <= cap)%nat ->
  exists b, version_response c text (sb_init cap) = Ok b /\ app_reply b = version_answer h tok text.
Proof.
  intros c h tok text cap Hh Hc Hr. unfold version_response. rewrite (reply_bytes c h tok code_content cap Hh Hc eq_refl) by lia. cbn [bind].
  unfold sb_option_int. change (layer2_set 4 0) with (Ok (@nil N)). cbn [bind]. unfold oenc_init.
  edestruct (sb_array_good 12 [] FirstByte 0 0 (cap - 4 - length tok) (answer h tok code_content [] None)) as (p & E); [lia|lia|left; unfold enc_short, len; cbn; lia| |].
  { change (length (opt_head (12 - 0) (len []) ++ [])) with 1%nat. lia. }
  rewrite E. cbn [bind snd]. change (length (opt_head (12 - 0) (len []) ++ [])) with 1%nat.
  unfold sb_payload, sputc. cbn [sb_sink s_room s_out sb_enc].
  destruct (cap - 4 - length tok - 1)%nat as [|r] eqn:Er; [lia|]. cbn [snd]. unfold sb_write. cbn [sb_sink sb_enc].
  rewrite sputn_fits by lia. eexists. split; [reflexivity|]. unfold app_reply. cbn [sb_sink s_out snd].
  unfold version_answer, answer. cbn [opts_bytes pay_bytes app]. rewrite !app_nil_r, <- !app_assoc. reflexivity.
Qed.

Lemma answer_length : forall h tok code, length (answer h tok code [] None) = (4 + length tok)%nat.
Proof. intros h tok code. unfold answer. cbn [opts_bytes pay_bytes]. rewrite !app_nil_r, app_length. reflexivity. Qed.
Lemma version_length : forall h tok text, length (version_answer h tok text) = (6 + length tok + length text)%nat.
Proof. intros h tok text. unfold version_answer, answer. rewrite !app_length. change (length (wire _)) with 4%nat. change (length (opts_bytes 0 [(12, [])])) with 1%nat. cbn [pay_bytes length]. lia. Qed.

(** the version response as calls of the encoder *)
Lemma version_calls : forall c tok text b, ctx_token c = Ok tok ->
  version_response c text b = bind (sb_run [CHeader (hdr_set_type ACK (hdr_set_code code_content (c_hdr c))); CToken tok; COptInt 12 0; CPayload; CRaw text] b) (fun x => Ok (snd x)).
Proof.
  intros c tok text b Ht. unfold version_response, build_reply. rewrite Ht. cbn [bind sb_run sb_call fst snd].
  destruct (sb_option_int 12 0 _) as [x| |]; reflexivity.
Qed.

(** whatever the size of the buffer *)
Lemma version_cut : forall c h tok text cap, hdr_ok h -> holds c h tok ->
  exists b, version_response c text (sb_init cap) = Ok b /\ app_reply b = firstn cap (version_answer h tok text).
Proof.
  intros c h tok text cap Hh Hc. assert (Ht := proj2 Hc).
  set (big := (6 + length tok + length text + cap)%nat).
  destruct (version_bytes c h tok text big Hh Hc ltac:(unfold big; lia)) as (b & E1 & E2). rewrite (version_calls c tok) in * by exact Ht.
  set (cs := [_; _; _; _; _]) in *.
  destruct (C23_bounded cs cap) as (x1 & b1 & R1 & _).
  { intros n v H. unfold cs in H. cbn in H. repeat destruct H as [H|H]; try discriminate H; try contradiction. injection H as _ <-. reflexivity. }
  destruct (sb_run cs (sb_init big)) as [[x2 b2]| |] eqn:R2; try discriminate E1. cbn [bind snd] in E1. injection E1 as <-.
  exists b1. rewrite R1. split; [reflexivity|]. rewrite <- E2. apply (C23_truncation_only cs cap big x1 b1 x2 b2); [unfold big; lia|exact R1|exact R2].
Qed.

(** * Runs over the events of a message *)

Lemma run_app : forall cap os a b x, app_run cap os (a ++ b) x =
  bind (app_run cap os a x) (fun y => bind (app_run cap os b (fst y)) (fun z => Ok (fst z, snd y ++ snd z))).
Proof.
  intros cap os. induction a as [|e a IH]; intros b x.
  - cbn [app app_run bind fst snd]. destruct (app_run cap os b x) as [[? ?]| |]; reflexivity.
  - cbn [app app_run]. destruct (subject_notify cap os e x) as [[y1 y2]| |]; cbn [bind fst snd]; [|reflexivity..].
    rewrite IH. destruct (app_run cap os a y1) as [[z1 z2]| |]; cbn [bind fst snd]; [|reflexivity..].
    destruct (app_run cap os b z1) as [[w1 w2]| |]; cbn [bind fst snd]; [|reflexivity..]. rewrite app_assoc. reflexivity.
Qed.

Definition is_option (e : event) : Prop := exists n v c, e = EOption n v c.
Definition is_payload (e : event) : Prop := exists v c, e = EPayload v c.

(** the Uri-Path values that option events carry *)
Definition seg_of (e : event) : list (list N) := match e with EOption n v _ => if n =? 11 then [v] else [] | _ => [] end.
Definition uri_segs (es : list event) : list (list N) := flat_map seg_of es.

Definition m3_walk (path : list (list N)) (m : m3) : m3 := snd (m3_path path m).

Lemma m3_walk_cons : forall s p m, m3_walk (s :: p) m = m3_walk p (snd (m3_find s m)).
Proof. intros s p m. unfold m3_walk. cbn [m3_path]. destruct (m3_find s m) as [r m1]. cbn [snd]. destruct (m3_path p m1). reflexivity. Qed.

(** The servers: context observers, matcher, then observers that only reply. *)
Definition replier (o : uobs) : Prop := match o with OAuto404 | OVersion _ _ | OBoiler _ _ | OEcho => True | _ => False end.

Lemma repliers_quiet : forall cap rs e a, Forall replier rs -> e <> EOptDone -> e <> ECompleted -> subject_notify cap rs e a = Ok (a, []).
Proof.
  intros cap rs e a H N1 N2. induction H as [|o rs Ho _ IH]; [reflexivity|]. cbn [subject_notify].
  assert (E : obs_notify cap o e a = Ok (a, [])) by (destruct o; destruct Ho; destruct e; try reflexivity; congruence).
  rewrite E. cbn [bind fst snd]. rewrite IH. reflexivity.
Qed.

Definition server (rs : list uobs) : list uobs := [OHeader; OToken; OUri] ++ rs.

Ltac srv := unfold server; cbn [app subject_notify obs_notify ctx_notify bind fst snd].

Lemma run_options : forall cap rs es, Forall replier rs -> Forall is_option es -> forall a,
  app_run cap (server rs) es a = Ok (App (a_ctx a) (m3_walk (uri_segs es) (a_uri a)) (a_text a), []).
Proof.
  intros cap rs es Hr H. induction H as [|e es (n & v & c & ->) _ IH]; intros a; [destruct a; reflexivity|].
  cbn [app_run]. srv.
  assert (E : obs_notify cap OUri (EOption n v c) a = Ok (App (a_ctx a) (m3_walk (seg_of (EOption n v c)) (a_uri a)) (a_text a), [])).
  { cbn [obs_notify seg_of]. destruct (n =? 11); [|destruct a; reflexivity]. rewrite m3_walk_cons. reflexivity. }
  cbn [obs_notify] in E. rewrite E. cbn [bind fst snd app].
  rewrite (repliers_quiet cap rs) by (assumption || discriminate). cbn [bind fst snd]. fold (server rs). rewrite IH. cbn [bind fst snd a_ctx a_uri a_text].
  f_equal. f_equal. f_equal. unfold uri_segs. cbn [flat_map]. generalize (flat_map seg_of es). intros p. unfold seg_of. destruct (n =? 11); [|reflexivity].
  cbn [app]. rewrite !m3_walk_cons. reflexivity.
Qed.

Lemma run_payloads : forall cap rs es, Forall replier rs -> Forall is_payload es -> forall a, app_run cap (server rs) es a = Ok (a, []).
Proof.
  intros cap rs es Hr H. induction H as [|e es (v & c & ->) _ IH]; intros a; [reflexivity|].
  cbn [app_run]. srv. rewrite (repliers_quiet cap rs) by (assumption || discriminate). cbn [bind fst snd]. fold (server rs). rewrite IH. reflexivity.
Qed.

(** The report of one message, whatever its options and payload pieces: the repliers
    see the header and token, and the matcher after the path, at the end of the
    options and at completion. *)
Lemma run_report : forall cap rs h tok opts pays rows junk text r1 r2, Forall replier rs ->
  hdr_tkl h = N.of_nat (length tok) -> (length tok <= 8)%nat -> length junk = 8%nat ->
  Forall is_option opts -> Forall is_payload pays ->
  exists a, holds (a_ctx a) h tok /\ a_uri a = m3_walk (uri_segs opts) (m3_init rows) /\
  (subject_notify cap rs EOptDone a = Ok (a, r1) -> subject_notify cap rs ECompleted a = Ok (a, r2) ->
   exists a1, app_run cap (server rs) ([EHeader h; EToken tok; EOptStart] ++ opts ++ [EOptDone] ++ pays ++ [ECompleted]) (app_new rows junk text) = Ok (a1, r1 ++ r2)).
Proof.
  intros cap rs h tok opts pays rows junk text r1 r2 Hr Ht H8 Hj Ho Hp.
  set (c := Ctx h (tok ++ skipn (length tok) junk) true).
  set (a0 := App c (m3_init rows) text).
  set (a := App c (m3_walk (uri_segs opts) (m3_init rows)) text).
  exists a. split; [|split; [reflexivity|]].
  { split; [reflexivity|]. unfold ctx_token. cbn [a_ctx a c c_hdr c_buf]. rewrite Ht. replace (N.of_nat (length tok) <=? 8) with true by (symmetry; apply N.leb_le; lia).
    rewrite Nat2N.id, firstn_app, firstn_all, Nat.sub_diag. cbn [firstn]. rewrite app_nil_r. reflexivity. }
  intros E1 E2. exists a.
  assert (HH : app_run cap (server rs) [EHeader h; EToken tok; EOptStart] (app_new rows junk text) = Ok (a0, [])).
  { unfold app_new. cbn [app_run]. srv. cbn [a_ctx ctx_new ctx_set_header c_buf c_present a_uri a_text].
    rewrite (repliers_quiet cap rs) by (assumption || discriminate). cbn [bind fst snd a_ctx a_uri a_text].
    unfold ctx_set_token. cbn [c_buf c_hdr]. replace (length tok <=? 8)%nat with true by (symmetry; apply Nat.leb_le; lia). cbn [bind fst snd].
    rewrite (repliers_quiet cap rs) by (assumption || discriminate). cbn [bind fst snd a_ctx a_uri a_text].
    rewrite (repliers_quiet cap rs) by (assumption || discriminate). reflexivity. }
  rewrite run_app, HH. cbn [bind fst snd]. rewrite run_app, run_options by assumption. cbn [bind fst snd a_ctx a_uri a_text a0].
  fold a. rewrite run_app.
  assert (HD : app_run cap (server rs) [EOptDone] a = Ok (a, r1)).
  { cbn [app_run]. srv. rewrite E1. cbn [bind fst snd]. rewrite ?app_nil_r. reflexivity. }
  assert (HC : app_run cap (server rs) [ECompleted] a = Ok (a, r2)).
  { cbn [app_run]. srv. rewrite E2. cbn [bind fst snd]. rewrite ?app_nil_r. reflexivity. }
  rewrite HD. cbn [bind fst snd]. rewrite run_app, run_payloads by assumption. cbn [bind fst snd]. rewrite HC. reflexivity.
Qed.
