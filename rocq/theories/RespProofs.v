(** Lemmas for C56. *)
From Coq Require Import ZArith.
From Verif Require Import Base HeaderModel HeaderSpec HeaderProofs OptEncModel OptSpec StreambufModel StreambufProofs OptDecModel DecoderModel DecoderSpec DecoderProofs
  ContextModel UriModel UriSpec UriProofs UriProps AppModel NetDecModel NetDecSpec NetDecProofs NetDecProps NetbufModel NetbufProofs NetbufProps ReplyProps ObserveModel RespModel RespSpec.
Local Open Scope N_scope.

Lemma skip_of_loop : forall fuel c last x l y, it_loop fuel c last x = Ok (l, y) -> it_skip fuel c last x = Ok y.
Proof.
  induction fuel as [|k IH]; intros c last x l y H; cbn [it_loop it_skip] in *; [discriminate|].
  destruct (it_valid x); [|congruence]. destruct (it_opaque c x); cbn [bind] in H; try discriminate.
  destruct (it_next c last x) as [x1| |]; cbn [bind] in *; try discriminate.
  destruct (it_loop k c last x1) as [[l1 y1]| |] eqn:E; cbn [bind fst snd] in H; try discriminate.
  apply IH in E. congruence.
Qed.

(** an option as a server that reads only some of them keeps it *)
Definition kept (reads : N -> bool) (o : N * list N) : N * list N := (fst o, if reads (fst o) then snd o else []).

Lemma reads_of_loop : forall reads fuel c x l y, it_loop fuel c true x = Ok (l, y) -> rs_loop reads fuel c x = Ok (map (kept reads) l).
Proof.
  intros reads. induction fuel as [|k IH]; intros c x l y H; cbn [it_loop rs_loop] in *; [discriminate|].
  destruct (it_valid x); [|injection H as <- <-; reflexivity]. destruct (it_opaque c x) as [v| |]; cbn [bind] in H; try discriminate.
  destruct (it_next c true x) as [x1| |]; cbn [bind] in *; try discriminate.
  destruct (it_loop k c true x1) as [[l1 y1]| |] eqn:E; cbn [bind fst snd] in H; try discriminate.
  apply IH in E. injection H as <- <-. cbn [bind]. cbn [map]. unfold kept at 1. cbn [fst snd].
  destruct (reads (it_number x)); cbn [bind]; rewrite E; reflexivity.
Qed.

Lemma kept_uri : forall reads os uri, reads 11 = true -> rs_uri (map (kept reads) os) uri = rs_uri os uri.
Proof.
  intros reads os uri R. revert uri. induction os as [|[n v] os IH]; intro uri; [reflexivity|]. cbn [map kept rs_uri fst snd].
  destruct (N.eqb_spec n 11) as [->|]; [rewrite R|apply IH]. destruct (text_add v uri) as [u| |]; cbn [bind]; [|reflexivity..].
  destruct (text_add [47] u); cbn [bind]; [apply IH|reflexivity..].
Qed.

Lemma kept_match : forall reads os m, reads 11 = true -> rs_match (map (kept reads) os) m = rs_match os m.
Proof.
  intros reads os m R. revert m. induction os as [|[n v] os IH]; intro m; [reflexivity|]. cbn [map kept rs_match fst snd]. rewrite IH.
  destruct (N.eqb_spec n 11) as [->|]; [rewrite R|]; reflexivity.
Qed.

Lemma kept_observe : forall A reads size k (a : A) os uri code regs, reads 11 = true -> reads 6 = true ->
  rs_observe size k a (map (kept reads) os) uri code regs = rs_observe size k a os uri code regs.
Proof.
  intros A reads size k a os uri code regs R1 R2. revert uri code regs. induction os as [|[n v] os IH]; intros uri code regs; [reflexivity|].
  cbn [map kept rs_observe fst snd]. destruct (N.eqb_spec n 11) as [->|].
  - rewrite R1. destruct (text_add v uri) as [u| |]; cbn [bind]; [|reflexivity..]. destruct (text_add [47] u); cbn [bind]; [apply IH|reflexivity..].
  - destruct (N.eqb_spec n 6) as [->|]; [rewrite R2|apply IH]. destruct (evaluate_observe _ _ _ _ _); cbn [bind]; [apply IH|reflexivity..].
Qed.

Lemma begin_ok : forall junk c d h tok x1 x, nd_header c true (ND d 0) = Ok (h, x1) -> nd_token c true x1 = Ok (tok, x) ->
  (length tok <= 8)%nat -> hdr_tkl h = N.of_nat (length tok) ->
  exists k, rs_begin junk c d = Ok (k, x) /\ c_hdr k = h /\ ctx_token k = Ok tok.
Proof.
  intros junk c d h tok x1 x A B L T. unfold rs_begin. rewrite A. cbn [bind fst snd]. rewrite B. cbn [bind fst snd].
  unfold ctx_set_token. destruct (Nat.leb_spec (length tok) 8); [|lia]. cbn [bind]. eexists. split; [reflexivity|]. split; [reflexivity|].
  unfold ctx_token, ctx_set_header. cbn [c_hdr c_buf]. rewrite T. destruct (N.leb_spec (N.of_nat (length tok)) 8); [|lia].
  rewrite Nnat.Nat2N.id, firstn_app, firstn_all, Nat.sub_diag, app_nil_r. reflexivity.
Qed.

(** a well-formed message *)
Lemma message_parts : forall junk m d fuel, msg_ok m -> idle d -> (length (m_opts m) < fuel)%nat ->
  exists k x, rs_begin junk (msg_bytes m) d = Ok (k, x) /\ c_hdr k = m_hdr m /\ ctx_token k = Ok (m_tok m) /\
    (forall reads, rs_options reads fuel (msg_bytes m) x = Ok (map (kept reads) (shown (has (m_pay m)) (m_opts m)))) /\
    exists y, bind (it_new (msg_bytes m) true x) (it_skip fuel (msg_bytes m) true) = Ok y.
Proof.
  intros junk m d fuel Hm Hd Hf. destruct (C55_any_memory m d fuel Hm Hd Hf) as (y & R & _).
  destruct Hm as (_ & Ht & Hl & _). unfold nd_read in R.
  destruct (nd_header (msg_bytes m) true (ND d 0)) as [[h x1]| |] eqn:A; cbn [bind fst snd] in R; try discriminate.
  destruct (nd_token (msg_bytes m) true x1) as [[t x2]| |] eqn:B; cbn [bind fst snd] in R; try discriminate.
  destruct (it_new (msg_bytes m) true x2) as [x3| |] eqn:C; cbn [bind] in R; try discriminate.
  destruct (it_loop fuel (msg_bytes m) true x3) as [[l x4]| |] eqn:D; cbn [bind fst snd] in R; try discriminate.
  assert (h = m_hdr m /\ t = m_tok m /\ l = shown (has (m_pay m)) (m_opts m)) as (-> & -> & ->) by (inversion R; auto).
  destruct (begin_ok junk _ _ _ _ _ _ A B Hl) as (k & K1 & K2 & K3); [rewrite tkl_mod; exact Ht|].
  exists k, x2. split; [exact K1|]. split; [exact K2|]. split; [exact K3|]. split.
  - intro reads. unfold rs_options. rewrite C. cbn [bind]. eapply reads_of_loop. exact D.
  - rewrite C. cbn [bind]. exists x4. eapply skip_of_loop. exact D.
Qed.

(** header and token of the reply *)
Lemma head_sink : forall debug cap jh k code h tok, hdr_ok jh -> hdr_ok h -> code < 256 -> c_hdr k = h -> ctx_token k = Ok tok ->
  hdr_tkl h = N.of_nat (length tok) -> (4 + length tok <= cap)%nat -> answerable h ->
  exists b, rs_head debug cap jh k code = Ok b /\ n_sink b = Sink (cap - (4 + length tok)) (answer_head code h tok) /\
    n_marker b = false /\ n_debug b = debug /\ (debug = true -> n_state b = RTokenDone).
Proof.
  intros debug cap jh k code h tok Hj Hh Hc Ek Et Ht Hr R. unfold rs_head. rewrite Et. cbn [bind]. rewrite Ek. unfold nbe_header_and_token.
  destruct (create_response_spec jh h code Hj Hh Hc R) as (h' & -> & Hok & Hf). cbn [bind].
  destruct (wire_fields_of h' Hok) as [Hw _].
  unfold nbe_header, nbe_init. unfold assert_state at 1. cbn [n_debug n_state rstate_eqb]. rewrite orb_true_r. cbn [bind n_sink s_room].
  destruct (Nat.leb_spec 4 cap); [|lia]. rewrite sputn_all by (cbn [hdr_bytes length]; lia). change (length (hdr_bytes _)) with 4%nat. cbn [snd bind fst].
  unfold nbe_token, assert_state. cbn [n_set_state n_set_sink n_set_enc n_debug n_state n_sink].
  assert (A : negb debug || rstate_eqb (if debug then RHeaderDone else RHeader) RHeaderDone = true) by (destruct debug; reflexivity). rewrite A. cbn [bind].
  rewrite sputn_all by lia. eexists. split; [reflexivity|]. cbn [snd n_sink n_marker n_debug n_state n_set_written n_set_state n_set_sink n_set_enc app]. split.
  - f_equal; [lia|]. rewrite <- Hw, Hf. unfold answer_head, reply_wire. destruct R as [R|R]; rewrite R; reflexivity.
  - split; [reflexivity|]. split; [reflexivity|]. intros ->. reflexivity.
Qed.

Lemma head_fault : forall debug cap jh k code h tok, hdr_ok jh -> hdr_ok h -> c_hdr k = h -> ctx_token k = Ok tok -> ~ answerable h ->
  rs_head debug cap jh k code = Fault.
Proof.
  intros debug cap jh k code h tok Hj Hh Ek Et R. unfold rs_head. rewrite Et. cbn [bind]. rewrite Ek. unfold nbe_header_and_token.
  rewrite create_response_fault; [reflexivity|exact Hj|exact Hh|]. destruct (wire_fields_of h Hh) as [_ (V & T & _)]. unfold fields_of in T. cbn [f_type] in T.
  unfold answerable, CON, NON, ACK, RST in *. lia.
Qed.

Lemma reply_sent : forall cap jh k code h tok uri, hdr_ok jh -> hdr_ok h -> code < 256 -> c_hdr k = h -> ctx_token k = Ok tok ->
  hdr_tkl h = N.of_nat (length tok) -> (4 + length tok <= cap)%nat -> answerable h ->
  rs_reply false cap jh k code uri = Ok (sent cap code h tok uri).
Proof.
  intros cap jh k code h tok uri Hj Hh Hc Ek Et Ht Hr R. unfold rs_reply.
  destruct (head_sink false cap jh k code h tok Hj Hh Hc Ek Et Ht Hr R) as (b & -> & S1 & S2 & S3 & _). cbn [bind].
  destruct (C46_payload_flag uri b _ _ S1 S3) as (x & b' & -> & O & _). rewrite S2 in O. cbn [bind snd app] in *. rewrite O. unfold sent.
  assert (L : length (answer_head code h tok) = (4 + length tok)%nat) by (unfold answer_head, reply_wire; rewrite app_length; reflexivity).
  rewrite firstn_app, L. f_equal. f_equal. symmetry. apply firstn_all2. lia.
Qed.

Lemma uri_text : forall os uri, (length (uri ++ slashed (values_of 11 os)) <= 127)%nat ->
  rs_uri os uri = Ok (uri ++ slashed (values_of 11 os)).
Proof.
  induction os as [|[n v] os IH]; intros uri L; cbn [rs_uri values_of] in *.
  - unfold slashed. cbn. rewrite app_nil_r. reflexivity.
  - destruct (n =? 11); [|apply IH, L]. unfold slashed in *. cbn [map concat] in *. rewrite !app_length in L. cbn [length] in L.
    unfold text_add, text_cap. rewrite app_length. destruct (Nat.leb_spec (length uri + length v) 127); [|lia]. cbn [bind].
    rewrite !app_length. cbn [length]. destruct (Nat.leb_spec (length uri + length v + 1) 127); [|lia]. cbn [bind].
    rewrite IH; rewrite <- !app_assoc; [reflexivity|]. rewrite !app_length. cbn [length]. lia.
Qed.

Lemma uri_long : forall os uri, (127 < length (uri ++ slashed (values_of 11 os)))%nat -> (length uri <= 127)%nat -> rs_uri os uri = Fault.
Proof.
  induction os as [|[n v] os IH]; intros uri L U; cbn [rs_uri values_of] in *.
  - unfold slashed in L. cbn in L. rewrite app_nil_r in L. lia.
  - destruct (n =? 11); [|apply IH; assumption]. unfold slashed in *. cbn [map concat] in *. rewrite !app_length in L. cbn [length] in L.
    unfold text_add, text_cap. rewrite app_length. destruct (Nat.leb_spec (length uri + length v) 127); [|reflexivity]. cbn [bind].
    rewrite !app_length. cbn [length]. destruct (Nat.leb_spec (length uri + length v + 1) 127); [|reflexivity]. cbn [bind].
    apply IH; rewrite !app_length; cbn [length]; lia.
Qed.

Lemma test_iff : forall vs, slashed vs = txt_test <-> vs = [[116; 101; 115; 116]].
Proof.
  intro vs. split; [|intros ->; reflexivity]. unfold slashed, txt_test. destruct vs as [|v [|w vs]]; cbn [map concat]; intro H.
  - discriminate.
  - rewrite app_nil_r in H. change [116; 101; 115; 116; 47] with ([116; 101; 115; 116] ++ [47]) in H. apply app_inj_tail in H. destruct H as [-> _]. reflexivity.
  - exfalso. apply (f_equal (fun l => count_occ N.eq_dec l 47)) in H. rewrite !count_occ_app in H. cbn in H. lia.
Qed.

(** ** Which Uri-Path values are visited *)
Lemma values_gt : forall k pay os prev, opts_ok prev os -> k < prev -> values_of k (shown pay os) = [].
Proof.
  intros k pay os. induction os as [|[n v]|[n1 v1] [n v]|[n1 v1] [n2 v2] [n3 v3] r IH] using shown_ind; intros prev H L; cbn [opts_ok] in H.
  - reflexivity.
  - cbn [shown]. destruct pay, v; cbn [values_of]; destruct (N.eqb_spec n k); try reflexivity; lia.
  - cbn [shown values_of]. destruct (N.eqb_spec n1 k); [lia|reflexivity].
  - cbn [shown values_of]. destruct H as (A1 & A2 & A3 & A4 & B1 & B2 & B3 & B4 & C1 & C2 & C3 & C4 & D).
    destruct (N.eqb_spec n1 k); [lia|]. destruct (N.eqb_spec n3 k); [lia|]. apply (IH n3 D). lia.
Qed.

Lemma values_from : forall k pay os, opts_ok k os -> values_of k (shown pay os) = [] \/ In [] (values_of k (shown pay os)).
Proof.
  intros k pay os H. destruct os as [|[n1 v1] [|[n2 v2] [|[n3 v3] r]]]; cbn [opts_ok] in H.
  - left; reflexivity.
  - cbn [shown]. destruct pay, v1; cbn [values_of]; destruct (N.eqb_spec n1 k); cbn [In]; auto.
  - cbn [shown values_of]. destruct (N.eqb_spec n1 k); cbn [In]; auto.
  - cbn [shown values_of]. destruct H as (A1 & A2 & A3 & A4 & B1 & B2 & B3 & B4 & C1 & C2 & C3 & C4 & D).
    destruct (N.eqb_spec n1 k); [cbn [In]; auto|]. destruct (N.eqb_spec n3 k); [lia|]. left. apply (values_gt k pay r n3 D). lia.
Qed.

Lemma values_cases : forall k pay os prev, opts_ok prev os ->
  values_of k (shown pay os) = [] \/ (exists v, values_of k (shown pay os) = [v]) \/ In [] (values_of k (shown pay os)).
Proof.
  intros k pay os. induction os as [|[n v]|[n1 v1] [n v]|[n1 v1] [n2 v2] [n3 v3] r IH] using shown_ind; intros prev H; cbn [opts_ok] in H.
  - left; reflexivity.
  - cbn [shown]. destruct pay, v; cbn [values_of]; destruct (N.eqb_spec n k); eauto.
  - cbn [shown values_of]. destruct (N.eqb_spec n1 k); eauto.
  - cbn [shown values_of]. destruct H as (A1 & A2 & A3 & A4 & B1 & B2 & B3 & B4 & C1 & C2 & C3 & C4 & D).
    destruct (N.eqb_spec n1 k); [right; right; left; reflexivity|]. destruct (N.eqb_spec n3 k) as [->|Hk]; [|apply (IH n3 D)].
    destruct (values_from k pay r D) as [->|I]; [eauto|]. right. right. right. exact I.
Qed.

Lemma match_path : forall os m, rs_match os m = snd (m3_path (values_of 11 os) m).
Proof.
  induction os as [|[n v] os IH]; intro m; [reflexivity|]. cbn [rs_match values_of]. rewrite IH. destruct (n =? 11); [|reflexivity].
  cbn [m3_path]. destruct (m3_find v m) as [r m1]. cbn [snd]. destruct (m3_path (values_of 11 os) m1). reflexivity.
Qed.

Lemma scan_keeps : forall rest p v, Forall (fun r => r_seg r <> []) rest -> Forall (fun r => r_seg r <> []) (m_rest (snd (m3_scan rest p v))).
Proof.
  induction rest as [|r rest IH]; intros p v H; cbn [m3_scan]; [constructor|].
  destruct (r_parent r =? p)%Z; [|inversion H; auto]. destruct (str_eqb (r_seg r) v); [exact H|inversion H; auto].
Qed.

Lemma scan_empty : forall rest p, Forall (fun r => r_seg r <> []) rest -> m3_scan rest p [] = (None, M3 [] NONE).
Proof.
  induction rest as [|r rest IH]; intros p H; cbn [m3_scan]; [reflexivity|].
  inversion H; subst. rewrite IH by assumption. destruct (r_parent r =? p)%Z; [|reflexivity]. destruct (r_seg r); [congruence|reflexivity].
Qed.

Lemma path_with_empty : forall path m, Forall (fun r => r_seg r <> []) (m_rest m) -> In [] path -> m3_found (snd (m3_path path m)) = NONE.
Proof.
  induction path as [|v path IH]; intros m H I; [destruct I|].
  assert (S0 : m3_path (v :: path) m = (fst (m3_find v m) :: fst (m3_path path (snd (m3_find v m))), snd (m3_path path (snd (m3_find v m))))).
  { cbn [m3_path]. destruct (m3_find v m) as [r m1]. cbn [fst snd]. destruct (m3_path path m1). reflexivity. }
  rewrite S0. cbn [snd]. destruct I as [->|I].
  - apply C37_after_miss. unfold m3_find. rewrite scan_empty by exact H. reflexivity.
  - apply IH; [apply scan_keeps; exact H|exact I].
Qed.

Lemma str_eqb_eq : forall a b, str_eqb a b = true <-> a = b.
Proof.
  induction a as [|x a IH]; intros [|y b]; cbn [str_eqb]; try (split; [discriminate|discriminate]); [split; reflexivity|].
  rewrite andb_true_iff, N.eqb_eq, IH. split; [intros [-> ->]; reflexivity|intro H; injection H; auto].
Qed.

Lemma scan_root : forall rest p v, m3_found (snd (m3_scan rest p v)) = NONE \/
  exists r, In r rest /\ r_seg r = v /\ r_parent r = p /\ r_id r = m3_found (snd (m3_scan rest p v)).
Proof.
  induction rest as [|r rest IH]; intros p v; cbn [m3_scan]; [left; reflexivity|].
  assert (G : m3_found (snd (m3_scan rest p v)) = NONE \/ exists r0, In r0 (r :: rest) /\ r_seg r0 = v /\ r_parent r0 = p /\ r_id r0 = m3_found (snd (m3_scan rest p v))).
  { destruct (IH p v) as [A|(r0 & A & B)]; [auto|right; exists r0; split; [right; exact A|exact B]]. }
  destruct (Z.eqb_spec (r_parent r) p) as [E|E]; [|exact G]. destruct (str_eqb (r_seg r) v) eqn:V; [|exact G].
  right. exists r. apply str_eqb_eq in V. split; [left; reflexivity|]. auto.
Qed.

(** so only roots are ever found *)
Lemma found_root : forall rows pay os, Forall (fun r => r_seg r <> []) rows -> opts_ok 0 os ->
  let f := m3_found (rs_match (shown pay os) (m3_init rows)) in
  f = NONE \/ exists r, In r rows /\ r_parent r = NONE /\ r_id r = f /\ values_of 11 (shown pay os) = [r_seg r].
Proof.
  intros rows pay os Hr Ho f. unfold f. rewrite match_path. destruct (values_cases 11 pay os 0 Ho) as [E|[(v & E)|I]].
  - rewrite E. left; reflexivity.
  - rewrite E. cbn [m3_path]. unfold m3_find, m3_init. cbn [m_rest m_parent].
    destruct (scan_root rows NONE v) as [A|(r & A & B & C & D)]; destruct (m3_scan rows NONE v) as [o m1]; cbn [snd] in *; [left; exact A|].
    right. exists r. subst v. auto.
  - left. apply path_with_empty; [exact Hr|exact I].
Qed.

(** ** Observe *)
Lemma observe_text : forall A size k (a : A) os uri code regs out, rs_observe size k a os uri code regs = Ok out ->
  fst (fst out) = uri ++ slashed (values_of 11 os).
Proof.
  intros A size k a. induction os as [|[n v] os IH]; intros uri code regs out H; cbn [rs_observe values_of] in *.
  - injection H as <-. unfold slashed. cbn. rewrite app_nil_r. reflexivity.
  - destruct (n =? 11).
    + unfold text_add in H. destruct (_ <=? text_cap)%nat; cbn [bind] in H; [|discriminate]. destruct (_ <=? text_cap)%nat; cbn [bind] in H; [|discriminate].
      rewrite (IH _ _ _ _ H). unfold slashed. cbn [map concat]. rewrite <- !app_assoc. reflexivity.
    + destruct (n =? 6); [|apply (IH _ _ _ _ H)].
      destruct (evaluate_observe size k a _ regs) as [[c1 r1]| |]; cbn [bind fst snd] in H; try discriminate. apply (IH _ _ _ _ H).
Qed.

Lemma last_cons : forall (l : list N) x d, last (x :: l) d = last l x.
Proof. induction l as [|y l IH]; intros x d; [reflexivity|]. change (last (x :: y :: l) d) with (last (y :: l) d). rewrite IH, (IH y x). reflexivity. Qed.

Lemma observe_run : forall A size k (a : A) tok, ctx_token k = Ok tok -> forall os uri code regs,
  (length (uri ++ slashed (values_of 11 os)) <= 127)%nat ->
  (length regs + length (filter registers (values_of 6 os)) <= size)%nat ->
  rs_observe size k a os uri code regs =
    Ok (uri ++ slashed (values_of 11 os), last (map observe_code (values_of 6 os)) code,
        regs ++ map (fun _ => Session 0 a tok) (filter registers (values_of 6 os))).
Proof.
  intros A size k a tok Et. induction os as [|[n v] os IH]; intros uri code regs L R; cbn [rs_observe values_of] in *.
  - unfold slashed. cbn. rewrite !app_nil_r. reflexivity.
  - destruct (N.eqb_spec n 11) as [->|N11].
    + change (11 =? 6) with false in *. cbv iota in *. unfold slashed in *. cbn [map concat] in *. rewrite !app_length in L. cbn [length] in L.
      unfold text_add, text_cap. rewrite app_length. destruct (Nat.leb_spec (length uri + length v) 127); [|lia]. cbn [bind].
      rewrite !app_length. cbn [length]. destruct (Nat.leb_spec (length uri + length v + 1) 127); [|lia]. cbn [bind].
      rewrite IH; [rewrite <- !app_assoc; reflexivity| |exact R]. rewrite !app_length. cbn [length]. lia.
    + destruct (N.eqb_spec n 6) as [->|N6]; [|apply IH; assumption].
      assert (K : forall b, evaluate_observe size k a b regs =
        if b =? 0 then (if (length regs <? size)%nat then Ok (67, regs ++ [Session 0 a tok]) else Fault)
        else if b =? 1 then Ok (67, regs) else Ok (130, regs)).
      { intro b. unfold evaluate_observe, do_register. rewrite Et. cbn [bind]. destruct b as [|[p|p|]]; try reflexivity. cbn [N.eqb]. change (0 =? 0) with true. cbv iota.
        destruct (length regs <? size)%nat; reflexivity. }
      rewrite K. cbn [map filter] in *. rewrite last_cons.
      destruct v as [|[|[p|p|]] v]; cbn [registers observe_code] in *; cbn [length] in R;
        try (change (0 =? 0) with true; cbv iota; destruct (Nat.ltb_spec (length regs) size); [|lia]; cbn [bind fst snd];
             rewrite IH; [rewrite <- app_assoc; reflexivity|exact L|rewrite app_length; cbn [length]; lia]);
        apply IH; assumption.
Qed.

Lemma shown_numbers : forall pay os n v, In (n, v) (shown pay os) -> In n (map fst os).
Proof.
  intros pay os. induction os as [|[m w]|[n1 v1] [m w]|[n1 v1] [n2 v2] [n3 v3] r IH] using shown_ind; intros n v H.
  - exact H.
  - cbn [shown] in H. destruct pay, w; cbn [In] in H; cbn [map fst In]; intuition congruence.
  - cbn [shown In] in H. cbn [map fst In]. intuition congruence.
  - cbn [shown In] in H. cbn [map fst In]. destruct H as [H|[H|H]]; [intuition congruence|intuition congruence|]. right; right; right. eapply IH, H.
Qed.

Lemma values_none : forall k os, (forall v, ~ In (k, v) os) -> values_of k os = [].
Proof.
  induction os as [|[n v] os IH]; intro H; [reflexivity|]. cbn [values_of]. destruct (N.eqb_spec n k) as [->|_]; [destruct (H v); left; reflexivity|].
  apply IH. intros w I. apply (H w). right; exact I.
Qed.

(** ** DEBUG builds *)
Lemma head_debug : forall cap jh k code b, rs_head true cap jh k code = Ok b -> n_debug b = true /\ n_state b <> ROptionsDone.
Proof.
  intros cap jh k code b H. unfold rs_head in H. destruct (ctx_token k) as [t| |]; cbn [bind] in H; try discriminate.
  unfold nbe_header_and_token in H. destruct (create_response jh (c_hdr k) code) as [h| |]; cbn [bind] in H; try discriminate.
  unfold nbe_header, nbe_init, assert_state in H. cbn [n_debug n_state rstate_eqb negb orb bind n_sink s_room] in H.
  destruct (4 <=? cap)%nat; cbn [bind snd] in H; unfold nbe_token, assert_state in H; cbn in H; try discriminate.
  injection H as <-. split; [reflexivity|discriminate].
Qed.

Lemma payload_header_debug : forall b, n_debug b = true -> n_state b <> ROptionsDone -> nbe_payload_header b = Fault.
Proof.
  intros b D H. unfold nbe_payload_header, assert_state, assert_not_state. rewrite D. cbn [negb orb]. destruct (n_state b); cbn; congruence.
Qed.

Lemma reply_debug : forall cap jh k code uri out, rs_reply true cap jh k code uri <> Ok out.
Proof.
  intros cap jh k code uri out. unfold rs_reply. destruct (rs_head true cap jh k code) as [b| |] eqn:E; cbn [bind]; try discriminate.
  destruct (head_debug _ _ _ _ _ E) as [A B]. unfold nbe_payload. rewrite (payload_header_debug b A B). discriminate.
Qed.
