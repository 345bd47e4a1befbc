(** C84: the example servers built on NetBufDecoder, on any datagram. *)
From Coq Require Import ZArith.
From Verif Require Import Base HeaderModel HeaderSpec HeaderProofs OptEncModel OptSpec StreambufModel StreambufProofs ContextModel UriModel UriSpec AppModel NetbufModel NetbufProofs
  ReplyProps ObserveModel RespModel RespSpec RespProofs OptDecModel OptDecSpec OptDecProofs DecoderModel DecoderSpec DecoderProofs NetDecModel NetDecSpec NetDecProofs
  HeadCutSpec HeadCutProofs AnyProps NetAnySpec NetAnyProofs NetCutProofs.
Local Open Scope N_scope.

Lemma mu_start : forall c x, (n_pos x < length c)%nat -> (mu c (ND (opt_fresh (n_dec x)) (n_pos x)) + 5 < opt_fuel (length c - n_pos x))%nat.
Proof.
  intros c x P. unfold mu, opt_fuel. cbn [n_pos n_dec opt_fresh opt_dec k_od d_st od_goto dr]. apply Nat.ltb_lt in P. rewrite P.
  lia.
Qed.

(** the decoder alone decides: it stops exactly at a reserved nibble *)
Lemma fate_reads : forall c x, bytes_ok c -> nd_state x = OptionsStart -> dec_mem (n_dec x) -> (n_pos x < length c)%nat ->
  let f := ND (opt_fresh (n_dec x)) (n_pos x) in
  (doomed c f -> unreadable (n_pos x) (skipn (n_pos x) c)) /\ (safe c f -> ~ unreadable (n_pos x) (skipn (n_pos x) c)).
Proof.
  intros c x Hok S M P f. assert (L := mu_start c x P). fold f in L. set (F := opt_fuel (length c - n_pos x)) in *.
  assert (Q : forall r, dec_run F c (n_dec f) (n_pos f) = r -> dec_run F c (n_dec x) (n_pos x) = r).
  { intros r <-. apply run_start_fresh; assumption. }
  assert (O := options_run c (n_dec x) (n_pos x) Hok S M P F (le_n _)).
  set (rest := skipn (n_pos x) c) in *.
  assert (C : unreadable (n_pos x) rest -> dec_run F c (n_dec x) (n_pos x) = Fault).
  { intros (vs & [E|(E & pre & b & r & C & N15)]).
    - rewrite E in O. exact O.
    - destruct (run_inhead c (n_pos x) vs Hok P E) as (pre2 & b2 & r2 & C2 & G). fold rest in C2.
      destruct (cut_once _ _ _ _ _ _ _ _ _ _ C C2) as (<- & <- & <-). specialize (G (n_dec x) S M F (le_n _)).
      replace ((b / 16 =? 15) || (b mod 16 =? 15)) with true in G; [exact G|]. symmetry. apply orb_true_iff. rewrite !N.eqb_eq. exact N15. }
  split.
  - intro D. assert (R := Q _ (run_doomed c f F D ltac:(lia))). destruct (parse 0 (n_pos x) rest) as [vs e] eqn:E.
    destruct e; try (destruct O as (d1 & O & _); rewrite O in R; discriminate).
    + exists vs. left. exact E.
    + exists vs. right. split; [exact E|]. destruct (run_inhead c (n_pos x) vs Hok P E) as (pre & b & r & C2 & G). exists pre, b, r. split; [exact C2|].
      specialize (G (n_dec x) S M F (le_n _)). destruct ((b / 16 =? 15) || (b mod 16 =? 15)) eqn:B.
      * apply orb_true_iff in B. rewrite !N.eqb_eq in B. exact B.
      * destruct G as (d1 & G & _). rewrite G in R. discriminate.
  - intros D U. destruct (run_safe c f F D L) as (r & R). apply Q in R. rewrite (C U) in R. discriminate.
Qed.

(** nothing after the token, or something *)
Lemma rest_nil : forall h tok rest, (4 + length tok)%nat = length (hdr_bytes h ++ tok ++ rest) -> rest = [].
Proof. intros h tok rest H. rewrite !app_length in H. change (length (hdr_bytes h)) with 4%nat in H. destruct rest; [reflexivity|cbn [length] in H; lia]. Qed.

Lemma rest_skip : forall h tok rest, skipn (4 + length tok) (hdr_bytes h ++ tok ++ rest) = rest.
Proof. intros h tok rest. rewrite app_assoc. replace (4 + length tok)%nat with (length (hdr_bytes h ++ tok)) by (rewrite app_length; reflexivity). rewrite skipn_app, skipn_all, Nat.sub_diag. reflexivity. Qed.

Lemma nil_readable : forall off, ~ unreadable off [].
Proof. intros off (vs & [E|(E & _)]); discriminate. Qed.

(** C84, ping: where the options are skipped every datagram with header and token whatever after
    it stops the server at a reserved nibble, and only there; anything else is answered. *)
Theorem C84_ping : forall debug cap fuel jh junk h tok rest d, hdr_ok jh -> hdr_ok h -> idle d -> bytes_ok tok -> bytes_ok rest ->
  h0 h mod 16 = len tok -> (length tok <= 8)%nat -> (4 + length tok <= cap)%nat -> answerable h ->
  (dec_fuel (hdr_bytes h ++ tok ++ rest) <= fuel)%nat ->
  (unreadable (4 + length tok) rest /\ ping true debug cap fuel jh junk (hdr_bytes h ++ tok ++ rest) d = Fault) \/
  (~ unreadable (4 + length tok) rest /\ ping true debug cap fuel jh junk (hdr_bytes h ++ tok ++ rest) d = Ok (answer_head 69 h tok)).
Proof.
  intros debug cap fuel jh junk h tok rest d Hj Hh Hd Bt Br Ht H8 Hc R Hf.
  assert (Hok : bytes_ok (hdr_bytes h ++ tok ++ rest)) by (apply bytes_ok_app; split; [now apply hdr_ok_bytes|apply bytes_ok_app; auto]).
  destruct (begin_any junk d h tok rest Hd Hok Ht H8) as (k & x & K1 & K2 & K3 & S & P & M).
  set (c := hdr_bytes h ++ tok ++ rest) in *.
  assert (G : (unreadable (4 + length tok) rest /\ bind (it_new c true x) (it_skip fuel c true) = Fault) \/
    (~ unreadable (4 + length tok) rest /\ exists y, bind (it_new c true x) (it_skip fuel c true) = Ok y)).
  { destruct (new_any c x Hok S M) as (N1 & N2). assert (E := rest_skip h tok rest). fold c in E. rewrite <- P in E |- *.
    destruct (Nat.eq_dec (n_pos x) (length c)) as [Eq|Ne].
    - right. assert (rest = []) as -> by (apply (rest_nil h tok); rewrite <- P; exact Eq). split; [apply nil_readable|]. destruct (N1 Eq) as (y & -> & V). exists y.
      cbn [bind]. destruct fuel as [|q]; [unfold dec_fuel in Hf; lia|]. cbn [it_skip]. rewrite V. reflexivity.
    - assert (Lt : (n_pos x < length c)%nat).
      { rewrite P. unfold c. rewrite !app_length. change (length (hdr_bytes h)) with 4%nat. destruct rest; [|cbn [length]; lia]. exfalso. apply Ne. rewrite P. unfold c. rewrite !app_length. cbn. lia. }
      destruct (N2 Lt) as (A & H). destruct (fate_reads c x Hok S M Lt) as (F1 & F2). cbv zeta in F1, F2. rewrite E in F1, F2.
      assert (L := mu_start c x Lt). unfold opt_fuel in L. unfold dec_fuel in Hf.
      destruct H as [(-> & D)|(y & -> & [(V & G)|(Ay & Ly & D & G)])]; cbn [bind].
      + left. auto.
      + right. split; [auto|]. exists y. destruct fuel as [|q]; [lia|]. cbn [it_skip]. rewrite V. reflexivity.
      + destruct (skip_any c Hok fuel y Ay ltac:(lia)) as [(-> & Dy)|(z & -> & Gy)]; [left|right]; eauto. }
  rewrite <- tkl_mod in Ht. unfold ping. rewrite K1. cbn [bind fst snd].
  destruct G as [(U & ->)|(U & y & ->)]; cbn [bind]; [left; auto|right]. split; [exact U|].
  destruct (head_sink debug cap jh k code_content h tok Hj Hh eq_refl K2 K3 Ht Hc R) as (b & -> & S1 & _). cbn [bind]. rewrite S1. reflexivity.
Qed.
Print Assumptions C84_ping.

(** the options visited, on any bytes *)
Lemma options_any : forall reads fuel h tok rest x, let c := hdr_bytes h ++ tok ++ rest in bytes_ok c -> nd_state x = OptionsStart -> dec_mem (n_dec x) ->
  n_pos x = (4 + length tok)%nat -> (dec_fuel c <= fuel)%nat ->
  rs_options reads fuel c x = Fault \/
  (~ unreadable (4 + length tok) rest /\ exists l, rs_options reads fuel c x = Ok l /\ Forall (fun o => piece c (snd o)) l).
Proof.
  intros reads fuel h tok rest x c Hok S M P Hf. assert (E := rest_skip h tok rest). fold c in E. unfold rs_options.
  destruct (new_any c x Hok S M) as (N1 & N2). rewrite <- P in E |- *. unfold dec_fuel in Hf.
  destruct (Nat.eq_dec (n_pos x) (length c)) as [Eq|Ne].
  - right. assert (rest = []) as -> by (apply (rest_nil h tok); rewrite <- P; exact Eq). split; [apply nil_readable|]. destruct (N1 Eq) as (y & -> & V). exists [].
    cbn [bind]. destruct fuel as [|q]; [lia|]. cbn [rs_loop]. rewrite V. split; [reflexivity|constructor].
  - assert (Lt : (n_pos x < length c)%nat).
    { assert (L := f_equal (@length N) E). rewrite skipn_length in L. assert (length c = 4 + (length tok + length rest))%nat by (unfold c; rewrite !app_length; reflexivity). lia. }
    destruct (N2 Lt) as (A & H). destruct (fate_reads c x Hok S M Lt) as (_ & F2). cbv zeta in F2. rewrite E in F2.
    assert (L := mu_start c x Lt). unfold opt_fuel in L.
    destruct H as [(-> & D)|(y & -> & [(V & G)|(Ay & Ly & D & G)])]; cbn [bind].
    + left. reflexivity.
    + right. split; [auto|]. exists []. destruct fuel as [|q]; [lia|]. cbn [rs_loop]. rewrite V. split; [reflexivity|constructor].
    + destruct (loop_any c reads Hok fuel y Ay ltac:(lia)) as [->|(l & -> & Gy & Pl)]; [left; reflexivity|right]. split; [auto|]. eauto.
Qed.

Lemma values_piece : forall c k l, Forall (fun o => piece c (snd o)) l -> Forall (piece c) (values_of k l).
Proof. induction 1 as [|[n v] l P F IH]; [constructor|]. cbn [values_of snd] in *. destruct (n =? k); [constructor; assumption|exact IH]. Qed.

(** C84, uri: whatever the datagram, the server stops or replies with header and token of the
    request, a path put together from pieces of the datagram and the code for it; at a reserved
    nibble it stops. *)
Theorem C84_uri : forall cap fuel jh junk h tok rest d, hdr_ok jh -> hdr_ok h -> idle d -> bytes_ok tok -> bytes_ok rest ->
  h0 h mod 16 = len tok -> (length tok <= 8)%nat -> (4 + length tok <= cap)%nat -> answerable h ->
  let c := hdr_bytes h ++ tok ++ rest in (dec_fuel c <= fuel)%nat ->
  uri_server false cap fuel jh junk c d = Fault \/
  (~ unreadable (4 + length tok) rest /\ exists vs code, uri_server false cap fuel jh junk c d = Ok (sent cap code h tok (slashed vs)) /\
     Forall (piece c) vs /\ (length (slashed vs) <= 127)%nat /\
     (vs = [[116; 101; 115; 116]] -> code = 67) /\ (vs <> [[116; 101; 115; 116]] -> code = 132)).
Proof.
  intros cap fuel jh junk h tok rest d Hj Hh Hd Bt Br Ht H8 Hc R c Hf.
  assert (Hok : bytes_ok c) by (apply bytes_ok_app; split; [now apply hdr_ok_bytes|apply bytes_ok_app; auto]).
  destruct (begin_any junk d h tok rest Hd Hok Ht H8) as (k & x & K1 & K2 & K3 & S & P & M). fold c in K1.
  rewrite <- tkl_mod in Ht. unfold uri_server. rewrite K1. cbn [bind fst snd].
  destruct (options_any reads_uri fuel h tok rest x Hok S M P Hf) as [E|(U & l & E & Pl)]; fold c in E; rewrite E; cbn [bind]; [left; reflexivity|].
  destruct (le_gt_dec (length ([] ++ slashed (values_of 11 l))) 127) as [L|L].
  - rewrite uri_text by exact L. cbn [bind app] in *. right. split; [exact U|]. exists (values_of 11 l).
    exists (if str_eqb (slashed (values_of 11 l)) txt_test then code_valid else code_not_found). split; [|split; [now apply values_piece|split; [exact L|split]]].
    + apply reply_sent; auto. destruct (str_eqb _ _); reflexivity.
    + intros ->. reflexivity.
    + intro Ne. destruct (str_eqb (slashed (values_of 11 l)) txt_test) eqn:Q; [|reflexivity]. apply str_eqb_eq, test_iff in Q. contradiction.
  - rewrite uri_long by (auto; cbn; lia). left. reflexivity.
Qed.
Print Assumptions C84_uri.

Lemma observe_any : forall A size k (a : A) tok, ctx_token k = Ok tok -> forall os uri code regs, (length uri <= 127)%nat -> (length regs <= size)%nat ->
  rs_observe size k a os uri code regs = Fault \/
  exists n, rs_observe size k a os uri code regs =
      Ok (uri ++ slashed (values_of 11 os), last (map observe_code (values_of 6 os)) code, regs ++ repeat (Session 0 a tok) n) /\
    n = length (filter registers (values_of 6 os)) /\ (length regs + n <= size)%nat /\ (length (uri ++ slashed (values_of 11 os)) <= 127)%nat.
Proof.
  intros A size k a tok Et. induction os as [|[n v] os IH]; intros uri code regs U L; cbn [rs_observe values_of].
  - right. exists 0%nat. unfold slashed. cbn. rewrite !app_nil_r. repeat split; lia.
  - destruct (N.eqb_spec n 11) as [->|N11].
    + change (11 =? 6) with false. cbv iota. unfold text_add, text_cap. destruct (Nat.leb_spec (length (uri ++ v)) 127); cbn [bind]; [|left; reflexivity].
      destruct (Nat.leb_spec (length ((uri ++ v) ++ [47])) 127); cbn [bind]; [|left; reflexivity].
      destruct (IH ((uri ++ v) ++ [47]) code regs ltac:(assumption) L) as [->|(m & -> & B & C & D)]; [left; reflexivity|right]. exists m.
      replace (uri ++ slashed (v :: values_of 11 os)) with (((uri ++ v) ++ [47]) ++ slashed (values_of 11 os)) by (unfold slashed; cbn [map concat]; now rewrite <- !app_assoc). auto.
    + destruct (N.eqb_spec n 6) as [->|N6]; [|apply IH; assumption].
      assert (K : forall b, evaluate_observe size k a b regs =
        if b =? 0 then (if (length regs <? size)%nat then Ok (67, regs ++ [Session 0 a tok]) else Fault)
        else if b =? 1 then Ok (67, regs) else Ok (130, regs)).
      { intro b. unfold evaluate_observe, do_register. rewrite Et. cbn [bind]. destruct b as [|[p|p|]]; try reflexivity. cbn [N.eqb]. change (0 =? 0) with true. cbv iota.
        destruct (length regs <? size)%nat; reflexivity. }
      rewrite K. cbn [map filter]. rewrite last_cons.
      assert (Reg : forall vv, registers vv = true -> observe_code vv = 67 -> bind (if (length regs <? size)%nat then Ok (67, regs ++ [Session 0 a tok]) else Fault)
        (fun x => rs_observe size k a os uri (fst x) (snd x)) = Fault \/ exists m, bind (if (length regs <? size)%nat then Ok (67, regs ++ [Session 0 a tok]) else Fault)
        (fun x => rs_observe size k a os uri (fst x) (snd x)) = Ok (uri ++ slashed (values_of 11 os), last (map observe_code (values_of 6 os)) (observe_code vv), regs ++ repeat (Session 0 a tok) m) /\
          m = S (length (filter registers (values_of 6 os))) /\ (length regs + m <= size)%nat /\ (length (uri ++ slashed (values_of 11 os)) <= 127)%nat).
      { intros vv _ ->. destruct (Nat.ltb_spec (length regs) size); cbn [bind fst snd]; [|left; reflexivity].
        destruct (IH uri 67 (regs ++ [Session 0 a tok]) U ltac:(rewrite app_length; cbn; lia)) as [->|(m & -> & B & C & D)]; [left; reflexivity|right].
        exists (S m). rewrite <- app_assoc. cbn [repeat app]. rewrite app_length in C. cbn [length] in C. split; [reflexivity|]. split; [lia|]. split; [lia|exact D]. }
      destruct v as [|[|[p|p|]] v]; cbn [registers observe_code];
        first [exact (Reg [] eq_refl eq_refl) | apply IH; assumption].
Qed.

(** C84, observe: the server stops or replies; the sessions it had stay, and those it adds are all
    the sender's, with the token of the request, one for each option seen that registers. *)
Theorem C84_observe : forall A cap fuel size jh junk h tok rest d (a : A) regs, hdr_ok jh -> hdr_ok h -> idle d -> bytes_ok tok -> bytes_ok rest ->
  h0 h mod 16 = len tok -> (length tok <= 8)%nat -> (4 + length tok <= cap)%nat -> answerable h -> (length regs <= size)%nat ->
  let c := hdr_bytes h ++ tok ++ rest in (dec_fuel c <= fuel)%nat ->
  obs_server false cap fuel size jh junk c d a regs = Fault \/
  (~ unreadable (4 + length tok) rest /\ exists vs seen,
     obs_server false cap fuel size jh junk c d a regs =
       Ok (sent cap (last (map observe_code seen) 132) h tok (slashed vs), regs ++ repeat (Session 0 a tok) (length (filter registers seen))) /\
     Forall (piece c) vs /\ Forall (piece c) seen /\ (length (slashed vs) <= 127)%nat /\ (length regs + length (filter registers seen) <= size)%nat).
Proof.
  intros A cap fuel size jh junk h tok rest d a regs Hj Hh Hd Bt Br Ht H8 Hc R Z c Hf.
  assert (Hok : bytes_ok c) by (apply bytes_ok_app; split; [now apply hdr_ok_bytes|apply bytes_ok_app; auto]).
  destruct (begin_any junk d h tok rest Hd Hok Ht H8) as (k & x & K1 & K2 & K3 & S & P & M). fold c in K1.
  rewrite <- tkl_mod in Ht. unfold obs_server. rewrite K1. cbn [bind fst snd].
  destruct (options_any reads_observe fuel h tok rest x Hok S M P Hf) as [E|(U & l & E & Pl)]; fold c in E; rewrite E; cbn [bind]; [left; reflexivity|].
  destruct (observe_any A size k a tok K3 l [] code_not_found regs ltac:(cbn; lia) Z) as [->|(n & -> & -> & B & D)]; cbn [bind app] in *; [left; reflexivity|right].
  split; [exact U|]. exists (values_of 11 l), (values_of 6 l).
  assert (G : forall vs x, x < 256 -> last (map observe_code vs) x < 256).
  { induction vs as [|v vs IH]; intros y Y; [exact Y|]. cbn [map]. rewrite last_cons. apply IH. unfold observe_code. destruct v as [|[|[p|p|]] v]; reflexivity. }
  rewrite (reply_sent cap jh k _ h tok _ Hj Hh); auto; [|apply G; reflexivity]. cbn [bind]. split; [reflexivity|].
  split; [now apply values_piece|]. split; [now apply values_piece|]. split; [exact D|exact B].
Qed.
Print Assumptions C84_observe.

Lemma walk_ends : forall cd rows ps, core_walk cd rows ps <> NoFuel.
Proof.
  intros cd. induction rows as [|e r IH]; intros ps; cbn [core_walk]; [discriminate|]. unfold core_evaluate, parent_handler.
  destruct (_ <? _)%nat; cbn [bind]; [|discriminate]. destruct (core_walk cd r _) as [y| |] eqn:W; cbn [bind]; try discriminate. destruct (IH _ W).
Qed.

(** C84, discoverable: the server stops or replies: 4.04 and a marker, or 2.05 with a marker and,
    if the path seen is that of the links, the links. *)
Theorem C84_core : forall cap fuel jh rows cd extra core junk h tok rest d, hdr_ok jh -> hdr_ok h -> idle d -> bytes_ok tok -> bytes_ok rest ->
  h0 h mod 16 = len tok -> (length tok <= 8)%nat -> (4 + length tok < cap)%nat -> answerable h -> core <> NONE ->
  let c := hdr_bytes h ++ tok ++ rest in (dec_fuel c <= fuel)%nat ->
  let run := core_server false cap fuel jh rows cd extra core junk c d in
  run = Fault \/
  (~ unreadable (4 + length tok) rest /\ exists vs, Forall (piece c) vs /\
     let found := m3_found (snd (m3_path vs (m3_init rows))) in
     (found = NONE /\ run = Ok (answer_head 132 h tok ++ [255])) \/
     (found <> NONE /\ found <> core /\ run = Ok (answer_head 69 h tok ++ [255])) \/
     (found = core /\ exists t, core_text cd extra rows (cap - (5 + length tok)) = Ok t /\ run = Ok (answer_head 69 h tok ++ 255 :: t))).
Proof.
  intros cap fuel jh rows cd extra core junk h tok rest d Hj Hh Hd Bt Br Ht H8 Hc R Hn c Hf run.
  assert (Hok : bytes_ok c) by (apply bytes_ok_app; split; [now apply hdr_ok_bytes|apply bytes_ok_app; auto]).
  destruct (begin_any junk d h tok rest Hd Hok Ht H8) as (k & x & K1 & K2 & K3 & S & P & M). fold c in K1.
  rewrite <- tkl_mod in Ht. unfold run, core_server. rewrite K1. cbn [bind fst snd].
  destruct (options_any reads_core fuel h tok rest x Hok S M P Hf) as [E|(U & l & E & Pl)]; fold c in E; rewrite E; cbn [bind]; [left; reflexivity|].
  rewrite match_path. set (f := m3_found (snd (m3_path (values_of 11 l) (m3_init rows)))).
  set (code := if Z.eqb f NONE then code_not_found else code_content).
  assert (Cc : code < 256) by (unfold code; destruct (Z.eqb f NONE); reflexivity).
  assert (Cl : (4 + length tok <= cap)%nat) by lia.
  destruct (head_sink false cap jh k code _ _ Hj Hh Cc K2 K3 Ht Cl R) as (b & -> & S1 & S2 & S3 & _). cbn [bind].
  unfold nbe_payload_header, assert_not_state, assert_state, nbe_marker_written. rewrite S3, S2, S1. cbn [negb orb bind].
  destruct (cap - (4 + length tok))%nat as [|room] eqn:Er; [lia|]. cbn [sputc bind snd n_sink n_set_state n_set_marker n_set_sink n_set_enc s_out s_room].
  replace (cap - (5 + length tok))%nat with room by lia.
  destruct (Z.eqb_spec f core) as [Ec|Ec].
  - destruct (core_text cd extra rows room) as [t| |] eqn:T; cbn [bind].
    + right. split; [exact U|]. exists (values_of 11 l). split; [now apply values_piece|]. right. right. split; [exact Ec|]. exists t. split; [reflexivity|].
      unfold code. destruct (Z.eqb_spec f NONE) as [Q|_]; [congruence|]. rewrite <- app_assoc. reflexivity.
    + left. reflexivity.
    + exfalso. unfold core_text in T. destruct (core_walk cd rows []) as [[s y]| |] eqn:W; cbn [bind] in T; try discriminate; [destruct (firstn _ _); discriminate|].
      exact (walk_ends cd rows [] W).
  - right. split; [exact U|]. exists (values_of 11 l). split; [now apply values_piece|]. fold f. unfold code. destruct (Z.eqb_spec f NONE) as [Q|Q].
    + left. auto.
    + right. left. auto.
Qed.
Print Assumptions C84_core.

(** * One option, cut off *)

(** how often its number comes up, and where the length is counted down to; [v] is what there is of
    a value of length [L] *)
Definition cut_visits (L : N) (v : list N) : nat :=
  match v with [] => S (N.to_nat L / 3) | _ => ((N.to_nat (L - len v) + 2) / 3)%nat end.
Definition cut_from (L : N) (v : list N) : nat :=
  match v with [] => (N.to_nat L - 2)%nat | _ => N.to_nat (L - len v) end.

Lemma head_bytes_ok : forall n L, n < 65536 -> L < 65536 -> bytes_ok (opt_head n L).
Proof.
  intros n L Hn HL. pose proof (nib_lt n). pose proof (nib_lt L). unfold opt_head. apply Forall_cons; [unfold byte_ok; lia|].
  apply bytes_ok_app. split; apply ext_bytes_ok; assumption.
Qed.

Lemma cut_options : forall reads fuel h tok n L v x, let c := hdr_bytes h ++ tok ++ opt_head n L ++ v in nd_state x = OptionsStart ->
  n_pos x = (4 + length tok)%nat -> bytes_ok v -> n < 65536 -> 0 < L < 65536 -> len v < L -> (dec_fuel c <= fuel)%nat ->
  rs_options reads fuel c x = if reads n && negb (quiet (cut_from L v)) then Fault else Ok (repeat (n, []) (cut_visits L v)).
Proof.
  intros reads fuel h tok n L v x c S P Bv Hn HL Hv Hf. assert (E := rest_skip h tok (opt_head n L ++ v)). fold c in E. rewrite <- P in E.
  assert (Lt : (n_pos x < length c)%nat).
  { rewrite P. unfold c. rewrite !app_length. change (length (hdr_bytes h)) with 4%nat. unfold opt_head. cbn [length]. lia. }
  destruct (cut_new c x n L v S Lt E Bv Hn HL Hv) as (y & Q & A & B). unfold rs_options. rewrite Q. cbn [bind].
  unfold dec_fuel in Hf. unfold cut_visits, cut_from. destruct v as [|b0 r0].
  - apply (value_loop c reads n L fuel y (A eq_refl)). assert (N.to_nat L / 3 <= N.to_nat L)%nat by (apply Nat.div_le_upper_bound; lia). lia.
  - apply (count_loop c reads n fuel (N.to_nat (L - len (b0 :: r0))) y (B ltac:(discriminate))).
    assert (Q2 : (N.to_nat (L - len (b0 :: r0)) <= N.to_nat 65535)%nat) by lia. set (q := N.to_nat (L - len (b0 :: r0))) in *. clearbody q.
    assert ((q + 2) / 3 <= q + 2)%nat by (apply Nat.div_le_upper_bound; lia). lia.
Qed.

Lemma quiet_small : forall k, quiet k = true -> (k <= 44)%nat.
Proof.
  induction k as [k IH] using lt_wf_ind. intro Q. destruct (le_gt_dec k 47) as [L|L].
  - do 48 (destruct k as [|k]; [first [lia|discriminate Q]|]). lia.
  - destruct k as [|[|[|j]]]; try lia. cbn [quiet] in Q. apply andb_true_iff in Q. destruct Q as [_ Q]. specialize (IH j ltac:(lia) Q). lia.
Qed.

Lemma visits_small : forall L v, len v < L -> quiet (cut_from L v) = true -> (cut_visits L v <= 16)%nat.
Proof.
  intros L v Hv Q. apply quiet_small in Q. unfold cut_visits, cut_from in *. destruct v as [|b r].
  - assert (N.to_nat L / 3 < 16)%nat by (apply Nat.div_lt_upper_bound; lia). lia.
  - set (q := N.to_nat (L - len (b :: r))) in *. clearbody q. assert ((q + 2) / 3 < 17)%nat by (apply Nat.div_lt_upper_bound; lia). lia.
Qed.

Lemma values_repeat : forall n k t, values_of k (repeat (n, @nil N) t) = if n =? k then repeat [] t else [].
Proof. intros n k. induction t as [|t IH]; [now destruct (n =? k)|]. cbn [repeat values_of]. rewrite IH. destruct (n =? k); reflexivity. Qed.

Lemma slashed_repeat : forall t, slashed (repeat [] t) = repeat 47 t.
Proof. induction t as [|t IH]; [reflexivity|]. unfold slashed in *. cbn [repeat map concat app]. rewrite IH. reflexivity. Qed.

(** C84, uri: a request that ends inside the value of its only option.  A path gets 4.04 and a row
    of slashes, or stops the server; any other option gets 4.04. *)
Theorem C84_uri_cut : forall cap fuel jh junk h tok n L v d, hdr_ok jh -> hdr_ok h -> idle d -> bytes_ok tok -> bytes_ok v ->
  h0 h mod 16 = len tok -> (length tok <= 8)%nat -> (4 + length tok <= cap)%nat -> answerable h ->
  n < 65536 -> 0 < L < 65536 -> len v < L ->
  let c := hdr_bytes h ++ tok ++ opt_head n L ++ v in (dec_fuel c <= fuel)%nat ->
  uri_server false cap fuel jh junk c d =
    if n =? 11 then if quiet (cut_from L v) then Ok (sent cap 132 h tok (repeat 47 (cut_visits L v))) else Fault
    else Ok (sent cap 132 h tok []).
Proof.
  intros cap fuel jh junk h tok n L v d Hj Hh Hd Bt Bv Ht H8 Hc R Hn HL Hv c Hf.
  assert (Hok : bytes_ok (hdr_bytes h ++ tok ++ opt_head n L ++ v)).
  { apply bytes_ok_app; split; [now apply hdr_ok_bytes|]. apply bytes_ok_app. split; [exact Bt|]. apply bytes_ok_app. split; [apply head_bytes_ok; lia|exact Bv]. }
  destruct (begin_any junk d h tok (opt_head n L ++ v) Hd Hok Ht H8) as (k & x & K1 & K2 & K3 & S & P & _). fold c in K1.
  rewrite <- tkl_mod in Ht. unfold uri_server. rewrite K1. cbn [bind fst snd].
  unfold c. rewrite (cut_options reads_uri fuel h tok n L v x S P Bv Hn HL Hv Hf). unfold reads_uri.
  destruct (N.eqb_spec n 11) as [->|Ne]; cbn [andb].
  - destruct (quiet (cut_from L v)) eqn:Q; cbn [negb]; [|reflexivity]. cbn [bind]. assert (V := visits_small L v Hv Q).
    rewrite uri_text; rewrite values_repeat; change (11 =? 11) with true; cbv iota; rewrite slashed_repeat; [|cbn [app]; rewrite repeat_length; lia].
    cbn [bind app]. replace (str_eqb (repeat 47 (cut_visits L v)) txt_test) with false; [apply reply_sent; auto; reflexivity|].
    symmetry. destruct (str_eqb (repeat 47 (cut_visits L v)) txt_test) eqn:Z; [|reflexivity]. apply str_eqb_eq in Z. unfold txt_test in Z. destruct (cut_visits L v); discriminate.
  - cbn [bind]. assert (F : (n =? 11) = false) by (now apply N.eqb_neq).
    rewrite uri_text; rewrite values_repeat, F; [|cbn; lia]. cbn [bind app]. change (str_eqb (slashed []) txt_test) with false. cbv iota. apply reply_sent; auto. reflexivity.
Qed.
Print Assumptions C84_uri_cut.

(** C84: that a request adds at most one session is false: an Observe option whose value is cut
    off is seen once for each three bytes missing and registers the sender each time, up to sixteen
    times; if more is missing the server stops. *)
Theorem C84_one_session_refuted : forall A cap fuel size jh junk h tok L v d (a : A) regs, hdr_ok jh -> hdr_ok h -> idle d -> bytes_ok tok -> bytes_ok v ->
  h0 h mod 16 = len tok -> (length tok <= 8)%nat -> (4 + length tok <= cap)%nat -> answerable h -> (length regs <= size)%nat ->
  0 < L < 65536 -> len v < L ->
  let c := hdr_bytes h ++ tok ++ opt_head 6 L ++ v in (dec_fuel c <= fuel)%nat ->
  obs_server false cap fuel size jh junk c d a regs =
    (if quiet (cut_from L v) && (length regs + cut_visits L v <=? size)%nat
     then Ok (sent cap 67 h tok [], regs ++ repeat (Session 0 a tok) (cut_visits L v)) else Fault) /\
  (quiet (cut_from L v) = true -> 1 <= cut_visits L v <= 16)%nat.
Proof.
  intros A cap fuel size jh junk h tok L v d a regs Hj Hh Hd Bt Bv Ht H8 Hc R Z HL Hv c Hf.
  assert (Hok : bytes_ok (hdr_bytes h ++ tok ++ opt_head 6 L ++ v)).
  { apply bytes_ok_app; split; [now apply hdr_ok_bytes|]. apply bytes_ok_app. split; [exact Bt|]. apply bytes_ok_app. split; [apply head_bytes_ok; lia|exact Bv]. }
  destruct (begin_any junk d h tok (opt_head 6 L ++ v) Hd Hok Ht H8) as (k & x & K1 & K2 & K3 & S & P & _). fold c in K1.
  assert (V1 : (1 <= cut_visits L v)%nat).
  { unfold cut_visits. destruct v as [|b r]; [lia|]. apply Nat.div_le_lower_bound; lia. }
  split; [|intro Q; split; [exact V1|now apply visits_small]].
  rewrite <- tkl_mod in Ht. unfold obs_server. rewrite K1. cbn [bind fst snd].
  unfold c. rewrite (cut_options reads_observe fuel h tok 6 L v x S P Bv ltac:(lia) HL Hv Hf). change (reads_observe 6) with true. cbn [andb].
  destruct (quiet (cut_from L v)) eqn:Q; cbn [negb andb bind]; [|reflexivity]. set (t := cut_visits L v) in *.
  assert (F6 : values_of 6 (repeat (6, @nil N) t) = repeat [] t) by apply values_repeat.
  assert (F11 : values_of 11 (repeat (6, @nil N) t) = []) by apply values_repeat.
  assert (Fr : forall u, filter registers (repeat [] u) = repeat [] u) by (induction u as [|u IH]; [reflexivity|cbn [repeat filter registers]; now rewrite IH]).
  assert (Fm : forall u, map (fun _ => Session 0 a tok) (repeat (@nil N) u) = repeat (Session 0 a tok) u) by (induction u as [|u IH]; [reflexivity|cbn [repeat map]; now rewrite IH]).
  assert (Fl : last (map observe_code (repeat [] t)) code_not_found = 67).
  { destruct t as [|u]; [lia|]. clear. cbn [repeat map]. rewrite last_cons. change (observe_code []) with 67. induction u as [|u IH]; [reflexivity|]. cbn [repeat map]. rewrite last_cons. exact IH. }
  destruct (Nat.leb_spec (length regs + t) size) as [Le|Gt].
  - rewrite (observe_run A size k a tok K3); rewrite ?F6, ?F11, ?Fr, ?repeat_length; [|cbn; lia|exact Le]. rewrite Fm, Fl. cbn [slashed map concat app bind].
    rewrite (reply_sent cap jh k 67 h tok [] Hj Hh); auto. reflexivity.
  - destruct (observe_any A size k a tok K3 (repeat (6, []) t) [] code_not_found regs ltac:(cbn; lia) Z) as [->|(m & _ & M & B & _)]; [reflexivity|].
    exfalso. rewrite F6, Fr, repeat_length in M. lia.
Qed.
Print Assumptions C84_one_session_refuted.

(** C84: so one datagram of a header, a token and two bytes fills the ten places the example has
    (test/posix/observable-raw/main.cpp 14) with its sender, and the next registration of anybody stops
    the server. *)
Theorem C84_filled_refuted : forall A cap fuel jh junk h tok L d (a : A), hdr_ok jh -> hdr_ok h -> idle d -> bytes_ok tok ->
  h0 h mod 16 = len tok -> (length tok <= 8)%nat -> (4 + length tok <= cap)%nat -> answerable h -> L = 27 \/ L = 28 ->
  let c := hdr_bytes h ++ tok ++ opt_head 6 L in let full := repeat (Session 0 a tok) 10 in (dec_fuel c <= fuel)%nat ->
  length c = (6 + length tok)%nat /\
  obs_server false cap fuel 10 jh junk c d a [] = Ok (sent cap 67 h tok [], full) /\
  forall jh2 junk2 m d2 (b : A), msg_ok m -> idle d2 -> (length (m_opts m) < fuel)%nat ->
    existsb registers (values_of 6 (shown (has (m_pay m)) (m_opts m))) = true ->
    obs_server false cap fuel 10 jh2 junk2 (msg_bytes m) d2 b full = Fault.
Proof.
  intros A cap fuel jh junk h tok L d a Hj Hh Hd Bt Ht H8 Hc R HL c full Hf. split; [|split].
  - unfold c. rewrite !app_length. change (length (hdr_bytes h)) with 4%nat. destruct HL as [-> | ->]; vm_compute (length (opt_head 6 _)); lia.
  - assert (E : c = hdr_bytes h ++ tok ++ opt_head 6 L ++ []) by (unfold c; now rewrite app_nil_r).
    destruct (C84_one_session_refuted A cap fuel 10 jh junk h tok L [] d a [] Hj Hh Hd Bt ltac:(constructor) Ht H8 Hc R ltac:(cbn; lia) ltac:(destruct HL; lia) ltac:(destruct HL; unfold len; cbn; lia)) as (S1 & _).
    { rewrite <- E. exact Hf. }
    rewrite E, S1. destruct HL as [-> | ->]; reflexivity.
  - intros jh2 junk2 m d2 b Hm Hd2 Hf2 Rg. destruct (message_parts junk2 m d2 fuel Hm Hd2 Hf2) as (k & x & K1 & K2 & K3 & K4 & _).
    unfold obs_server. rewrite K1. cbn [bind fst snd]. rewrite K4. cbn [bind]. rewrite kept_observe by reflexivity.
    destruct (observe_any A 10 k b (m_tok m) K3 (shown (has (m_pay m)) (m_opts m)) [] code_not_found full ltac:(cbn; lia) ltac:(unfold full; rewrite repeat_length; lia)) as [-> |(n & _ & N & B & _)]; [reflexivity|].
    exfalso. unfold full in B. rewrite repeat_length in B. apply existsb_exists in Rg. destruct Rg as (v & I & V).
    assert (In v (filter registers (values_of 6 (shown (has (m_pay m)) (m_opts m))))) as I2 by (apply filter_In; auto).
    destruct (filter registers _); [destruct I2|cbn [length] in N; lia].
Qed.
Print Assumptions C84_filled_refuted.

(** Any other option cut off registers nobody. *)
Theorem C84_observe_cut : forall A cap fuel size jh junk h tok n L v d (a : A) regs, hdr_ok jh -> hdr_ok h -> idle d -> bytes_ok tok -> bytes_ok v ->
  h0 h mod 16 = len tok -> (length tok <= 8)%nat -> (4 + length tok <= cap)%nat -> answerable h -> (length regs <= size)%nat ->
  n < 65536 -> n <> 6 -> 0 < L < 65536 -> len v < L ->
  let c := hdr_bytes h ++ tok ++ opt_head n L ++ v in (dec_fuel c <= fuel)%nat ->
  obs_server false cap fuel size jh junk c d a regs =
    if n =? 11 then if quiet (cut_from L v) then Ok (sent cap 132 h tok (repeat 47 (cut_visits L v)), regs) else Fault
    else Ok (sent cap 132 h tok [], regs).
Proof.
  intros A cap fuel size jh junk h tok n L v d a regs Hj Hh Hd Bt Bv Ht H8 Hc R Z Hn N6 HL Hv c Hf.
  assert (Hok : bytes_ok (hdr_bytes h ++ tok ++ opt_head n L ++ v)).
  { apply bytes_ok_app; split; [now apply hdr_ok_bytes|]. apply bytes_ok_app. split; [exact Bt|]. apply bytes_ok_app. split; [apply head_bytes_ok; lia|exact Bv]. }
  destruct (begin_any junk d h tok (opt_head n L ++ v) Hd Hok Ht H8) as (k & x & K1 & K2 & K3 & S & P & _). fold c in K1.
  rewrite <- tkl_mod in Ht. unfold obs_server. rewrite K1. cbn [bind fst snd].
  unfold c. rewrite (cut_options reads_observe fuel h tok n L v x S P Bv Hn HL Hv Hf). unfold reads_observe.
  assert (F6 : (n =? 6) = false) by (now apply N.eqb_neq). rewrite F6, orb_false_r. set (t := cut_visits L v) in *.
  assert (V6 : values_of 6 (repeat (n, @nil N) t) = []) by (rewrite values_repeat, F6; reflexivity).
  assert (G : forall p, values_of 11 (repeat (n, @nil N) t) = p -> (length (slashed p) <= 127)%nat ->
    rs_observe size k a (repeat (n, []) t) [] code_not_found regs = Ok (slashed p, 132, regs)).
  { intros p E Lp. rewrite (observe_run A size k a tok K3); rewrite ?V6, ?E; [|exact Lp|cbn; lia]. cbn. rewrite app_nil_r. reflexivity. }
  destruct (N.eqb_spec n 11) as [->|N11]; cbn [andb].
  - destruct (quiet (cut_from L v)) eqn:Q; cbn [negb]; [|reflexivity]. cbn [bind]. assert (V := visits_small L v Hv Q). fold t in V.
    rewrite (G (repeat [] t)); [|rewrite values_repeat; reflexivity|rewrite slashed_repeat, repeat_length; lia]. cbn [bind]. rewrite slashed_repeat.
    rewrite (reply_sent cap jh k 132 h tok _ Hj Hh); first [reflexivity|assumption].
  - cbn [bind]. rewrite (G []); [|rewrite values_repeat, (proj2 (N.eqb_neq n 11) N11); reflexivity|cbn; lia]. cbn [bind slashed map concat].
    rewrite (reply_sent cap jh k 132 h tok _ Hj Hh); first [reflexivity|assumption].
Qed.
Print Assumptions C84_observe_cut.

(** C84, discoverable: an only option cut off is never found.  A Uri-Path or Uri-Query of which too
    much is missing stops the server, though nothing is made of the query. *)
Theorem C84_core_cut : forall cap fuel jh rows cd extra core junk h tok n L v d, hdr_ok jh -> hdr_ok h -> idle d -> bytes_ok tok -> bytes_ok v ->
  h0 h mod 16 = len tok -> (length tok <= 8)%nat -> (4 + length tok < cap)%nat -> answerable h -> core <> NONE -> Forall (fun r => r_seg r <> []) rows ->
  n < 65536 -> 0 < L < 65536 -> len v < L ->
  let c := hdr_bytes h ++ tok ++ opt_head n L ++ v in (dec_fuel c <= fuel)%nat ->
  core_server false cap fuel jh rows cd extra core junk c d =
    if ((n =? 11) || (n =? 15)) && negb (quiet (cut_from L v)) then Fault else Ok (answer_head 132 h tok ++ [255]).
Proof.
  intros cap fuel jh rows cd extra core junk h tok n L v d Hj Hh Hd Bt Bv Ht H8 Hc R Hcore Hr Hn HL Hv c Hf.
  assert (Hok : bytes_ok (hdr_bytes h ++ tok ++ opt_head n L ++ v)).
  { apply bytes_ok_app; split; [now apply hdr_ok_bytes|]. apply bytes_ok_app. split; [exact Bt|]. apply bytes_ok_app. split; [apply head_bytes_ok; lia|exact Bv]. }
  destruct (begin_any junk d h tok (opt_head n L ++ v) Hd Hok Ht H8) as (k & x & K1 & K2 & K3 & S & P & _). fold c in K1.
  rewrite <- tkl_mod in Ht. unfold core_server. rewrite K1. cbn [bind fst snd].
  unfold c. rewrite (cut_options reads_core fuel h tok n L v x S P Bv Hn HL Hv Hf). unfold reads_core. destruct (((n =? 11) || (n =? 15)) && _); [reflexivity|]. cbn [bind].
  assert (V1 : (1 <= cut_visits L v)%nat).
  { unfold cut_visits. destruct v as [|b r]; [lia|]. apply Nat.div_le_lower_bound; lia. }
  assert (F : m3_found (rs_match (repeat (n, []) (cut_visits L v)) (m3_init rows)) = NONE).
  { rewrite match_path, values_repeat. destruct (n =? 11); [|reflexivity]. apply path_with_empty; [exact Hr|]. destruct (cut_visits L v); [lia|left; reflexivity]. }
  rewrite F. rewrite Z.eqb_refl. assert (Cl : (4 + length tok <= cap)%nat) by lia.
  destruct (head_sink false cap jh k code_not_found _ _ Hj Hh eq_refl K2 K3 Ht Cl R) as (b & -> & S1 & S2 & S3 & _). cbn [bind].
  unfold nbe_payload_header, assert_not_state, assert_state, nbe_marker_written. rewrite S3, S2, S1. cbn [negb orb bind].
  destruct (cap - (4 + length tok))%nat as [|room] eqn:Er; [lia|]. cbn [sputc bind snd n_sink n_set_state n_set_marker n_set_sink n_set_enc s_out s_room].
  destruct (Z.eqb_spec NONE core) as [Ec|_]; [congruence|reflexivity].
Qed.
Print Assumptions C84_core_cut.

(** C84: the links can be asked for, though by no well-formed request (C56): by one whose option
    numbers run over 65535 and start again.  Option 1 twice, .well-known, option 12 twice, core. *)
Definition wrapped_core : list N :=
  hdr_bytes (Hdr 65 1 18 52) ++ [7] ++ opt_head 1 1 ++ [9] ++ opt_head 0 1 ++ [8] ++ opt_head 10 11 ++ [46; 119; 101; 108; 108; 45; 107; 110; 111; 119; 110] ++
  opt_head 1 1 ++ [0] ++ opt_head 0 1 ++ [0] ++ opt_head 65535 4 ++ [99; 111; 114; 101].
Definition some_mem : dec := Dec Uninitialized (Hdr 0 0 0 0) 0 [0; 0; 0; 0; 0; 0; 0; 0] 0 (ODec OptionDone 9 9 9 9 0) (Holder 0 0).
Definition some_junk : list N := [3; 3; 3; 3; 3; 3; 3; 3].
Theorem C84_links_reached : exists rest cd t, let h := Hdr 65 1 18 52 in let c := hdr_bytes h ++ [7] ++ rest in bytes_ok c /\
  core_server false 64 (dec_fuel c) h core_rows cd (fun _ => []) id_core some_junk c some_mem = Ok (answer_head 69 h [7] ++ 255 :: t) /\
  t = [60; 47; 118; 49; 47; 97; 112; 105; 47; 116; 101; 115; 116; 49; 62; 59; 114; 116; 61; 34; 114; 34] (* </v1/api/test1>;rt="r" *).
Proof.
  exists (skipn 5 wrapped_core), [CoreData 2 [114] []]. eexists. cbv zeta. split; [|split; [vm_compute; reflexivity|reflexivity]].
  change (hdr_bytes (Hdr 65 1 18 52) ++ [7] ++ skipn 5 wrapped_core) with wrapped_core.
  unfold wrapped_core. repeat (apply bytes_ok_app; split); try (apply head_bytes_ok; lia); repeat constructor; unfold byte_ok; cbn; lia.
Qed.
Print Assumptions C84_links_reached.

(** Cases: what the theorems take for granted; a reserved nibble, alone and in a header cut short;
    a path cut off; Observe with 46 bytes announced and none there: sixteen sessions; with 47: a
    stop; with 46 and the room for 15: a stop; a query, read by the discovery server
    alone, and an option it does not read. *)
Example C84_hypotheses : let h := Hdr 65 1 18 52 in hdr_ok h /\ idle some_mem /\ h0 h mod 16 = len [7] /\ answerable h /\ bytes_ok [7] /\
  unreadable 5 [240; 1] /\ unreadable 5 [1; 9; 31] /\ ~ unreadable 5 (opt_head 6 46) /\ ~ unreadable 5 [177; 116; 255; 1; 2] /\ id_core <> NONE.
Proof.
  split; [apply hdr_ok_iff; repeat split; vm_compute; reflexivity|].
  split; [split; [left; reflexivity|]; unfold dec_mem, od_bytes, byte_ok; cbn; repeat split; try lia; repeat constructor; unfold byte_ok; lia|].
  split; [reflexivity|]. split; [left; reflexivity|]. split; [repeat constructor; unfold byte_ok; lia|].
  split; [exists []; left; reflexivity|]. split.
  { eexists. right. split; [vm_compute; reflexivity|]. exists [1; 9], 31, []. split; [|right; reflexivity].
    split; [reflexivity|]. split; [discriminate|]. split; [right; exists 1, []; split; reflexivity|]. vm_compute. reflexivity. }
  split; [|split; [|discriminate]]; intros (vs & [E|(E & _)]); vm_compute in E; discriminate.
Qed.

Example C84_case : let h := Hdr 65 1 18 52 in let c rest := hdr_bytes h ++ [7] ++ rest in let f rest := dec_fuel (c rest) in
  ping true true 64 (f [240]) h some_junk (c [240]) some_mem = Fault /\
  ping true true 64 (f [1; 9; 240; 7]) h some_junk (c [1; 9; 240; 7]) some_mem = Fault /\
  ping true true 64 (f [1; 9; 221]) h some_junk (c [1; 9; 221]) some_mem = Ok [97; 69; 18; 52; 7] /\
  uri_server false 64 (f [180; 116; 101]) h some_junk (c [180; 116; 101]) some_mem = Ok [97; 132; 18; 52; 7; 255; 47] /\
  opt_head 6 46 = [109; 33] /\
  obs_server false 64 (f [109; 33]) 20 h some_junk (c [109; 33]) some_mem 5 [] = Ok ([97; 67; 18; 52; 7; 255], repeat (Session 0 5 [7]) 16) /\
  obs_server false 64 (f [109; 34]) 20 h some_junk (c [109; 34]) some_mem 5 [] = Fault /\
  obs_server false 64 (f [109; 33]) 15 h some_junk (c [109; 33]) some_mem 5 [] = Fault /\
  opt_head 6 28 = [109; 15] /\
  obs_server false 64 (f [109; 15]) 10 h some_junk (c [109; 15]) some_mem 5 [] = Ok ([97; 67; 18; 52; 7; 255], repeat (Session 0 5 [7]) 10) /\
  obs_server false 64 (f [96; 177; 116]) 10 h some_junk (c [96; 177; 116]) some_mem 6 (repeat (Session 0 5 [7]) 10) = Fault /\
  opt_head 15 60 = [221; 2; 47] /\
  core_server false 64 (f [221; 2; 47]) h core_rows [] (fun _ => []) id_core some_junk (c [221; 2; 47]) some_mem = Fault /\
  core_server false 64 (f [221; 1; 47]) h core_rows [] (fun _ => []) id_core some_junk (c [221; 1; 47]) some_mem = Ok [97; 132; 18; 52; 7; 255] /\
  cut_visits 46 [] = 16%nat /\ quiet (cut_from 46 []) = true /\ quiet (cut_from 47 []) = false.
Proof. vm_compute. repeat split. Qed.
