(** C88: what the example servers see of any datagram, and what they answer, exactly. *)
From Coq Require Import ZArith.
From Verif Require Import Base HeaderModel HeaderSpec HeaderProofs OptEncModel OptSpec StreambufModel StreambufProofs ContextModel UriModel UriSpec AppModel NetbufModel NetbufProofs
  ObserveModel RespModel RespSpec RespProofs RespProps OptDecModel OptDecSpec OptDecProofs DecoderModel DecoderSpec DecoderProofs NetDecModel NetDecSpec NetDecProofs NetDecProps
  HeadCutSpec NetAnySpec NetAnyProofs NetAnyProps PumpModel PumpSpec PumpProofs PumpAnySpec PumpAnyProofs VisitSpec VisitProofs.
Local Open Scope N_scope.

(** C88: of any bytes after the token the loop over the options sees what [seen] says, whatever
    options it reads, and trips where [seen] does. *)
Theorem C88_visits : forall fuel junk h tok rest d, hdr_ok h -> idle d -> bytes_ok tok -> bytes_ok rest -> h0 h mod 16 = len tok -> (length tok <= 8)%nat ->
  let c := hdr_bytes h ++ tok ++ rest in (dec_fuel c <= fuel)%nat ->
  exists k x, rs_begin junk c d = Ok (k, x) /\ c_hdr k = h /\ ctx_token k = Ok tok /\ forall reads, rs_options reads fuel c x = seen reads rest.
Proof.
  intros fuel junk h tok rest d Hh Hd Bt Br Ht H8 c Hf.
  assert (Hok : bytes_ok c) by (apply bytes_ok_app; split; [now apply hdr_ok_bytes|apply bytes_ok_app; auto]).
  destruct (begin_any junk d h tok rest Hd Hok Ht H8) as (k & x & K1 & K2 & K3 & Hs & P & M). fold c in K1.
  exists k, x. split; [exact K1|]. split; [exact K2|]. split; [exact K3|]. intro reads.
  destruct (new_any c x Hok Hs M) as (N1 & N2). unfold dec_fuel in Hf.
  destruct rest as [|b r].
  - destruct N1 as (y & Q & V). { rewrite P. unfold c. rewrite !app_length. change (length (hdr_bytes h)) with 4%nat. cbn [length]. lia. }
    unfold rs_options. rewrite Q. cbn [bind]. destruct fuel as [|fuel]; [lia|]. cbn [rs_loop]. rewrite V. reflexivity.
  - assert (Lt : (n_pos x < length c)%nat) by (rewrite P; unfold c; rewrite !app_length; change (length (hdr_bytes h)) with 4%nat; cbn [length]; lia).
    assert (E := rest_skip h tok (b :: r)). fold c in E. rewrite <- P in E. destruct (N2 Lt) as (Al & _).
    pose proof (mu_start c x Lt) as Mu.
    apply (options_follow c reads fuel x _ Hok Hs M Lt).
    + unfold opt_fuel in Mu. lia.
    + change 0 with (it_number (ND (opt_fresh (n_dec x)) (n_pos x))). apply follows_stops; auto; try (cbn; lia); try discriminate.
      left; reflexivity.
Qed.
Print Assumptions C88_visits.

(** * The servers *)

Lemma seen_ends : forall reads rest, bytes_ok rest -> seen reads rest = Fault \/ exists l, seen reads rest = Ok l.
Proof.
  intros reads rest Br. set (h := Hdr 64 1 0 0). assert (Hh : hdr_ok h) by (apply hdr_ok_iff; repeat split; vm_compute; reflexivity).
  assert (B : bytes_ok (hdr_bytes h ++ [] ++ rest)) by (apply bytes_ok_app; split; [now apply hdr_ok_bytes|exact Br]).
  assert (D : idle old_mem) by apply C56_memory.
  destruct (C88_visits _ [] h [] rest old_mem Hh D ltac:(constructor) Br eq_refl ltac:(cbn; lia) (le_n _)) as (k & x & K1 & _ & _ & K).
  destruct (begin_any [] old_mem h [] rest D B eq_refl ltac:(cbn; lia)) as (k2 & x2 & L1 & _ & _ & Hs & P & M).
  rewrite K1 in L1. injection L1 as <- <-. rewrite <- K.
  destruct (options_any reads _ h [] rest x B Hs M P (le_n _)) as [E|(_ & l & E & _)]; eauto.
Qed.

Lemma answerable_dec : forall h, answerable h \/ ~ answerable h.
Proof. intro h. unfold answerable. destruct (N.eq_dec (hdr_type h) CON), (N.eq_dec (hdr_type h) NON); tauto. Qed.

(** C88, uri: of any datagram at all, the server sends the one reply [uri_told] allows, or stops if there is none. *)
Theorem C88_uri : forall cap fuel jh junk c d, hdr_ok jh -> idle d -> bytes_ok c -> (12 <= cap)%nat -> (dec_fuel c <= fuel)%nat ->
  (exists r, uri_told cap c r /\ (forall r2, uri_told cap c r2 -> r2 = r) /\ uri_server false cap fuel jh junk c d = Ok r) \/
  ((forall r, ~ uri_told cap c r) /\ uri_server false cap fuel jh junk c d = Fault).
Proof.
  intros cap fuel jh junk c d Hj Hd B Hc Hf. destruct (parts_or c B) as [(h & tok & rest & P & Hh & Bt & Br)|L].
  2: { right. split; [intros r (h & tok & rest & l & code & P & _); exact (short_no_parts c h tok rest L P)|]. unfold uri_server. rewrite begin_short by assumption. reflexivity. }
  pose proof P as P'. destruct P' as (-> & Ht & H8).
  destruct (C88_visits fuel junk h tok rest d Hh Hd Bt Br Ht H8 Hf) as (k & x & K1 & K2 & K3 & K).
  assert (Lt : hdr_tkl h = N.of_nat (length tok)) by (rewrite tkl_mod; exact Ht).
  unfold uri_server. rewrite K1. cbn [bind fst snd]. rewrite (K reads_uri). change reads_uri with (fun n : N => n =? 11).
  destruct (seen_ends (fun n : N => n =? 11) rest Br) as [E|(l & E)]; rewrite E; cbn [bind].
  { right. split; [|reflexivity]. intros r (h2 & tok2 & rest2 & l & code & P2 & _ & S2 & _). destruct (parts_once _ _ _ _ _ _ _ P P2) as (<- & <- & <-). congruence. }
  destruct (le_gt_dec (length (slashed (values_of 11 l))) 127) as [Ls|Ls].
  2: { right. rewrite uri_long by (cbn [app length]; lia). split; [|reflexivity].
       intros r (h2 & tok2 & rest2 & l2 & code & P2 & _ & S2 & L2 & _). destruct (parts_once _ _ _ _ _ _ _ P P2) as (<- & <- & <-).
       rewrite E in S2. injection S2 as <-. lia. }
  rewrite uri_text by exact Ls. cbn [bind app].
  destruct (answerable_dec h) as [R|R].
  2: { right. unfold rs_reply. rewrite (head_fault false cap jh k _ h tok Hj Hh K2 K3 R). split; [|reflexivity].
       intros r (h2 & tok2 & rest2 & l2 & code & P2 & R2 & _). destruct (parts_once _ _ _ _ _ _ _ P P2) as (<- & <- & <-). exact (R R2). }
  left. rewrite (reply_sent cap jh k _ h tok (slashed (values_of 11 l)) Hj Hh); auto; [|destruct (str_eqb (slashed (values_of 11 l)) txt_test); reflexivity|lia].
  eexists. split; [|split; [|reflexivity]].
  - exists h, tok, rest, l. eexists. split; [exact P|]. split; [exact R|]. split; [exact E|]. split; [exact Ls|]. split; [|reflexivity].
    destruct (str_eqb (slashed (values_of 11 l)) txt_test) eqn:Z.
    + left. apply str_eqb_eq in Z. apply test_iff in Z. auto.
    + right. split; [|reflexivity]. intro Q. apply test_iff in Q. apply str_eqb_eq in Q. congruence.
  - intros r2 (h2 & tok2 & rest2 & l2 & code & P2 & _ & S2 & _ & Q & ->). destruct (parts_once _ _ _ _ _ _ _ P P2) as (<- & <- & <-).
    rewrite E in S2. injection S2 as <-. f_equal. destruct (str_eqb (slashed (values_of 11 l)) txt_test) eqn:Z.
    + apply str_eqb_eq in Z. apply test_iff in Z. destruct Q as [(_ & ->)|(Q & _)]; [reflexivity|contradiction].
    + destruct Q as [(Q & _)|(_ & ->)]; [|reflexivity]. apply test_iff in Q. apply str_eqb_eq in Q. congruence.
Qed.
Print Assumptions C88_uri.

Lemma observe_exact : forall A size k (a : A) tok, ctx_token k = Ok tok -> forall os uri code regs, (length uri <= 127)%nat -> (length regs <= size)%nat ->
  rs_observe size k a os uri code regs =
    if ((length (uri ++ slashed (values_of 11 os)) <=? 127) && (length regs + length (filter registers (values_of 6 os)) <=? size))%nat
    then Ok (uri ++ slashed (values_of 11 os), last (map observe_code (values_of 6 os)) code,
             regs ++ repeat (Session 0 a tok) (length (filter registers (values_of 6 os)))) else Fault.
Proof.
  intros A size k a tok Et. induction os as [|[n v] os IH]; intros uri code regs U L; cbn [rs_observe values_of].
  - unfold slashed. cbn. rewrite !app_nil_r. rewrite (proj2 (Nat.leb_le _ _) U), Nat.add_0_r, (proj2 (Nat.leb_le _ _) L). reflexivity.
  - destruct (N.eqb_spec n 11) as [->|N11].
    + change (11 =? 6) with false. cbv iota.
      replace (uri ++ slashed (v :: values_of 11 os)) with (((uri ++ v) ++ [47]) ++ slashed (values_of 11 os)) by (unfold slashed; cbn [map concat]; now rewrite <- !app_assoc).
      unfold text_add, text_cap. destruct (Nat.leb_spec (length (uri ++ v)) 127) as [L1|L1]; cbn [bind].
      2: { rewrite (proj2 (Nat.leb_gt _ _)); [reflexivity|]. rewrite (app_length ((uri ++ v) ++ [47])), (app_length (uri ++ v)). lia. }
      destruct (Nat.leb_spec (length ((uri ++ v) ++ [47])) 127) as [L2|L2]; cbn [bind].
      2: { rewrite (proj2 (Nat.leb_gt _ _)); [reflexivity|]. rewrite (app_length ((uri ++ v) ++ [47])). lia. }
      apply IH; assumption.
    + destruct (N.eqb_spec n 6) as [->|N6]; [|apply IH; assumption].
      assert (K : forall b, evaluate_observe size k a b regs =
        if b =? 0 then (if (length regs <? size)%nat then Ok (67, regs ++ [Session 0 a tok]) else Fault)
        else if b =? 1 then Ok (67, regs) else Ok (130, regs)).
      { intro b. unfold evaluate_observe, do_register. rewrite Et. cbn [bind]. destruct b as [|[p|p|]]; try reflexivity. cbn [N.eqb]. change (0 =? 0) with true. cbv iota.
        destruct (length regs <? size)%nat; reflexivity. }
      rewrite K. cbn [map filter]. rewrite last_cons.
      assert (Reg : bind (if (length regs <? size)%nat then Ok (67, regs ++ [Session 0 a tok]) else Fault) (fun x => rs_observe size k a os uri (fst x) (snd x)) =
        if ((length (uri ++ slashed (values_of 11 os)) <=? 127) && (length regs + Datatypes.S (length (filter registers (values_of 6 os))) <=? size))%nat
        then Ok (uri ++ slashed (values_of 11 os), last (map observe_code (values_of 6 os)) 67,
             regs ++ repeat (Session 0 a tok) (Datatypes.S (length (filter registers (values_of 6 os))))) else Fault).
      { destruct (Nat.ltb_spec (length regs) size); cbn [bind fst snd].
        - rewrite IH by (try assumption; rewrite app_length; cbn; lia). rewrite (app_length regs), <- Nat.add_assoc. cbn [length Nat.add repeat]. rewrite <- app_assoc. reflexivity.
        - rewrite (proj2 (Nat.leb_gt (length regs + _) size)) by lia. rewrite andb_false_r. reflexivity. }
      destruct v as [|[|[p|p|]] v]; cbn [registers observe_code length]; first [exact Reg | apply IH; assumption].
Qed.

(** C88, observe: the one reply and the sessions [obs_told] allows, or a stop if there are none. *)
Theorem C88_observe : forall A cap fuel size jh junk c d (a : A) regs, hdr_ok jh -> idle d -> bytes_ok c -> (12 <= cap)%nat -> (length regs <= size)%nat -> (dec_fuel c <= fuel)%nat ->
  (exists r news, obs_told cap size c a regs r news /\ (forall r2 news2, obs_told cap size c a regs r2 news2 -> r2 = r /\ news2 = news) /\
     obs_server false cap fuel size jh junk c d a regs = Ok (r, regs ++ news)) \/
  ((forall r news, ~ obs_told cap size c a regs r news) /\ obs_server false cap fuel size jh junk c d a regs = Fault).
Proof.
  intros A cap fuel size jh junk c d a regs Hj Hd B Hc Z Hf. destruct (parts_or c B) as [(h & tok & rest & P & Hh & Bt & Br)|L].
  2: { right. split; [intros r news (h & tok & rest & l & P & _); exact (short_no_parts c h tok rest L P)|]. unfold obs_server. rewrite begin_short by assumption. reflexivity. }
  pose proof P as P'. destruct P' as (-> & Ht & H8).
  destruct (C88_visits fuel junk h tok rest d Hh Hd Bt Br Ht H8 Hf) as (k & x & K1 & K2 & K3 & K).
  assert (Lt : hdr_tkl h = N.of_nat (length tok)) by (rewrite tkl_mod; exact Ht).
  unfold obs_server. rewrite K1. cbn [bind fst snd]. rewrite (K reads_observe). change reads_observe with (fun n : N => (n =? 11) || (n =? 6)).
  destruct (seen_ends (fun n : N => (n =? 11) || (n =? 6)) rest Br) as [E|(l & E)]; rewrite E; cbn [bind].
  { right. split; [|reflexivity]. intros r news (h2 & tok2 & rest2 & l & P2 & _ & S2 & _). destruct (parts_once _ _ _ _ _ _ _ P P2) as (<- & <- & <-). congruence. }
  rewrite (observe_exact A size k a tok K3 l [] code_not_found regs ltac:(cbn; lia) Z). cbn [app].
  set (vs := values_of 11 l). set (ws := values_of 6 l).
  destruct (((length (slashed vs) <=? 127) && (length regs + length (filter registers ws) <=? size))%nat) eqn:Q; cbn [bind].
  2: { right. split; [|reflexivity]. intros r news (h2 & tok2 & rest2 & l2 & P2 & _ & S2 & L2 & _ & -> & L3). destruct (parts_once _ _ _ _ _ _ _ P P2) as (<- & <- & <-).
       rewrite E in S2. injection S2 as <-. fold vs ws in L2, L3. rewrite repeat_length in L3. apply andb_false_iff in Q. destruct Q as [Q|Q]; apply Nat.leb_gt in Q; lia. }
  apply andb_true_iff in Q. destruct Q as (Q1 & Q2). apply Nat.leb_le in Q1, Q2.
  assert (G : forall us x, x < 256 -> last (map observe_code us) x < 256).
  { induction us as [|v us IH]; intros y Y; [exact Y|]. cbn [map]. rewrite last_cons. apply IH. unfold observe_code. destruct v as [|[|[p|p|]] v]; reflexivity. }
  destruct (answerable_dec h) as [R|R].
  2: { right. unfold rs_reply. rewrite (head_fault false cap jh k _ h tok Hj Hh K2 K3 R). split; [|reflexivity].
       intros r news (h2 & tok2 & rest2 & l2 & P2 & R2 & _). destruct (parts_once _ _ _ _ _ _ _ P P2) as (<- & <- & <-). exact (R R2). }
  left. rewrite (reply_sent cap jh k _ h tok (slashed vs) Hj Hh); auto; [|apply G; reflexivity|lia]. cbn [bind].
  eexists. eexists. split; [|split; [|reflexivity]].
  - exists h, tok, rest, l. split; [exact P|]. split; [exact R|]. split; [exact E|]. split; [exact Q1|]. split; [reflexivity|]. split; [reflexivity|]. rewrite repeat_length. exact Q2.
  - intros r2 news2 (h2 & tok2 & rest2 & l2 & P2 & _ & S2 & _ & -> & -> & _). destruct (parts_once _ _ _ _ _ _ _ P P2) as (<- & <- & <-).
    rewrite E in S2. injection S2 as <-. split; reflexivity.
Qed.
Print Assumptions C88_observe.

(** C88, discoverable: the one reply [core_told] allows, or a stop if there is none. *)
Theorem C88_core : forall cap fuel jh rows cd extra core junk c d, hdr_ok jh -> idle d -> bytes_ok c -> (13 <= cap)%nat -> core <> NONE -> (dec_fuel c <= fuel)%nat ->
  let run := core_server false cap fuel jh rows cd extra core junk c d in
  (exists r, core_told cap rows cd extra core c r /\ (forall r2, core_told cap rows cd extra core c r2 -> r2 = r) /\ run = Ok r) \/
  ((forall r, ~ core_told cap rows cd extra core c r) /\ run = Fault).
Proof.
  intros cap fuel jh rows cd extra core junk c d Hj Hd B Hc Hn Hf run. unfold run. clear run. destruct (parts_or c B) as [(h & tok & rest & P & Hh & Bt & Br)|L].
  2: { right. split; [intros r (h & tok & rest & l & P & _); exact (short_no_parts c h tok rest L P)|]. unfold core_server. rewrite begin_short by assumption. reflexivity. }
  pose proof P as P'. destruct P' as (-> & Ht & H8).
  destruct (C88_visits fuel junk h tok rest d Hh Hd Bt Br Ht H8 Hf) as (k & x & K1 & K2 & K3 & K).
  assert (Lt : hdr_tkl h = N.of_nat (length tok)) by (rewrite tkl_mod; exact Ht).
  unfold core_server. rewrite K1. cbn [bind fst snd]. rewrite (K reads_core). change reads_core with (fun n : N => (n =? 11) || (n =? 15)).
  destruct (seen_ends (fun n : N => (n =? 11) || (n =? 15)) rest Br) as [E|(l & E)]; rewrite E; cbn [bind].
  { right. split; [|reflexivity]. intros r (h2 & tok2 & rest2 & l & P2 & _ & S2 & _). destruct (parts_once _ _ _ _ _ _ _ P P2) as (<- & <- & <-). congruence. }
  rewrite match_path. set (f := m3_found (snd (m3_path (values_of 11 l) (m3_init rows)))).
  set (code := if Z.eqb f NONE then code_not_found else code_content).
  destruct (answerable_dec h) as [R|R].
  2: { right. rewrite (head_fault false cap jh k _ h tok Hj Hh K2 K3 R). split; [|reflexivity].
       intros r (h2 & tok2 & rest2 & l2 & P2 & R2 & _). destruct (parts_once _ _ _ _ _ _ _ P P2) as (<- & <- & <-). exact (R R2). }
  assert (Cc : code < 256) by (unfold code; destruct (Z.eqb f NONE); reflexivity).
  assert (Cl : (4 + length tok <= cap)%nat) by lia.
  destruct (head_sink false cap jh k code _ _ Hj Hh Cc K2 K3 Lt Cl R) as (b & -> & S1 & S2 & S3 & _). cbn [bind].
  unfold nbe_payload_header, assert_not_state, assert_state, nbe_marker_written. rewrite S3, S2, S1. cbn [negb orb bind].
  destruct (cap - (4 + length tok))%nat as [|room] eqn:Er; [lia|]. cbn [sputc bind snd n_sink n_set_state n_set_marker n_set_sink n_set_enc s_out s_room].
  assert (Room : (cap - (5 + length tok))%nat = room) by lia.
  assert (Once : forall r, core_told cap rows cd extra core (hdr_bytes h ++ tok ++ rest) r ->
    (f = NONE /\ r = answer_head 132 h tok ++ [255]) \/ (f <> NONE /\ f <> core /\ r = answer_head 69 h tok ++ [255]) \/
    (f = core /\ exists t, core_text cd extra rows room = Ok t /\ r = answer_head 69 h tok ++ 255 :: t)).
  { intros r (h2 & tok2 & rest2 & l2 & P2 & _ & T2 & T). destruct (parts_once _ _ _ _ _ _ _ P P2) as (<- & <- & <-).
    rewrite E in T2. injection T2 as <-. rewrite Room in T. exact T. }
  assert (Back : forall r, ((f = NONE /\ r = answer_head 132 h tok ++ [255]) \/ (f <> NONE /\ f <> core /\ r = answer_head 69 h tok ++ [255]) \/
    (f = core /\ exists t, core_text cd extra rows room = Ok t /\ r = answer_head 69 h tok ++ 255 :: t)) -> core_told cap rows cd extra core (hdr_bytes h ++ tok ++ rest) r).
  { intros r T. exists h, tok, rest, l. split; [exact P|]. split; [exact R|]. split; [exact E|]. rewrite Room. exact T. }
  destruct (Z.eqb_spec f core) as [Ec|Ec].
  - destruct (core_text cd extra rows room) as [t| |] eqn:T; cbn [bind].
    + left. exists (answer_head 69 h tok ++ 255 :: t). split; [apply Back; right; right; eauto|]. split.
      * intros r2 T2. apply Once in T2. destruct T2 as [(Q & _)|[(_ & Q & _)|(_ & t2 & Q & ->)]]; [congruence|contradiction|]. injection Q as <-. reflexivity.
      * unfold code. destruct (Z.eqb_spec f NONE) as [Q|_]; [congruence|]. rewrite <- app_assoc. reflexivity.
    + right. split; [|reflexivity]. intros r T2. apply Once in T2. destruct T2 as [(Q & _)|[(_ & Q & _)|(_ & t2 & Q & _)]]; congruence.
    + exfalso. unfold core_text in T. destruct (core_walk cd rows []) as [[s y]| |] eqn:W; cbn [bind] in T; try discriminate; [destruct (firstn _ _); discriminate|].
      exact (walk_ends cd rows [] W).
  - left. unfold code. destruct (Z.eqb_spec f NONE) as [Q|Q].
    + exists (answer_head 132 h tok ++ [255]). split; [apply Back; auto|]. split; [|reflexivity].
      intros r2 T2. apply Once in T2. destruct T2 as [(_ & ->)|[(X & _)|(X & _)]]; [reflexivity|contradiction|congruence].
    + exists (answer_head 69 h tok ++ [255]). split; [apply Back; auto|]. split; [|reflexivity].
      intros r2 T2. apply Once in T2. destruct T2 as [(X & _)|[(_ & _ & ->)|(X & _)]]; [contradiction|reflexivity|contradiction].
Qed.
Print Assumptions C88_core.

(** * Checks on the specification *)

(** C88: of a well-formed message [seen] gives what C55 says the iterator shows. *)
Theorem C88_complete : forall os p reads, opts_ok 0 os -> match p with None => True | Some b => bytes_ok b end ->
  seen reads (opts_bytes 0 os ++ pay_bytes p) = Ok (map (fun o => (fst o, if reads (fst o) then snd o else [])) (shown (has p) os)).
Proof.
  intros os p reads Ho Hp. set (h := Hdr 64 1 0 0). set (m := Msg h [] os p). assert (Hh : hdr_ok h) by (apply hdr_ok_iff; repeat split; vm_compute; reflexivity).
  assert (D : idle old_mem) by apply C56_memory.
  assert (Br : bytes_ok (opts_bytes 0 os ++ pay_bytes p)).
  { apply bytes_ok_app. split; [now apply opts_bytes_ok|]. destruct p as [b|]; [|constructor]. apply Forall_cons; [unfold byte_ok; lia|exact Hp]. }
  assert (M : msg_ok m) by (repeat split; auto; try (cbn; lia); constructor).
  set (f := Nat.max (dec_fuel (msg_bytes m)) (S (length os))).
  destruct (C88_visits f [] h [] _ old_mem Hh D ltac:(constructor) Br eq_refl ltac:(cbn; lia)) as (k & x & K1 & _ & _ & K); [unfold f, m; apply Nat.le_max_l|].
  destruct (message_parts [] m old_mem f M D) as (k2 & x2 & L1 & _ & _ & L & _); [unfold f, m; cbn [m_opts]; apply Nat.lt_le_trans with (S (length os)); [lia|apply Nat.le_max_r]|].
  change (msg_bytes m) with (hdr_bytes h ++ [] ++ opts_bytes 0 os ++ pay_bytes p) in L1, L. rewrite K1 in L1. injection L1 as <- <-. rewrite <- K. apply L.
Qed.
Print Assumptions C88_complete.

(** C88: that a server that prints paths stops only at a reserved nibble is false: one byte after the
    token, the start of a Uri-Path header with a two-byte length, stops the uri server. *)
Theorem C88_readable_refuted : forall cap fuel jh junk h tok d, hdr_ok jh -> hdr_ok h -> idle d -> bytes_ok tok -> (12 <= cap)%nat ->
  h0 h mod 16 = len tok -> (length tok <= 8)%nat -> let c := hdr_bytes h ++ tok ++ [190] in (dec_fuel c <= fuel)%nat ->
  ~ unreadable (4 + length tok) [190] /\ uri_server false cap fuel jh junk c d = Fault.
Proof.
  intros cap fuel jh junk h tok d Hj Hh Hd Bt Hc Ht H8 c Hf. split.
  - intros (vs & [E|(_ & pre & b & r & (E & _) & X)]); [vm_compute in E; discriminate|].
    destruct pre as [|p pre]; [|destruct pre; discriminate]. injection E as <- <-. vm_compute in X. destruct X; discriminate.
  - assert (B : bytes_ok c) by (apply bytes_ok_app; split; [now apply hdr_ok_bytes|apply bytes_ok_app; split; [exact Bt|repeat constructor; unfold byte_ok; lia]]).
    destruct (C88_uri cap fuel jh junk c d Hj Hd B Hc Hf) as [(r & (h2 & tok2 & rest2 & l & code & P & _ & S2 & _) & _)|(_ & E)]; [|exact E].
    assert (P2 : parts c h tok [190]) by (split; [reflexivity|auto]). destruct (parts_once _ _ _ _ _ _ _ P P2) as (-> & -> & ->). vm_compute in S2. discriminate.
Qed.
Print Assumptions C88_readable_refuted.

Example C88_hypotheses : let h := Hdr 65 1 18 52 in hdr_ok h /\ idle some_mem /\ h0 h mod 16 = len [7] /\ answerable h /\ bytes_ok [7] /\
  bytes_ok (hdr_bytes h ++ [7; 189]) /\ id_core <> NONE /\ opts_ok 0 [(6, []); (11, [116]); (11, [116; 101])].
Proof.
  cbn zeta. split; [apply hdr_ok_iff; repeat split; vm_compute; reflexivity|].
  split; [split; [left; reflexivity|]; unfold dec_mem, od_bytes, byte_ok; cbn; repeat split; try lia; repeat constructor; unfold byte_ok; lia|].
  split; [reflexivity|]. split; [left; reflexivity|]. split; [repeat constructor; unfold byte_ok; lia|].
  split; [repeat constructor; unfold byte_ok; cbn; lia|]. split; [discriminate|].
  cbn. repeat split; try lia; repeat constructor; unfold byte_ok; lia.
Qed.

(** what is seen: nothing of a lone path; of three options the first and third; four of a value cut
    after its length; six of a header cut before its length; a cut header of an option not read *)
Example C88_seen : let s := seen (fun n => n =? 11) in
  s [] = Ok [] /\ s [177; 116] = Ok [] /\ s [177; 116; 255] = Ok [(11, [])] /\ s [96; 81; 116; 2; 116; 101] = Ok [(6, []); (11, [116; 101])] /\
  s [186] = Ok (repeat (11, []) 4) /\ s [189] = Ok (repeat (11, []) 6) /\ s [189; 2; 116] = Ok (repeat (11, []) 5) /\ s [189; 3; 116] = Fault /\ s [190] = Fault /\
  s [222] = Ok (repeat (0, []) 92) /\ s [240] = Fault /\ s [177; 116; 15] = Fault /\ s [255; 240] = Ok [].
Proof. vm_compute. repeat split. Qed.

Example C88_case : let h := Hdr 65 1 18 52 in let c rest := hdr_bytes h ++ [7] ++ rest in let f rest := dec_fuel (c rest) in
  uri_server false 64 (f [189]) h some_junk (c [189]) some_mem = Ok ([97; 132; 18; 52; 7; 255] ++ repeat 47 6) /\
  uri_server false 64 (f [190]) h some_junk (c [190]) some_mem = Fault /\
  uri_server false 64 (f [0; 0; 180; 116; 101; 115; 116]) h some_junk (c [0; 0; 180; 116; 101; 115; 116]) some_mem =
    Ok [97; 67; 18; 52; 7; 255; 116; 101; 115; 116; 47] /\
  obs_server false 64 (f [109]) 20 h some_junk (c [109]) some_mem 5 [] = Ok ([97; 67; 18; 52; 7; 255], repeat (Session 0 5 [7]) 6) /\
  obs_server false 64 (f [109]) 5 h some_junk (c [109]) some_mem 5 [] = Fault /\
  core_server false 64 (f [222]) h core_rows [] (fun _ => []) id_core some_junk (c [222]) some_mem = Ok [97; 132; 18; 52; 7; 255].
Proof. vm_compute. repeat split. Qed.
