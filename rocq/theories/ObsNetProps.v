(** C78: observers and their notifications over an unreliable network. *)
From Verif Require Import Base UIntModel UIntSpec UIntProofs HeaderModel HeaderSpec HeaderProofs OptEncModel OptSpec StreambufModel OptDecModel DecoderModel DecoderSpec DecoderProofs DecoderProps
  NetbufModel NetbufSpec NetbufProofs NetbufProps ContextModel ObserveModel ObserveSpec ObserveProofs ObserveProps ObsNetSpec.
Local Open Scope N_scope.

(** what the application adds is bytes, in options that can follow Observe *)
Definition body_bytes (b : list opt * option (list N)) : Prop :=
  opts_ok 6 (fst b) /\ match snd b with None => True | Some p => bytes_ok p end.

(** the requests carry tokens *)
Definition token_bytes {A} (o : oop A) : Prop :=
  match o with OObserve _ c _ _ => bytes_ok (c_buf c) | ONotify _ => True end.

(** what the decoder tells of the notification with token [tok] and number [n] *)
Definition tells (body : list N -> N -> list opt * option (list N)) (tok : list N) (n : N) (evs : list event) : Prop :=
  exists h v, be v = n /\ hdr_code h = 69 /\ evs = msg_events (Msg h tok ((6, v) :: fst (body tok n)) (snd (body tok n))).

(** ** The datagrams *)

Lemma sends_app : forall A (p q pre : list (oop A)), sends pre (p ++ q) = sends pre p ++ sends (pre ++ p) q.
Proof.
  induction p as [|o p IH]; intros q pre; cbn [app sends]; [rewrite app_nil_r; reflexivity|].
  rewrite IH, <- !app_assoc. reflexivity.
Qed.

Lemma subs_token : forall A i (h : list (oop A)) a t n, (forall o, In o h -> req_ok o /\ token_bytes o) -> In (a, t, n) (subs i h) -> (length t <= 8)%nat /\ bytes_ok t.
Proof.
  induction h as [|[j c a0 code|j] h IH]; intros a t n H; cbn [subs]; [intros []|..].
  - destruct (_ && _); [|apply IH; intros o O; apply H; now right]. intros [E|E]; [|eapply IH; [|exact E]; intros o O; apply H; now right].
    injection E as _ <- _. destruct (H _ (or_introl eq_refl)) as ((H1 & H2) & H3). cbn [token_bytes] in H3. unfold req_token. split; [rewrite firstn_length; lia|].
    apply Forall_forall. intros x X. unfold bytes_ok in H3. rewrite Forall_forall in H3. apply H3. rewrite <- (firstn_skipn (N.to_nat (hdr_tkl (c_hdr c))) (c_buf c)). apply in_app_iff. now left.
  - apply IH. intros o O. apply H. now right.
Qed.

(** every notification of a history: a token that is bytes, a number from 1 up to the rounds *)
Lemma sends_in : forall A (h pre : list (oop A)) R a t n, (forall o, In o (pre ++ h) -> req_ok o /\ token_bytes o) -> (forall i, rounds i (pre ++ h) <= R) ->
  In (a, t, n) (sends pre h) -> (length t <= 8)%nat /\ bytes_ok t /\ 1 <= n <= R.
Proof.
  induction h as [|o h IH]; intros pre R a t n H HR I; cbn [sends] in I; [destruct I|].
  apply in_app_iff in I. destruct I as [I|I].
  - destruct o as [|i]; [destruct I|]. apply in_map_iff in I. destruct I as ([[a1 t1] n1] & E & I). injection E as -> -> <-.
    destruct (subs_token A i pre a t n1 (fun o O => H o (proj2 (in_app_iff _ _ _) (or_introl O))) I) as (L & B). split; [exact L|]. split; [exact B|].
    apply subs_rounds in I. cbn [snd] in I. specialize (HR i). rewrite rounds_app in HR. cbn [rounds] in HR. rewrite Nat.eqb_refl in HR. lia.
  - apply (IH (pre ++ [o]) R a t n); [intros x X; apply H; rewrite <- app_assoc in X; exact X|intro i; rewrite <- app_assoc; apply HR|exact I].
Qed.

Lemma matches_in : forall A R (xs : list (A * list N)) es k a bs, matches R k xs es -> In (a, bs) xs -> exists j tok n, R j tok n bs /\ In (a, tok, n) es.
Proof.
  induction xs as [|[a1 b1] xs IH]; intros [|[[a2 t] n] es] k a bs M I; cbn [matches] in M; try contradiction.
  destruct M as (-> & M1 & M2). destruct I as [E|I].
  - injection E as -> ->. exists k, t, n. split; [exact M1|now left].
  - destruct (IH _ _ _ _ M2 I) as (j & t1 & n1 & A1 & A2). exists j, t1, n1. split; [exact A1|now right].
Qed.

(** a notification, decoded *)
Lemma told : forall body k tok n bs d, whole_notification body k tok n bs -> (length tok <= 8)%nat -> bytes_ok tok -> n < 2 ^ 31 -> body_bytes (body tok n) -> idle d ->
  exists evs d1 x, dec_run (dec_fuel bs) bs d 0 = Ok (evs, d1, x) /\ idle d1 /\ tells body tok n evs /\ token_of evs = Some tok /\ observe_of evs = Some n.
Proof.
  intros body k tok n bs d (v & V1 & V2 & V3 & ->) L B Hn (O & P) Hd.
  set (f := Fields 1 1 (len tok) 69 (k mod 65536)). assert (Hf : fields_ok f) by (unfold fields_ok, f, len; cbn [f_ver f_type f_tkl f_code f_mid]; split; [reflexivity|]; split; [reflexivity|]; split; [clear -L; lia|]; split; [reflexivity|]; apply N.mod_lt; discriminate).
  assert (Hh : exists h, hdr_ok h /\ hdr_bytes h = wire f).
  { unfold wire. exists (Hdr (f_ver f * 64 + f_type f * 16 + f_tkl f) (f_code f) (f_mid f / 256) (f_mid f mod 256)). split; [|reflexivity].
    destruct Hf as (_ & _ & F3 & F4 & F5). apply hdr_ok_iff. cbn [HeaderModel.h0 HeaderModel.h1 HeaderModel.h2 HeaderModel.h3]. unfold f in *. cbn [f_ver f_type f_tkl f_code f_mid] in *.
    repeat split; try assumption; [clear -L; unfold len; lia|apply N.div_lt_upper_bound; [discriminate|apply N.mod_lt; discriminate]|apply N.mod_lt; discriminate]. }
  destruct Hh as (h & Hh & W). set (m := Msg h tok ((6, v) :: fst (body tok n)) (snd (body tok n))).
  assert (Lv : len v < 65536).
  { assert (Hs : n < 2 ^ 64) by (eapply N.lt_trans; [exact Hn|reflexivity]). pose proof (minimal_unique v V3 V2) as U. rewrite V1 in U. unfold len. rewrite <- U, uenc_length.
    assert (A : (sig n <= 4)%nat) by (apply sig_le; change (256 ^ N.of_nat 4) with 4294967296; change (2 ^ 31) with 2147483648 in Hn; lia). lia. }
  assert (Hm : msg_ok m).
  { unfold m, msg_ok. cbn [m_hdr m_tok m_opts m_pay]. split; [exact Hh|]. split.
    - destruct h as [b0 b1 b2 b3]. unfold hdr_bytes, wire in W. cbn [HeaderModel.h0 HeaderModel.h1 HeaderModel.h2 HeaderModel.h3] in *. injection W as -> _ _ _. unfold f. cbn [f_ver f_type f_tkl]. unfold len. change (1 * 64 + 1 * 16) with (5 * 16). rewrite N.add_comm, N.mod_add by discriminate. apply N.mod_small. lia.
    - split; [exact L|]. split; [exact B|]. split; [|exact P]. cbn [opts_ok]. split; [lia|]. split; [reflexivity|]. split; [exact Lv|]. split; [exact V3|exact O]. }
  assert (Em : wire f ++ tok ++ opts_bytes 0 ((6, v) :: fst (body tok n)) ++ pay_bytes (snd (body tok n)) = msg_bytes m) by (unfold msg_bytes, m; cbn [m_hdr m_tok m_opts m_pay]; rewrite W; reflexivity).
  rewrite Em. assert (Ht : m_opts m <> [] \/ m_pay m <> None) by (left; unfold m; cbn [m_opts]; discriminate).
  destruct (C14_whole_message m d (dec_fuel (msg_bytes m)) Hm Ht Hd (le_n _)) as (d1 & E & D1). exists (msg_events m), d1, (length (msg_bytes m)). split; [exact E|]. split; [exact D1|].
  split.
  - exists h, v. split; [exact V1|]. split; [|reflexivity]. destruct h as [b0 b1 b2 b3]. unfold hdr_bytes, wire in W. cbn [HeaderModel.h0 HeaderModel.h1 HeaderModel.h2 HeaderModel.h3] in *. injection W as _ -> _ _. reflexivity.
  - split; [reflexivity|]. unfold msg_events, m, opt_events. cbn [m_hdr m_tok m_opts m_pay app map fst snd observe_of]. change (6 =? 6) with true. cbn [andb]. f_equal.
    rewrite uint_get_t_be by (auto; lia). rewrite V1. apply N.mod_small. eapply N.lt_trans; [exact Hn|reflexivity].
Qed.

(** ** The client *)

Lemma fresher_spec : forall a b, a < 2 ^ 23 -> b < 2 ^ 23 -> fresher a b = (a <? b).
Proof.
  intros a b Ha Hb. unfold fresher. destruct (N.ltb_spec a b); cbn [andb orb].
  - destruct (N.ltb_spec (b - a) (2 ^ 23)); [reflexivity|lia].
  - destruct (N.ltb_spec b a); cbn [andb]; [|reflexivity]. destruct (N.ltb_spec (2 ^ 23) (a - b)); [lia|reflexivity].
Qed.

(** datagrams [ds] are the notifications with tokens and numbers [es] *)
Definition are (body : list N -> N -> list opt * option (list N)) (ds : list (list N)) (es : list (list N * N)) : Prop :=
  Forall2 (fun b e => exists k, whole_notification body k (fst e) (snd e) b) ds es.

(** the newest of [es] for [tok], or what was there before *)
Definition newest (body : list N -> N -> list opt * option (list N)) (tok : list N) (es : list (list N * N)) (cur : view) : Prop :=
  match cur with
  | None => forall n, ~ In (tok, n) es
  | Some (n, evs) => In (tok, n) es /\ tells body tok n evs /\ forall n', In (tok, n') es -> n' <= n
  end.

Lemma client_newest : forall body tok ds es es0 d cur, are body ds es -> idle d -> (forall t n, body_bytes (body t n)) ->
  (forall t n, In (t, n) (es0 ++ es) -> (length t <= 8)%nat /\ bytes_ok t /\ n < 2 ^ 23) -> newest body tok es0 cur ->
  exists cur1 d1, client_run tok ds d cur = Ok (cur1, d1) /\ idle d1 /\ newest body tok (es0 ++ es) cur1.
Proof.
  intros body tok ds es es0 d cur H Hd Hb. revert es0 d cur Hd. induction H as [|b [t n] ds es (k & W) H IH]; intros es0 d cur Hd Hg Hc.
  - exists cur, d. rewrite app_nil_r. split; [reflexivity|]. split; assumption.
  - cbn [fst snd] in W. assert (It : In (t, n) (es0 ++ (t, n) :: es)) by (apply in_app_iff; right; now left). destruct (Hg t n It) as (G1 & G2 & G3).
    destruct (told body k t n b d W G1 G2) as (evs & d1 & x & E & D1 & T & T1 & T2); [eapply N.lt_trans; [exact G3|reflexivity]|apply Hb|exact Hd|].
    destruct (IH (es0 ++ [(t, n)]) d1 (take tok cur evs) D1) as (cur1 & d2 & R & D2 & N2).
    + intros t1 n1 I1. rewrite <- app_assoc in I1. exact (Hg t1 n1 I1).
    + unfold take. rewrite T1, T2. destruct (list_eq_dec N.eq_dec t tok) as [->|Hn].
      * destruct cur as [[m e]|]; cbn [newest] in Hc.
        -- destruct Hc as (C1 & C2 & C3). destruct (Hg tok m) as (_ & _ & Gm); [apply in_app_iff; now left|]. rewrite fresher_spec by assumption.
           destruct (N.ltb_spec m n); cbn [newest].
           ++ split; [apply in_app_iff; right; now left|]. split; [exact T|]. intros n1 I1. apply in_app_iff in I1. destruct I1 as [I1|[I1|[]]]; [specialize (C3 _ I1); lia|injection I1 as <-; lia].
           ++ split; [apply in_app_iff; now left|]. split; [exact C2|]. intros n1 I1. apply in_app_iff in I1. destruct I1 as [I1|[I1|[]]]; [apply C3, I1|injection I1 as <-; lia].
        -- cbn [newest]. split; [apply in_app_iff; right; now left|]. split; [exact T|]. intros n1 I1. apply in_app_iff in I1. destruct I1 as [I1|[I1|[]]]; [now apply Hc in I1|injection I1 as <-; lia].
      * destruct cur as [[m e]|]; cbn [newest] in *.
        -- destruct Hc as (C1 & C2 & C3). split; [apply in_app_iff; now left|]. split; [exact C2|]. intros n1 I1. apply in_app_iff in I1. destruct I1 as [I1|[I1|[]]]; [apply C3, I1|injection I1 as -> _; contradiction].
        -- intros n1 I1. apply in_app_iff in I1. destruct I1 as [I1|[I1|[]]]; [now apply Hc in I1|injection I1 as -> _; contradiction].
    + exists cur1, d2. cbn [client_run]. rewrite E. cbn [bind]. split; [exact R|]. split; [exact D2|]. rewrite <- app_assoc in N2. exact N2.
Qed.

(** histories within the limits of C35, with less than 2^23 rounds of each subject *)
Definition history_ok {A} (debug : bool) (cap room : nat) (body : list N -> N -> list opt * option (list N)) (ops : list (oop A)) : Prop :=
  (forall tok seq, (length tok <= 8)%nat -> body_ok debug room (body tok seq)) /\ (forall tok seq, body_bytes (body tok seq)) /\
  (forall o, In o ops -> req_ok o /\ token_bytes o) /\ (forall i, (registrations i ops <= cap)%nat) /\ (forall i, rounds i ops < 2 ^ 23) /\
  N.of_nat (length (sends [] ops)) < 2 ^ 31.

Lemma history_run : forall A debug cap room body (ops : list (oop A)), history_ok debug cap room body ops ->
  exists outs st, obs_run debug cap room (emit_body body) ops obs_init = Ok (outs, st) /\ matches (whole_notification body) 0 (sent outs) (sends [] ops).
Proof.
  intros A debug cap room body ops (H1 & H2 & H3 & H4 & H5 & H6).
  destruct (C35_exact A debug cap room body ops H1 (fun o O => proj1 (H3 o O)) H4) as (outs & st & E & M & _); [intro i; eapply N.lt_trans; [apply H5|reflexivity]|exact H6|]. eauto.
Qed.

(** Whatever of what was sent to an address arrives, in whatever order and how often: it is decoded
    as the notifications sent, and a client that goes by RFC 7641 3.4 then holds the one with the
    largest number for its token, with what the application put into that one. *)
Theorem C78_largest : forall A debug cap room body (ops : list (oop A)), history_ok debug cap room body ops ->
  exists outs st, obs_run debug cap room (emit_body body) ops obs_init = Ok (outs, st) /\
    forall a tok ds d, idle d -> (forall b, In b ds -> In (a, b) (sent outs)) ->
    exists es cur d1, are body ds es /\ (forall t n, In (t, n) es -> In (a, t, n) (sends [] ops)) /\
      client_run tok ds d None = Ok (cur, d1) /\ idle d1 /\ newest body tok es cur.
Proof.
  intros A debug cap room body ops H. destruct (history_run _ _ _ _ _ _ H) as (outs & st & E & M). exists outs, st. split; [exact E|]. destruct H as (H1 & H2 & H3 & H4 & H5 & H6).
  intros a tok ds d Hd Hds.
  assert (X : exists es, are body ds es /\ forall t n, In (t, n) es -> In (a, t, n) (sends [] ops)).
  { clear Hd. induction ds as [|b ds IH]; [exists []; split; [constructor|intros t n []]|]. destruct IH as (es & I1 & I2); [intros x X; apply Hds; now right|].
    destruct (matches_in _ _ _ _ _ _ _ M (Hds b (or_introl eq_refl))) as (j & t & n & W & I). exists ((t, n) :: es). split; [constructor; [exists j; exact W|exact I1]|].
    intros t1 n1 [Y|Y]; [injection Y as <- <-; exact I|now apply I2]. }
  destruct X as (es & X1 & X2).
  destruct (client_newest body tok ds es [] d None X1 Hd H2) as (cur & d1 & R & D1 & N1).
  - cbn [app]. intros t n I. apply X2 in I. destruct (sends_in A ops [] (2 ^ 23 - 1) a t n) as (L & B & Q); auto; [intro i; specialize (H5 i); cbn [app]; lia|]. split; [exact L|]. split; [exact B|]. lia.
  - intros n [].
  - exists es, cur, d1. auto.
Qed.
Print Assumptions C78_largest.

(** ** One registration *)

(** [o] registers [tok] from [a] *)
Definition registers {A} (a : A) (tok : list N) (o : oop A) : Prop :=
  match o with OObserve _ c a1 code => a1 = a /\ req_token c = tok /\ code = 0 | ONotify _ => False end.

Lemma subs_app : forall A j (p q : list (oop A)), subs j (p ++ q) = map (fun x => let '(a, t, n) := x in (a, t, n + rounds j q)) (subs j p) ++ subs j q.
Proof.
  induction p as [|[k c a code|k] p IH]; intro q; cbn [app subs map]; [reflexivity|..|apply IH].
  destruct (_ && _); [|apply IH]. cbn [map app]. rewrite IH, rounds_app. reflexivity.
Qed.

Lemma subs_none : forall A j (a : A) tok n h, (forall o, In o h -> ~ registers a tok o) -> ~ In (a, tok, n) (subs j h).
Proof.
  induction h as [|[k c a1 code|k] h IH]; intros H; cbn [subs]; [intros []|..].
  - destruct (Nat.eqb k j && (code =? 0)) eqn:E; [|apply IH; intros o O; apply H; now right]. intros [X|X]; [|revert X; apply IH; intros o O; apply H; now right].
    injection X as -> X _. apply (H _ (or_introl eq_refl)). apply andb_true_iff in E. destruct E as (_ & E). apply N.eqb_eq in E. repeat split; assumption.
  - apply IH. intros o O. apply H. now right.
Qed.

Lemma subs_one : forall A j i c (a : A) p q, (forall o, In o (p ++ q) -> ~ registers a (req_token c) o) ->
  exists x y, subs j (p ++ OObserve i c a 0 :: q) = x ++ (if Nat.eqb i j then [(a, req_token c, rounds j q)] else []) ++ y /\
    (forall n, ~ In (a, req_token c, n) x) /\ (forall n, ~ In (a, req_token c, n) y).
Proof.
  intros A j i c a p q H. rewrite subs_app. cbn [subs rounds]. change (0 =? 0) with true. rewrite andb_true_r.
  exists (map (fun x => let '(a0, t, n) := x in (a0, t, n + rounds j q)) (subs j p)), (subs j q). split; [destruct (Nat.eqb i j); reflexivity|]. split.
  - intros n I. apply in_map_iff in I. destruct I as ([[a1 t1] n1] & E & I). injection E as -> -> _. revert I. apply subs_none. intros o O. apply H. apply in_app_iff. now left.
  - intros n. apply subs_none. intros o O. apply H. apply in_app_iff. now right.
Qed.

Definition grows {A} (a : A) (tok : list N) (x y : A * list N * N) : Prop := fst x = (a, tok) -> fst y = (a, tok) -> snd x < snd y.

Lemma pairs_app : forall B (R : B -> B -> Prop) l1 l2, ForallOrdPairs R l1 -> ForallOrdPairs R l2 -> (forall x y, In x l1 -> In y l2 -> R x y) -> ForallOrdPairs R (l1 ++ l2).
Proof.
  intros B R l1 l2 H1 H2. induction H1 as [|x l1 F H1 IH]; intro H; cbn [app]; [exact H2|]. constructor.
  - apply Forall_app. split; [exact F|]. apply Forall_forall. intros y Y. apply H; [now left|exact Y].
  - apply IH. intros u v U V. apply H; [now right|exact V].
Qed.

Lemma grows_none : forall A (a : A) tok l, (forall n, ~ In (a, tok, n) l) -> ForallOrdPairs (grows a tok) l.
Proof.
  induction l as [|[k n] l IH]; intro H; constructor.
  - apply Forall_forall. intros y Y. unfold grows. cbn [fst snd]. intros -> _. destruct (H n). now left.
  - apply IH. intros m M. apply (H m). now right.
Qed.

Lemma grows_one : forall A (a : A) tok x e y, (forall n, ~ In (a, tok, n) x) -> (forall n, ~ In (a, tok, n) y) -> ForallOrdPairs (grows a tok) (x ++ e :: y).
Proof.
  intros A a tok x [k n] y Hx Hy. apply pairs_app; [now apply grows_none| |].
  - constructor; [|now apply grows_none]. apply Forall_forall. intros [k1 m] Y. unfold grows. cbn [fst snd]. intros _ ->. now apply Hy in Y.
  - intros [k1 m] z X _. unfold grows. cbn [fst snd]. intros -> _. now apply Hx in X.
Qed.

Lemma sends_one : forall A i c (a : A) h p q, (forall o, In o (p ++ q ++ h) -> ~ registers a (req_token c) o) ->
  (forall n, In (a, req_token c, n) (sends (p ++ OObserve i c a 0 :: q) h) <-> rounds i q < n <= rounds i (q ++ h)) /\
  ForallOrdPairs (grows a (req_token c)) (sends (p ++ OObserve i c a 0 :: q) h).
Proof.
  intros A i c a h. induction h as [|o h IH]; intros p q H; cbn [sends].
  - split; [|constructor]. rewrite app_nil_r. intro n. split; [intros []|lia].
  - destruct (IH p (q ++ [o])) as (I1 & I2); [intros x X; apply H; rewrite <- app_assoc in X; exact X|].
    change ((p ++ OObserve i c a 0 :: q) ++ [o]) with ((p ++ OObserve i c a 0 :: q) ++ [o]). rewrite <- app_assoc. cbn [app].
    rewrite !rounds_app in I1.
    assert (R : rounds i (q ++ o :: h) = rounds i q + rounds i [o] + rounds i h) by (change (o :: h) with ([o] ++ h); rewrite !rounds_app; lia).
    destruct o as [j c1 a1 code|j].
    + cbn [app]. rewrite R. split; [|exact I2]. intro n. rewrite I1. cbn [rounds]. lia.
    + destruct (subs_one A j i c a p q) as (x & y & E & Hx & Hy); [intros o O; apply H; apply in_app_iff in O; apply in_app_iff; destruct O as [O|O]; [now left|right; apply in_app_iff; now left]|].
      rewrite E, !map_app. set (F := fun x0 : A * list N * N => let '(a0, t, n) := x0 in (a0, t, n + 1)).
      assert (M : forall l, (forall n, ~ In (a, req_token c, n) l) -> forall n, ~ In (a, req_token c, n) (map F l)).
      { intros l Hl n I. apply in_map_iff in I. destruct I as ([[a1 t1] n1] & E1 & I). injection E1 as -> -> _. now apply Hl in I. }
      pose proof (M _ Hx) as Mx. pose proof (M _ Hy) as My. rewrite R. cbn [rounds] in I1 |- *. rewrite (Nat.eqb_sym j i) in *.
      destruct (Nat.eqb i j) eqn:Eij.
      * apply Nat.eqb_eq in Eij. subst j. cbn [map app F]. split.
        -- intro n. rewrite in_app_iff, I1. split.
           ++ intros [X|X]; [|lia]. apply in_app_iff in X. destruct X as [X|[X|X]]; [now apply Mx in X|injection X as <-; lia|now apply My in X].
           ++ intro X. destruct (N.eq_dec n (rounds i q + 1)) as [->|Hn]; [left; apply in_app_iff; right; now left|right; lia].
        -- apply pairs_app; [now apply grows_one|exact I2|]. intros [k1 n1] [k2 n2] X Y. unfold grows. cbn [fst snd]. intros -> ->. apply I1 in Y.
           apply in_app_iff in X. destruct X as [X|[X|X]]; [now apply Mx in X|injection X as <-; lia|now apply My in X].
      * cbn [map app]. rewrite <- map_app. assert (Mxy : forall n, ~ In (a, req_token c, n) (map F (x ++ y))) by (intros n X; rewrite map_app in X; apply in_app_iff in X; destruct X as [X|X]; [now apply Mx in X|now apply My in X]).
        split.
        -- intro n. rewrite in_app_iff, I1. split; [intros [X|X]; [now apply Mxy in X|lia]|intro X; right; lia].
        -- apply pairs_app; [now apply grows_none|exact I2|]. intros [k1 n1] z X _. unfold grows. cbn [fst snd]. intros -> _. now apply Mxy in X.
Qed.

Lemma sends_none : forall A (a : A) tok h pre n, (forall o, In o (pre ++ h) -> ~ registers a tok o) -> ~ In (a, tok, n) (sends pre h).
Proof.
  induction h as [|o h IH]; intros pre n H; cbn [sends]; [intros []|]. intro I. apply in_app_iff in I. destruct I as [I|I].
  - destruct o as [|j]; [destruct I|]. apply in_map_iff in I. destruct I as ([[a1 t1] n1] & E & I). injection E as -> -> _. revert I. apply subs_none. intros o O. apply H. apply in_app_iff. now left.
  - revert I. apply IH. intros x X. apply H. rewrite <- app_assoc in X. exact X.
Qed.

(** A token registered once from an address gets one notification for every round that follows,
    numbered 1, 2, 3 and so on in the order they are sent. *)
Theorem C78_rounds : forall A i c (a : A) p q, (forall o, In o (p ++ q) -> ~ registers a (req_token c) o) ->
  (forall n, In (a, req_token c, n) (sends [] (p ++ OObserve i c a 0 :: q)) <-> 1 <= n <= rounds i q) /\
  ForallOrdPairs (grows a (req_token c)) (sends [] (p ++ OObserve i c a 0 :: q)).
Proof.
  intros A i c a p q H. rewrite sends_app. cbn [app sends]. destruct (sends_one A i c a q p []) as (S1 & S2); [exact H|].
  assert (P : forall n, ~ In (a, req_token c, n) (sends [] p)) by (intro n; apply sends_none; intros o O; apply H; apply in_app_iff; now left).
  cbn [app rounds] in S1. split.
  - intro n. rewrite in_app_iff, S1. split; [intros [X|X]; [now apply P in X|lia]|intro X; right; lia].
  - apply pairs_app; [now apply grows_none|exact S2|]. intros [k1 n1] z X _. unfold grows. cbn [fst snd]. intros -> _. now apply P in X.
Qed.
Print Assumptions C78_rounds.

(** a datagram is at most one notification *)
Lemma one_notification : forall body d b k t n k1 t1 n1, idle d -> whole_notification body k t n b -> whole_notification body k1 t1 n1 b -> (forall t n, body_bytes (body t n)) ->
  (length t <= 8)%nat -> bytes_ok t -> n < 2 ^ 31 -> (length t1 <= 8)%nat -> bytes_ok t1 -> n1 < 2 ^ 31 -> t = t1 /\ n = n1.
Proof.
  intros body d b k t n k1 t1 n1 Hd W W1 B L1 B1 N1 L2 B2 N2.
  destruct (told body k t n b d W L1 B1 N1 (B _ _)) as (evs & d1 & x & E & _ & _ & T & O);[exact Hd|].
  destruct (told body k1 t1 n1 b d W1 L2 B2 N2 (B _ _)) as (evs1 & d2 & x1 & E1 & _ & _ & T1 & O1);[exact Hd|].
  rewrite E in E1. injection E1 as <- _ _. rewrite T in T1. rewrite O in O1. injection T1 as <-. injection O1 as <-. split; reflexivity.
Qed.

(** The token registered once: as soon as the notification of the last round has arrived, the
    client holds what the application put into that one, whatever else arrived before or after. *)
Theorem C78_newest : forall A debug cap room body p i c (a : A) q, let ops := p ++ OObserve i c a 0 :: q in let tok := req_token c in
  history_ok debug cap room body ops -> (forall o, In o (p ++ q) -> ~ registers a tok o) ->
  exists outs st, obs_run debug cap room (emit_body body) ops obs_init = Ok (outs, st) /\
    forall ds d k b, idle d -> (forall x, In x ds -> In (a, x) (sent outs)) -> In b ds -> whole_notification body k tok (rounds i q) b ->
    exists evs d1, client_run tok ds d None = Ok (Some (rounds i q, evs), d1) /\ idle d1 /\ tells body tok (rounds i q) evs.
Proof.
  intros A debug cap room body p i c a q ops tok H Hone. destruct (C78_largest A debug cap room body ops H) as (outs & st & E & L). exists outs, st. split; [exact E|].
  intros ds d k b Hd Hds Ib W. destruct (L a tok ds d Hd Hds) as (es & cur & d1 & X1 & X2 & R & D1 & N1). destruct H as (H1 & H2 & H3 & H4 & H5 & H6).
  destruct (C78_rounds A i c a p q Hone) as (Q1 & _).
  assert (Ie : In (tok, rounds i q) es).
  { assert (Y : exists t n k1, In (t, n) es /\ whole_notification body k1 t n b).
    { clear -X1 Ib. induction X1 as [|x [t n] ds es (k1 & W) X IH]; [destruct Ib|]. destruct Ib as [->|Ib]; [exists t, n, k1; split; [now left|exact W]|].
      destruct (IH Ib) as (t1 & n1 & k2 & I & W1). exists t1, n1, k2. split; [now right|exact W1]. }
    destruct Y as (t & n & k1 & I & W1). pose proof (X2 _ _ I) as S1.
    destruct (sends_in A ops [] (2 ^ 23 - 1) a t n) as (L1 & B1 & Q); auto; [intro j; specialize (H5 j); cbn [app]; lia|].
    assert (Hc : req_ok (OObserve i c a 0) /\ token_bytes (OObserve i c a 0)) by (apply H3; unfold ops; apply in_app_iff; right; now left).
    destruct (subs_token A i [OObserve i c a 0] a tok 0) as (L2 & B2); [intros o [<-|[]]; exact Hc|cbn [subs]; rewrite Nat.eqb_refl; now left|].
    assert (Hr : rounds i q < 2 ^ 31). { specialize (H5 i). unfold ops in H5. rewrite rounds_app in H5. cbn [rounds] in H5. eapply N.le_lt_trans; [|eapply N.lt_trans; [exact H5|reflexivity]]. lia. }
    destruct (one_notification body d b k tok (rounds i q) k1 t n Hd W W1 H2 L2 B2 Hr L1 B1) as (<- & <-); [eapply N.le_lt_trans; [apply (proj2 Q)|reflexivity]|exact I]. }
  destruct cur as [[n evs]|]; cbn [newest] in N1; [|now apply N1 in Ie]. destruct N1 as (N1 & N2 & N3). specialize (N3 _ Ie).
  pose proof (proj1 (Q1 n) (X2 _ _ N1)) as Q2. assert (n = rounds i q) by lia. subst n. exists evs, d1. auto.
Qed.
Print Assumptions C78_newest.

Lemma sample_history : history_ok false 4 64 sample_body sample_ops.
Proof.
  split; [|split; [|split; [|split; [|split]]]].
  - intros tok seq _. unfold body_ok, sample_body. cbn [fst snd opts_within]. unfold enc_short, len. cbn [length]. split; [lia|]. split; [apply Nat.leb_le; vm_compute; reflexivity|left; reflexivity].
  - intros tok seq. unfold body_bytes, sample_body, bytes_ok. cbn [fst snd opts_ok]. repeat split; repeat (apply Forall_cons || apply Forall_nil); vm_compute; (reflexivity || discriminate).
  - intros o H. unfold token_bytes, bytes_ok. cbn in H. destruct H as [<-|[<-|[<-|[<-|[<-|[<-|[]]]]]]]; (split; [cbn; try exact I; vm_compute; split; congruence || reflexivity|]); try exact I; cbn; repeat (apply Forall_cons || apply Forall_nil); reflexivity.
  - intros [|[|i]]; apply Nat.leb_le; reflexivity.
  - intros [|[|i]]; reflexivity.
  - reflexivity.
Qed.

Definition sample_last : list N := [0x52; 69; 0; 1] ++ [1; 2] ++ [0x61; 2; 0x61; 0; 255; 104; 105].
Definition sample_first : list N := [0x52; 69; 0; 0] ++ [1; 2] ++ [0x61; 1; 0x61; 0; 255; 104; 105].

Example C78_newest_case : exists outs st,
  obs_run false 4 64 (emit_body sample_body) sample_ops obs_init = Ok (outs, st) /\
  sample_ops = [] ++ OObserve 0 (sample_ctx [1; 2]) 1001 0 :: tl sample_ops /\ rounds 0 (tl sample_ops) = 2 /\
  (forall o, In o ([] ++ tl sample_ops) -> ~ registers 1001 [1; 2] o) /\
  (forall b, In b [sample_last; sample_first] -> In (1001, b) (sent outs)) /\ whole_notification sample_body 1 [1; 2] 2 sample_last /\
  (forall ds, ds = [sample_last; sample_first; sample_first; sample_last] \/ ds = [sample_first; sample_last; sample_first] -> exists d1,
     client_run [1; 2] ds sample_dec None =
       Ok (Some (2, [EHeader (Hdr 0x52 69 0 1); EToken [1; 2]; EOptStart; EOption 6 [2] true; EOption 12 [0] true; EOptDone; EPayload [104; 105] true; ECompleted]), d1)).
Proof.
  eexists. eexists. split; [vm_compute; reflexivity|]. split; [reflexivity|]. split; [reflexivity|]. split; [|split; [|split]].
  - intros o H. cbn in H. destruct H as [<-|[<-|[<-|[<-|[<-|[]]]]]]; vm_compute; intuition discriminate.
  - intros b [<-|[<-|[]]]; vm_compute; tauto.
  - exists [2]. split; [reflexivity|]. split; [discriminate|]. split; [repeat constructor|]. reflexivity.
  - intros ds [-> | ->]; eexists; vm_compute; reflexivity.
Qed.

(** ** Registering again *)

Lemma subs_again : forall A i c (a : A) n, subs i (OObserve i c a 0 :: repeat (ONotify i) n) = [(a, req_token c, N.of_nat n)].
Proof.
  intros. cbn [subs]. rewrite Nat.eqb_refl. change (0 =? 0) with true. cbn [andb]. f_equal; [|induction n; [reflexivity|exact IHn]]. f_equal.
  induction n as [|n IH]; [reflexivity|]. cbn [repeat rounds]. rewrite Nat.eqb_refl, IH. lia.
Qed.

Lemma rounds_repeat : forall A i n, rounds i (repeat (@ONotify A i) n) = N.of_nat n.
Proof. induction n as [|n IH]; [reflexivity|]. cbn [repeat rounds]. rewrite Nat.eqb_refl, IH. lia. Qed.

Lemma matches_at : forall A R es1 (xs : list (A * list N)) k a t n es2, matches R k xs (es1 ++ (a, t, n) :: es2) ->
  exists x b y j, xs = x ++ (a, b) :: y /\ R j t n b /\ matches R (j + 1) y es2.
Proof.
  induction es1 as [|[[a1 t1] n1] es1 IH]; intros [|[a2 b2] xs] k a t n es2 M; cbn [app matches] in M; try contradiction.
  - destruct M as (-> & M1 & M2). exists [], b2, xs, k. split; [reflexivity|]. split; assumption.
  - destruct M as (-> & M1 & M2). destruct (IH _ _ _ _ _ _ M2) as (x & b & y & j & -> & M3 & M4). exists ((a1, b2) :: x), b, y, j. split; [reflexivity|]. split; assumption.
Qed.

Lemma sends_again : forall A i c (a : A) n m, exists s1 s2,
  sends [] (OObserve i c a 0 :: repeat (ONotify i) (S n) ++ OObserve i c a 0 :: repeat (ONotify i) (S m)) =
    s1 ++ (a, req_token c, N.of_nat (S n)) :: s2 ++ [(a, req_token c, N.of_nat (S m))].
Proof.
  intros A i c a n m. set (R := OObserve i c a 0).
  assert (E : forall k, repeat (@ONotify A i) (S k) = repeat (ONotify i) k ++ [ONotify i]) by (intro k; rewrite <- repeat_cons; reflexivity).
  assert (L : forall P : list (oop A), sends [] (P ++ [ONotify i]) = sends [] P ++ map (fun x => let '(a0, t, k) := x in (a0, t, k + 1)) (subs i P)) by (intro P; rewrite sends_app; cbn [app sends]; rewrite app_nil_r; reflexivity).
  replace (R :: repeat (ONotify i) (S n) ++ R :: repeat (ONotify i) (S m)) with (((R :: repeat (ONotify i) (S n)) ++ (R :: repeat (ONotify i) m)) ++ [ONotify i]) by (rewrite (E m); cbn [app]; rewrite <- !app_assoc; reflexivity).
  assert (SA : forall k, subs i (R :: repeat (ONotify i) k) = [(a, req_token c, N.of_nat k)]) by (intro k; apply subs_again).
  rewrite L, subs_app, sends_app. rewrite !SA. cbn [map app rounds]. rewrite rounds_repeat.
  replace (R :: repeat (ONotify i) (S n)) with ((R :: repeat (ONotify i) n) ++ [ONotify i]) by (rewrite (E n); reflexivity). rewrite L. rewrite SA. cbn [map].
  exists (sends [] (R :: repeat (ONotify i) n)), (sends ((R :: repeat (ONotify i) n) ++ [ONotify i]) (R :: repeat (ONotify i) m) ++ [(a, req_token c, N.of_nat (S n) + N.of_nat m + 1)]).
  replace (N.of_nat n + 1) with (N.of_nat (S n)) by lia. replace (N.of_nat m + 1) with (N.of_nat (S m)) by lia. rewrite <- !app_assoc. cbn [app]. reflexivity.
Qed.

(** FINDING: a client that registers again under its token, as RFC 7641 3.3.1 lets it to refresh its
    interest, gets a second series numbered from 1; the notification of the last round in that
    series is older to the client than one it had before, so it stays with the old state. *)
Theorem C78_again_refuted : forall A debug cap room body i c (a : A) n m,
  let ops := OObserve i c a 0 :: repeat (ONotify i) n ++ OObserve i c a 0 :: repeat (ONotify i) m in let tok := req_token c in
  history_ok debug cap room body ops -> (1 <= m <= n)%nat ->
  exists outs st k1 b1 k2 b2 x y, obs_run debug cap room (emit_body body) ops obs_init = Ok (outs, st) /\ sent outs = x ++ (a, b1) :: y ++ [(a, b2)] /\
    whole_notification body k1 tok (N.of_nat n) b1 /\ whole_notification body k2 tok (N.of_nat m) b2 /\
    forall d, idle d -> exists evs d1, client_run tok [b1; b2] d None = Ok (Some (N.of_nat n, evs), d1) /\ tells body tok (N.of_nat n) evs.
Proof.
  intros A debug cap room body i c a n m ops tok H Hm. destruct (history_run _ _ _ _ _ _ H) as (outs & st & E & M). destruct H as (H1 & H2 & H3 & H4 & H5 & H6).
  destruct n as [|n]; [lia|]. destruct m as [|m]; [lia|]. destruct (sends_again A i c a n m) as (s1 & s2 & Es). fold ops in Es. fold tok in Es. rewrite Es in M.
  destruct (matches_at _ _ _ _ _ _ _ _ _ M) as (x & b1 & y & k1 & Ex & W1 & M1). destruct (matches_at _ _ _ _ _ _ _ _ _ M1) as (y1 & b2 & z & k2 & Ey & W2 & M2).
  destruct z as [|[za zb] z]; [|cbn [matches] in M2; contradiction]. exists outs, st, k1, b1, k2, b2, x, y1. split; [exact E|]. split; [rewrite Ex, Ey; reflexivity|]. split; [exact W1|]. split; [exact W2|]. intros d Hd.
  assert (Hc : req_ok (OObserve i c a 0) /\ token_bytes (OObserve i c a 0)) by (apply H3; now left).
  destruct (subs_token A i [OObserve i c a 0] a tok 0) as (L & B); [intros o [<-|[]]; exact Hc|cbn [subs]; rewrite Nat.eqb_refl; now left|].
  assert (Hn : N.of_nat (S n) < 2 ^ 23). { specialize (H5 i). unfold ops in H5. change (OObserve i c a 0 :: repeat (ONotify i) (S n) ++ OObserve i c a 0 :: repeat (ONotify i) (S m)) with ((OObserve i c a 0 :: repeat (ONotify i) (S n)) ++ OObserve i c a 0 :: repeat (ONotify i) (S m)) in H5. rewrite rounds_app in H5. cbn [rounds] in H5. rewrite !rounds_repeat in H5. eapply N.le_lt_trans; [|exact H5]. apply N.le_add_r. }
  assert (Hm1 : N.of_nat (S m) < 2 ^ 23) by (eapply N.le_lt_trans; [|exact Hn]; lia).
  assert (Up : forall u, u < 2 ^ 23 -> u < 2 ^ 31) by (intros u Hu; eapply N.lt_trans; [exact Hu|reflexivity]).
  destruct (told body k1 tok (N.of_nat (S n)) b1 d W1 L B (Up _ Hn) (H2 _ _) Hd) as (evs & d1 & p1 & E1 & D1 & T & T1 & T2).
  destruct (told body k2 tok (N.of_nat (S m)) b2 d1 W2 L B (Up _ Hm1) (H2 _ _) D1) as (evs2 & d2 & p2 & E2 & D2 & T' & T3 & T4).
  exists evs, d2. split; [|exact T]. cbn [client_run]. rewrite E1. cbn [bind]. rewrite E2. cbn [bind]. unfold take. rewrite T1, T2, T3, T4.
  destruct (list_eq_dec N.eq_dec tok tok) as [_|X]; [|contradiction]. rewrite fresher_spec by assumption. destruct (N.ltb_spec (N.of_nat (S n)) (N.of_nat (S m))); [lia|reflexivity].
Qed.
Print Assumptions C78_again_refuted.

Definition again_ops : list (oop N) := OObserve 0 (sample_ctx [1; 2]) 1001 0 :: repeat (ONotify 0) 3 ++ OObserve 0 (sample_ctx [1; 2]) 1001 0 :: repeat (ONotify 0) 2.

Example C78_again_case : history_ok false 4 64 sample_body again_ops /\ exists outs st,
  obs_run false 4 64 (emit_body sample_body) again_ops obs_init = Ok (outs, st) /\
  map snd (sends [] again_ops) = [1; 2; 3; 4; 1; 5; 2] /\
  exists b3 b7, nth_error (sent outs) 2 = Some (1001, b3) /\ nth_error (sent outs) 6 = Some (1001, b7) /\ exists evs d1, client_run [1; 2] [b3; b7] sample_dec None = Ok (Some (3, evs), d1).
Proof.
  split; [|eexists; eexists; split; [vm_compute; reflexivity|]; split; [reflexivity|]; eexists; eexists; split; [reflexivity|]; split; [reflexivity|]; eexists; eexists; vm_compute; reflexivity].
  destruct sample_history as (S1 & S2 & _). split; [exact S1|]. split; [exact S2|]. split; [|split; [|split]].
  - intros o H. unfold token_bytes, bytes_ok. cbn in H. destruct H as [<-|[<-|[<-|[<-|[<-|[<-|[<-|[]]]]]]]]; (split; [cbn; try exact I; vm_compute; split; congruence || reflexivity|]); try exact I; cbn; repeat (apply Forall_cons || apply Forall_nil); reflexivity.
  - intros [|[|i]]; apply Nat.leb_le; reflexivity.
  - intros [|[|i]]; reflexivity.
  - reflexivity.
Qed.
