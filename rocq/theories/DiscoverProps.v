(** C89: the uri and the discoverable program under any traffic. *)
From Coq Require Import String ZArith.
From Verif Require Import Base HeaderModel HeaderSpec HeaderProofs OptEncModel OptSpec StreambufModel StreambufProofs ContextModel UriModel UriSpec UriProofs UriProps AppModel NetbufModel NetbufProofs
  DiagModel ObserveModel RespModel RespSpec RespProofs RespProps OptDecModel OptDecSpec OptDecProofs DecoderModel DecoderSpec DecoderProofs NetDecModel NetDecSpec NetDecProofs NetDecProps
  HeadCutSpec NetAnySpec NetAnyProofs NetAnyProps PumpModel PumpSpec PumpProofs PumpAnySpec PumpAnyProofs PumpAnyProps VisitSpec VisitProofs VisitProps DiscoverModel DiscoverSpec.
Local Open Scope N_scope.

Lemma uri_told_once : forall cap c r1 r2, uri_told cap c r1 -> uri_told cap c r2 -> r1 = r2.
Proof.
  intros cap c r1 r2 (h & tok & rest & l & code & P & _ & E & _ & Q & ->) (h2 & tok2 & rest2 & l2 & code2 & P2 & _ & E2 & _ & Q2 & ->).
  destruct (parts_once _ _ _ _ _ _ _ P P2) as (<- & <- & <-). rewrite E in E2. injection E2 as <-. f_equal.
  destruct Q as [(Q & ->)|(Q & ->)], Q2 as [(Q2 & ->)|(Q2 & ->)]; congruence.
Qed.

(** what the main loop gives for an outcome *)
Definition run_of {A} (o : outcome A) : res (list (option (A * list N)) * option (pump A * unit)) :=
  match o with
  | Crashed => Fault
  | Exited out => Ok (out, None)
  | Running out None => Ok (out, Some (Pump [] [], tt))
  | Running out (Some x) => Ok (out, Some (Pump [] [x], tt))
  end.

(** C89, uri: through any traffic the program takes exactly one course: it answers in the turn after
    what [uri_told] gives for the datagram, exits at an error, a failed send and an empty datagram,
    and is gone at the first datagram for which there is no reply. *)
Theorem C89_uri : forall A fuel size (es : list (event A * world)), (1 <= size)%nat -> 77888 <= N.of_nat fuel -> Forall open_ok es ->
  exists o, course (fun _ => uri_told 4096) None es o /\ (forall o2, course (fun _ => uri_told 4096) None es o2 -> o2 = o) /\
    main_loop posix_loop (uri_app false fuel) size es (Pump [] []) tt = run_of o.
Proof.
  intros A fuel size es Hs Hf F.
  destruct (course_any A world (fun _ => uri_told 4096) (fun w _ b => uri_server false nb_size fuel (w_hdr w) (w_tok w) b (w_dec w)) size Hs es None) as (o & C & E).
  { eapply Forall_impl; [|exact F]. cbn beta. intros [e w] (O1 & O2 & O3) a dg P c. cbn [fst snd] in *. rewrite P in O3.
    assert (B : bytes_ok c) by (unfold c; rewrite <- (firstn_skipn nb_size dg) in O3; apply bytes_ok_app in O3; tauto).
    assert (D : (dec_fuel c <= fuel)%nat) by (unfold dec_fuel; assert (length c <= 4096)%nat by (unfold c; rewrite firstn_length; apply Nat.le_min_l); lia).
    assert (Cp : (12 <= nb_size)%nat) by (apply Nat.leb_le; reflexivity).
    destruct (C88_uri nb_size fuel (w_hdr w) (w_tok w) c (w_dec w) O1 O2 B Cp D) as [(r & T & _ & R)|T]; [left; eauto|right; exact T]. }
  exists o. split; [exact C|]. split; [intros o2 C2; exact (course_once A world _ (fun _ => uri_told_once 4096) _ _ _ C2 _ C)|].
  cbn [opt_list] in E. unfold uri_app. rewrite E. destruct o as [|l|l [x|]]; reflexivity.
Qed.
Print Assumptions C89_uri.

(** * The discoverable program *)

(** the table as a forest *)
Definition disc_forest : list tree :=
  [Tree (str "v1") 0 [Tree (str "api") 1 [Tree (str "test1") 2 []; Tree (str "test2") 3 []]]; Tree (str ".well-known") 4 [Tree (str "core") 5 []]].

Lemma disc_good : core_rows = forest_rows disc_forest /\ NoDup (map r_id core_rows) /\ unique_siblings core_rows /\ ids_real core_rows.
Proof.
  split; [reflexivity|]. split; [repeat constructor; cbn; intuition discriminate|]. split; [unfold unique_siblings; repeat constructor; cbn; intuition discriminate|].
  repeat constructor; discriminate.
Qed.

Lemma disc_found : forall path, let f := m3_found (snd (m3_path path (m3_init core_rows))) in
  (f = 5%Z <-> path = disc_core) /\ (f = NONE <-> path <> disc_core /\ ~ In path disc_paths).
Proof.
  intros path f. destruct disc_good as (E & A & B & C). destruct path as [|s p].
  { split; (split; [try discriminate|]); vm_compute; intuition discriminate. }
  assert (Ne : s :: p <> []) by discriminate. unfold f. clear f. rewrite E in *. remember (s :: p) as path. clear Heqpath. split.
  - rewrite (C37_forest disc_forest path 5 A B C Ne) by discriminate. change (forest_paths disc_forest) with
      (combine [0; 1; 2; 3; 4]%Z disc_paths ++ [(5%Z, disc_core)]). rewrite in_app_iff. split.
    + intros [I|[I|[]]]; [|injection I as <-; reflexivity]. cbn in I. intuition discriminate.
    + intros ->. right. left. reflexivity.
  - rewrite (C37_forest_none disc_forest path A B C Ne). change (forest_paths disc_forest) with (combine [0; 1; 2; 3; 4]%Z disc_paths ++ [(5%Z, disc_core)]). split.
    + intro H. split.
      * intro Q. subst path. apply (H 5%Z). apply in_app_iff. right. left. reflexivity.
      * intro I. cbn [disc_paths In] in I. destruct I as [I|[I|[I|[I|[I|[]]]]]]; subst path;
          [apply (H 0%Z)|apply (H 1%Z)|apply (H 2%Z)|apply (H 3%Z)|apply (H 4%Z)]; cbn; tauto.
    + intros (H1 & H2) id I. apply in_app_iff in I. destruct I as [I|[I|[]]]; [apply H2, (in_combine_r _ _ _ _ I)|injection I as _ <-; now apply H1].
Qed.

Lemma disc_text : forall n, (n <= 8)%nat -> core_text disc_data disc_extra core_rows (4096 - (5 + n)) = Ok disc_links.
Proof.
  intros n Hn. unfold core_text. change (core_walk disc_data core_rows []) with
    (Ok ([(2%Z, str "</v1/api/test1>;rt=""test1_resource"";if=""test_interface"""); (3%Z, str "</v1/api/test2>;rt=""test2_resource"";if=""test_interface""")],
         [Row (str "core") 5 4; Row (str ".well-known") 4 (-1)])). cbn [bind fst snd].
  match goal with |- context [firstn _ ?x] => replace x with (disc_links ++ [44]) by reflexivity end.
  rewrite firstn_all2. { now rewrite removelast_last. }
  apply Nat.le_trans with 200%nat; [apply Nat.leb_le; reflexivity|lia].
Qed.

Lemma disc_core_told : forall c r, core_told 4096 core_rows disc_data disc_extra id_core c r <-> disc_told c r.
Proof.
  intros c r. split; intros (h & tok & rest & l & P & R & E & T); exists h, tok, rest, l; (split; [exact P|]); (split; [exact R|]); (split; [exact E|]);
    pose proof (disc_text (length tok) (proj2 (proj2 P))) as X; destruct (disc_found (values_of 11 l)) as (F1 & F2); cbv zeta in *; set (f := m3_found _) in *; clearbody f.
  - destruct T as [(Q & ->)|[(Q1 & Q2 & ->)|(Q & t & Q2 & ->)]].
    + right. right. apply F2 in Q. tauto.
    + right. left. split; [|reflexivity]. destruct (in_dec (list_eq_dec (list_eq_dec N.eq_dec)) (values_of 11 l) disc_paths) as [I|I]; [exact I|].
      exfalso. apply Q1, F2. split; [|exact I]. intro Q. apply F1 in Q. exact (Q2 Q).
    + left. rewrite X in Q2. injection Q2 as <-. split; [now apply F1|reflexivity].
  - destruct T as [(Q & ->)|[(Q & ->)|(Q1 & Q2 & ->)]].
    + right. right. split; [now apply F1|]. eauto.
    + right. left. split; [|split; [|reflexivity]].
      * intro Z. apply F2 in Z. tauto.
      * intro Z. apply F1 in Z. rewrite Z in Q. vm_compute in Q. intuition discriminate.
    + left. split; [|reflexivity]. apply F2. auto.
Qed.

(** C89, discoverable: any datagram is answered as [disc_told] says, or stops the server if there is no reply. *)
Theorem C89_discover : forall fuel jh junk c d, hdr_ok jh -> idle d -> bytes_ok c -> (dec_fuel c <= fuel)%nat ->
  let run := core_server false nb_size fuel jh core_rows disc_data disc_extra id_core junk c d in
  (exists r, disc_told c r /\ (forall r2, disc_told c r2 -> r2 = r) /\ run = Ok r) \/ ((forall r, ~ disc_told c r) /\ run = Fault).
Proof.
  intros fuel jh junk c d Hj Hd B Hf run. assert (Cp : (13 <= nb_size)%nat) by (apply Nat.leb_le; reflexivity).
  destruct (C88_core nb_size fuel jh core_rows disc_data disc_extra id_core junk c d Hj Hd B Cp ltac:(discriminate) Hf) as [(r & T & U & R)|(T & R)].
  - left. exists r. split; [now apply disc_core_told|]. split; [|exact R]. intros r2 T2. apply U. now apply disc_core_told.
  - right. split; [|exact R]. intros r T2. apply (T r). now apply disc_core_told.
Qed.
Print Assumptions C89_discover.

(** C89, discoverable: through any traffic the program takes exactly one course. *)
Theorem C89_discoverable : forall A fuel size (es : list (event A * world)), (1 <= size)%nat -> 77888 <= N.of_nat fuel -> Forall open_ok es ->
  exists o, course (fun _ => disc_told) None es o /\ (forall o2, course (fun _ => disc_told) None es o2 -> o2 = o) /\
    main_loop posix_loop (disc_app false fuel) size es (Pump [] []) tt = run_of o.
Proof.
  intros A fuel size es Hs Hf F.
  destruct (course_any A world (fun _ => disc_told) (fun w _ b => core_server false nb_size fuel (w_hdr w) core_rows disc_data disc_extra id_core (w_tok w) b (w_dec w)) size Hs es None) as (o & C & E).
  { eapply Forall_impl; [|exact F]. cbn beta. intros [e w] (O1 & O2 & O3) a dg P c. cbn [fst snd] in *. rewrite P in O3.
    assert (B : bytes_ok c) by (unfold c; rewrite <- (firstn_skipn nb_size dg) in O3; apply bytes_ok_app in O3; tauto).
    assert (D : (dec_fuel c <= fuel)%nat) by (unfold dec_fuel; assert (length c <= 4096)%nat by (unfold c; rewrite firstn_length; apply Nat.le_min_l); lia).
    destruct (C89_discover fuel (w_hdr w) (w_tok w) c (w_dec w) O1 O2 B D) as [(r & T & _ & R)|T]; [left; eauto|right; exact T]. }
  assert (Once : forall c r1 r2, disc_told c r1 -> disc_told c r2 -> r1 = r2).
  { intros c r1 r2 (h & tok & rest & l & P & _ & E1 & Q) (h2 & tok2 & rest2 & l2 & P2 & _ & E2 & Q2).
    destruct (parts_once _ _ _ _ _ _ _ P P2) as (<- & <- & <-). rewrite E1 in E2. injection E2 as <-.
    assert (NC : ~ In disc_core disc_paths) by (vm_compute; intuition discriminate).
    destruct Q as [(Q & ->)|[(Q & ->)|(Q & Q' & ->)]], Q2 as [(Z & ->)|[(Z & ->)|(Z & Z' & ->)]]; try reflexivity; try contradiction; exfalso; rewrite ?Q, ?Z in *; auto. }
  exists o. split; [exact C|]. split; [intros o2 C2; exact (course_once A world _ (fun _ => Once) _ _ _ C2 _ C)|].
  cbn [opt_list] in E. unfold disc_app. rewrite E. destruct o as [|l|l [x|]]; reflexivity.
Qed.
Print Assumptions C89_discoverable.

(** That the uri program goes on whatever requests arrive is false: after any traffic a request of one
    option byte, 0xBE, ends it, whatever its header and token. *)
Theorem C89_goes_on_refuted : forall A fuel size (pre post : list (event A * world)) a h tok w out waiting, (1 <= size)%nat -> 77888 <= N.of_nat fuel -> Forall open_ok pre ->
  hdr_ok (w_hdr w) -> idle (w_dec w) -> hdr_ok h -> bytes_ok tok -> h0 h mod 16 = len tok -> (length tok <= 8)%nat ->
  main_loop posix_loop (uri_app false fuel) size pre (Pump [] []) tt = Ok (out, Some (waiting, tt)) ->
  main_loop posix_loop (uri_app false fuel) size (pre ++ (Event true (PData a (hdr_bytes h ++ tok ++ [190])), w) :: post) (Pump [] []) tt = Fault.
Proof.
  intros A fuel size pre post a h tok w out waiting Hs Hf F W1 W2 Hh Bt Ht H8 H.
  destruct (C89_uri A fuel size pre Hs Hf F) as (o & _ & _ & E). rewrite main_app, H. cbn [bind fst snd]. rewrite H in E.
  assert (Q : exists q, waiting = Pump [] q).
  { destruct o as [|l|l [x|]]; [discriminate E|discriminate E| |]; injection E as _ E; rewrite E; eexists; reflexivity. }
  destruct Q as (q & ->). set (dg := hdr_bytes h ++ tok ++ [190]).
  assert (L : (length dg <= 13)%nat) by (unfold dg; rewrite !app_length; change (length (hdr_bytes h)) with 4%nat; cbn [length]; lia).
  cbn [main_loop]. rewrite (posix_steady A size Hs); [|split; [reflexivity|discriminate]]. cbn [bind fst snd v_poll]. unfold service. cbn [p_in].
  rewrite (firstn_all2 dg) by (apply Nat.le_trans with 13%nat; [exact L|apply Nat.leb_le; reflexivity]). cbn [on_request uri_app].
  assert (Cp : (12 <= nb_size)%nat) by (apply Nat.leb_le; reflexivity).
  destruct (C88_readable_refuted nb_size fuel (w_hdr w) (w_tok w) h tok (w_dec w) W1 Hh W2 Bt Cp Ht H8) as (_ & G); [fold dg; unfold dec_fuel; lia|].
  fold dg in G. rewrite G. reflexivity.
Qed.
Print Assumptions C89_goes_on_refuted.

(** Cases.  A plain request for the links gets 4.04; one whose numbers wrap around (C84) gets them.
    A request for v1, seen only if two options come before and one after, gets 2.05.  Then the uri program. *)
Definition c89_core : list N := [65; 1; 18; 52; 7] ++ opt_head 11 11 ++ str ".well-known" ++ opt_head 0 4 ++ str "core".
Definition c89_v1 : list N := [80; 1; 0; 9; 16; 0; 162; 118; 49; 16].
Definition c89_uri (last : list N) : list (event N * world) :=
  [c85_turn (PData 1 ([65; 1; 18; 52; 7; 0; 0; 180] ++ str "test")); c85_turn PNone; c85_turn (PData 2 ([80; 1; 0; 9] ++ last)); c85_turn PNone].
Example C89_case : let run es := main_loop posix_loop (disc_app false c85_fuel) 1 es (Pump [] []) tt in
  Forall open_ok [c85_turn (PData 1 c89_core); c85_turn (PData 2 wrapped_core); c85_turn (PData 3 c89_v1); c85_turn PNone] /\ Forall open_ok (c89_uri [189]) /\
  run [c85_turn (PData 1 c89_core); c85_turn (PData 2 wrapped_core); c85_turn (PData 3 c89_v1); c85_turn PNone] =
    Ok ([None; Some (1, [97; 132; 18; 52; 7; 255]); Some (2, [97; 69; 18; 52; 7; 255] ++ disc_links); Some (3, [80; 69; 0; 9; 255])], Some (Pump [] [], tt)) /\
  main_loop posix_loop (uri_app false c85_fuel) 1 (c89_uri [189]) (Pump [] []) tt =
    Ok ([None; Some (1, [97; 67; 18; 52; 7; 255] ++ str "test/"); None; Some (2, [80; 132; 0; 9; 255] ++ str "//////")], Some (Pump [] [], tt)) /\
  main_loop posix_loop (uri_app false c85_fuel) 1 (c89_uri [190]) (Pump [] []) tt = Fault.
Proof.
  assert (O : forall e, bytes_ok (match e with PData _ dg => dg | _ => [] end) -> open_ok (c85_turn e)).
  { intros e B. split; [apply hdr_ok_iff; repeat split; vm_compute; reflexivity|]. split; [|cbn [fst c85_turn v_poll]; destruct e; auto].
    split; [left; reflexivity|]. unfold dec_mem, od_bytes, byte_ok. cbn. repeat split; try lia; repeat constructor; unfold byte_ok; lia. }
  assert (B : forall l, forallb (fun b => b <? 256) l = true -> bytes_ok l).
  { intros l H. rewrite forallb_forall in H. apply Forall_forall. intros x X. apply N.ltb_lt, H, X. }
  cbv zeta. split; [repeat constructor; try (apply O, B; reflexivity)|]. split; [unfold c89_uri; repeat constructor; try (apply O, B; reflexivity)|].
  split; [vm_compute; reflexivity|]. split; vm_compute; reflexivity.
Qed.
