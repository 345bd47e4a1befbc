From Verif Require Import Base UIntModel HeaderModel OptEncModel OptSpec StreambufModel OptEncProofs StreambufProofs NetbufModel NetbufSpec.
Local Open Scope N_scope.

Lemma ost_eqb : forall a b, ostate_eqb a b = true <-> a = b.
Proof. intros a b. destruct a, b; cbn; split; intro H; (reflexivity || discriminate). Qed.

Definition goes (d : ostate) (e : oenc) (s : sink) : Prop := e_st e <> d /\ s_room s <> O.

Lemma goes_dec : forall d e s, {goes d e s} + {e_st e = d \/ s_room s = O}.
Proof.
  intros d e s. destruct (ostate_eqb (e_st e) d) eqn:E.
  - right. left. apply ost_eqb. exact E.
  - destruct (s_room s) eqn:R; [right; right; reflexivity|]. left. split; [|congruence]. intro X. apply ost_eqb in X. congruence.
Qed.

Lemma nl_go : forall f d o e s, goes d e s ->
  nbe_loop (S f) d o e s = bind (generate_iterate o e) (fun r =>
    match fst r with
    | None => nbe_loop f d o (snd r) s
    | Some b => match sputc b s with Some s1 => nbe_loop f d o (snd r) s1 | None => Fault end
    end).
Proof.
  intros f d o e s [H1 H2]. cbn [nbe_loop]. destruct (ostate_eqb (e_st e) d) eqn:E; [apply ost_eqb in E; congruence|].
  destruct (Nat.eqb_spec (s_room s) 0); [congruence|]. reflexivity.
Qed.

Lemma nl_stop : forall f d o e s, e_st e = d \/ s_room s = O -> nbe_loop (S f) d o e s = Ok (e, s).
Proof.
  intros f d o e s H. cbn [nbe_loop]. destruct H as [H|H].
  - rewrite (proj2 (ost_eqb _ _) H). reflexivity.
  - rewrite H, andb_false_r. reflexivity.
Qed.

Lemma nl_none : forall f d o e s e1, goes d e s -> generate_iterate o e = Ok (None, e1) -> nbe_loop (S f) d o e s = nbe_loop f d o e1 s.
Proof. intros f d o e s e1 H E. rewrite nl_go by exact H. rewrite E. reflexivity. Qed.

Lemma nl_some : forall f d o e r out b e1, e_st e <> d -> generate_iterate o e = Ok (Some b, e1) ->
  nbe_loop (S f) d o e (Sink (S r) out) = nbe_loop f d o e1 (Sink r (out ++ [b])).
Proof. intros f d o e r out b e1 H E. rewrite nl_go by (split; [exact H|discriminate]). rewrite E. reflexivity. Qed.

(** more fuel does not change a finished loop *)
Lemma nl_fuel : forall f d o e s x, nbe_loop f d o e s = Ok x -> forall k, nbe_loop (f + k) d o e s = Ok x.
Proof.
  induction f as [|f IH]; intros d o e s x H k; [discriminate|]. cbn [Nat.add].
  destruct (goes_dec d e s) as [G|G].
  - rewrite nl_go in * by exact G. destruct (generate_iterate o e) as [[r e1]| |]; cbn [bind fst snd] in *; try discriminate.
    destruct r as [b|]; [destruct (sputc b s); [|discriminate]|]; apply IH; exact H.
  - rewrite nl_stop in * by exact G. exact H.
Qed.

(** a loop cut by a full chunk goes on in the next one as if there had been one *)
Lemma nl_split : forall f d o e r out e1 s1, nbe_loop f d o e (Sink r out) = Ok (e1, s1) -> e_st e1 <> d ->
  s_room s1 = O /\ forall f2 r2 x, nbe_loop f2 d o e1 (Sink r2 (s_out s1)) = Ok x -> nbe_loop (f + f2) d o e (Sink (r + r2) out) = Ok x.
Proof.
  induction f as [|f IH]; intros d o e r out e1 s1 H Hd; [discriminate|].
  destruct (goes_dec d e (Sink r out)) as [G|G].
  - destruct G as [G1 G2]. cbn [s_room] in G2. destruct r as [|r]; [congruence|].
    rewrite nl_go in H by (split; assumption). destruct (generate_iterate o e) as [[v e2]| |] eqn:E; cbn [bind fst snd] in H; try discriminate.
    destruct v as [b|].
    + cbn [sputc s_room s_out] in H. destruct (IH _ _ _ _ _ _ _ H Hd) as [A B]. split; [exact A|]. intros f2 r2 x Hx. cbn [Nat.add].
      rewrite (nl_some _ _ _ _ _ _ _ _ G1 E). apply B. exact Hx.
    + destruct (IH _ _ _ _ _ _ _ H Hd) as [A B]. split; [exact A|]. intros f2 r2 x Hx. cbn [Nat.add].
      rewrite (nl_none _ _ _ _ (Sink (S (r + r2)) out) e2) by ((split; [exact G1|discriminate]) || exact E). apply (B f2 r2 x Hx).
  - rewrite nl_stop in H by exact G. injection H as <- <-. destruct G as [G|G]; [congruence|]. split; [exact G|].
    cbn [s_room s_out] in *. subst r. intros f2 r2 x Hx. cbn [Nat.add]. replace (S (f + f2)) with (f2 + S f)%nat by lia. apply nl_fuel. exact Hx.
Qed.

(** a loop that is done is done in the same way with more room *)
Lemma nl_extra : forall f d o e r out e1 s1 k, nbe_loop f d o e (Sink r out) = Ok (e1, s1) -> e_st e1 = d ->
  nbe_loop f d o e (Sink (r + k) out) = Ok (e1, Sink (s_room s1 + k) (s_out s1)).
Proof.
  induction f as [|f IH]; intros d o e r out e1 s1 k H Hd; [discriminate|].
  destruct (goes_dec d e (Sink r out)) as [G|G].
  - destruct G as [G1 G2]. cbn [s_room] in G2. destruct r as [|r]; [congruence|].
    rewrite nl_go in H by (split; assumption). destruct (generate_iterate o e) as [[v e2]| |] eqn:E; cbn [bind fst snd] in H; try discriminate.
    destruct v as [b|].
    + cbn [sputc s_room s_out] in H. cbn [Nat.add]. rewrite (nl_some _ _ _ _ _ _ _ _ G1 E). apply IH; assumption.
    + cbn [Nat.add]. rewrite (nl_none _ _ _ _ (Sink (S (r + k)) out) e2) by ((split; [exact G1|discriminate]) || exact E).
      apply (IH _ _ _ (S r)); assumption.
  - rewrite nl_stop in H by exact G. injection H as <- <-. cbn [s_room s_out].
    apply nl_stop. left. exact Hd.
Qed.

(** the states option_header can be left in with a cut header, and the end *)
Definition entry (l : N) (s : ostate) : Prop := hstate s \/ s = OptionLengthDone \/ s = head_done l.

Definition quiet (s : ostate) : nat := match s with OptionLengthDone => 1 | OptionValue | OptionValueDone => 0 | _ => S (S (silent s)) end.

Lemma nl_total : forall f o e s, entry (o_length o) (e_st e) -> (s_room s + quiet (e_st e) < f)%nat ->
  exists e1 s1, nbe_loop f (head_done (o_length o)) o e s = Ok (e1, s1) /\ entry (o_length o) (e_st e1).
Proof.
  induction f as [|f IH]; intros o e s He Hf; [lia|].
  destruct (goes_dec (head_done (o_length o)) e s) as [G|G]; [|rewrite nl_stop by exact G; eauto].
  pose proof G as [G1 G2]. destruct He as [He|[He|He]]; [| |congruence].
  - destruct (gen_hstate o e He) as (r & e1 & E & Hst & Hr).
    assert (En : entry (o_length o) (e_st e1)) by (unfold entry; tauto).
    assert (Q : (quiet (e_st e1) <= S (S (silent (e_st e1))))%nat) by (destruct (e_st e1); cbn; lia).
    assert (Q2 : quiet (e_st e) = S (S (silent (e_st e)))) by (destruct (e_st e); cbn in *; tauto).
    destruct (emits (e_st e)).
    + destruct Hr as [Hr Hs]. destruct r as [b|]; [|congruence]. destruct s as [[|r] out]; [cbn in G2; congruence|].
      rewrite (nl_some _ _ _ _ _ _ _ _ G1 E). apply IH; [exact En|]. cbn [s_room] in *. lia.
    + destruct Hr as [-> Hs]. rewrite (nl_none _ _ _ _ _ _ G E). apply IH; [exact En|]. lia.
  - assert (E : generate_iterate o e = Ok (None, if o_length o =? 0 then OEnc OptionValueDone (e_cur e) (e_pos e) else OEnc OptionValue (e_cur e) 0)).
    { unfold generate_iterate. rewrite He. destruct (o_length o =? 0); reflexivity. }
    rewrite (nl_none _ _ _ _ _ _ G E). rewrite He in Hf. cbn [quiet] in Hf. apply IH.
    + right. right. unfold head_done. destruct (N.ltb_spec 0 (o_length o)); destruct (N.eqb_spec (o_length o) 0); try lia; reflexivity.
    + destruct (o_length o =? 0); cbn [e_st quiet]; lia.
Qed.

(** where the header loop of StreambufEncoder ends, this one goes through *)
Lemma nl_of_sb : forall f o e s e' s' d, sb_option_loop f o e s = Ok (true, SB e' s') -> hstate (e_st e) -> (1 <= s_room s')%nat ->
  d = OptionValue \/ d = OptionValueDone ->
  forall g, exists g', (g <= g')%nat /\ nbe_loop (f + g) d o e s = nbe_loop g' d o e' s'.
Proof.
  induction f as [|f IH]; intros o e s e' s' d H Hh Hr Hd g; [discriminate|].
  destruct (gen_hstate o e Hh) as (r & e1 & E & Hst & Hem). cbn [Nat.add].
  assert (D : e_st e <> d) by (destruct Hd as [-> | ->]; destruct (e_st e); cbn in Hh; congruence || tauto).
  assert (K : forall s1, (if ostate_eqb (e_st e1) OptionLengthDone then Ok (true, SB e1 s1) else sb_option_loop f o e1 s1) = Ok (true, SB e' s') ->
              exists g', (g <= g')%nat /\ nbe_loop (f + g) d o e1 s1 = nbe_loop g' d o e' s').
  { intros s1 X. destruct (ostate_eqb (e_st e1) OptionLengthDone) eqn:Q.
    - injection X as <- <-. exists (f + g)%nat. split; [lia|reflexivity].
    - destruct Hst as [Hst|Hst]; [|rewrite Hst in Q; discriminate]. apply (IH o e1 s1 e' s' d X Hst Hr Hd g). }
  destruct r as [b|].
  - destruct s as [[|room] out]; [rewrite (loop_full _ _ _ _ _ _ E) in H; discriminate|].
    rewrite (loop_some _ _ _ _ _ _ _ E) in H. rewrite (nl_some _ _ _ _ _ _ _ _ D E). apply K, H.
  - rewrite (loop_none _ _ _ _ _ E) in H.
    assert (R : s_room s <> O).
    { assert (s_room s' <= s_room s)%nat; [|lia].
      destruct (ostate_eqb (e_st e1) OptionLengthDone) eqn:Q; [injection H as _ <-; lia|].
      clear - H. revert e1 s H. induction f as [|f IH]; intros e1 s H; [discriminate|]. cbn [sb_option_loop] in H.
      destruct (generate_iterate o e1) as [[r e2]| |]; cbn [bind fst snd] in H; try discriminate.
      destruct r as [b|].
      + destruct s as [[|room] out]; cbn [sputc s_room s_out] in *; [discriminate|].
        destruct (ostate_eqb (e_st e2) OptionLengthDone); [injection H as _ <-; cbn; lia|]. apply IH in H. cbn [s_room] in H. lia.
      + destruct (ostate_eqb (e_st e2) OptionLengthDone); [injection H as _ <-; lia|]. apply IH in H. lia. }
    rewrite (nl_none _ _ _ _ _ _ (conj D R) E). apply K, H.
Qed.

Definition can_option (b : nbenc) : Prop := n_debug b = false \/ n_state b = RHeaderDone \/ n_state b = RTokenDone \/ n_state b = ROptions.
Definition fresh (b : nbenc) : Prop := e_st (n_enc b) = FirstByte \/ e_st (n_enc b) = OptionDone.

Lemma asserts_ok : forall b, can_option b -> assert_not_state RHeader b = Ok tt /\ assert_not_state RToken b = Ok tt /\ assert_not_state RPayload b = Ok tt.
Proof.
  intros b H. unfold assert_not_state. destruct H as [->|[->|[->| ->]]]; cbn [negb orb rstate_eqb]; rewrite ?orb_true_r; auto.
Qed.

Lemma header_unfold : forall f num l b, can_option b -> num < 65536 -> l < 65536 ->
  nbe_option_header_fuel f num l b =
    bind (nbe_loop f (head_done l) (OBase num l []) (match e_st (n_enc b) with FirstByte | OptionDone => oenc_next (n_enc b) | _ => n_enc b end) (n_sink b)) (fun r =>
      let b1 := n_set_state ROptions (n_set_enc (fst r) (snd r) b) in
      if ostate_eqb (e_st (fst r)) (head_done l) then Ok (true, b1)
      else Ok (false, n_set_written (s_room (n_sink b) - s_room (snd r)) b1)).
Proof.
  intros f num l b H Hn Hl. unfold nbe_option_header_fuel. destruct (asserts_ok b H) as (-> & -> & ->). cbn [bind].
  rewrite !N.mod_small by assumption. reflexivity.
Qed.

Lemma header_good : forall num l b cur pos room out,
  n_enc b = OEnc (e_st (n_enc b)) cur pos -> n_sink b = Sink room out -> fresh b -> can_option b ->
  cur <= num -> num < 65536 -> l < 65536 -> enc_short (num - cur) l \/ enc_long (num - cur) l -> (length (opt_head (num - cur) l) < room)%nat ->
  exists p, nbe_option_header num l b =
    Ok (true, n_set_state ROptions (n_set_enc (OEnc (head_done l) num p) (Sink (room - length (opt_head (num - cur) l)) (out ++ opt_head (num - cur) l)) b)).
Proof.
  intros num l b cur pos room out He Hs Hf Hc Hle Hn Hl Hg Hr.
  unfold nbe_option_header. rewrite header_unfold by assumption.
  replace (match e_st (n_enc b) with FirstByte | OptionDone => oenc_next (n_enc b) | _ => n_enc b end) with (OEnc FirstByte cur pos)
    by (rewrite He; cbn [e_st]; destruct Hf as [-> | ->]; reflexivity).
  destruct (loop_good 2 num l cur pos room out Hle Hn Hg ltac:(lia) ltac:(lia)) as (p & E). cbn [Nat.add] in E.
  unfold nbe_fuel. rewrite Hs. cbn [s_room].
  destruct (nl_of_sb _ _ _ _ _ _ (head_done l) E I ltac:(cbn [s_room]; lia) ltac:(unfold head_done; destruct (0 <? l); auto) (room + 3)%nat) as (g' & G1 & G2).
  replace (7 + (room + 3))%nat with (room + 10)%nat in G2 by lia. rewrite G2.
  destruct g' as [|[|g']]; [lia|lia|].
  exists (if l =? 0 then p else 0).
  assert (S : nbe_loop (S (S g')) (head_done l) (OBase num l []) (OEnc OptionLengthDone num p) (Sink (room - length (opt_head (num - cur) l)) (out ++ opt_head (num - cur) l)) =
    Ok (OEnc (head_done l) num (if l =? 0 then p else 0), Sink (room - length (opt_head (num - cur) l)) (out ++ opt_head (num - cur) l))).
  { assert (Q : generate_iterate (OBase num l []) (OEnc OptionLengthDone num p) = Ok (None, OEnc (head_done l) num (if l =? 0 then p else 0))).
    { unfold generate_iterate, head_done. cbn [e_st e_cur e_pos o_length]. destruct (N.eqb_spec l 0); destruct (N.ltb_spec 0 l); try lia; reflexivity. }
    erewrite nl_none; [|split|exact Q]; [apply nl_stop; left; reflexivity|cbn [e_st]; unfold head_done; destruct (0 <? l); discriminate|cbn [s_room]; lia]. }
  rewrite S. cbn [bind fst snd e_st]. rewrite (proj2 (ost_eqb _ _) eq_refl). reflexivity.
Qed.

Lemma sputn_all : forall v room out, (length v <= room)%nat -> sputn v (Sink room out) = (length v, Sink (room - length v) (out ++ v)).
Proof. intros v room out H. unfold sputn. cbn [s_room s_out]. rewrite Nat.min_l by exact H. rewrite firstn_all. reflexivity. Qed.

Lemma option_good : forall num v b cur pos room out,
  n_enc b = OEnc (e_st (n_enc b)) cur pos -> n_sink b = Sink room out -> fresh b -> can_option b ->
  cur <= num -> num < 65536 -> len v < 65536 -> nb_guard (num - cur) (len v) -> (length (opt_head (num - cur) (len v) ++ v) <= room)%nat ->
  exists p b', nbe_option num v true b = Ok (true, b') /\ n_enc b' = OEnc OptionDone num p /\
    n_sink b' = Sink (room - length (opt_head (num - cur) (len v) ++ v)) (out ++ opt_head (num - cur) (len v) ++ v) /\
    n_debug b' = n_debug b /\ n_marker b' = n_marker b /\ can_option b'.
Proof.
  intros num v b cur pos room out He Hs Hf Hc Hle Hn Hl (Hl0 & Hg) Hr. rewrite app_length in Hr. unfold nbe_option, nbe_option_fuel.
  destruct (header_good num (len v) b cur pos room out He Hs Hf Hc Hle Hn Hl Hg) as (p & E); [unfold len in *; lia|].
  unfold len in E at 1. unfold nbe_option_header in E. rewrite E. clear E. cbn [bind fst snd]. unfold nbe_option_value.
  cbn [n_set_state n_set_enc n_sink]. rewrite sputn_all by lia. cbn [n_set_sink]. rewrite Nat.eqb_refl.
  unfold oenc_fast_forward. cbn [n_enc n_set_sink n_set_enc n_set_state e_st].
  assert (X : head_done (len v) = OptionValue) by (unfold head_done; destruct (N.ltb_spec 0 (len v)); [reflexivity|lia]).
  rewrite X. cbn [bind e_cur e_pos]. eexists. eexists. split; [reflexivity|]. cbn [n_enc n_sink n_debug n_marker n_set_enc].
  split; [reflexivity|]. split; [rewrite app_length, app_assoc, Nat.sub_add_distr; reflexivity|]. split; [reflexivity|]. split; [reflexivity|].
  unfold can_option. cbn [n_debug n_state n_set_enc n_set_sink n_set_state]. destruct (n_debug b); auto.
Qed.

Definition nopt (o : opt) : nbcall := NOption (fst o) (snd o).

Lemma run_opts : forall os b prev pos room out,
  n_enc b = OEnc (e_st (n_enc b)) prev pos -> n_sink b = Sink room out -> fresh b -> can_option b ->
  opts_within nb_guard prev os -> Forall (fun o => len (snd o) < 65536) os -> (length (opts_bytes prev os) <= room)%nat ->
  exists b', nbe_run (map nopt os) b = Ok (repeat true (length os), b') /\
    e_cur (n_enc b') = last_number prev os /\ n_sink b' = Sink (room - length (opts_bytes prev os)) (out ++ opts_bytes prev os) /\
    n_debug b' = n_debug b /\ n_marker b' = n_marker b /\ fresh b' /\ can_option b'.
Proof.
  induction os as [|[num v] os IH]; intros b prev pos room out He Hs Hf Hc Hw Hl Hr.
  - exists b. cbn [map nbe_run opts_bytes length repeat]. rewrite app_nil_r, Nat.sub_0_r. unfold last_number. cbn [map last]. rewrite He. auto 10.
  - cbn [opts_within] in Hw. destruct Hw as (W1 & W2 & W3 & W4). inversion Hl as [|x y L1 L2]; subst. cbn [snd] in L1.
    cbn [opts_bytes] in *. rewrite app_assoc in *. set (a := opt_head (num - prev) (len v) ++ v) in *. rewrite app_length in Hr.
    destruct (option_good num v b prev pos room out He Hs Hf Hc W1 W2 L1 W3 ltac:(fold a; lia)) as (p & b1 & E1 & E2 & E3 & E4 & E5 & E6). fold a in E3.
    cbn [map nbe_run nopt fst snd nbe_call]. rewrite E1. cbn [bind fst snd].
    destruct (IH b1 num p (room - length a)%nat (out ++ a)) as (b2 & F1 & F2 & F3 & F4 & F5 & F6 & F7); auto; try lia.
    + rewrite E2. reflexivity.
    + right. rewrite E2. reflexivity.
    + exists b2. rewrite F1. cbn [bind fst snd length repeat]. split; [reflexivity|].
      rewrite last_number_cons, F3, app_length, Nat.sub_add_distr, <- app_assoc. repeat split; congruence || assumption.
Qed.

(** ---- resuming in further chunks ---- *)

Lemma nl_conserve : forall f d o e r out e1 s1, nbe_loop f d o e (Sink r out) = Ok (e1, s1) ->
  (length (s_out s1) + s_room s1 = length out + r)%nat.
Proof.
  induction f as [|f IH]; intros d o e r out e1 s1 H; [discriminate|].
  destruct (goes_dec d e (Sink r out)) as [G|G].
  - destruct G as [G1 G2]. cbn [s_room] in G2. destruct r as [|r]; [congruence|].
    rewrite nl_go in H by (split; assumption). destruct (generate_iterate o e) as [[v e2]| |]; cbn [bind fst snd] in H; try discriminate.
    destruct v as [b|]; [cbn [sputc s_room s_out] in H|]; apply IH in H; [rewrite app_length in H; cbn [length] in H|]; lia.
  - rewrite nl_stop in H by exact G. injection H as <- <-. reflexivity.
Qed.

Lemma nl_det : forall f g d o e s x y, nbe_loop f d o e s = Ok x -> nbe_loop g d o e s = Ok y -> x = y.
Proof. intros f g d o e s x y H1 H2. apply (nl_fuel _ _ _ _ _ _) with (k := g) in H1. apply (nl_fuel _ _ _ _ _ _) with (k := f) in H2. rewrite (Nat.add_comm g f) in H2. congruence. Qed.

(** [T]: what will have been written when the header is done *)
Definition heads_to (num l : N) (e : oenc) (out T : list N) : Prop :=
  forall room, (length T < length out + room)%nat ->
  exists f p, nbe_loop f (head_done l) (OBase num l []) e (Sink room out) = Ok (OEnc (head_done l) num p, Sink (length out + room - length T) T).

Definition start (e : oenc) : oenc := match e_st e with FirstByte | OptionDone => oenc_next e | _ => e end.

Lemma quiet_le : forall s, (quiet s <= 4)%nat.
Proof. intros []; cbn; lia. Qed.

Lemma heads_step : forall num l e out T c, entry l (e_st e) -> heads_to num l e out T ->
  exists e1 s1, nbe_loop (c + 10) (head_done l) (OBase num l []) e (Sink c out) = Ok (e1, s1) /\
    ((exists p, e1 = OEnc (head_done l) num p) /\ s_out s1 = T \/
     entry l (e_st e1) /\ e_st e1 <> head_done l /\ s_room s1 = O /\ length (s_out s1) = (length out + c)%nat /\ heads_to num l e1 (s_out s1) T).
Proof.
  intros num l e out T c He HT.
  destruct (nl_total (c + 10) (OBase num l []) e (Sink c out) He) as (e1 & s1 & E & En); [pose proof (quiet_le (e_st e)); cbn [s_room]; lia|]. cbn [o_length] in *.
  exists e1, s1. split; [exact E|]. destruct (ostate_eqb (e_st e1) (head_done l)) eqn:Q.
  - left. apply ost_eqb in Q. pose proof (nl_extra _ _ _ _ _ _ _ _ (S (length T)) E Q) as X.
    destruct (HT (c + S (length T))%nat ltac:(lia)) as (f & p & Y). pose proof (nl_det _ _ _ _ _ _ _ _ X Y) as Z. injection Z as Z1 Z2 Z3. split; [exists p; exact Z1|exact Z3].
  - right. assert (D : e_st e1 <> head_done l) by (intro X; apply ost_eqb in X; congruence).
    destruct (nl_split _ _ _ _ _ _ _ _ E D) as [R S]. pose proof (nl_conserve _ _ _ _ _ _ _ _ E) as C.
    split; [exact En|]. split; [exact D|]. split; [exact R|]. split; [lia|].
    intros room Hroom. destruct (nl_total (room + 10) (OBase num l []) e1 (Sink room (s_out s1)) En) as (e2 & s2 & E2 & _); [pose proof (quiet_le (e_st e1)); cbn [s_room]; lia|]. cbn [o_length] in *.
    pose proof (S _ _ _ E2) as X. destruct (HT (c + room)%nat ltac:(lia)) as (f & p & Y). pose proof (nl_det _ _ _ _ _ _ _ _ X Y) as Z.
    exists (room + 10)%nat, p. rewrite E2, Z. match goal with |- Ok (_, Sink ?a _) = Ok (_, Sink ?b _) => replace b with a by lia end. reflexivity.
Qed.

Lemma start_entry : forall l e, entry l (e_st e) -> head_done l <> OptionDone -> start e = e.
Proof. intros l [st cur pos] H D. unfold start, oenc_next. cbn [e_st e_cur e_pos] in *. destruct st; try reflexivity. destruct H as [H|[H|H]]; [contradiction|discriminate|congruence]. Qed.

Lemma head_done_not : forall l, head_done l <> OptionDone /\ head_done l <> FirstByte.
Proof. intros l. unfold head_done. destruct (0 <? l); split; discriminate. Qed.

Lemma start_heads : forall num l b cur pos room out, n_enc b = OEnc (e_st (n_enc b)) cur pos -> n_sink b = Sink room out -> fresh b ->
  cur <= num -> num < 65536 -> l < 65536 -> enc_short (num - cur) l \/ enc_long (num - cur) l ->
  heads_to num l (start (n_enc b)) out (out ++ opt_head (num - cur) l) /\ entry l (e_st (start (n_enc b))).
Proof.
  intros num l b cur pos room out He Hs Hf Hle Hn Hl Hg.
  replace (start (n_enc b)) with (OEnc FirstByte cur pos) by (unfold start; rewrite He; cbn [e_st]; destruct Hf as [-> | ->]; reflexivity).
  split; [|left; exact I]. intros r Hr. rewrite app_length in *. apply Nat.add_lt_mono_l in Hr.
  destruct (header_good num l (NBE false (OEnc FirstByte cur pos) (Sink r out) RHeader false None) cur pos r out) as (p & E); auto; try (left; reflexivity); try exact Hr.
  unfold nbe_option_header in E. rewrite header_unfold in E by (auto; left; reflexivity). cbn [n_enc e_st n_sink] in E. unfold oenc_next in E. cbn [e_cur e_pos] in E.
  match type of E with bind ?t _ = _ => destruct t as [[e1 s1]| |] eqn:L; cbn [bind fst snd] in E; try discriminate end.
  destruct (ostate_eqb (e_st e1) (head_done l)); [|discriminate]. injection E as -> ->. do 2 eexists. rewrite L. replace (length out + r - (length out + length (opt_head (num - cur) l)))%nat with (r - length (opt_head (num - cur) l))%nat by lia. reflexivity.
Qed.

(** a header call in terms of the loop *)
Lemma header_call : forall num l b e1 s1, can_option b -> num < 65536 -> l < 65536 ->
  nbe_loop (s_room (n_sink b) + 10) (head_done l) (OBase num l []) (start (n_enc b)) (n_sink b) = Ok (e1, s1) ->
  exists b1, nbe_option_header num l b = Ok (ostate_eqb (e_st e1) (head_done l), b1) /\ n_enc b1 = e1 /\ n_sink b1 = s1 /\ n_debug b1 = n_debug b /\
    n_marker b1 = n_marker b /\ can_option b1 /\ n_set_state ROptions (n_set_enc (n_enc b1) (n_sink b1) b1) = b1.
Proof.
  intros num l b e1 s1 Hc Hn Hl E. unfold nbe_option_header. rewrite header_unfold by assumption. unfold nbe_fuel. fold (start (n_enc b)). rewrite E. cbn [bind fst snd].
  destruct (ostate_eqb (e_st e1) (head_done l)); eexists; (split; [reflexivity|]); cbn; repeat split; unfold can_option, n_set_state; cbn; destruct (n_debug b); auto.
Qed.

Lemma header_retry_good : forall caps num l b out room T, can_option b -> num < 65536 -> l < 65536 -> n_sink b = Sink room out ->
  entry l (e_st (start (n_enc b))) -> heads_to num l (start (n_enc b)) out T -> (length T < length out + room + total caps)%nat ->
  exists b1, header_retry caps num l b = Ok (true, b1) /\ s_out (n_sink b1) = T /\ e_st (n_enc b1) = head_done l /\ e_cur (n_enc b1) = num.
Proof.
  induction caps as [|c caps IH]; intros num l b out room T Hc Hn Hl Hs He HT Hr.
  all: destruct (heads_step num l (start (n_enc b)) out T room He HT) as (e1 & s1 & E & K).
  all: destruct (header_call num l b e1 s1 Hc Hn Hl) as (b1 & X1 & X2 & X3 & X4 & X5 & X6 & X7); [rewrite Hs; exact E|].
  all: cbn [header_retry]; rewrite X1; cbn [bind fst snd].
  all: destruct K as [((p & ->) & K2)|(K1 & K2 & K3 & K4 & K5)]; [cbn [e_st]; rewrite (proj2 (ost_eqb _ _) eq_refl); exists b1; rewrite X3, X2; auto|].
  - exfalso. cbn [total fold_right] in Hr. destruct (nl_total (0 + 10) (OBase num l []) e1 (Sink 0 (s_out s1)) K1) as (e2 & s2 & E2 & _); [pose proof (quiet_le (e_st e1)); cbn [s_room]; lia|].
    destruct (K5 1%nat ltac:(lia)) as (f & q & Y). pose proof (nl_conserve _ _ _ _ _ _ _ _ Y) as C. cbn [s_out s_room] in C. 
    pose proof (HT room ltac:(lia)) as (f2 & q2 & Z). pose proof (nl_det _ _ _ _ _ _ _ _ E Z) as W. injection W as -> _. cbn [e_st] in K2. congruence.
  - destruct (ostate_eqb (e_st e1) (head_done l)) eqn:Q; [apply ost_eqb in Q; congruence|].
    assert (S : start (n_enc (nbe_more c b1)) = e1) by (cbn [nbe_more n_set_sink n_set_enc n_enc]; rewrite X2; apply (start_entry l); [exact K1|apply head_done_not]).
    destruct (IH num l (nbe_more c b1) (s_out s1) c T) as (b2 & Y1 & Y2); auto.
    + cbn [nbe_more n_set_sink n_set_enc n_sink]. rewrite X3. reflexivity.
    + rewrite S. exact K1.
    + rewrite S. exact K5.
    + cbn [total fold_right] in Hr. fold (total caps) in Hr. lia.
    + exists b2. auto.
Qed.

Lemma value_retry : forall caps num v b room out, can_option b -> num < 65536 -> n_sink b = Sink room out -> e_st (n_enc b) = OptionValue -> e_cur (n_enc b) = num ->
  v <> [] -> len v < 65536 -> (length v <= room + total caps)%nat ->
  exists b1, option_retry caps num v b = Ok (true, b1) /\ s_out (n_sink b1) = out ++ v /\ fresh b1 /\ can_option b1 /\ e_cur (n_enc b1) = num.
Proof.
  induction caps as [|c caps IH]; intros num v b room out Hc Hn Hs He Hcur Hv Hl Hr.
  all: assert (HD : head_done (N.of_nat (length v)) = OptionValue) by (unfold head_done, len in *; destruct (N.ltb_spec 0 (N.of_nat (length v))); [reflexivity|destruct v; [congruence|cbn [length] in *; lia]]).
  all: assert (E : nbe_loop (s_room (n_sink b) + 10) (head_done (N.of_nat (length v))) (OBase num (N.of_nat (length v)) []) (start (n_enc b)) (n_sink b) = Ok (n_enc b, n_sink b))
         by (rewrite Nat.add_comm; cbn [Nat.add]; assert (start (n_enc b) = n_enc b) as -> by (unfold start; rewrite He; reflexivity); apply nl_stop; left; congruence).
  all: destruct (header_call num (N.of_nat (length v)) b _ _ Hc Hn Hl E) as (b1 & X1 & X2 & X3 & X4 & X5 & X6 & X7).
  all: rewrite HD, He in X1; change (ostate_eqb OptionValue OptionValue) with true in X1.
  all: cbn [option_retry]; unfold nbe_option, nbe_option_fuel; unfold nbe_option_header in X1; rewrite X1; cbn [bind fst snd].
  all: unfold nbe_option_value; rewrite X3, Hs; unfold sputn; cbn [s_room s_out].
  all: destruct (Nat.le_gt_cases (length v) room) as [L|L]; [rewrite (Nat.min_l _ _ L)|rewrite (Nat.min_r (length v) room) by lia].
  1,3: rewrite Nat.eqb_refl, firstn_all; unfold oenc_fast_forward; cbn [n_enc n_set_sink n_set_enc]; rewrite X2, He; cbn [bind fst]; eexists; (split; [reflexivity|]);
    cbn [n_sink n_enc n_set_enc s_out]; (split; [reflexivity|]); (split; [right; reflexivity|]); split; [exact X6|exact Hcur].
  - cbn [total fold_right] in Hr. lia.
  - destruct (Nat.eqb_spec room (length v)); [lia|]. cbn [bind fst snd].
    unfold value_cut. cbn [n_set_written n_set_sink n_set_enc n_enc n_written]. rewrite X2, He. change (ostate_eqb OptionValue OptionValue) with true. cbn iota.
    destruct (IH num (skipn room v) (nbe_more c (n_set_written room (n_set_sink (Sink (room - room) (out ++ firstn room v)) b1))) c (out ++ firstn room v)) as (b2 & Y1 & Y2 & Y3); auto.
    + cbn [nbe_more n_set_written n_set_sink n_set_enc n_enc]. rewrite X2. exact He.
    + cbn [nbe_more n_set_written n_set_sink n_set_enc n_enc]. rewrite X2. exact Hcur.
    + intro Z. apply (f_equal (@length N)) in Z. rewrite skipn_length in Z. cbn [length] in Z. lia.
    + unfold len in *. rewrite skipn_length. lia.
    + rewrite skipn_length. cbn [total fold_right] in Hr. fold (total caps) in Hr. lia.
    + exists b2. split; [exact Y1|]. rewrite Y2, <- app_assoc, firstn_skipn. auto.
Qed.

(** once the header is out, the call amounts to a call in that state *)
Lemma option_skip : forall num v b b1, can_option b1 -> num < 65536 -> len v < 65536 -> nbe_option_header num (len v) b = Ok (true, b1) ->
  e_st (n_enc b1) = head_done (len v) -> n_set_state ROptions (n_set_enc (n_enc b1) (n_sink b1) b1) = b1 ->
  nbe_option num v true b = nbe_option num v true b1.
Proof.
  intros num v b b1 Hc Hn Hl E He Hb. unfold nbe_option, nbe_option_fuel. unfold nbe_option_header, len in E. rewrite E. cbn [bind fst snd].
  fold (len v). rewrite header_unfold by assumption.
  assert (S : match e_st (n_enc b1) with FirstByte | OptionDone => oenc_next (n_enc b1) | _ => n_enc b1 end = n_enc b1).
  { rewrite He. pose proof (head_done_not (len v)) as [A B]. destruct (head_done (len v)); congruence. }
  rewrite S. unfold nbe_fuel. rewrite Nat.add_comm. cbn [Nat.add]. rewrite nl_stop by (left; exact He). cbn [bind fst snd]. rewrite Hb, He.
  rewrite (proj2 (ost_eqb _ _) eq_refl). reflexivity.
Qed.

Lemma retry_skip : forall caps num v b b1, nbe_option num v true b = nbe_option num v true b1 -> option_retry caps num v b = option_retry caps num v b1.
Proof. intros caps num v b b1 E. destruct caps; cbn [option_retry]; rewrite E; reflexivity. Qed.

Lemma option_retry_good : forall caps num v b room out T, can_option b -> num < 65536 -> n_sink b = Sink room out ->
  entry (len v) (e_st (start (n_enc b))) -> heads_to num (len v) (start (n_enc b)) out T ->
  v <> [] -> len v < 65536 -> (length (T ++ v) <= length out + room + total caps)%nat ->
  exists b1, option_retry caps num v b = Ok (true, b1) /\ s_out (n_sink b1) = T ++ v /\ fresh b1 /\ can_option b1 /\ e_cur (n_enc b1) = num.
Proof.
  intros caps num v b room out T Hc Hn Hs He HT Hv Hl Hr.
  assert (L0 : (0 < length v)%nat) by (destruct v; [congruence|cbn; lia]).
  assert (HD : head_done (len v) = OptionValue) by (unfold head_done, len in *; destruct (N.ltb_spec 0 (N.of_nat (length v))); [reflexivity|lia]).
  revert b room out Hc Hs He HT Hr. induction caps as [|c caps IH]; intros b room out Hc Hs He HT Hr; rewrite app_length in Hr.
  all: destruct (heads_step num (len v) (start (n_enc b)) out T room He HT) as (e1 & s1 & E & K).
  all: destruct (header_call num (len v) b e1 s1 Hc Hn Hl) as (b1 & X1 & X2 & X3 & X4 & X5 & X6 & X7); [rewrite Hs; exact E|].
  all: pose proof (nl_conserve _ _ _ _ _ _ _ _ E) as CV.
  all: destruct K as [((p & K1) & K2)|(K1 & K2 & K3 & K4 & K5)].
  1,3: subst e1; cbn [e_st] in X1; rewrite (proj2 (ost_eqb _ _) eq_refl) in X1; rewrite (retry_skip _ num v b b1) by (apply option_skip; auto; rewrite X2; reflexivity);
    apply (value_retry _ num v b1 (s_room s1) T); auto; try (rewrite X2; auto); try (rewrite X3, <- K2; destruct s1; reflexivity);
    cbn [total fold_right] in *; rewrite <- K2 in Hr; lia.
  - exfalso. cbn [total fold_right] in Hr. destruct (HT room ltac:(lia)) as (f2 & q2 & Z). pose proof (nl_det _ _ _ _ _ _ _ _ E Z) as W. injection W as -> _. cbn [e_st] in K2. congruence.
  - destruct (ostate_eqb (e_st e1) (head_done (len v))) eqn:Q; [apply ost_eqb in Q; congruence|].
    cbn [option_retry]. unfold nbe_option, nbe_option_fuel. unfold nbe_option_header, len in X1. rewrite X1. cbn [bind fst snd].
    assert (V : value_cut b1 = false) by (unfold value_cut; rewrite X2, <- HD; exact Q). rewrite V.
    assert (S : start (n_enc (nbe_more c b1)) = e1) by (cbn [nbe_more n_set_sink n_set_enc n_enc]; rewrite X2; apply (start_entry (len v)); [exact K1|apply head_done_not]).
    apply (IH (nbe_more c b1) c (s_out s1)); auto.
    + cbn [nbe_more n_set_sink n_set_enc n_sink]. rewrite X3. reflexivity.
    + rewrite S. exact K1.
    + rewrite S. exact K5.
    + cbn [total fold_right] in Hr. fold (total caps) in Hr. rewrite app_length. lia.
Qed.
