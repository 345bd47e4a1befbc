(** C45: an option value given to NetBufEncoder in several pieces. *)
From Verif Require Import Base UIntModel HeaderModel OptEncModel OptSpec StreambufModel OptEncProofs StreambufProofs
  NetbufModel NetbufSpec NetbufProofs.
Local Open Scope N_scope.

(** A caller with the value in several pieces: the last call says it is the last. *)
Fixpoint in_pieces (num : N) (vs : list (list N)) (b : nbenc) : res (list bool * nbenc) :=
  match vs with
  | [] => Ok ([], b)
  | v :: r =>
      bind (nbe_option num v (match r with [] => true | _ => false end) b) (fun x =>
      bind (in_pieces num r (snd x)) (fun y => Ok (fst x :: fst y, snd y)))
  end.

(** One more piece: what fits of it is written, the result says whether that was all. *)
Theorem C45_piece : forall num v lc b room out, n_sink b = Sink room out -> e_st (n_enc b) = OptionValue -> can_option b ->
  num < 65536 -> v <> [] -> len v < 65536 ->
  exists b', nbe_option num v lc b = Ok ((length v <=? room)%nat, b') /\ n_sink b' = Sink (room - length v) (out ++ firstn room v) /\
    e_cur (n_enc b') = e_cur (n_enc b) /\ can_option b' /\
    ((length v <= room)%nat -> e_st (n_enc b') = if lc then OptionDone else OptionValue) /\
    ((room < length v)%nat -> e_st (n_enc b') = OptionValue /\ n_written b' = Some room).
Proof.
  intros num v lc b room out Hs He Hc Hn Hv Hl.
  assert (HD : head_done (N.of_nat (length v)) = OptionValue) by (unfold head_done, len in *; destruct (N.ltb_spec 0 (N.of_nat (length v))); [reflexivity|destruct v; [congruence|cbn [length] in *; lia]]).
  assert (E : nbe_loop (s_room (n_sink b) + 10) (head_done (N.of_nat (length v))) (OBase num (N.of_nat (length v)) []) (start (n_enc b)) (n_sink b) = Ok (n_enc b, n_sink b))
    by (rewrite Nat.add_comm; cbn [Nat.add]; assert (start (n_enc b) = n_enc b) as -> by (unfold start; rewrite He; reflexivity); apply nl_stop; left; congruence).
  destruct (header_call num (N.of_nat (length v)) b _ _ Hc Hn Hl E) as (b1 & X1 & X2 & X3 & X4 & X5 & X6 & X7).
  rewrite HD, He in X1. change (ostate_eqb OptionValue OptionValue) with true in X1.
  unfold nbe_option, nbe_option_fuel. unfold nbe_option_header in X1. rewrite X1. cbn [bind fst snd].
  unfold nbe_option_value. rewrite X3, Hs. unfold sputn. cbn [s_room s_out].
  destruct (Nat.leb_spec (length v) room) as [L|L]; [rewrite (Nat.min_l _ _ L)|rewrite (Nat.min_r (length v) room) by lia].
  - rewrite Nat.eqb_refl, firstn_all, firstn_all2 by exact L. destruct lc.
    + unfold oenc_fast_forward. cbn [n_enc n_set_sink n_set_enc]. rewrite X2, He. cbn [bind]. eexists. split; [reflexivity|]. cbn. repeat split; auto; lia.
    + eexists. split; [reflexivity|]. cbn. rewrite X2. repeat split; auto; lia.
  - destruct (Nat.eqb_spec room (length v)); [lia|]. eexists. split; [reflexivity|]. cbn. rewrite X2. replace (room - room)%nat with 0%nat by lia. replace (room - length v)%nat with 0%nat by lia.
    repeat split; auto; lia.
Qed.
Print Assumptions C45_piece.

Lemma more_pieces : forall vs num b room out, n_sink b = Sink room out -> e_st (n_enc b) = OptionValue -> can_option b -> num < 65536 ->
  vs <> [] -> Forall (fun v => v <> [] /\ len v < 65536) vs -> (length (concat vs) <= room)%nat ->
  exists b', in_pieces num vs b = Ok (map (fun _ => true) vs, b') /\ n_sink b' = Sink (room - length (concat vs)) (out ++ concat vs) /\
    e_cur (n_enc b') = e_cur (n_enc b) /\ fresh b' /\ can_option b'.
Proof.
  induction vs as [|v vs IH]; intros num b room out Hs He Hc Hn Hne Hf Hr; [congruence|].
  inversion Hf as [|? ? (V1 & V2) Hf']; subst. cbn [concat] in Hr |- *. rewrite app_length in Hr |- *. cbn [in_pieces].
  destruct (C45_piece num v (match vs with [] => true | _ => false end) b room out Hs He Hc Hn V1 V2) as (b1 & E & S1 & C1 & O1 & T1 & _).
  specialize (T1 ltac:(lia)). rewrite E. cbn [bind fst snd]. replace (length v <=? room)%nat with true by (symmetry; apply Nat.leb_le; lia).
  rewrite firstn_all2 in S1 by lia. destruct vs as [|w vs].
  - cbn [in_pieces bind fst snd map concat length]. exists b1. rewrite app_nil_r, Nat.add_0_r. split; [reflexivity|]. split; [exact S1|]. split; [exact C1|]. split; [right; exact T1|exact O1].
  - destruct (IH num b1 (room - length v)%nat (out ++ v) S1 T1 O1 Hn ltac:(discriminate) Hf' ltac:(lia)) as (b2 & E2 & S2 & C2 & F2 & O2).
    rewrite E2. cbn [bind fst snd map]. exists b2. split; [reflexivity|]. rewrite S2, <- app_assoc, Nat.sub_add_distr. rewrite C2. auto.
Qed.

(** Every call reports success and every byte of the value is written once, but the
    length in the header is that of the first piece. *)
Theorem C45_pieces : forall num v0 vs b cur pos room out,
  n_enc b = OEnc (e_st (n_enc b)) cur pos -> n_sink b = Sink room out -> fresh b -> can_option b ->
  cur <= num -> num < 65536 -> enc_short (num - cur) (len v0) \/ enc_long (num - cur) (len v0) ->
  vs <> [] -> Forall (fun v => v <> [] /\ len v < 65536) (v0 :: vs) ->
  (length (opt_head (num - cur) (len v0) ++ concat (v0 :: vs)) <= room)%nat ->
  exists b', in_pieces num (v0 :: vs) b = Ok (map (fun _ => true) (v0 :: vs), b') /\
    s_out (n_sink b') = out ++ opt_head (num - cur) (len v0) ++ concat (v0 :: vs) /\ e_cur (n_enc b') = num /\ fresh b' /\ can_option b'.
Proof.
  intros num v0 vs b cur pos room out He Hs Hf Hc Hle Hn Hg Hne HF Hr.
  inversion HF as [|? ? (V1 & V2) HF']; subst. cbn [concat] in Hr |- *. rewrite !app_length in Hr.
  assert (L0 : (0 < length v0)%nat) by (destruct v0; [congruence|cbn; lia]).
  destruct (header_good num (len v0) b cur pos room out He Hs Hf Hc Hle Hn V2 Hg) as (p & E); [lia|].
  assert (X : head_done (len v0) = OptionValue) by (unfold head_done, len in *; destruct (N.ltb_spec 0 (N.of_nat (length v0))); [reflexivity|lia]).
  rewrite X in E. destruct vs as [|w vs]; [congruence|]. cbn [in_pieces]. fold (in_pieces num (w :: vs)).
  unfold nbe_option at 1, nbe_option_fuel. unfold nbe_option_header in E. fold (len v0). rewrite E. cbn [bind fst snd].
  unfold nbe_option_value. cbn [n_set_state n_set_enc n_sink]. rewrite sputn_all by lia. rewrite Nat.eqb_refl. cbn [bind fst snd].
  match goal with |- context [bind (nbe_option _ _ _ ?b1) _] => 
    destruct (more_pieces (w :: vs) num b1 (room - length (opt_head (num - cur) (len v0)) - length v0)%nat ((out ++ opt_head (num - cur) (len v0)) ++ v0)) as (b2 & E2 & S2 & C2 & F2 & O2) end;
    auto; try discriminate; try lia.
  - unfold can_option. cbn. destruct (n_debug b); auto.
  - cbn [in_pieces] in E2. rewrite E2. cbn [bind fst snd map]. exists b2. split; [reflexivity|]. rewrite S2. cbn [s_out]. rewrite <- !app_assoc. split; [reflexivity|]. split; [exact C2|]. auto.
Qed.
Print Assumptions C45_pieces.

Lemma nib_inj : forall l l', ext l = ext l' -> nib l = nib l' -> l = l'.
Proof.
  intros l l' E H. unfold ext, nib in *.
  destruct (N.ltb_spec l 13); destruct (N.ltb_spec l' 13); try discriminate; auto.
  all: destruct (N.ltb_spec l 269); destruct (N.ltb_spec l' 269); try discriminate; try (injection E as E; lia).
Qed.

(** So an option given in more than one piece never is the option encoded. *)
Theorem C45_pieces_refuted : forall num v0 vs b cur pos room out,
  n_enc b = OEnc (e_st (n_enc b)) cur pos -> n_sink b = Sink room out -> fresh b -> can_option b ->
  cur <= num -> num < 65536 -> enc_short (num - cur) (len v0) \/ enc_long (num - cur) (len v0) ->
  vs <> [] -> Forall (fun v => v <> [] /\ len v < 65536) (v0 :: vs) ->
  (length (opt_head (num - cur) (len v0) ++ concat (v0 :: vs)) <= room)%nat ->
  exists b', in_pieces num (v0 :: vs) b = Ok (map (fun _ => true) (v0 :: vs), b') /\
    s_out (n_sink b') <> out ++ opts_bytes cur [(num, concat (v0 :: vs))].
Proof.
  intros num v0 vs b cur pos room out He Hs Hf Hc Hle Hn Hg Hne HF Hr.
  destruct (C45_pieces num v0 vs b cur pos room out He Hs Hf Hc Hle Hn Hg Hne HF Hr) as (b' & E & O & _).
  exists b'. split; [exact E|]. rewrite O. cbn [opts_bytes]. rewrite app_nil_r. intro Q. apply app_inv_head in Q. apply app_inv_tail in Q.
  unfold opt_head in Q.
  pose proof (f_equal (@hd N 0) Q) as Q1. pose proof (f_equal (@tl N) Q) as Q2. cbn [hd tl] in Q1, Q2. apply app_inv_head in Q2.
  assert (L : len v0 = len (concat (v0 :: vs))) by (apply nib_inj; [exact Q2|apply N.add_cancel_l in Q1; exact Q1]).
  inversion HF as [|? ? _ HF']; subst. destruct vs as [|w vs]; [congruence|]. inversion HF' as [|? ? (W & _) _]; subst.
  unfold len in L. cbn [concat] in L. rewrite !app_length in L. destruct w; [congruence|]. cbn [length] in L. lia.
Qed.
Print Assumptions C45_pieces_refuted.

Example C45_pieces_case : exists b, in_pieces 11 [[97]; [98; 99]; [100]] (nbe_init false 9) = Ok ([true; true; true], b) /\
  s_out (n_sink b) = [0xB1; 97; 98; 99; 100] /\ opts_bytes 0 [(11, [97; 98; 99; 100])] = [0xB4; 97; 98; 99; 100].
Proof. eexists. split; [vm_compute; reflexivity|]. split; vm_compute; reflexivity. Qed.
