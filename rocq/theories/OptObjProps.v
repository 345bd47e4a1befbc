(** C97: the option encoder and the option it points to. *)
From Verif Require Import Base UIntModel HeaderModel OptEncModel OptSpec StreambufModel OptEncProofs PullProofs NetbufModel OptObjModel OptObjSpec OptObjProofs.
Local Open Scope N_scope.

(** However often the option is taken away between two bytes and put back, there or
    elsewhere: if it is pointed at whenever a byte is asked for, what comes out is the
    beginning of its RFC 7252 form; in state OptionValueDone, and in any case after enough
    turns, it is all of it. *)
Theorem C97_split : forall num v m x, e_cur (x_enc x) <= num -> num < 65536 ->
  enc_range (num - e_cur (x_enc x)) (len v) -> (length v <= 256)%nat ->
  exists k, forall a cs, Forall between cs -> served (OBase num (len v) v) (Some a) (fun b => om_get b m) cs ->
    exists bs more m' x', x_run (XNext a :: cs) m x = Ok (bs, m', x') /\
      bs ++ more = opt_head (num - e_cur (x_enc x)) (len v) ++ v /\
      (e_st (x_enc x') = OptionValueDone -> more = []) /\
      ((k <= turns cs)%nat -> more = [] /\ e_cur (x_enc x') = num).
Proof.
  intros num v m [[st cur pos] p] A B C D. cbn [x_enc e_cur] in *. destruct (served_option num v cur pos A B C D) as (k & K).
  exists k. intros a cs F Sv. destruct (K m (Some a) cs F Sv) as (bs & more & m' & x' & E & R). exists bs, more, m', x'. split; [|exact R].
  cbn [x_run x_step bind fst snd]. unfold x_next, x_next0, oenc_next. cbn [x_enc e_cur e_pos]. rewrite E. reflexivity.
Qed.
Print Assumptions C97_split.

(** reset() at any time makes the next option the first one. *)
Theorem C97_reset : forall num v m x, num < 65536 -> enc_range num (len v) -> (length v <= 256)%nat ->
  exists k, forall a cs, Forall between cs -> served (OBase num (len v) v) (Some a) (fun b => om_get b m) cs -> (k <= turns cs)%nat ->
    exists m' x', x_run (XReset :: XNext a :: cs) m x = Ok (opt_head num (len v) ++ v, m', x') /\ e_cur (x_enc x') = num.
Proof.
  intros num v m x B C D. destruct (C97_split num v m (x_reset x)) as (k & K); cbn [x_reset x_enc oenc_init e_cur]; try (rewrite ?N.sub_0_r; assumption); [apply N.le_0_l|].
  exists k. intros a cs F Sv L. destruct (K a cs F Sv) as (bs & more & m' & x' & E & R & _ & G). destruct (G L) as (-> & Hc).
  cbn [x_reset x_enc oenc_init e_cur] in R. rewrite app_nil_r, N.sub_0_r in R. subst bs. exists m', x'. split; [|exact Hc].
  cbn [x_run] in E |- *. cbn [x_step bind fst snd] in E |- *. rewrite E. reflexivity.
Qed.
Print Assumptions C97_reset.

(** An encoder constructed with its option begins with it at once; next() without an
    option begins the one pointed at once more, from the number that was written last. *)
Theorem C97_begins : forall num v m, num < 65536 -> (length v <= 256)%nat ->
  (enc_range num (len v) -> exists k, forall a cs, Forall between cs -> served (OBase num (len v) v) (Some a) (fun b => om_get b m) cs -> (k <= turns cs)%nat ->
    exists m' x', x_run cs m (x_init_with a) = Ok (opt_head num (len v) ++ v, m', x') /\ e_cur (x_enc x') = num) /\
  (forall x, e_cur (x_enc x) = num -> enc_range 0 (len v) ->
   exists k, forall a cs, x_ptr x = Some a -> Forall between cs -> served (OBase num (len v) v) (Some a) (fun b => om_get b m) cs -> (k <= turns cs)%nat ->
    exists m' x', x_run (XNext0 :: cs) m x = Ok (opt_head 0 (len v) ++ v, m', x') /\ e_cur (x_enc x') = num).
Proof.
  intros num v m B D. split.
  - intros C. destruct (served_option num v 0 0 (N.le_0_l _) B) as (k & K); [rewrite N.sub_0_r; exact C|exact D|].
    exists k. intros a cs F Sv L. destruct (K m (Some a) cs F Sv) as (bs & more & m' & x' & E & R & _ & G). destruct (G L) as (-> & Hc).
    rewrite app_nil_r, N.sub_0_r in R. subst bs. exists m', x'. split; [exact E|exact Hc].
  - intros [[st cur pos] p] H C. cbn [x_enc e_cur] in H. subst cur.
    destruct (served_option num v num pos (N.le_refl _) B) as (k & K); [rewrite N.sub_diag; exact C|exact D|].
    exists k. intros a cs Hp F Sv L. cbn [x_ptr] in Hp. subst p. destruct (K m (Some a) cs F Sv) as (bs & more & m' & x' & E & R & _ & G). destruct (G L) as (-> & Hc).
    rewrite app_nil_r, N.sub_diag in R. subst bs. exists m', x'. split; [|exact Hc].
    cbn [x_run x_step bind fst snd]. unfold x_next0, oenc_next. cbn [x_enc x_ptr e_cur e_pos]. rewrite E. reflexivity.
Qed.
Print Assumptions C97_begins.

(** fast_forward() ends the option in front of its value and between two bytes of it,
    whether or not the option is there, and is a fault at any other time. *)
Theorem C97_fast_forward : forall m x,
  (e_st (x_enc x) = OptionValue -> exists x', x_run [XFastForward] m x = Ok ([], m, x') /\
     e_st (x_enc x') = OptionDone /\ e_cur (x_enc x') = e_cur (x_enc x) /\ x_ptr x' = x_ptr x) /\
  (e_st (x_enc x) <> OptionValue -> x_run [XFastForward] m x = Fault).
Proof.
  intros m [[st cur pos] p]. cbn [x_enc e_st e_cur x_ptr]. split.
  - intros ->. eexists. split; [reflexivity|]. repeat split.
  - intros H. destruct st; try congruence; reflexivity.
Qed.
Print Assumptions C97_fast_forward.

(** A byte asked for while the encoder points nowhere or at an option that is gone is a
    fault, after any calls whatever. *)
Theorem C97_lost : forall past rest m x,
  (forall a, pointed (x_ptr x) past = Some a -> there a (om_get a m) past = None) ->
  x_run (past ++ XIterate :: rest) m x = Fault.
Proof. exact run_lost. Qed.
Print Assumptions C97_lost.

(** Full claim (false): the encoder notices when it is resumed with another option.  It
    ends as if all were well, with bytes that are the form of neither. *)
Theorem C97_other_refuted : exists o o' cs bs m x,
  x_run (XHere 1 o :: XHere 2 o' :: XNext 1 :: cs) [] x_init = Ok (bs, m, x) /\ Forall between cs /\ e_st (x_enc x) = OptionValueDone /\
  bs <> opt_head (o_number o) (o_length o) ++ o_value o /\ bs <> opt_head (o_number o') (o_length o') ++ o_value o'.
Proof.
  exists (OBase 11 2 [97; 98]), (OBase 12 1 [99]), [XIterate; XPause; XResume 2; XIterate; XIterate; XIterate; XIterate], [178; 99].
  eexists _, _. split; [vm_compute; reflexivity|]. split; [repeat constructor|]. split; [reflexivity|]. split; discriminate.
Qed.
Print Assumptions C97_other_refuted.

(** The two message encoders put the option they write into a local variable.  They never
    read one that is gone: with the pointer and the storage kept track of, every sequence of
    calls does what C22 to C24, C45 and C46 speak of, wherever the locals are. *)
Theorem C97_encoders :
  (forall cs m p b, bind (pn_run cs m p b) (fun r => Ok (fst (fst r), snd r)) = nbe_run (map snd cs) b) /\
  (forall cs m p b, bind (ps_run cs m p b) (fun r => Ok (fst (fst r), snd r)) = sb_run (map snd cs) b).
Proof. split; [exact pn_run_eq|exact ps_run_eq]. Qed.
Print Assumptions C97_encoders.

(** After option_header the pointer is null if the option has to be continued and else
    points to the local that is gone. *)
Theorem C97_after : forall a n l m p b done p' b', pn_option_header (nbe_fuel b) a n l m p b = Ok (done, p', b') ->
  p' = if done then Some a else None.
Proof.
  intros a n l m p b done p' b' H. rewrite pn_header_eq in H.
  destruct (nbe_option_header_fuel (nbe_fuel b) n l b) as [[r b1]| |]; cbn [bind fst snd] in H; try discriminate. injection H as <- <- _. reflexivity.
Qed.
Print Assumptions C97_after.

(** The same of the calls: one that has written all of its option leaves the pointer to its local that is gone,
    one that has not leaves that or null, and the others leave the pointer as it was. *)
Theorem C97_after_call : forall a c m p b done p' b', pn_call a c m p b = Ok (done, p', b') ->
  if writes_option c then (done = true -> p' = Some a) /\ (p' = Some a \/ p' = None) else p' = p.
Proof.
  assert (O : forall a n v m p b done p' b', pn_option a n v m p b = Ok (done, p', b') -> (done = true -> p' = Some a) /\ (p' = Some a \/ p' = None)).
  { intros a n v m p b done p' b' H. unfold pn_option in H. destruct (pn_option_header (nbe_fuel b) a n _ m p b) as [[[d q] b1]| |] eqn:E; cbn [bind fst snd] in H; try discriminate.
    apply C97_after in E. destruct d.
    - destruct (nbe_option_value v true b1); cbn [bind] in H; try discriminate. injection H as _ <- _. subst q. auto.
    - injection H as <- <- _. subst q. split; [discriminate|auto]. }
  intros a c m p b done p' b' H. destruct c; cbn [writes_option pn_call] in *;
    try (destruct (nbe_call _ b); cbn [bind] in H; try discriminate; injection H as _ <- _; reflexivity);
    try exact (O _ _ _ _ _ _ _ _ _ H).
  - apply C97_after in H. destruct done; subst p'; split; auto; discriminate.
  - destruct (layer2_set 4 _); cbn [bind] in H; try discriminate. exact (O _ _ _ _ _ _ _ _ _ H).
Qed.
Print Assumptions C97_after_call.

Example C97_after_call_case : let b := n_set_state RTokenDone (nbe_init true 2) in
  (exists b1, pn_call 7 (NOption 11 [97]) [] (Some 3%nat) b = Ok (true, Some 7%nat, b1)) /\
  (exists b1, pn_call 7 (NOption 300 [97]) [] (Some 3%nat) b = Ok (false, None, b1)) /\
  (exists b1, pn_call 7 (NMore 10) [] (Some 3%nat) b = Ok (true, Some 3%nat, b1)).
Proof. cbv zeta. repeat split; eexists; vm_compute; reflexivity. Qed.

(** Full claim (false): no encoder keeps a pointer to an option that is gone.  After every
    option of a StreambufEncoder that was written, option_generate_byte() is a fault. *)
Theorem C97_kept_refuted : forall a n l m p b r p' b', ps_option a n l m p b = Ok (r, p', b') ->
  p' = Some a /\ ps_generate_byte (om_del a m) p' b' = Fault.
Proof.
  intros a n l m p b r p' b' H. rewrite ps_option_eq in H. destruct (sb_option n l b) as [[q b1]| |]; cbn [bind fst snd] in H; try discriminate.
  injection H as _ <- _. split; [reflexivity|]. unfold ps_generate_byte, x_iterate, x_base. cbn [x_ptr]. rewrite om_get_del, Nat.eqb_refl. reflexivity.
Qed.
Print Assumptions C97_kept_refuted.

(** An encoder constructed without an option: a byte asked for before one was given to it is a fault. *)
Theorem C97_unset : forall past rest m, pointed None past = None -> x_run (past ++ XIterate :: rest) m x_init = Fault.
Proof. intros past rest m H. apply run_lost. intros a Ha. cbn [x_init x_ptr] in Ha. rewrite H in Ha. discriminate. Qed.
Print Assumptions C97_unset.

Lemma ps_call_ptr : forall a c m p b r p' b', ps_call a c m p b = Ok (r, p', b') -> p' = last_local [(a, c)] p.
Proof.
  assert (O : forall a n l m p b r, ps_option a n l m p b = Ok r -> snd (fst r) = Some a).
  { intros a n l m p b r H. rewrite ps_option_eq in H. destruct (sb_option n l b); cbn [bind] in H; try discriminate. injection H as <-. reflexivity. }
  assert (A : forall a n v m p b r p' b', ps_option_array a n v m p b = Ok (r, p', b') -> p' = Some a).
  { intros a n v m p b r p' b' H. unfold ps_option_array in H. destruct (ps_option a n _ m p b) as [x| |] eqn:E; cbn [bind] in H; try discriminate.
    apply O in E. destruct (fst (fst x)); injection H as _ <- _; exact E. }
  intros a c m p b r p' b' H. unfold last_local. destruct c; cbn [fold_left fst snd ps_call] in *;
    try (destruct (sb_call _ b); cbn [bind] in H; try discriminate; injection H as _ <- _; reflexivity).
  - exact (O _ _ _ _ _ _ _ H).
  - exact (A _ _ _ _ _ _ _ _ _ H).
  - unfold ps_option_str in H. destruct (ps_option a number _ m p b) as [x| |] eqn:E; cbn [bind] in H; try discriminate.
    destruct (sputn v (sb_sink (snd x))). injection H as _ <- _. exact (O _ _ _ _ _ _ _ E).
  - destruct (layer2_set 4 value); cbn [bind] in H; try discriminate. exact (A _ _ _ _ _ _ _ _ _ H).
Qed.

(** Whatever is written with a StreambufEncoder, it ends with the pointer to the local of the last
    option, and option_generate_byte() is then a fault. *)
Theorem C97_pointer : forall cs m p b rs p' b', ps_run cs m p b = Ok (rs, p', b') ->
  p' = last_local cs p /\ (forall a, p' = Some a -> ps_generate_byte (om_del a m) p' b' = Fault).
Proof.
  intros cs m p b rs p' b' H. split.
  - revert m p b rs p' b' H. induction cs as [|[a c] cs IH]; intros m p b rs p' b' H; cbn [ps_run] in H; [injection H as _ <- _; reflexivity|].
    destruct (ps_call a c m p b) as [[[r p1] b1]| |] eqn:E; cbn [bind fst snd] in H; try discriminate.
    destruct (ps_run cs m p1 b1) as [[[rs1 p2] b2]| |] eqn:E2; cbn [bind fst snd] in H; try discriminate.
    injection H as _ <- _. rewrite (IH _ _ _ _ _ _ E2), (ps_call_ptr _ _ _ _ _ _ _ _ E). reflexivity.
  - intros a ->. unfold ps_generate_byte, x_iterate, x_base. cbn [x_ptr]. rewrite om_get_del, Nat.eqb_refl. reflexivity.
Qed.
Print Assumptions C97_pointer.

Example C97_pointer_case : pointed None [XHere 1 (OBase 11 0 []); XReset] = None /\
  exists b, ps_run [(7%nat, COptStr 11 [97]); (8%nat, COptInt 12 40); (9%nat, CPayload)] [] None (sb_init 20) = Ok ([true; true; true], Some 8%nat, b) /\
  ps_generate_byte [] (Some 8%nat) b = Fault /\
  exists b', ps_run [(8%nat, COptInt 11 40); (7%nat, COptStr 12 [97]); (9%nat, CPayload)] [] None (sb_init 20) = Ok ([true; true; true], Some 7%nat, b').
Proof. split; [reflexivity|]. eexists. split; [vm_compute; reflexivity|]. split; [reflexivity|]. eexists. vm_compute. reflexivity. Qed.

(** option 300 with two bytes, moved three times on the way; an option over two buffers *)
Example C97_case :
  let o := OBase 300 2 [97; 98] in
  let cs := [XIterate; XPause; XGone 1; XHere 2 o; XResume 2; XIterate; XIterate; XIterate; XPause; XGone 2; XIterate] in
  let ds := [XIterate; XPause; XGone 1; XHere 2 o; XResume 2; XIterate; XIterate; XIterate; XHere 1 o; XResume 1; XGone 2;
    XIterate; XIterate; XIterate; XIterate] in
  x_run (XNext 1 :: cs) [(1%nat, o)] x_init = Fault /\
  (exists m x, x_run (XNext 1 :: ds) [(1%nat, o)] x_init = Ok (opt_head 300 2 ++ [97; 98], m, x)) /\
  Forall between ds /\ served o (Some 1%nat) (fun b => om_get b [(1%nat, o)]) ds /\ enc_range 300 (len [97; 98]) /\
  (exists b, pn_run [(5%nat, NToken []); (7%nat, NOption 300 [97; 98]); (5%nat, NMore 10); (9%nat, NOption 300 [97; 98])] [] None
     (n_set_state RHeaderDone (nbe_init true 2)) = Ok ([true; false; true; true], Some 9%nat, b) /\
     s_out (n_sink b) = opt_head 300 2 ++ [97; 98]) /\
  (exists r, ps_option 7 300 2 [] None (sb_init 10) = Ok r) /\
  (exists m x, x_run [XIterate; XIterate; XIterate; XIterate; XFastForward; XHere 3 (OBase 300 1 [7]); XResume 3; XNext0;
     XIterate; XIterate; XIterate; XIterate] [(3%nat, OBase 300 2 [])] (OObj oenc_init (Some 3%nat)) = Fault /\
     x_run [XIterate; XIterate; XIterate; XIterate; XIterate; XIterate; XFastForward; XHere 3 (OBase 300 1 [7]); XResume 3; XNext0;
     XIterate; XIterate; XIterate; XIterate; XIterate] [(3%nat, OBase 300 2 [])] (x_init_with 3) = Ok (opt_head 300 2 ++ opt_head 0 1 ++ [7], m, x)).
Proof.
  cbv zeta. split; [vm_compute; reflexivity|]. split; [eexists _, _; vm_compute; reflexivity|]. split; [repeat constructor|].
  split.
  { intros past rest E. repeat (destruct past as [|c past]; [cbn in E; try discriminate; eexists; split; reflexivity|
      cbn [app] in E; injection E as <- E]). destruct past; discriminate. }
  split; [left; unfold enc_short, len; cbn [length]; lia|].
  split; [eexists; split; vm_compute; reflexivity|]. split; [eexists; vm_compute; reflexivity|].
  eexists _, _. split; vm_compute; reflexivity.
Qed.
