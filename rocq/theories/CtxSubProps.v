(** C69: the context that ContextDispatcherHandler fills. *)
From Verif Require Import Base HeaderModel HeaderProofs OptEncModel OptSpec OptDecModel DecoderModel DecoderSpec DecoderProofs DecoderProps DispatchModel ContextModel
  SubjectModel SubjectSpec SubjectProofs SubjectProps CtxSubModel CtxSubSpec CtxSubProofs.
Local Open Scope N_scope.

(** However a message with options or payload is cut into chunks (inside header or token as
    well), and whatever the context held before, it ends up with header and token of the
    message, and token() gives that token. *)
Theorem C69_context : forall m cs d c, msg_ok m -> continues m -> Forall (fun p => p <> []) cs -> concat cs = msg_bytes m -> fresh d ->
  exists c1 d1, cdh_receive cs d c = Ok (c1, d1) /\ holds m c1 /\ ctx_token c1 = Ok (m_tok m).
Proof.
  intros m cs d c Hm Hc Hf Hb Hd. destruct (C47_delivery m cs d Hm Hf Hb Hd) as (es & d1 & A & B). destruct (told_continues m _ Hc B) as (ys & E & P).
  destruct Hm as (Hh & Ht & H8 & _). destruct (calls_hold m ys c H8 P) as (c1 & F & H & _). exists c1, d1. unfold cdh_receive. rewrite A. cbn [bind]. rewrite cdh_atoms, E, F. split; [reflexivity|]. split; [exact H|].
  destruct H as (H1 & H2 & _). unfold ctx_token. rewrite H1, tkl_mod, Ht. replace (_ <=? 8) with true by (symmetry; apply N.leb_le; lia). now rewrite Nat2N.id, H2.
Qed.
Print Assumptions C69_context.

(** A message that is over after header or token does not get there whole: of a header alone (a
    CoAP ping, an empty acknowledgement, a reset) nothing, of header and token the header only. *)
Theorem C69_bare_refuted : forall m cs d c, msg_ok m -> ~ continues m -> Forall (fun p => p <> []) cs -> concat cs = msg_bytes m -> fresh d ->
  exists c1 d1, cdh_receive cs d c = Ok (c1, d1) /\
    (m_tok m = [] -> c1 = c) /\ (m_tok m <> [] -> c_hdr c1 = m_hdr m /\ c_buf c1 = c_buf c /\ c_present c1 = c_present c).
Proof.
  intros m cs d c Hm Hc Hf Hb Hd. destruct (C47_delivery m cs d Hm Hf Hb Hd) as (es & d1 & A & B).
  assert (HO : m_opts m = []) by (destruct (m_opts m) eqn:E; [reflexivity|]; exfalso; apply Hc; left; rewrite E; discriminate).
  assert (HP : m_pay m = None) by (destruct (m_pay m) eqn:E; [|reflexivity]; exfalso; apply Hc; right; rewrite E; discriminate).
  destruct (C47_last_element_refuted m cs d es d1 (map (@length N) cs) Hm Hf Hb Hd HP A) as (_ & L). specialize (L HO).
  unfold cdh_receive. rewrite A. cbn [bind]. rewrite cdh_atoms, L. destruct (m_tok m) as [|t ts].
  - exists c, d1. cbn. split; [reflexivity|]. split; [auto|congruence].
  - eexists. exists d1. cbn. split; [reflexivity|]. split; [discriminate|auto].
Qed.
Print Assumptions C69_bare_refuted.

(** Along the calls of a message a new context is interested until it has the header and, if
    there is one, the token, and never from then on (versions 1 to 3). *)
Theorem C69_interest : forall m cs d junk es d1 ns es1 es2 c1, msg_ok m -> 64 <= h0 (m_hdr m) -> Forall (fun p => p <> []) cs -> concat cs = msg_bytes m -> fresh d ->
  sub_chunks cs d = Ok (es, d1, ns) -> es = es1 ++ es2 -> cdh_calls es1 (ctx_new junk) = Ok c1 ->
  (cdh_interested c1 = Never <-> header_in es1 /\ (m_tok m = [] \/ token_in es1)) /\ (cdh_interested c1 <> Never -> cdh_interested c1 = Currently).
Proof.
  intros m cs d junk es d1 ns es1 es2 c1 Hm Hv Hf Hb Hd A -> E. split; [|destruct (interest_cases c1); congruence].
  destruct (C47_delivery m cs d Hm Hf Hb Hd) as (es' & d1' & A' & B). assert (es' = es1 ++ es2) by congruence. subst es'.
  assert (U : forall h, In (OnHeader h) es1 -> h = m_hdr m).
  { intros h H. assert (X : In (AHeader h) (msg_atoms m)).
    { rewrite <- B. apply in_app_iff. left. apply (flat_in _ (OnHeader h)); [apply in_app_iff; now left|now left]. }
    unfold msg_atoms in X. cbn [app] in X. destruct X as [X|X]; [congruence|]. exfalso.
    apply in_app_iff in X. destruct X as [X|X]; [destruct (m_tok m); cbn in X; [destruct X|destruct X as [X|[]]; discriminate]|].
    apply in_app_iff in X. destruct X as [X|X]; [pose proof (plain_opts (m_opts m)) as P; rewrite Forall_forall in P; exact (P _ X)|].
    apply in_app_iff in X. destruct X as [X|[X|[]]]; [|discriminate]. pose proof (plain_pay (m_pay m)) as P. rewrite Forall_forall in P. exact (P _ X). }
  rewrite interest_iff. destruct (calls_state _ _ _ E) as (S1 & S2 & S3). destruct Hm as (_ & Ht & _).
  assert (Tok : h0 (m_hdr m) mod 16 = 0 <-> m_tok m = []) by (rewrite Ht; destruct (m_tok m); cbn [length]; split; intros; try discriminate; try lia; auto).
  split.
  - intros [V T].
    assert (Hin : header_in es1).
    { destruct (in_dec (fun x y : bool => bool_dec x y) true (map (fun x => match x with OnHeader _ => true | _ => false end) es1)) as [X|X].
      - apply in_map_iff in X. destruct X as (x & X & Y). destruct x; try discriminate. now exists h.
      - exfalso. rewrite S1 in V; [cbn in V; lia|]. intros (h & Y). apply X. apply in_map_iff. exists (OnHeader h). auto. }
    split; [exact Hin|]. rewrite (calls_header _ _ _ (m_hdr m) E U Hin) in T. destruct T as [T|T]; [left; now apply Tok|]. right.
    destruct (in_dec (fun x y : bool => bool_dec x y) true (map (fun x => match x with OnToken _ _ => true | _ => false end) es1)) as [X|X].
    + apply in_map_iff in X. destruct X as (x & X & Y). destruct x; try discriminate. now exists part, last.
    + exfalso. rewrite S3 in T; [discriminate|]. intros (t & l & Y). apply X. apply in_map_iff. exists (OnToken t l). auto.
  - intros [Hin T]. rewrite (calls_header _ _ _ (m_hdr m) E U Hin). split; [exact Hv|]. destruct T as [T|T]; [left; now apply Tok|right; now apply S2].
Qed.
Print Assumptions C69_interest.

(** A context used before: with the header of the next message it says at once that it has all
    it needs, and shows the token of the message before in the length of the new one. *)
Theorem C69_reused_refuted : forall m c h, holds m c -> m_tok m <> [] -> 64 <= h0 h -> h0 h mod 16 <= len (m_tok m) -> (length (m_tok m) <= 8)%nat ->
  exists c1, cdh_calls [OnHeader h] c = Ok c1 /\ cdh_interested c1 = Never /\ ctx_token c1 = Ok (firstn (N.to_nat (h0 h mod 16)) (m_tok m)).
Proof.
  intros m c h (H1 & H2 & H3) Ht Hv Hl H8. exists (ctx_set_header h c). split; [reflexivity|]. split; [apply interest_iff; cbn; auto|].
  unfold ctx_token, len in *. cbn [c_hdr ctx_set_header c_buf]. rewrite tkl_mod. replace (h0 h mod 16 <=? 8) with true by (symmetry; apply N.leb_le; lia).
  rewrite <- H2. rewrite firstn_firstn. rewrite Nat.min_l by lia. reflexivity.
Qed.
Print Assumptions C69_reused_refuted.

(** A token given in two parts (the interface allows it, the subject does not do it): the second
    part is put over the first. *)
Theorem C69_parts : forall p q c, (length p <= 8)%nat -> (length q <= 8)%nat ->
  exists c1, cdh_calls [OnToken p false; OnToken q true] c = Ok c1 /\ firstn (length q) (c_buf c1) = q.
Proof.
  intros p q c Hp Hq. cbn [cdh_calls cdh_call]. rewrite (set_token_ok p c Hp). cbn [bind]. rewrite (set_token_ok q _ Hq). cbn [bind]. eexists. split; [reflexivity|]. cbn [c_buf].
  rewrite firstn_app, firstn_all, Nat.sub_diag. cbn. now rewrite app_nil_r.
Qed.
Print Assumptions C69_parts.
Theorem C69_parts_refuted : ~ forall p q c c1, (length p + length q <= 8)%nat -> cdh_calls [OnToken p false; OnToken q true] c = Ok c1 -> firstn (length p + length q) (c_buf c1) = p ++ q.
Proof. intro H. specialize (H [1] [2] (ctx_new [0;0;0;0;0;0;0;0]) (Ctx (Hdr 0 0 0 0) [2;0;0;0;0;0;0;0] true)). cbn in H. assert (X : [2; 0] = [1; 2]) by (apply H; [lia|reflexivity]). discriminate. Qed.
Print Assumptions C69_parts_refuted.

(** the sample message in pieces; a ping; the sample again with the context that is left *)
Example C69_case : let junk := [9;9;9;9;9;9;9;9] in
  msg_ok sample_msg /\ continues sample_msg /\ fresh sample_dec /\ 64 <= h0 (m_hdr sample_msg) /\ concat pieces = msg_bytes sample_msg /\
  match cdh_receive pieces sample_dec (ctx_new junk) with
  | Ok (c, _) => c = Ctx (Hdr 66 1 18 52) [170;187;9;9;9;9;9;9] true /\ cdh_interested c = Never /\ holds sample_msg c /\
      cdh_calls [OnHeader (Hdr 65 1 18 53)] c = Ok (Ctx (Hdr 65 1 18 53) [170;187;9;9;9;9;9;9] true)
  | _ => False
  end /\
  match cdh_receive [[64;0;0;1]] sample_dec (ctx_new junk) with Ok (c, _) => c = ctx_new junk /\ cdh_interested c = Currently | _ => False end /\
  match cdh_receive [[65;0;0;1];[7]] sample_dec (ctx_new junk) with Ok (c, _) => c = Ctx (Hdr 65 0 0 1) junk false /\ cdh_interested c = Currently | _ => False end.
Proof.
  intro junk. split; [apply C14_case|]. split; [left; discriminate|]. split; [split; [reflexivity|apply sample_idle]|]. split; [vm_compute; discriminate|]. split; [reflexivity|].
  split; [vm_compute; repeat split; auto|]. split; vm_compute; auto.
Qed.
