From Verif Require Import Base HeaderModel HeaderProofs OptEncModel OptSpec OptDecModel DecoderModel DecoderSpec DecoderProofs DispatchModel ContextModel
  SubjectModel SubjectSpec SubjectProofs SubjectProps CtxSubModel CtxSubSpec.
Local Open Scope N_scope.

(** what matters of the calls is in the atoms *)
Definition at_call (a : atom) (c : ctx) : res ctx :=
  match a with AHeader h => Ok (ctx_set_header h c) | AToken t _ => ctx_set_token t c | _ => Ok c end.
Fixpoint at_calls (xs : list atom) (c : ctx) : res ctx := match xs with [] => Ok c | x :: r => bind (at_call x c) (at_calls r) end.
Lemma at_calls_app : forall xs ys c, at_calls (xs ++ ys) c = bind (at_calls xs c) (at_calls ys).
Proof. induction xs as [|x xs IH]; intros ys c; cbn [at_calls app bind]; [reflexivity|]. destruct (at_call x c); cbn [bind]; auto. Qed.
Definition plain (a : atom) : Prop := match a with AHeader _ | AToken _ _ => False | _ => True end.
Lemma at_plain : forall xs c, Forall plain xs -> at_calls xs c = Ok c.
Proof. induction xs as [|x xs IH]; intros c H; [reflexivity|]. inversion H; subst. destruct x; cbn in *; try contradiction; auto. Qed.
Lemma plain_map : forall (f : N -> atom) p, (forall b, plain (f b)) -> Forall plain (map f p).
Proof. intros f p H. induction p; constructor; auto. Qed.
Lemma cdh_atoms : forall es c, cdh_calls es c = at_calls (flat es) c.
Proof.
  induction es as [|x es IH]; intro c; [reflexivity|]. cbn [cdh_calls]. change (flat (x :: es)) with (flat1 x ++ flat es). rewrite at_calls_app.
  destruct x as [h|p l|n l|n p l|p l|]; cbn [flat1 cdh_call].
  - cbn. apply IH.
  - cbn [at_calls at_call]. destruct (ctx_set_token p c); cbn [bind]; [apply IH|reflexivity|reflexivity].
  - cbn. apply IH.
  - rewrite at_plain; [cbn [bind]; apply IH|]. apply Forall_app. split; [apply plain_map; intros; exact I|]. destruct l; repeat constructor.
  - rewrite at_plain; [cbn [bind]; apply IH|]. apply Forall_app. split; [apply plain_map; intros; exact I|]. destruct l; repeat constructor.
  - cbn. apply IH.
Qed.

Lemma plain_opts : forall os, Forall plain (flat_map opt_atoms os).
Proof.
  induction os as [|[n v] os IH]; [constructor|]. cbn [flat_map]. apply Forall_app. split; [|exact IH]. unfold opt_atoms. cbn [fst snd]. constructor; [exact I|].
  destruct v as [|b v]; [constructor|]. apply Forall_app. split; [apply plain_map; intros; exact I|repeat constructor].
Qed.
Lemma plain_pay : forall p, Forall plain (pay_atoms p).
Proof. intros [b|]; [|constructor]. apply Forall_app. split; [apply plain_map; intros; exact I|repeat constructor]. Qed.

(** the atoms told, by the shape of the message *)
Lemma told_continues : forall m xs, continues m -> xs ++ lost m = msg_atoms m -> exists ys, xs = AHeader (m_hdr m) :: tok_atoms (m_tok m) ++ ys /\ Forall plain ys.
Proof.
  intros m xs Hc E. unfold msg_atoms in E. cbn [app] in E.
  assert (K : exists l, Forall plain l /\ forall zs, flat_map opt_atoms (m_opts m) ++ pay_atoms (m_pay m) ++ [AComplete] = zs -> exists ys, zs = ys ++ lost m /\ Forall plain ys).
  { exists []. split; [constructor|]. intros zs <-. unfold lost. destruct (m_pay m) as [[|b r]|] eqn:EP.
    - exists (flat_map opt_atoms (m_opts m)). split; [reflexivity|apply plain_opts].
    - exists (flat_map opt_atoms (m_opts m) ++ pay_atoms (Some (b :: r)) ++ [AComplete]). split; [now rewrite app_nil_r|].
      apply Forall_app. split; [apply plain_opts|]. apply Forall_app. split; [apply plain_pay|repeat constructor].
    - destruct Hc as [Hc|Hc]; [|now rewrite EP in Hc]. destruct (rev (m_opts m)) as [|[n v] q] eqn:ER.
      + exfalso. apply Hc. rewrite <- (rev_involutive (m_opts m)), ER. reflexivity.
      + assert (EO : m_opts m = rev q ++ [(n, v)]) by (rewrite <- (rev_involutive (m_opts m)), ER; reflexivity). destruct v as [|b v].
        * exists (flat_map opt_atoms (rev q)). rewrite EO, flat_map_app, <- app_assoc. split; [reflexivity|apply plain_opts].
        * exists (flat_map opt_atoms (m_opts m)). cbn [pay_atoms app]. split; [reflexivity|apply plain_opts]. }
  destruct K as (_ & _ & K). destruct (K _ eq_refl) as (ys & E2 & P). exists ys. split; [|exact P].
  apply (app_inv_tail (lost m)). rewrite E. cbn [app]. f_equal. rewrite <- app_assoc. f_equal. exact E2.
Qed.

Lemma set_token_ok : forall t c, (length t <= 8)%nat -> ctx_set_token t c = Ok (Ctx (c_hdr c) (t ++ skipn (length t) (c_buf c)) true).
Proof. intros t c H. unfold ctx_set_token. apply Nat.leb_le in H. now rewrite H. Qed.

Lemma calls_hold : forall m xs c, (length (m_tok m) <= 8)%nat -> Forall plain xs ->
  exists c1, at_calls (AHeader (m_hdr m) :: tok_atoms (m_tok m) ++ xs) c = Ok c1 /\ holds m c1 /\ (m_tok m = [] -> c_buf c1 = c_buf c /\ c_present c1 = c_present c).
Proof.
  intros m xs c H8 P. cbn [at_calls at_call bind]. rewrite at_calls_app. unfold holds. destruct (m_tok m) as [|t ts] eqn:ET.
  - cbn [tok_atoms at_calls bind]. rewrite (at_plain _ _ P). eexists. split; [reflexivity|]. cbn. repeat split; auto.
  - cbn [tok_atoms at_calls at_call]. rewrite (set_token_ok (t :: ts)) by exact H8. cbn [bind]. rewrite (at_plain _ _ P). eexists. split; [reflexivity|]. cbn [c_hdr c_buf c_present ctx_set_header].
    split; [|discriminate]. repeat split. rewrite firstn_app, firstn_all, Nat.sub_diag. cbn. now rewrite app_nil_r.
Qed.

(** ** interested *)
Lemma version_iff : forall c, ctx_have_header c = true <-> 64 <= h0 (c_hdr c).
Proof.
  intro c. unfold ctx_have_header, hdr_version. rewrite N.ltb_lt, N.shiftr_div_pow2. change (2 ^ 6) with 64. split; intro H.
  - destruct (N.le_gt_cases 64 (h0 (c_hdr c))) as [X|X]; [exact X|]. rewrite N.div_small in H by exact X. lia.
  - apply N.div_le_mono with (c := 64) in H; [|discriminate]. change (64 / 64) with 1 in H. lia.
Qed.
Lemma interest_cases : forall c, cdh_interested c = Never \/ cdh_interested c = Currently.
Proof. intro c. unfold cdh_interested. destruct (ctx_have_header c); auto. destruct (0 <? _); auto. destruct (c_present c); auto. Qed.
Lemma interest_iff : forall c, cdh_interested c = Never <-> 64 <= h0 (c_hdr c) /\ (h0 (c_hdr c) mod 16 = 0 \/ c_present c = true).
Proof.
  intro c. unfold cdh_interested. rewrite <- version_iff, <- tkl_mod. destruct (ctx_have_header c); [|split; [discriminate|intros [X _]; discriminate]].
  destruct (0 <? hdr_tkl (c_hdr c)) eqn:E; [apply N.ltb_lt in E|apply N.ltb_ge in E; split; auto; intros _; split; auto; lia].
  destruct (c_present c); split; auto; [discriminate|intros [_ [X|X]]; [lia|discriminate]].
Qed.

(** what the calls leave in a context, one by one *)
Lemma calls_state : forall xs c c1, cdh_calls xs c = Ok c1 ->
  (~ header_in xs -> c_hdr c1 = c_hdr c) /\ (token_in xs -> c_present c1 = true) /\ (~ token_in xs -> c_present c1 = c_present c).
Proof.
  induction xs as [|x xs IH]; intros c c1 E; cbn [cdh_calls] in E.
  - injection E as <-. split; [auto|]. split; [intros (t & l & [])|auto].
  - destruct (cdh_call x c) as [c2| |] eqn:E2; try discriminate. cbn [bind] in E. destruct (IH _ _ E) as (A & B & C).
    assert (Keep : forall x, In x xs -> In x (x :: xs)) by (intros; now right).
    destruct x as [h|p l|n l|n p l|p l|]; cbn [cdh_call] in E2.
    + injection E2 as <-. cbn [ctx_set_header c_present c_hdr] in *. split; [intro H; exfalso; apply H; exists h; now left|].
      split; [intros (t & l & [X|X]); [discriminate|apply B; now exists t, l]|]. intro H. apply C. intros (t & l & X). apply H. exists t, l. now right.
    + unfold ctx_set_token in E2. destruct (length p <=? 8)%nat; [|discriminate]. injection E2 as <-. cbn [c_present c_hdr] in *.
      split; [intro H; apply A; intros (h & X); apply H; exists h; now right|].
      assert (T : c_present c1 = true).
      { destruct (c_present c1) eqn:Ep; [reflexivity|]. assert (D : ~ token_in xs) by (intro X; apply B in X; discriminate). apply C in D. discriminate. }
      split; [auto|]. intro H. exfalso. apply H. exists p, l. now left.
    + injection E2 as <-. split; [intro H; apply A; intros (h & X); apply H; exists h; now right|].
      split; [intros (t & k & [X|X]); [discriminate|apply B; now exists t, k]|]. intro H. apply C. intros (t & k & X). apply H. exists t, k. now right.
    + injection E2 as <-. split; [intro H; apply A; intros (h & X); apply H; exists h; now right|].
      split; [intros (t & k & [X|X]); [discriminate|apply B; now exists t, k]|]. intro H. apply C. intros (t & k & X). apply H. exists t, k. now right.
    + injection E2 as <-. split; [intro H; apply A; intros (h & X); apply H; exists h; now right|].
      split; [intros (t & k & [X|X]); [discriminate|apply B; now exists t, k]|]. intro H. apply C. intros (t & k & X). apply H. exists t, k. now right.
    + injection E2 as <-. split; [intro H; apply A; intros (h & X); apply H; exists h; now right|].
      split; [intros (t & k & [X|X]); [discriminate|apply B; now exists t, k]|]. intro H. apply C. intros (t & k & X). apply H. exists t, k. now right.
Qed.
Lemma calls_header : forall xs c c1 h, cdh_calls xs c = Ok c1 -> (forall h', In (OnHeader h') xs -> h' = h) -> header_in xs -> c_hdr c1 = h.
Proof.
  induction xs as [|x xs IH]; intros c c1 h E U (h1 & I); [destruct I|]. cbn [cdh_calls] in E. destruct (cdh_call x c) as [c2| |] eqn:E2; try discriminate. cbn [bind] in E.
  assert (D : header_in xs \/ ~ header_in xs).
  { clear. induction xs as [|y xs IH]; [right; intros (h & [])|]. destruct IH as [(h & X)|X]; [left; exists h; now right|].
    destruct y as [h|p l|n l|n p l|p l|]; [left; exists h; now left| | | | |]; right; intros (h & [Y|Y]); try discriminate; apply X; now exists h. }
  destruct D as [D|D]; [apply (IH _ _ h E); [intros; apply U; now right|exact D]|].
  destruct (calls_state _ _ _ E) as (A & _). rewrite (A D). destruct I as [->|I]; [|exfalso; apply D; now exists h1]. cbn in E2. injection E2 as <-. cbn. apply U. now left.
Qed.

Lemma flat_in : forall es x, In x es -> forall a, In a (flat1 x) -> In a (flat es).
Proof. intros es x H a Ha. unfold flat. apply in_flat_map. eauto. Qed.
