(** C82: datagrams and messages correspond one to one, and the reports of the decoder nearly do. *)
From Verif Require Import Base HeaderModel OptEncModel OptSpec OptDecModel OptDecSpec OptDecProofs DecoderModel DecoderSpec DecoderProofs CutProofs DecoderProps CanonSpec.
Local Open Scope N_scope.

Lemma field_inv : forall nb bs x r, nb < 16 -> bytes_ok bs -> field nb bs = Some (x, r) -> nb = nib x /\ bs = ext x ++ r.
Proof.
  intros nb bs x r Hn Hb H. unfold field in H. destruct (nb <? 13) eqn:E.
  - injection H as <- <-. unfold nib, ext. rewrite E. auto.
  - apply N.ltb_ge in E. destruct bs as [|a s]; [discriminate|]. inversion Hb as [|? ? Ha Hs]; subst.
    destruct (N.eqb_spec nb 13) as [->|N13].
    + injection H as <- <-. unfold byte_ok in Ha. unfold nib, ext.
      replace (13 + a <? 13) with false by (symmetry; apply N.ltb_ge; lia). replace (13 + a <? 269) with true by (symmetry; apply N.ltb_lt; lia).
      split; [reflexivity|]. cbn. f_equal. lia.
    + destruct (N.eqb_spec nb 14) as [->|N14]; [|discriminate]. destruct s as [|b s]; [discriminate|]. injection H as <- <-.
      inversion Hs as [|? ? Hb2 _]; subst. unfold byte_ok in *. unfold nib, ext.
      replace (269 + 256 * a + b <? 13) with false by (symmetry; apply N.ltb_ge; lia).
      replace (269 + 256 * a + b <? 269) with false by (symmetry; apply N.ltb_ge; lia).
      split; [reflexivity|]. replace (269 + 256 * a + b - 269) with (b + a * 256) by lia.
      rewrite N.div_add, N.mod_add by discriminate. rewrite N.div_small, N.mod_small by assumption. reflexivity.
Qed.

Lemma field_ext : forall x r, field (nib x) (ext x ++ r) = Some (x, r).
Proof.
  intros x r. unfold field, nib, ext. destruct (x <? 13) eqn:E; [rewrite E; reflexivity|]. apply N.ltb_ge in E.
  destruct (x <? 269) eqn:F.
  - change (13 <? 13) with false. change (13 =? 13) with true. cbn [app]. do 2 f_equal. lia.
  - apply N.ltb_ge in F. change (14 <? 13) with false. change (14 =? 13) with false. change (14 =? 14) with true. cbn [app].
    do 2 f_equal. pose proof (N.div_mod (x - 269) 256). lia.
Qed.

Lemma nib_lt : forall x, nib x < 15.
Proof. intros x. unfold nib. destruct (x <? 13) eqn:E; [apply N.ltb_lt in E; lia|]. destruct (x <? 269); lia. Qed.

Lemma strict_inv : forall n bs prev os p, bytes_ok bs -> strict n prev bs = Some (os, p) ->
  opts_ok prev os /\ match p with None => True | Some b => bytes_ok b end /\ bs = opts_bytes prev os ++ pay_bytes p.
Proof.
  induction n; intros bs prev os p Hb H; (destruct bs as [|b r]; [cbn in H; injection H as <- <-; cbn; auto|]); [discriminate|].
  cbn [strict] in H. inversion Hb as [|? ? Hbb Hr]; subst. destruct (N.eqb_spec b 255) as [->|NB].
  { injection H as <- <-. cbn. auto. }
  unfold byte_ok in Hbb.
  assert (D : b / 16 < 16) by (apply N.div_lt_upper_bound; [discriminate|exact Hbb]).
  assert (M : b mod 16 < 16) by (apply N.mod_lt; discriminate).
  destruct (field (b / 16) r) as [[delta r1]|] eqn:F1; [|discriminate].
  destruct (field_inv _ _ _ _ D Hr F1) as (B1 & ->). apply bytes_ok_app in Hr. destruct Hr as (_ & Hr1).
  destruct (field (b mod 16) r1) as [[l r2]|] eqn:F2; [|discriminate].
  destruct (field_inv _ _ _ _ M Hr1 F2) as (B2 & ->). apply bytes_ok_app in Hr1. destruct Hr1 as (_ & Hr2).
  destruct ((prev + delta <? 65536) && (l <? 65536) && (N.to_nat l <=? length r2)%nat) eqn:C; [|discriminate].
  apply andb_prop in C. destruct C as (C & C3). apply andb_prop in C. destruct C as (C1 & C2).
  apply N.ltb_lt in C1, C2. apply Nat.leb_le in C3.
  destruct (strict n (prev + delta) (skipn (N.to_nat l) r2)) as [[os1 p1]|] eqn:S1; [|discriminate]. injection H as <- <-.
  rewrite <- (firstn_skipn (N.to_nat l) r2) in Hr2. apply bytes_ok_app in Hr2. destruct Hr2 as (V1 & V2).
  destruct (IHn _ _ _ _ V2 S1) as (O & P & E).
  assert (L : len (firstn (N.to_nat l) r2) = l) by (unfold len; rewrite firstn_length; lia).
  split; [|split; [exact P|]].
  - cbn [opts_ok]. rewrite L. repeat split; auto. lia.
  - cbn [opts_bytes]. rewrite L. replace (prev + delta - prev) with delta by lia. unfold opt_head. rewrite <- B1, <- B2.
    rewrite <- !app_assoc. cbn [app]. rewrite <- !app_assoc, <- E, firstn_skipn. f_equal. pose proof (N.div_mod b 16). lia.
Qed.

Lemma strict_bytes : forall os prev p n, opts_ok prev os -> (length (opts_bytes prev os ++ pay_bytes p) <= n)%nat ->
  strict n prev (opts_bytes prev os ++ pay_bytes p) = Some (os, p).
Proof.
  induction os as [|[num v] os IH]; intros prev p n H L.
  - destruct p as [b|]; cbn [opts_bytes pay_bytes app] in *; destruct n; cbn in *; try reflexivity; lia.
  - cbn [opts_ok] in H. destruct H as (H1 & H2 & H3 & H4 & H5). cbn [opts_bytes] in *. unfold opt_head in *.
    rewrite <- !app_assoc in *. cbn [app] in *. rewrite <- !app_assoc in *. cbn [length] in L. destruct n as [|n]; [lia|].
    cbn [strict]. pose proof (nib_lt (num - prev)) as N1. pose proof (nib_lt (len v)) as N2.
    destruct (N.eqb_spec (nib (num - prev) * 16 + nib (len v)) 255) as [K|_]; [lia|].
    replace ((nib (num - prev) * 16 + nib (len v)) / 16) with (nib (num - prev)) by (rewrite N.add_comm, N.div_add, N.div_small by lia; lia).
    rewrite field_ext.
    replace ((nib (num - prev) * 16 + nib (len v)) mod 16) with (nib (len v)) by (rewrite N.add_comm, N.mod_add, N.mod_small by lia; reflexivity).
    rewrite field_ext. replace (prev + (num - prev)) with num by lia.
    assert (LV : N.to_nat (len v) = length v) by (unfold len; lia). rewrite LV.
    replace (num <? 65536) with true by (symmetry; apply N.ltb_lt; lia). replace (len v <? 65536) with true by (symmetry; apply N.ltb_lt; lia).
    replace (length v <=? length (v ++ opts_bytes num os ++ pay_bytes p))%nat with true by (symmetry; apply Nat.leb_le; rewrite app_length; lia).
    cbn [andb]. rewrite skipn_app, skipn_all, Nat.sub_diag. cbn [skipn app]. rewrite firstn_app, firstn_all, Nat.sub_diag. cbn [firstn]. rewrite app_nil_r.
    rewrite IH; [reflexivity|exact H5|]. rewrite !app_length in L. rewrite app_length. lia.
Qed.

(** C82: the byte strings the strict reading accepts are exactly the encodings, each of one list of options and
    one payload. *)
Theorem C82_body : forall bs os p, bytes_ok bs ->
  (strict_body bs = Some (os, p) <->
   opts_ok 0 os /\ match p with None => True | Some b => bytes_ok b end /\ bs = opts_bytes 0 os ++ pay_bytes p).
Proof.
  intros bs os p Hb. split; [apply strict_inv; exact Hb|]. intros (O & _ & ->). apply strict_bytes; [exact O|apply le_n].
Qed.
Print Assumptions C82_body.

Lemma app_same : forall (t t' x x' : list N), length t = length t' -> t ++ x = t' ++ x' -> t = t' /\ x = x'.
Proof.
  induction t as [|a t IH]; intros [|a' t'] x x' L E; cbn in *; try discriminate; auto.
  injection E as -> E. injection L as L. destruct (IH t' x x' L E) as (-> & K). auto.
Qed.

(** C82: different messages have different bytes. *)
Theorem C82_unique : forall m m', msg_ok m -> msg_ok m' -> msg_bytes m = msg_bytes m' -> m = m'.
Proof.
  intros [h t o p] [h' t' o' p'] (A1 & A2 & A3 & A4 & A5 & A6) (B1 & B2 & B3 & B4 & B5 & B6) E. unfold msg_bytes in E. cbn [m_hdr m_tok m_opts m_pay] in *.
  assert (EH : h = h' /\ t ++ opts_bytes 0 o ++ pay_bytes p = t' ++ opts_bytes 0 o' ++ pay_bytes p').
  { destruct h, h'. cbn in E. injection E as -> -> -> -> E. auto. }
  destruct EH as (-> & EH). assert (LT : length t = length t') by lia.
  assert (ET := app_same _ _ _ _ LT EH).
  destruct ET as (-> & ET).
  assert (S1 := strict_bytes o 0 p _ A5 (le_n _)). assert (S2 := strict_bytes o' 0 p' _ B5 (le_n _)). rewrite <- ET, S1 in S2.
  injection S2 as -> ->. reflexivity.
Qed.
Print Assumptions C82_unique.

(** the parts of a report *)
Definition told_opts (es : list event) : list opt := flat_map (fun e => match e with EOption n v _ => [(n, v)] | _ => [] end) es.
Definition told_pay (es : list event) : list (list N) := flat_map (fun e => match e with EPayload b _ => [b] | _ => [] end) es.

Lemma told_opt_events : forall os, told_opts (opt_events os) = os /\ told_pay (opt_events os) = [].
Proof.
  induction os as [|[n v] r (IH1 & IH2)]; [split; reflexivity|]. split; [|exact IH2].
  change (told_opts (opt_events ((n, v) :: r))) with ((n, v) :: told_opts (opt_events r)). rewrite IH1. reflexivity.
Qed.

Lemma events_inj : forall m m', msg_events m = msg_events m' -> m = m'.
Proof.
  intros [h t o p] [h' t' o' p'] E. unfold msg_events in E. cbn [m_hdr m_tok m_opts m_pay] in E.
  assert (EO := f_equal told_opts E). assert (EP := f_equal told_pay E). unfold told_opts, told_pay in EO, EP. rewrite !flat_map_app in EO, EP.
  fold (told_opts (opt_events o)) (told_opts (opt_events o')) in EO. fold (told_pay (opt_events o)) (told_pay (opt_events o')) in EP.
  destruct (told_opt_events o) as (A1 & A2). destruct (told_opt_events o') as (B1 & B2). rewrite A1, B1 in EO. rewrite A2, B2 in EP.
  cbn [app] in E. injection E as -> -> _.
  assert (P : p = p') by (destruct p, p'; cbn in EP; congruence). subst p'.
  assert (O : o = o') by (destruct p; cbn in EO; rewrite !app_nil_r in EO; exact EO). subst o'. reflexivity.
Qed.

(** C82: what the decoder reports of a datagram whose body can be read strictly is what the strict reading says
    (the body is not empty; for an empty one see C15) ... *)
Theorem C82_report : forall h tok rest os p d fuel, idle d -> bytes_ok (hdr_bytes h ++ tok ++ rest) -> hdr_ok h ->
  h0 h mod 16 = N.of_nat (length tok) -> (length tok <= 8)%nat -> rest <> [] -> strict_body rest = Some (os, p) ->
  (dec_fuel (hdr_bytes h ++ tok ++ rest) <= fuel)%nat ->
  exists d1, dec_run fuel (hdr_bytes h ++ tok ++ rest) d 0 = Ok (msg_events (Msg h tok os p), d1, length (hdr_bytes h ++ tok ++ rest)).
Proof.
  intros h tok rest os p d fuel Hd Hb Hh Ht H8 Hr HS Hf. apply bytes_ok_app in Hb. destruct Hb as (_ & Hb). apply bytes_ok_app in Hb. destruct Hb as (Hbt & Hbr).
  destruct (proj1 (C82_body rest os p Hbr) HS) as (O & P & E).
  assert (EB : hdr_bytes h ++ tok ++ rest = msg_bytes (Msg h tok os p)) by (unfold msg_bytes; cbn [m_hdr m_tok m_opts m_pay]; rewrite E; reflexivity).
  rewrite EB in *. destruct (C14_whole_message (Msg h tok os p) d fuel) as (d1 & D1 & _); auto.
  - unfold msg_ok. cbn [m_hdr m_tok m_opts m_pay]. auto 10.
  - cbn [m_opts m_pay]. destruct os as [|o os]; [|left; discriminate]. destruct p; [right; discriminate|]. cbn in E. congruence.
  - exists d1. exact D1.
Qed.
Print Assumptions C82_report.

(** ... so two such datagrams with the same report are the same. *)
Theorem C82_faithful : forall h tok rest os p h' tok' rest' os' p' d d' fuel es d1 d1' n n',
  idle d -> bytes_ok (hdr_bytes h ++ tok ++ rest) -> hdr_ok h -> h0 h mod 16 = N.of_nat (length tok) -> (length tok <= 8)%nat -> rest <> [] -> strict_body rest = Some (os, p) ->
  idle d' -> bytes_ok (hdr_bytes h' ++ tok' ++ rest') -> hdr_ok h' -> h0 h' mod 16 = N.of_nat (length tok') -> (length tok' <= 8)%nat -> rest' <> [] -> strict_body rest' = Some (os', p') ->
  (dec_fuel (hdr_bytes h ++ tok ++ rest) <= fuel)%nat -> (dec_fuel (hdr_bytes h' ++ tok' ++ rest') <= fuel)%nat ->
  dec_run fuel (hdr_bytes h ++ tok ++ rest) d 0 = Ok (es, d1, n) -> dec_run fuel (hdr_bytes h' ++ tok' ++ rest') d' 0 = Ok (es, d1', n') ->
  hdr_bytes h ++ tok ++ rest = hdr_bytes h' ++ tok' ++ rest'.
Proof.
  intros h tok rest os p h' tok' rest' os' p' d d' fuel es d1 d1' n n' A1 A2 A3 A4 A5 A6 A7 B1 B2 B3 B4 B5 B6 B7 F F' R R'.
  destruct (C82_report h tok rest os p d fuel A1 A2 A3 A4 A5 A6 A7 F) as (x & X). destruct (C82_report h' tok' rest' os' p' d' fuel B1 B2 B3 B4 B5 B6 B7 F') as (y & Y).
  rewrite R in X. rewrite R' in Y. injection X as X _ _. injection Y as Y _ _. rewrite X in Y. apply events_inj in Y. injection Y as <- <- <- <-.
  apply bytes_ok_app in A2. destruct A2 as (_ & A2). apply bytes_ok_app in A2. apply bytes_ok_app in B2. destruct B2 as (_ & B2). apply bytes_ok_app in B2.
  destruct (proj1 (C82_body rest os p (proj2 A2)) A7) as (_ & _ & ->). destruct (proj1 (C82_body rest' os p (proj2 B2)) B7) as (_ & _ & ->). reflexivity.
Qed.
Print Assumptions C82_faithful.

(** C82, what is false: that every datagram that is reported as a message is that message.  The delta is taken
    modulo 2^16: any option number up to 268 can also be written as that number plus 65536, which no RFC 7252 option
    has, and is reported as if it were written properly. *)
Theorem C82_alias_refuted : forall h tok num v d fuel, idle d -> hdr_ok h -> bytes_ok tok -> bytes_ok v ->
  h0 h mod 16 = N.of_nat (length tok) -> (length tok <= 8)%nat -> num <= 268 -> (0 < length v < 13)%nat ->
  let m := Msg h tok [(num, v)] None in
  let bs := hdr_bytes h ++ tok ++ (224 + len v) :: (num + 65267) / 256 :: (num + 65267) mod 256 :: v in
  (dec_fuel bs <= fuel)%nat ->
  msg_ok m /\ bs <> msg_bytes m /\
  strict_body ((224 + len v) :: (num + 65267) / 256 :: (num + 65267) mod 256 :: v) = None /\
  exists d1, dec_run fuel bs d 0 = Ok (msg_events m, d1, length bs).
Proof.
  intros h tok num v d fuel Hd Hh Ht Hv Hl H8 Hn Lv m bs Hf.
  set (rest := (224 + len v) :: (num + 65267) / 256 :: (num + 65267) mod 256 :: v) in *.
  assert (LV : len v < 13) by (unfold len; lia).
  assert (DM := N.div_mod (num + 65267) 256 ltac:(discriminate)).
  assert (MM := N.mod_lt (num + 65267) 256 ltac:(discriminate)).
  assert (DD : (num + 65267) / 256 < 256) by (apply N.div_lt_upper_bound; lia).
  assert (OK : msg_ok m).
  { unfold msg_ok, m. cbn [m_hdr m_tok m_opts m_pay opts_ok]. repeat split; auto; try apply Hh; lia. }
  assert (BR : bytes_ok rest).
  { unfold rest. repeat constructor; auto; unfold byte_ok; lia. }
  assert (D1 : (224 + len v) / 16 = 14) by (replace (224 + len v) with (len v + 14 * 16) by lia; rewrite N.div_add, N.div_small by lia; reflexivity).
  assert (D2 : (224 + len v) mod 16 = len v) by (replace (224 + len v) with (len v + 14 * 16) by lia; rewrite N.mod_add, N.mod_small by lia; reflexivity).
  split; [exact OK|]. split; [|split].
  - intros E. unfold bs, m, msg_bytes in E. cbn [m_hdr m_tok m_opts m_pay opts_bytes pay_bytes] in E. rewrite N.sub_0_r in E.
    apply app_inv_head in E. apply app_inv_head in E. unfold rest, opt_head in E. cbn [app] in E. injection E as E _.
    unfold nib in E. destruct (num <? 13) eqn:K; [apply N.ltb_lt in K|]; destruct (len v <? 13) eqn:Q; try lia;
      try (apply N.ltb_ge in Q; lia); replace (num <? 269) with true in E by (symmetry; apply N.ltb_lt; lia); lia.
  - unfold strict_body, rest. cbn [length strict]. destruct (N.eqb_spec (224 + len v) 255) as [K|_]; [lia|]. rewrite D1, D2.
    unfold field. change (14 <? 13) with false. change (14 =? 13) with false. change (14 =? 14) with true. cbn [andb].
    replace (len v <? 13) with true by (symmetry; apply N.ltb_lt; lia).
    replace (0 + (269 + 256 * ((num + 65267) / 256) + (num + 65267) mod 256) <? 65536) with false by (symmetry; apply N.ltb_ge; lia). reflexivity.
  - assert (Hbs : bytes_ok bs).
    { unfold bs. apply bytes_ok_app. split; [exact Hh|]. apply bytes_ok_app. auto. }
    assert (RP := C14_refines_parser d h tok rest fuel Hd Hbs Hl H8 ltac:(discriminate)). fold bs in RP. specialize (RP Hf).
    assert (PA : parse 0 (4 + length tok) rest = ([(num, len v, (4 + length tok + 3)%nat)], EndClean)).
    { unfold parse, rest. cbn [length oparse]. destruct (N.eqb_spec (224 + len v) 255) as [K|_]; [lia|]. rewrite D1, D2.
      unfold take_ext. change (14 <? 13) with false. change (14 =? 13) with false. change (14 =? 14) with true.
      replace (len v <? 13) with true by (symmetry; apply N.ltb_lt; lia).
      replace ((0 + (269 + 256 * ((num + 65267) / 256) + (num + 65267) mod 256) mod 65536) mod 65536) with num.
      2:{ rewrite N.add_0_l, N.mod_mod by discriminate. replace (269 + 256 * ((num + 65267) / 256) + (num + 65267) mod 256) with (num + 1 * 65536) by lia.
          rewrite N.mod_add by discriminate. symmetry. apply N.mod_small. lia. }
      assert (TL : N.to_nat (len v) = length v) by (unfold len; lia). rewrite TL.
      replace (4 + length tok + (S (S (S (length v))) - length v))%nat with (4 + length tok + 3)%nat by lia.
      destruct v as [|a v]; [cbn in Lv; lia|]. rewrite Nat.ltb_irrefl, skipn_all. cbn [length]. destruct (S (S (length v))); reflexivity. }
    rewrite PA in RP. destruct RP as (dd & _ & RP). exists dd. rewrite RP. unfold m, msg_events. cbn [m_hdr m_tok m_opts m_pay].
    do 3 f_equal. unfold vev, opt_events. cbn [map fst snd]. rewrite Nat.sub_0_r.
    assert (SK : skipn (4 + length tok + 3) bs = v).
    { unfold bs, rest. rewrite app_assoc. replace (4 + length tok + 3)%nat with (length (hdr_bytes h ++ tok) + 3)%nat by (rewrite app_length; reflexivity).
      rewrite skipn_app. rewrite skipn_all2 by lia. replace (length (hdr_bytes h ++ tok) + 3 - length (hdr_bytes h ++ tok))%nat with 3%nat by lia. reflexivity. }
    rewrite SK. assert (TL : N.to_nat (len v) = length v) by (unfold len; lia). rewrite TL, firstn_all, Nat.leb_refl. reflexivity.
Qed.
Print Assumptions C82_alias_refuted.

Lemma take_ext_ext : forall x r, x < 65805 -> take_ext (nib x) (ext x ++ r) = Got (x mod 65536) r.
Proof.
  intros x r Hx. unfold take_ext, nib, ext. destruct (x <? 13) eqn:E; [rewrite E; apply N.ltb_lt in E; rewrite N.mod_small by lia; reflexivity|]. apply N.ltb_ge in E.
  destruct (x <? 269) eqn:F.
  - apply N.ltb_lt in F. change (13 <? 13) with false. change (13 =? 13) with true. cbn [app]. rewrite (N.mod_small x) by lia. f_equal. lia.
  - apply N.ltb_ge in F. change (14 <? 13) with false. change (14 =? 13) with false. change (14 =? 14) with true. cbn [app].
    do 2 f_equal. pose proof (N.div_mod (x - 269) 256). lia.
Qed.

Lemma ext_ok : forall x, x < 65805 -> bytes_ok (ext x).
Proof.
  intros x Hx. unfold ext, bytes_ok, byte_ok. destruct (x <? 13) eqn:E; [constructor|]. apply N.ltb_ge in E.
  destruct (x <? 269) eqn:F; [apply N.ltb_lt in F; repeat constructor; lia|]. apply N.ltb_ge in F.
  constructor; [apply N.div_lt_upper_bound; lia|]. constructor; [apply N.mod_lt; discriminate|constructor].
Qed.

Lemma spelled_ok : forall prev os bs, spelled prev os bs -> bytes_ok bs.
Proof.
  induction 1 as [|prev num v delta l os bs Hd Hl Hn Hv Hb HS IH]; [constructor|].
  apply bytes_ok_app. split; [|apply bytes_ok_app; auto]. unfold opt_head. constructor.
  - pose proof (nib_lt delta). pose proof (nib_lt l). unfold byte_ok. lia.
  - apply bytes_ok_app. split; now apply ext_ok.
Qed.

Lemma oparse_head : forall n prev off delta l t, delta < 65805 -> l < 65805 ->
  oparse (S n) prev off (opt_head delta l ++ t) =
  match t with
  | [] => ([], EndAfterHead ((prev + delta) mod 65536) (l mod 65536))
  | _ :: _ => let num := (prev + delta) mod 65536 in let o := (off + length (opt_head delta l))%nat in let k := N.to_nat (l mod 65536) in
      if (length t <? k)%nat then ([(num, l mod 65536, o)], EndInValue (l mod 65536 - N.of_nat (length t)))
      else let '(vs, e) := oparse n num (o + k) (skipn k t) in ((num, l mod 65536, o) :: vs, e)
  end.
Proof.
  intros n prev off delta l t Hd Hl. unfold opt_head at 1. rewrite <- app_comm_cons, <- app_assoc. cbn [oparse].
  pose proof (nib_lt delta) as N1. pose proof (nib_lt l) as N2.
  destruct (N.eqb_spec (nib delta * 16 + nib l) 255) as [K|_]; [lia|].
  replace ((nib delta * 16 + nib l) / 16) with (nib delta) by (rewrite N.add_comm, N.div_add, N.div_small by lia; lia).
  replace ((nib delta * 16 + nib l) mod 16) with (nib l) by (rewrite N.add_comm, N.mod_add, N.mod_small by lia; reflexivity).
  rewrite take_ext_ext by exact Hd. rewrite take_ext_ext by exact Hl.
  replace ((prev + delta mod 65536) mod 65536) with ((prev + delta) mod 65536) by (rewrite N.add_mod_idemp_r by discriminate; reflexivity).
  destruct t as [|b t]; [reflexivity|]. set (t1 := b :: t).
  replace (length ((nib delta * 16 + nib l)%N :: ext delta ++ ext l ++ t1) - length t1)%nat with (length (opt_head delta l)).
  2:{ unfold opt_head. cbn [length]. rewrite !app_length. lia. }
  reflexivity.
Qed.

Lemma parse_spelled : forall prev os bs, spelled prev os bs -> forall pre p, match p with None => True | Some b => bytes_ok b end ->
  exists vs e, parse prev (length pre) (bs ++ pay_bytes p) = (vs, e) /\ e <> EndReserved /\ e <> EndInHead /\
    map (vev 0 (pre ++ bs ++ pay_bytes p)) vs ++ opt_tail e (pre ++ bs ++ pay_bytes p) = opt_events os ++ [EOptDone] ++ pay_events p ++ [ECompleted].
Proof.
  induction 1 as [prev|prev num v delta l os bs Hd Hl Hn Hv Hb HS IH]; intros pre p Hp.
  - cbn [app]. destruct p as [b|].
    + exists [], (EndMarker (length pre + 1)). split; [reflexivity|]. split; [discriminate|]. split; [discriminate|].
      cbn [pay_bytes map app opt_tail opt_events pay_events]. do 2 f_equal. f_equal.
      rewrite skipn_app, skipn_all2 by lia. replace (length pre + 1 - length pre)%nat with 1%nat by lia. reflexivity.
    + exists [], EndClean. split; [reflexivity|]. split; [discriminate|]. split; [discriminate|]. reflexivity.
  - set (hd := opt_head delta l). rewrite <- !app_assoc.
    assert (LV : N.to_nat (l mod 65536) = length v) by (rewrite Hv; unfold len; lia).
    assert (LH : (0 < length hd)%nat) by (unfold hd, opt_head; cbn; lia).
    assert (OK2 : bytes_ok (bs ++ pay_bytes p)) by (apply bytes_ok_app; split; [eapply spelled_ok; exact HS|destruct p; cbn; [constructor; [unfold byte_ok; lia|exact Hp]|constructor]]).
    destruct (v ++ bs ++ pay_bytes p) as [|b t] eqn:ET.
    + (* the last option, empty *)
      destruct v; [|discriminate]. destruct bs; [|discriminate]. destruct p; [discriminate|]. inversion HS; subst.
      exists [], (EndAfterHead ((prev + delta) mod 65536) (l mod 65536)). split; [|split; [discriminate|split; [discriminate|]]].
      * unfold parse, hd. destruct (length (opt_head delta l ++ [])) eqn:EL; [rewrite app_length in EL; unfold hd in LH; lia|]. rewrite oparse_head by assumption. reflexivity.
      * rewrite Hv. reflexivity.
    + destruct (IH (pre ++ hd ++ v) p Hp) as (vs & e & EP & E1 & E2 & EV).
      exists ((num, len v, (length pre + length hd)%nat) :: vs), e. split; [|split; [exact E1|split; [exact E2|]]].
      * unfold parse, hd. destruct (length (opt_head delta l ++ b :: t)) eqn:EL; [rewrite app_length in EL; cbn in EL; lia|]. rewrite oparse_head by assumption.
        cbn zeta. rewrite LV. rewrite <- ET in *. rewrite Hn, Hv.
        replace (length (v ++ bs ++ pay_bytes p) <? length v)%nat with false by (symmetry; apply Nat.ltb_ge; rewrite app_length; lia).
        replace (skipn (length v) (v ++ bs ++ pay_bytes p)) with (bs ++ pay_bytes p) by (rewrite skipn_app, skipn_all, Nat.sub_diag; reflexivity).
        rewrite (oparse_fuel n (length (bs ++ pay_bytes p))); [|rewrite !app_length in *; fold hd in EL; lia|lia|exact OK2].
        replace (length pre + length (opt_head delta l) + length v)%nat with (length (pre ++ hd ++ v)) by (rewrite !app_length; unfold hd; lia).
        unfold parse in EP. rewrite EP. reflexivity.
      * rewrite <- ET in *. cbn [map app opt_events]. rewrite <- !app_assoc in EV. f_equal; [|exact EV].
        unfold vev. rewrite Nat.sub_0_r.
        replace (skipn (length pre + length hd) (pre ++ hd ++ v ++ bs ++ pay_bytes p)) with (v ++ bs ++ pay_bytes p).
        2:{ rewrite (app_assoc pre hd), <- app_length, skipn_app, skipn_all, Nat.sub_diag. reflexivity. }
        replace (N.to_nat (len v)) with (length v) by (unfold len; lia).
        replace (length v <=? length (v ++ bs ++ pay_bytes p))%nat with true by (symmetry; apply Nat.leb_le; rewrite app_length; lia).
        rewrite firstn_app, firstn_all, Nat.sub_diag. cbn [firstn]. rewrite app_nil_r. reflexivity.
Qed.

(** C82, what is false: that a report tells the datagram, or at least that what is reported could be a message.
    Whatever options are written in one of these ways, they are reported as if they were written properly ... *)
Theorem C82_spellings_refuted : forall h tok os bs p d fuel, idle d -> hdr_ok h -> bytes_ok tok -> h0 h mod 16 = N.of_nat (length tok) -> (length tok <= 8)%nat ->
  spelled 0 os bs -> match p with None => True | Some b => bytes_ok b end -> os <> [] \/ p <> None ->
  let dg := hdr_bytes h ++ tok ++ bs ++ pay_bytes p in
  (dec_fuel dg <= fuel)%nat ->
  exists d1, dec_run fuel dg d 0 = Ok (msg_events (Msg h tok os p), d1, length dg).
Proof.
  intros h tok os bs p d fuel Hd Hh Ht Hl H8 HS Hp Hne dg Hf.
  assert (NB : bs ++ pay_bytes p <> []).
  { destruct Hne as [Hne|Hne]; [inversion HS; subst; [congruence|unfold opt_head; discriminate]|]. destruct p; [|congruence]. destruct bs; discriminate. }
  assert (OK : bytes_ok dg).
  { unfold dg. apply bytes_ok_app. split; [exact Hh|]. apply bytes_ok_app. split; [exact Ht|]. apply bytes_ok_app. split; [eapply spelled_ok; exact HS|].
    destruct p; cbn; [constructor; [unfold byte_ok; lia|exact Hp]|constructor]. }
  assert (RP := C14_refines_parser d h tok (bs ++ pay_bytes p) fuel Hd OK Hl H8 NB Hf). fold dg in RP.
  destruct (parse_spelled 0 os bs HS (hdr_bytes h ++ tok) p Hp) as (vs & e & EP & E1 & E2 & EV).
  replace (length (hdr_bytes h ++ tok)) with (4 + length tok)%nat in EP by (rewrite app_length; reflexivity). rewrite EP in RP.
  rewrite <- !app_assoc in EV. fold dg in EV.
  assert (G : exists d1, idle d1 /\ dec_run fuel dg d 0 = Ok ([EHeader h; EToken tok; EOptStart] ++ map (vev 0 dg) vs ++ opt_tail e dg, d1, length dg)) by (destruct e; try exact RP; congruence).
  destruct G as (d1 & _ & G). exists d1. rewrite G, EV. reflexivity.
Qed.
Print Assumptions C82_spellings_refuted.

(** every list of options can be spelled, in any order *)
Lemma spell_any : forall os prev, prev < 65536 -> Forall (fun o => fst o < 65536 /\ len (snd o) < 65536 /\ bytes_ok (snd o)) os -> exists bs, spelled prev os bs.
Proof.
  induction os as [|[num v] os IH]; intros prev Hp H; [eexists; constructor|].
  inversion H as [|? ? (A & B & C) D]; subst. cbn [fst snd] in *. destruct (IH num A D) as (bs & HS).
  exists (opt_head ((num + 65536 - prev) mod 65536) (len v) ++ v ++ bs).
  assert (M : (num + 65536 - prev) mod 65536 < 65536) by (apply N.mod_lt; discriminate).
  assert (Q : (prev + (num + 65536 - prev) mod 65536) mod 65536 = num).
  { rewrite N.add_mod_idemp_r by discriminate. replace (prev + (num + 65536 - prev)) with (num + 1 * 65536) by lia. rewrite N.mod_add by discriminate. apply N.mod_small. exact A. }
  constructor; auto; lia.
Qed.

(** ... so there is a datagram for every list of options, in any order (RFC 7252 3.1: numbers do not decrease) ... *)
Theorem C82_any_order_refuted : forall h tok os p d, idle d -> hdr_ok h -> bytes_ok tok -> h0 h mod 16 = N.of_nat (length tok) -> (length tok <= 8)%nat ->
  Forall (fun o => fst o < 65536 /\ len (snd o) < 65536 /\ bytes_ok (snd o)) os -> match p with None => True | Some b => bytes_ok b end -> os <> [] \/ p <> None ->
  exists dg d1, dec_run (dec_fuel dg) dg d 0 = Ok (msg_events (Msg h tok os p), d1, length dg).
Proof.
  intros h tok os p d Hd Hh Ht Hl H8 Ho Hp Hne. destruct (spell_any os 0 ltac:(lia) Ho) as (bs & HS).
  exists (hdr_bytes h ++ tok ++ bs ++ pay_bytes p). eapply C82_spellings_refuted; eauto.
Qed.
Print Assumptions C82_any_order_refuted.

Lemma spell_plain : forall os prev, opts_ok prev os -> spelled prev os (opts_bytes prev os).
Proof.
  induction os as [|[num v] os IH]; intros prev H; [constructor|]. cbn [opts_ok] in H. destruct H as (A & B & C & D & E).
  cbn [opts_bytes]. constructor; auto; lia.
Qed.

Lemma ext_long : forall x, x <= 268 -> (length (ext x) < length (ext (x + 65536)))%nat.
Proof.
  intros x H. unfold ext. replace (x + 65536 <? 13) with false by (symmetry; apply N.ltb_ge; lia). replace (x + 65536 <? 269) with false by (symmetry; apply N.ltb_ge; lia).
  destruct (x <? 13); [cbn; lia|]. destruct (N.ltb_spec x 269); [cbn; lia|lia].
Qed.

Lemma spell_other : forall a prev num v b, opts_ok prev (a ++ (num, v) :: b) -> num <= last_number prev a + 268 ->
  exists bs, spelled prev (a ++ (num, v) :: b) bs /\ (length (opts_bytes prev (a ++ (num, v) :: b)) < length bs)%nat.
Proof.
  induction a as [|[n w] a IH]; intros prev num v b H Hn; cbn [app] in *.
  - change (last_number prev []) with prev in Hn. cbn [opts_ok] in H. destruct H as (A & B & C & D & E).
    exists (opt_head (num - prev + 65536) (len v) ++ v ++ opts_bytes num b). split.
    + constructor; auto; try lia. now apply spell_plain.
    + cbn [opts_bytes]. rewrite !app_length. unfold opt_head. cbn [length]. rewrite !app_length. assert (X := ext_long (num - prev) ltac:(lia)). lia.
  - rewrite last_number_cons in Hn. cbn [opts_ok] in H. destruct H as (A & B & C & D & E). destruct (IH n num v b E Hn) as (bs & S1 & S2).
    exists (opt_head (n - prev) (len w) ++ w ++ bs). split.
    + constructor; auto; lia.
    + cbn [opts_bytes]. rewrite !app_length. lia.
Qed.

(** ... and every message with an option that has a number at most 268 above the one before has a second datagram
    that is reported like it. *)
Theorem C82_second_refuted : forall h tok a num v b p d, idle d -> msg_ok (Msg h tok (a ++ (num, v) :: b) p) -> num <= last_number 0 a + 268 ->
  let m := Msg h tok (a ++ (num, v) :: b) p in
  exists dg d1 d2, dg <> msg_bytes m /\ dec_run (dec_fuel dg) dg d 0 = Ok (msg_events m, d1, length dg) /\
    dec_run (dec_fuel (msg_bytes m)) (msg_bytes m) d 0 = Ok (msg_events m, d2, length (msg_bytes m)).
Proof.
  intros h tok a num v b p d Hd Hm Hn m. pose proof Hm as (A1 & A2 & A3 & A4 & A5 & A6). cbn [m_hdr m_tok m_opts m_pay] in *.
  destruct (spell_other a 0 num v b A5 Hn) as (bs & S1 & S2).
  assert (NE : a ++ (num, v) :: b <> []) by (destruct a; discriminate).
  destruct (C82_spellings_refuted h tok _ bs p d _ Hd A1 A4 A2 A3 S1 A6 (or_introl NE) (le_n _)) as (d1 & R1).
  destruct (C14_whole_message m d _ Hm (or_introl NE) Hd (le_n _)) as (d2 & R2 & _).
  exists (hdr_bytes h ++ tok ++ bs ++ pay_bytes p), d1, d2. split; [|split; [exact R1|exact R2]].
  intros E. apply (f_equal (@length N)) in E. unfold m, msg_bytes in E. cbn [m_hdr m_tok m_opts m_pay] in E. rewrite !app_length in E. lia.
Qed.
Print Assumptions C82_second_refuted.

(** C82, also false: that a message with a stray half of an option header behind it is not reported like a message:
    one more empty option is reported, with the number of the last one. *)
Theorem C82_stray_refuted : forall h tok os d, idle d -> msg_ok (Msg h tok os None) ->
  let bs := msg_bytes (Msg h tok os None) ++ [208] in
  exists d1, dec_run (dec_fuel bs) bs d 0 = Ok (msg_events (Msg h tok (os ++ [(last_number 0 os, [])]) None), d1, length bs) /\
    msg_ok (Msg h tok (os ++ [(last_number 0 os, [])]) None) /\ strict_body (opts_bytes 0 os ++ [208]) = None.
Proof.
  intros h tok os d Hd Hm bs. pose proof Hm as (A1 & A2 & A3 & A4 & A5 & A6). cbn [m_hdr m_tok m_opts m_pay] in *.
  assert (EB : bs = hdr_bytes h ++ tok ++ opts_bytes 0 os ++ [208]) by (unfold bs, msg_bytes; cbn [m_hdr m_tok m_opts m_pay pay_bytes]; rewrite app_nil_r, <- !app_assoc; reflexivity).
  assert (B1 : bytes_ok [208]) by (repeat constructor; unfold byte_ok; lia).
  assert (LB := last_number_bound os 0 ltac:(lia) A5).
  destruct (proj2 (cut_header_message h tok os 208 [] d (dec_fuel bs) Hm B1 ltac:(discriminate) Hd ltac:(rewrite <- EB; apply le_n))) as (d1 & R & _); [discriminate|discriminate|apply Nat.ltb_lt; reflexivity|].
  rewrite <- EB in R. exists d1.
  assert (OS : opt_events (os ++ [(last_number 0 os, [])]) = opt_events os ++ [EOption (last_number 0 os) [] true]) by (unfold opt_events; rewrite map_app; reflexivity).
  assert (RR : dec_run (dec_fuel bs) bs d 0 = Ok (msg_events (Msg h tok (os ++ [(last_number 0 os, [])]) None), d1, length bs)).
  { rewrite R. unfold msg_events. cbn [m_hdr m_tok m_opts m_pay pay_events]. rewrite OS, <- !app_assoc. reflexivity. }
  assert (O2 : forall os prev, opts_ok prev os -> last_number prev os < 65536 -> opts_ok prev (os ++ [(last_number prev os, [])])).
  { clear. induction os as [|[n v] os IH]; intros prev H L.
    - change (last_number prev []) with prev in *. cbn. repeat split; try lia. constructor.
    - rewrite last_number_cons in *. cbn [opts_ok app] in *. destruct H as (A & B & C & D & E). repeat split; auto. }
  assert (B2 : forall os prev, opts_bytes prev (os ++ [(last_number prev os, [])]) = opts_bytes prev os ++ [0]).
  { clear. induction os as [|[n v] os IH]; intros prev.
    - change (last_number prev []) with prev in *. cbn [app opts_bytes]. rewrite N.sub_diag. reflexivity.
    - rewrite last_number_cons. cbn [opts_bytes app]. rewrite IH, <- !app_assoc. reflexivity. }
  split; [exact RR|]. split.
  - unfold msg_ok. cbn [m_hdr m_tok m_opts m_pay]. auto 10.
  - destruct (strict_body (opts_bytes 0 os ++ [208])) as [[os' p']|] eqn:ES; [|reflexivity]. exfalso.
    assert (BB : bytes_ok (opts_bytes 0 os ++ [208])) by (apply bytes_ok_app; split; [now apply opts_bytes_ok|exact B1]).
    assert (NN : opts_bytes 0 os ++ [208] <> []) by (destruct (opts_bytes 0 os); discriminate).
    destruct (C82_report h tok (opts_bytes 0 os ++ [208]) os' p' d (dec_fuel bs) Hd) as (d2 & R2); auto.
    { apply bytes_ok_app. split; [exact A1|]. apply bytes_ok_app. auto. }
    { rewrite <- EB. apply le_n. }
    rewrite <- EB, RR in R2. assert (R3 := f_equal (fun x => match x with Ok (es, _, _) => es | _ => [] end) R2). cbv beta iota in R3. apply events_inj in R3. injection R3 as <- <-.
    destruct (proj1 (C82_body _ _ _ BB) ES) as (_ & _ & E). cbn [pay_bytes] in E. rewrite app_nil_r, B2 in E. apply app_inv_head in E. discriminate.
Qed.
Print Assumptions C82_stray_refuted.

Example C82_spelled_case : spelled 0 [(11, [97]); (3, [104])] [177;97; 225;254;235;104] /\
  (exists d1, dec_run 40 [64;1;0;1; 177;97; 225;254;235;104] sample_dec 0 = Ok (msg_events (Msg (Hdr 64 1 0 1) [] [(11, [97]); (3, [104])] None), d1, 10%nat)) /\
  (exists d1, dec_run 40 [64;1;0;1; 177;97; 208] sample_dec 0 = Ok (msg_events (Msg (Hdr 64 1 0 1) [] [(11, [97]); (11, [])] None), d1, 7%nat)).
Proof.
  split.
  - apply (sp_opt 0 11 [97] 11 1 [(3, [104])] [225;254;235;104]); try reflexivity; [repeat constructor; unfold byte_ok; lia|].
    apply (sp_opt 11 3 [104] 65528 1 [] []); try reflexivity; [repeat constructor; unfold byte_ok; lia|constructor].
  - split; eexists; vm_compute; reflexivity.
Qed.

Example C82_case :
  strict_body [49;104; 130;97;98; 0; 225;0;20;1; 255; 104;105] = Some ([(3, [104]); (11, [97;98]); (11, []); (289 + 11, [1])], Some [104;105]) /\
  strict_body [49;104; 130;97] = None /\ strict_body [208] = None /\ strict_body [240] = None /\
  strict_body [177;97] = Some ([(11, [97])], None) /\ strict_body [225;254;254;97] = None /\
  (exists d1 d2, dec_run 40 [64;1;0;1;177;97] sample_dec 0 = Ok (msg_events (Msg (Hdr 64 1 0 1) [] [(11, [97])] None), d1, 6%nat) /\
     dec_run 40 [64;1;0;1;225;254;254;97] sample_dec 0 = Ok (msg_events (Msg (Hdr 64 1 0 1) [] [(11, [97])] None), d2, 8%nat)).
Proof. repeat (split; [vm_compute; reflexivity|]). do 2 eexists. split; vm_compute; reflexivity. Qed.
