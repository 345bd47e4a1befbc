From Verif Require Import Base HeaderModel HeaderSpec.
Local Open Scope N_scope.

Definition fields_of (h : hdr) : fields :=
  Fields (hdr_version h) (hdr_type h) (hdr_tkl h) (hdr_code h) (hdr_mid h).

(** everything about byte 0 by finite sweep *)
Definition b0_facts (b : N) : bool :=
  let v := N.shiftr b 6 in
  let t := N.shiftr (N.land b TYPE_MASK) 4 in
  let k := N.land b TKL_MASK in
  (v =? b / 64) && (t =? (b / 16) mod 4) && (k =? b mod 16) &&
  forallb (fun t' => N.lor (N.land b (255 - TYPE_MASK)) ((N.shiftl t' 4) mod 256)
                     =? (b / 64) * 64 + t' * 16 + b mod 16) (upto 4) &&
  forallb (fun k' => N.lor (N.land b (255 - TKL_MASK)) k'
                     =? (b / 64) * 64 + ((b / 16) mod 4) * 16 + k') (upto 16).

Lemma b0_all : forall b, b < 256 -> b0_facts b = true.
Proof. apply (sweep 256). vm_compute. reflexivity. Qed.

Lemma b0_version : forall b, b < 256 -> N.shiftr b 6 = b / 64.
Proof. intros b Hb. rewrite N.shiftr_div_pow2. reflexivity. Qed.

Lemma b0_type : forall b, b < 256 -> N.shiftr (N.land b TYPE_MASK) 4 = (b / 16) mod 4.
Proof.
  intros b Hb. pose proof (b0_all b Hb) as H. unfold b0_facts in H.
  rewrite !andb_true_iff in H. lia.
Qed.

Lemma b0_tkl : forall b, N.land b TKL_MASK = b mod 16.
Proof. intro b. change TKL_MASK with (N.ones 4). rewrite N.land_ones. reflexivity. Qed.

Lemma b0_set_type : forall b t, b < 256 -> t < 4 ->
  N.lor (N.land b (255 - TYPE_MASK)) ((N.shiftl t 4) mod 256)
  = (b / 64) * 64 + t * 16 + b mod 16.
Proof.
  intros b t Hb Ht. pose proof (b0_all b Hb) as H. unfold b0_facts in H.
  rewrite !andb_true_iff in H. destruct H as [[_ H] _].
  rewrite forallb_forall in H. specialize (H t (in_upto 4 t Ht)).
  apply N.eqb_eq in H. exact H.
Qed.

Lemma b0_set_tkl : forall b k, b < 256 -> k < 16 ->
  N.lor (N.land b (255 - TKL_MASK)) k = (b / 64) * 64 + ((b / 16) mod 4) * 16 + k.
Proof.
  intros b t Hb Ht. pose proof (b0_all b Hb) as H. unfold b0_facts in H.
  rewrite !andb_true_iff in H. destruct H as [_ H].
  rewrite forallb_forall in H. specialize (H t (in_upto 16 t Ht)).
  apply N.eqb_eq in H. exact H.
Qed.

Lemma nto_val : forall a b, a < 256 -> b < 256 -> nto_uint16 a b = a * 256 + b.
Proof.
  intros a b Ha Hb. unfold nto_uint16. rewrite N.shiftl_mul_pow2, N.mod_small by lia.
  apply lor_add. exact Hb.
Qed.

Lemma hton_val : forall m, m < 65536 -> hton m = (m / 256, m mod 256).
Proof.
  intros m Hm. unfold hton. rewrite N.shiftr_div_pow2. change (2 ^ 8) with 256.
  rewrite N.mod_small by lia. f_equal.
  change 255 with (N.ones 8). rewrite N.land_ones. reflexivity.
Qed.

Ltac hdr_unfold h H :=
  let a := fresh "a" in let b := fresh "b" in let c := fresh "c" in let d := fresh "d" in
  destruct h as [a b c d]; unfold hdr_ok, hdr_bytes, bytes_ok in H; cbn [h0 h1 h2 h3] in H;
  let Ha := fresh "Ha" in let Hb := fresh "Hb" in let Hc := fresh "Hc" in let Hd := fresh "Hd" in
  inversion H as [|? ? Ha [|? ? Hb [|? ? Hc [|? ? Hd _]]]]; clear H; subst; unfold byte_ok in *.

Lemma hdr_ok_iff : forall h, hdr_ok h <-> h0 h < 256 /\ h1 h < 256 /\ h2 h < 256 /\ h3 h < 256.
Proof.
  intros [a b c d]. unfold hdr_ok, hdr_bytes, bytes_ok, byte_ok. cbn [h0 h1 h2 h3].
  rewrite !Forall_cons_iff. split; [tauto|]. intros (A & B & C & D). repeat split; auto.
Qed.

Lemma wire_fields_of : forall h, hdr_ok h ->
  wire (fields_of h) = hdr_bytes h /\ fields_ok (fields_of h).
Proof.
  intros h H. apply hdr_ok_iff in H. destruct h as [a b c d]. cbn [h0 h1 h2 h3] in H.
  destruct H as (Ha & Hb & Hc & Hd).
  unfold fields_of, wire, hdr_bytes, fields_ok, hdr_version, hdr_type, hdr_tkl, hdr_code, hdr_mid.
  cbn [h0 h1 h2 h3 f_ver f_type f_tkl f_code f_mid].
  rewrite b0_version, b0_type, b0_tkl, nto_val by assumption.
  split; [repeat f_equal; lia|repeat split; lia].
Qed.

Lemma wire_inj : forall f g, fields_ok f -> fields_ok g -> wire f = wire g -> f = g.
Proof.
  intros [v t k c m] [v' t' k' c' m'] (A & B & C & D & E) (A' & B' & C' & D' & E') H.
  unfold wire in H. cbn [f_ver f_type f_tkl f_code f_mid] in *.
  injection H as H1 H2 H3 H4. f_equal; lia.
Qed.

(** each setter as a field update, keeping the bytes in range *)
Definition set_fields (o : hop) (f : fields) : fields :=
  match o with
  | HType t => Fields (f_ver f) t (f_tkl f) (f_code f) (f_mid f)
  | HCode c => Fields (f_ver f) (f_type f) (f_tkl f) c (f_mid f)
  | HMid m => Fields (f_ver f) (f_type f) (f_tkl f) (f_code f) m
  | HTkl k => Fields (f_ver f) (f_type f) k (f_code f) (f_mid f)
  end.

Definition hop_ok (o : hop) : Prop :=
  match o with
  | HType t => t < 4
  | HCode c => c < 256
  | HMid m => m < 65536
  | HTkl k => k <= 8
  end.

Lemma hop_step_fields : forall o h, hdr_ok h -> hop_ok o ->
  exists h', hop_step o h = Ok h' /\ hdr_ok h' /\ fields_of h' = set_fields o (fields_of h).
Proof.
  intros o h H Ho. apply hdr_ok_iff in H. destruct h as [a b c d]. cbn [h0 h1 h2 h3] in H.
  destruct H as (Ha & Hb & Hc & Hd).
  destruct o as [t|cd|m|k]; cbn [hop_step hop_ok set_fields] in *.
  - eexists. split; [reflexivity|].
    unfold hdr_set_type. cbn [h0 h1 h2 h3]. rewrite b0_set_type by assumption.
    split; [apply hdr_ok_iff; cbn [h0 h1 h2 h3]; repeat split; lia|].
    unfold fields_of, hdr_version, hdr_type, hdr_tkl, hdr_code, hdr_mid.
    cbn [h0 h1 h2 h3 f_ver f_type f_tkl f_code f_mid].
    rewrite !b0_version, b0_type, !b0_tkl by lia. f_equal; lia.
  - eexists. split; [reflexivity|]. unfold hdr_set_code. cbn [h0 h1 h2 h3].
    split; [apply hdr_ok_iff; cbn [h0 h1 h2 h3]; repeat split; lia|reflexivity].
  - eexists. split; [reflexivity|]. unfold hdr_set_mid. rewrite hton_val by assumption.
    cbn [h0 h1 h2 h3 fst snd].
    split; [apply hdr_ok_iff; cbn [h0 h1 h2 h3]; repeat split; lia|].
    unfold fields_of, hdr_version, hdr_type, hdr_tkl, hdr_code, hdr_mid.
    cbn [h0 h1 h2 h3 f_ver f_type f_tkl f_code f_mid]. f_equal.
    rewrite nto_val by lia. lia.
  - unfold hdr_set_tkl. destruct (N.leb_spec k 8); [|lia].
    eexists. split; [reflexivity|]. cbn [h0 h1 h2 h3]. rewrite b0_set_tkl by lia.
    split; [apply hdr_ok_iff; cbn [h0 h1 h2 h3]; repeat split; lia|].
    unfold fields_of, hdr_version, hdr_type, hdr_tkl, hdr_code, hdr_mid.
    cbn [h0 h1 h2 h3 f_ver f_type f_tkl f_code f_mid].
    rewrite !b0_version, !b0_type, !b0_tkl by lia. f_equal; lia.
Qed.

Definition p_type (o : hop) : option N := match o with HType t => Some t | _ => None end.
Definition p_code (o : hop) : option N := match o with HCode t => Some t | _ => None end.
Definition p_mid (o : hop) : option N := match o with HMid t => Some t | _ => None end.
Definition p_tkl (o : hop) : option N := match o with HTkl t => Some t | _ => None end.

Lemma hop_run_fields : forall ops h, hdr_ok h -> Forall hop_ok ops ->
  exists h', hop_run ops h = Ok h' /\ hdr_ok h' /\
    fields_of h' = Fields (hdr_version h) (last_of p_type ops (hdr_type h))
      (last_of p_tkl ops (hdr_tkl h)) (last_of p_code ops (hdr_code h))
      (last_of p_mid ops (hdr_mid h)).
Proof.
  induction ops as [|o ops IH]; intros h Hok Hops.
  - exists h. repeat split; auto.
  - inversion Hops as [|? ? Ho Hr]; subst.
    destruct (hop_step_fields o h Hok Ho) as (h1' & E & Hok1 & Hf).
    destruct (IH h1' Hok1 Hr) as (h2' & E2 & Hok2 & Hf2).
    exists h2'. cbn [hop_run]. rewrite E. cbn [bind]. split; [exact E2|]. split; [exact Hok2|].
    rewrite Hf2. unfold fields_of in Hf. cbn [last_of].
    destruct o; cbn [set_fields p_type p_code p_mid p_tkl f_ver f_type f_tkl f_code f_mid] in *;
      injection Hf as -> -> -> -> ->; reflexivity.
Qed.

Lemma hop_run_fault : forall ops h, (exists k, In (HTkl k) ops /\ 8 < k) -> hop_run ops h = Fault.
Proof.
  induction ops as [|o ops IH]; intros h (k & Hin & Hk); [destruct Hin|].
  cbn [hop_run]. destruct Hin as [->|Hin].
  - cbn [hop_step]. unfold hdr_set_tkl. destruct (N.leb_spec k 8); [lia|]. reflexivity.
  - assert (forall h', hop_run ops h' = Fault) as A by (intro; apply IH; eauto).
    destruct o; cbn [hop_step bind]; try apply A.
    unfold hdr_set_tkl. destruct (n <=? 8); cbn [bind]; [apply A|reflexivity].
Qed.

Lemma hop_run_fault_iff : forall ops h,
  hop_run ops h = Fault <-> exists k, In (HTkl k) ops /\ 8 < k.
Proof.
  intros ops h. split; [|apply hop_run_fault].
  revert h. induction ops as [|o ops IH]; intros h H; [discriminate|].
  cbn [hop_run] in H. destruct o as [t|c|m|k]; cbn [hop_step bind] in H;
    try (destruct (IH _ H) as (k' & ? & ?); exists k'; cbn; auto; fail).
  unfold hdr_set_tkl in H. destruct (N.leb_spec k 8).
  - cbn [bind] in H. destruct (IH _ H) as (k' & ? & ?); exists k'; cbn; auto.
  - exists k. cbn. auto.
Qed.

(** responses *)
Lemma set_type_keeps : forall t h, hdr_ok h -> t < 4 ->
  let h' := hdr_set_type t h in
  hdr_ok h' /\ hdr_type h' = t /\ hdr_version h' = hdr_version h /\ hdr_tkl h' = hdr_tkl h
  /\ hdr_code h' = hdr_code h /\ hdr_mid h' = hdr_mid h.
Proof.
  intros t h Hok Ht; cbn zeta. destruct (hop_step_fields (HType t) h Hok Ht) as (h' & E & Hok' & Hf).
  cbn [hop_step] in E. injection E as <-. unfold fields_of in Hf.
  pose proof (f_equal f_ver Hf) as E1. pose proof (f_equal f_type Hf) as E2.
  pose proof (f_equal f_tkl Hf) as E3. pose proof (f_equal f_code Hf) as E4.
  pose proof (f_equal f_mid Hf) as E5.
  cbn [set_fields f_ver f_type f_tkl f_code f_mid] in *. repeat split; auto.
Qed.

Lemma hdr_type_lt : forall h, hdr_ok h -> hdr_type h < 4.
Proof. intros h H. destruct (wire_fields_of h H) as [_ (_ & B & _)]. exact B. Qed.

Definition mix (input out : hdr) : hdr := Hdr (h0 input) (h1 out) (h2 input) (h3 input).

Lemma process_request_cases : forall input out, hdr_ok input -> hdr_ok out ->
  (hdr_type input = CON /\ process_request input out = Ok (hdr_set_type ACK (mix input out))) \/
  (hdr_type input = NON /\ process_request input out = Ok (mix input out)) \/
  ((hdr_type input = ACK \/ hdr_type input = RST) /\ process_request input out = Fault).
Proof.
  intros input out Hi Ho. pose proof (hdr_type_lt input Hi) as Ht.
  unfold process_request, hdr_copy_message_id, mix. cbn [h0 h1 h2 h3].
  destruct (N.eqb_spec (hdr_type input) CON) as [H|H]; [left; auto|].
  destruct (N.eqb_spec (hdr_type input) NON) as [H'|H']; [right; left; auto|].
  right; right. unfold CON, NON, ACK, RST in *. split; [lia|reflexivity].
Qed.

Lemma mix_ok : forall i o, hdr_ok i -> hdr_ok o -> hdr_ok (mix i o).
Proof.
  intros i o Hi Ho. apply hdr_ok_iff in Hi, Ho. apply hdr_ok_iff.
  cbn [mix h0 h1 h2 h3]. tauto.
Qed.

Lemma create_response_spec : forall junk req code, hdr_ok junk -> hdr_ok req -> code < 256 ->
  hdr_type req = CON \/ hdr_type req = NON ->
  exists h, create_response junk req code = Ok h /\ hdr_ok h /\
    fields_of h = Fields (hdr_version req) (if hdr_type req =? CON then ACK else NON)
                         (hdr_tkl req) code (hdr_mid req).
Proof.
  intros junk req code Hj Hr Hc Ht. unfold create_response.
  pose proof (mix_ok req junk Hr Hj) as Hm.
  destruct (process_request_cases req junk Hr Hj) as [[H E]|[[H E]|[H E]]].
  - rewrite E. cbn [bind]. eexists. split; [reflexivity|].
    pose proof (set_type_keeps ACK _ Hm eq_refl) as (A & B & C & D & F & G).
    split.
    + apply hdr_ok_iff in A. apply hdr_ok_iff. cbn [hdr_set_code h0 h1 h2 h3]. tauto.
    + rewrite H. unfold fields_of.
      unfold hdr_version, hdr_type, hdr_tkl, hdr_code, hdr_mid in *.
      cbn [hdr_set_code h0 h1 h2 h3] in *. rewrite B, C, D, G. reflexivity.
  - rewrite E. cbn [bind]. eexists. split; [reflexivity|]. split.
    + apply hdr_ok_iff in Hm. apply hdr_ok_iff. cbn [hdr_set_code h0 h1 h2 h3]. tauto.
    + rewrite H. unfold fields_of.
      unfold hdr_version, hdr_type, hdr_tkl, hdr_code, hdr_mid in *.
      cbn [hdr_set_code mix h0 h1 h2 h3] in *. rewrite H. reflexivity.
  - exfalso. unfold CON, NON, ACK, RST in *. lia.
Qed.

Lemma create_response_fault : forall junk req code, hdr_ok junk -> hdr_ok req ->
  hdr_type req = ACK \/ hdr_type req = RST -> create_response junk req code = Fault.
Proof.
  intros junk req code Hj Hr Ht. unfold create_response.
  destruct (process_request_cases req junk Hr Hj) as [[H E]|[[H E]|[H E]]].
  - unfold CON, ACK, RST in *. lia.
  - unfold NON, ACK, RST in *. lia.
  - rewrite E. reflexivity.
Qed.

Lemma process_response_spec : forall input out, hdr_ok input -> hdr_ok out ->
  (hdr_type input = CON /\ exists h, process_response input out = (true, h) /\ hdr_ok h /\
     fields_of h = Fields (hdr_version input) ACK (hdr_tkl input) (hdr_code out) (hdr_mid input))
  \/ (hdr_type input <> CON /\ process_response input out = (false, out)).
Proof.
  intros input out Hi Ho. unfold process_response, hdr_copy_message_id. cbn [h0 h1 h2 h3].
  destruct (N.eqb_spec (hdr_type input) CON) as [H|H]; [left|right; auto].
  split; [exact H|]. eexists. split; [reflexivity|].
  pose proof (set_type_keeps ACK _ (mix_ok _ _ Hi Ho) eq_refl) as (A & B & C & D & F & G).
  unfold mix in *. split; [exact A|]. unfold fields_of. rewrite B, C, D, F, G. reflexivity.
Qed.
