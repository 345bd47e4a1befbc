(** C05-C07: message header. *)
From Verif Require Import Base HeaderModel HeaderSpec HeaderProofs.
Local Open Scope N_scope.

(** C05 *)
Theorem C05_setters_independent : forall ops h, hdr_ok h -> Forall hop_ok ops ->
  exists h', hop_run ops h = Ok h' /\ hdr_ok h' /\
    hdr_type h' = last_of (fun o => match o with HType t => Some t | _ => None end) ops (hdr_type h) /\
    hdr_code h' = last_of (fun o => match o with HCode c => Some c | _ => None end) ops (hdr_code h) /\
    hdr_mid h' = last_of (fun o => match o with HMid m => Some m | _ => None end) ops (hdr_mid h) /\
    hdr_tkl h' = last_of (fun o => match o with HTkl k => Some k | _ => None end) ops (hdr_tkl h) /\
    hdr_version h' = hdr_version h.
Proof.
  intros ops h Hh Ho. destruct (hop_run_fields ops h Hh Ho) as (h' & E & Hok & Hf).
  exists h'. unfold fields_of in Hf. injection Hf as A B C D F. repeat split; assumption.
Qed.
Print Assumptions C05_setters_independent.

Theorem C05_token_length_assert : forall ops h,
  hop_run ops h = Fault <-> exists k, In (HTkl k) ops /\ 8 < k.
Proof. exact hop_run_fault_iff. Qed.
Print Assumptions C05_token_length_assert.

Example C05_case :
  hop_run [HMid 4660; HType ACK; HTkl 8; HCode 69; HType NON; HTkl 3] (Hdr 255 1 2 3)
  = Ok (Hdr 211 69 18 52) /\ hop_run [HType ACK; HTkl 9] (Hdr 64 0 0 0) = Fault.
Proof. split; vm_compute; reflexivity. Qed.

(** C06 *)
Theorem C06_wire_layout : forall h, hdr_ok h ->
  hdr_bytes h = wire (Fields (hdr_version h) (hdr_type h) (hdr_tkl h) (hdr_code h) (hdr_mid h)) /\
  fields_ok (Fields (hdr_version h) (hdr_type h) (hdr_tkl h) (hdr_code h) (hdr_mid h)).
Proof.
  intros h H. destruct (wire_fields_of h H) as [A B]. split; [symmetry; exact A|exact B].
Qed.
Print Assumptions C06_wire_layout.

(** the four bytes determine the fields, and every field combination is a header *)
Theorem C06_wire_bijective : forall f, fields_ok f ->
  exists h, hdr_ok h /\ hdr_bytes h = wire f /\
    hdr_version h = f_ver f /\ hdr_type h = f_type f /\ hdr_tkl h = f_tkl f /\
    hdr_code h = f_code f /\ hdr_mid h = f_mid f.
Proof.
  intros [v t k c m] (A & B & C & D & E). cbn [f_ver f_type f_tkl f_code f_mid] in *.
  set (h := Hdr (v * 64 + t * 16 + k) c (m / 256) (m mod 256)).
  assert (Hok : hdr_ok h) by (apply hdr_ok_iff; cbn [h h0 h1 h2 h3]; repeat split; lia).
  destruct (wire_fields_of h Hok) as [Hw Hf].
  assert (fields_of h = Fields v t k c m) as Heq.
  { apply wire_inj; [exact Hf|repeat split; assumption|]. rewrite Hw. reflexivity. }
  exists h. 
  split; [exact Hok|]. split; [reflexivity|].
  pose proof (f_equal f_ver Heq) as E1. pose proof (f_equal f_type Heq) as E2.
  pose proof (f_equal f_tkl Heq) as E3. pose proof (f_equal f_code Heq) as E4.
  pose proof (f_equal f_mid Heq) as E5. repeat split; assumption.
Qed.
Print Assumptions C06_wire_bijective.

(** the constructors, then the setters *)
Theorem C06_constructed : forall t c m k, t < 4 -> c < 256 -> m < 65536 -> k <= 8 ->
  exists h, hop_run [HMid m; HTkl k] (hdr_new_code t c) = Ok h /\
    hdr_bytes h = wire (Fields 1 t k c m).
Proof.
  intros t c m k Ht Hc Hm Hk.
  assert (Hb0 : hdr_new_code t c = Hdr (64 + t * 16) c 0 0).
  { unfold hdr_new_code. f_equal.
    assert (H : forallb (fun t => N.lor (N.lor 0 (N.shiftl 1 6)) ((N.shiftl t 4) mod 256)
              =? 64 + t * 16) (upto 4) = true) by reflexivity.
    pose proof (sweep 4 _ H t Ht) as H'. apply N.eqb_eq in H'. exact H'. }
  rewrite Hb0. set (h := Hdr (64 + t * 16) c 0 0).
  assert (Hok : hdr_ok h) by (apply hdr_ok_iff; cbn [h h0 h1 h2 h3]; repeat split; lia).
  destruct (hop_run_fields [HMid m; HTkl k] h Hok) as (h' & E & Hok' & Hf).
  { repeat constructor; cbn; assumption. }
  exists h'. split; [exact E|]. destruct (wire_fields_of h' Hok') as [Hw _].
  rewrite <- Hw, Hf. cbn [last_of p_type p_code p_mid p_tkl]. f_equal. f_equal.
  - unfold hdr_version. cbn [h h0]. rewrite b0_version by lia. lia.
  - unfold hdr_type. cbn [h h0]. rewrite b0_type by lia. lia.
Qed.
Print Assumptions C06_constructed.

Example C06_case :
  hop_run [HMid 291; HTkl 2] (hdr_new_code ACK 69) = Ok (Hdr 98 69 1 35)
  /\ wire (Fields 1 2 2 69 291) = [98; 69; 1; 35].
Proof. split; vm_compute; reflexivity. Qed.

(** response codes: class and detail are recovered *)
Theorem C06_code_class_detail : forall cls d, cls < 8 -> d < 32 ->
  response_code_of cls d < 256 /\
  code_class (response_code_of cls d) = cls /\ code_detail (response_code_of cls d) = d.
Proof.
  intros cls d Hc Hd.
  assert (H : forallb (fun c => forallb (fun d => (response_code_of c d <? 256) &&
     (code_class (response_code_of c d) =? c) && (code_detail (response_code_of c d) =? d))
     (upto 32)) (upto 8) = true) by (vm_compute; reflexivity).
  pose proof (sweep 8 _ H cls Hc) as H1. pose proof (sweep 32 _ H1 d Hd) as H2.
  cbn beta in H2. rewrite !andb_true_iff in H2. lia.
Qed.
Print Assumptions C06_code_class_detail.

Example C06_code_case : response_code_of 4 4 = 132 /\ code_class 132 = 4 /\ code_detail 132 = 4.
Proof. repeat split. Qed.

(** Which messages count as requests: exactly those of code class 0, 0.00 to 0.31;
    all others count as responses. *)
Theorem C06_request_class : forall h,
  (hdr_is_request h = true <-> h1 h < 32) /\ (hdr_is_response h = true <-> 32 <= h1 h).
Proof.
  intros h.
  assert (E : hdr_is_request h = true <-> h1 h < 32).
  { unfold hdr_is_request, hdr_code. rewrite N.eqb_eq, N.shiftr_div_pow2. change (2 ^ 5) with 32.
    rewrite N.div_small_iff by lia. reflexivity. }
  split; [exact E|]. unfold hdr_is_response. rewrite negb_true_iff.
  destruct (hdr_is_request h) eqn:R; split; intros H; try congruence; try reflexivity.
  - apply E in H || (pose proof (proj1 E eq_refl); lia).
  - destruct (N.lt_ge_cases (h1 h) 32) as [L|L]; [apply E in L; congruence|exact L].
Qed.
Print Assumptions C06_request_class.

(** RFC 7252 section 12.1: 0.00 is the empty message, not a request, and the classes
    1, 6 and 7 are no responses; both tests answer yes. *)
Theorem C06_rfc_request_refuted :
  (exists h, hdr_ok h /\ h1 h = 0 /\ hdr_is_request h = true) /\
  (exists h, hdr_ok h /\ h1 h / 32 = 7 /\ hdr_is_response h = true).
Proof.
  split; [exists (Hdr 64 0 0 1)|exists (Hdr 64 224 0 1)]; (split; [apply hdr_ok_iff; repeat split; vm_compute; reflexivity|split; reflexivity]).
Qed.
Print Assumptions C06_rfc_request_refuted.

Example C06_request_case : hdr_is_request (Hdr 64 1 0 1) = true /\ hdr_is_response (Hdr 96 69 0 1) = true.
Proof. split; reflexivity. Qed.

(** C07 *)
Theorem C07_create_response : forall junk req code, hdr_ok junk -> hdr_ok req -> code < 256 ->
  hdr_type req = CON \/ hdr_type req = NON ->
  exists h, create_response junk req code = Ok h /\
    hdr_version h = hdr_version req /\ hdr_tkl h = hdr_tkl req /\ hdr_mid h = hdr_mid req /\
    hdr_code h = code /\
    (hdr_type req = CON -> hdr_type h = ACK) /\ (hdr_type req = NON -> hdr_type h = NON).
Proof.
  intros junk req code Hj Hr Hc Ht.
  destruct (create_response_spec junk req code Hj Hr Hc Ht) as (h & E & _ & Hf).
  exists h. unfold fields_of in Hf. injection Hf as A B C D F. repeat split; auto.
  - intro X. rewrite B, X. reflexivity.
  - intro X. rewrite B, X. reflexivity.
Qed.
Print Assumptions C07_create_response.

Theorem C07_create_response_assert : forall junk req code, hdr_ok junk -> hdr_ok req ->
  hdr_type req = ACK \/ hdr_type req = RST -> create_response junk req code = Fault.
Proof. exact create_response_fault. Qed.
Print Assumptions C07_create_response_assert.

Theorem C07_process_response : forall input out, hdr_ok input -> hdr_ok out ->
  (hdr_type input = CON -> exists h, process_response input out = (true, h) /\
     hdr_type h = ACK /\ hdr_mid h = hdr_mid input /\ hdr_tkl h = hdr_tkl input /\
     hdr_version h = hdr_version input /\ hdr_code h = hdr_code out) /\
  (hdr_type input <> CON -> process_response input out = (false, out)).
Proof.
  intros input out Hi Ho.
  destruct (process_response_spec input out Hi Ho) as [(Ht & h & E & _ & Hf)|(Ht & E)].
  - split; [|congruence]. intros _. exists h. unfold fields_of in Hf.
    injection Hf as A B C D F. repeat split; auto.
  - split; [congruence|]. intros _. exact E.
Qed.
Print Assumptions C07_process_response.

Example C07_case :
  create_response (Hdr 0 0 0 0) (Hdr 66 1 171 205) 69 = Ok (Hdr 98 69 171 205) /\
  create_response (Hdr 9 9 9 9) (Hdr 82 1 171 205) 69 = Ok (Hdr 82 69 171 205) /\
  create_response (Hdr 0 0 0 0) (Hdr 98 1 171 205) 69 = Fault /\
  process_response (Hdr 66 69 7 8) (Hdr 0 0 0 0) = (true, Hdr 98 0 7 8).
Proof. repeat split. Qed.

(** process_reset gives a reset with the message id of the input; version, token length and
    code stay what they were in the output. *)
Theorem C07_process_reset : forall input out, hdr_ok input -> hdr_ok out -> let h := process_reset input out in
  hdr_type h = RST /\ hdr_mid h = hdr_mid input /\ hdr_version h = hdr_version out /\ hdr_tkl h = hdr_tkl out /\ hdr_code h = hdr_code out.
Proof.
  intros input out Hi Ho h. assert (Hc : hdr_ok (hdr_copy_message_id input out)).
  { apply hdr_ok_iff in Hi. apply hdr_ok_iff in Ho. apply hdr_ok_iff. unfold hdr_copy_message_id. cbn [h0 h1 h2 h3]. tauto. }
  destruct (set_type_keeps RST _ Hc) as (_ & A & B & C & D & E); [reflexivity|]. unfold h, process_reset.
  rewrite A, B, C, D, E. repeat split.
Qed.
Print Assumptions C07_process_reset.

(** So it is not always the empty message of RFC 7252 4.2: that takes an output with code
    0.00 and no token. *)
Theorem C07_reset_empty_refuted : forall input out, hdr_ok input -> hdr_ok out ->
  (hdr_code (process_reset input out) = 0 /\ hdr_tkl (process_reset input out) = 0 <-> hdr_code out = 0 /\ hdr_tkl out = 0).
Proof.
  intros input out Hi Ho. destruct (C07_process_reset input out Hi Ho) as (_ & _ & _ & A & B). rewrite A, B. reflexivity.
Qed.
Print Assumptions C07_reset_empty_refuted.

Example C07_reset_case : process_reset (Hdr 66 1 171 205) (Hdr 66 69 0 0) = Hdr 114 69 171 205 /\
  process_reset (Hdr 66 1 171 205) (hdr_new CON) = Hdr 112 0 171 205.
Proof. repeat split. Qed.
