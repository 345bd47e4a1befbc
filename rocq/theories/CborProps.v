(** C31-C33, C42-C44: CBOR. *)
From Verif Require Import Base UIntModel UIntSpec UIntProofs CborModel CborSpec CborProofs.
Local Open Scope N_scope.

(** * C31: heads *)

(** For every major type and every 64-bit argument except 24 the bytes are the
    shortest head of RFC 7049. *)
Theorem C31_head : forall m v, m < 8 -> v < 2 ^ 64 -> v <> 24 -> mt_int m v = Ok (rfc_head m v).
Proof. exact mt_int_rfc. Qed.
Print Assumptions C31_head.

(** 24 is emitted as one byte, which is only the beginning of its head. *)
Theorem C31_24_refuted : forall m, m < 8 -> mt_int m 24 = Ok [m * 32 + 24] /\ rfc_head m 24 = [m * 32 + 24; 24].
Proof.
  intros m Hm. split; [|reflexivity]. unfold mt_int. change (24 <=? 24) with true. cbn iota. rewrite head_byte by lia. reflexivity.
Qed.
Print Assumptions C31_24_refuted.

(** A whole sequence of NetBufEncoder calls emits the RFC encodings one after the
    other, if they fit; a head that does not fit is stored past the buffer. *)
Theorem C31_sequence : forall os out room, Forall op_ok os -> (length (flat_map op_bytes os) <= room)%nat ->
  nb_run os (Nb out room) = Ok (Nb (out ++ flat_map op_bytes os) (room - length (flat_map op_bytes os))).
Proof. intros os out room H1 H2. exact (nb_run_spec os (Nb out room) H1 H2). Qed.
Print Assumptions C31_sequence.

Theorem C31_overrun_refuted : forall m v s, m < 8 -> v < 2 ^ 64 -> v <> 24 -> (nb_room s < length (rfc_head m v))%nat -> nb_mt_int m v s = Fault.
Proof.
  intros m v s Hm Hv Hn Hr. unfold nb_mt_int. rewrite mt_int_rfc by assumption. cbn [bind]. unfold nb_store.
  destruct (Nat.leb_spec (length (rfc_head m v)) (nb_room s)); [lia|reflexivity].
Qed.
Print Assumptions C31_overrun_refuted.

(** layer1::Encoder has five bytes: it holds every 32-bit head and overruns its
    buffer with every longer one. *)
Theorem C31_layer1 : forall m v, m < 8 -> v < 2 ^ 64 -> v <> 24 ->
  (v < 2 ^ 32 -> enc_mt_int 5 m v = Ok (rfc_head m v)) /\ (2 ^ 32 <= v -> enc_mt_int 5 m v = Fault).
Proof.
  intros m v Hm Hv Hn. unfold enc_mt_int. rewrite mt_int_rfc by assumption. cbn [bind]. unfold rfc_head.
  split; intros H.
  - destruct (v <? 24); [reflexivity|]. destruct (v <? 256); [reflexivity|]. destruct (v <? 65536); [reflexivity|].
    destruct (N.ltb_spec v (2 ^ 32)); [reflexivity|lia].
  - destruct (N.ltb_spec v 24); [lia|]. destruct (N.ltb_spec v 256); [lia|]. destruct (N.ltb_spec v 65536); [lia|].
    destruct (N.ltb_spec v (2 ^ 32)); [lia|reflexivity].
Qed.
Print Assumptions C31_layer1.

(** EncoderBase::string and array write the head of a text string and of a byte string,
    or run past a buffer that is too short. *)
Theorem C31_string_array_heads : forall cap n, n < 2 ^ 64 -> n <> 24 ->
  enc_string cap n = (if (length (rfc_head 3 n) <=? cap)%nat then Ok (rfc_head 3 n) else Fault) /\
  enc_array cap n = (if (length (rfc_head 2 n) <=? cap)%nat then Ok (rfc_head 2 n) else Fault).
Proof.
  intros cap n Hn H24. unfold enc_string, enc_array, enc_mt_int, M_STRING, M_BYTES. rewrite !mt_int_rfc by (assumption || lia). split; reflexivity.
Qed.
Print Assumptions C31_string_array_heads.

(** NetBufEncoder::string: head and text, cut to the room, and the result says whether all
    of it was written. *)
Theorem C31_string_result : forall str out room, N.of_nat (length str) < 2 ^ 64 -> length str <> 24%nat ->
  let head := rfc_head 3 (N.of_nat (length str)) in
  (length head <= room)%nat ->
  exists left, nb_string str (Nb out room) =
    Ok (Nb (out ++ firstn room (head ++ str)) left, (length head + length str <=? room)%nat) /\
    left = (room - length (head ++ str))%nat.
Proof.
  intros str out room Hn H24 head L. unfold nb_string. rewrite nb_mt_spec by (unfold M_STRING; cbn [nb_room]; try assumption; lia).
  cbn [bind nb_room nb_out]. unfold M_STRING. fold head. eexists. split; [|reflexivity].
  rewrite firstn_app, (firstn_all2 head) by lia. rewrite <- app_assoc. rewrite firstn_length, app_length. do 2 f_equal; [f_equal; lia|].
  destruct (Nat.leb_spec (length head + length str) room); [apply Nat.eqb_eq|apply Nat.eqb_neq]; lia.
Qed.
Print Assumptions C31_string_result.

(** The list forms: a head and one byte for each element.  For a byte array that is the RFC
    form; for an item array it is, exactly if all elements are below 24. *)
Theorem C31_lists : forall vs out room, N.of_nat (length vs) < 2 ^ 64 -> length vs <> 24%nat -> Forall (fun v => v < 256) vs ->
  (9 + length vs <= room)%nat ->
  (exists s, nb_array vs (Nb out room) = Ok s /\ nb_out s = out ++ rfc_head 2 (N.of_nat (length vs)) ++ vs) /\
  (exists s, nb_items vs (Nb out room) = Ok s /\ nb_out s = out ++ rfc_head 4 (N.of_nat (length vs)) ++ vs) /\
  (vs = flat_map (rfc_head 0) vs <-> Forall (fun v => v < 24) vs).
Proof.
  intros vs out room Hn H24 Hb L.
  assert (LH : forall m, (length (rfc_head m (N.of_nat (length vs))) <= 9)%nat).
  { intro m. unfold rfc_head. repeat destruct (_ <? _); cbn [length]; rewrite ?be_bytes_length; lia. }
  assert (EM : map (fun v => v mod 256) vs = vs).
  { clear -Hb. induction Hb as [|v r Hv Hr IH]; [reflexivity|]. cbn [map]. rewrite IH, N.mod_small by exact Hv. reflexivity. }
  split; [|split].
  - unfold nb_array, nb_array_header. rewrite nb_mt_spec by (unfold M_BYTES; cbn [nb_room]; try assumption; try lia; specialize (LH 2); lia).
    cbn [bind]. rewrite EM. unfold nb_store. cbn [nb_room nb_out]. unfold M_BYTES. specialize (LH 2).
    destruct (Nat.leb_spec (length vs) (room - length (rfc_head 2 (N.of_nat (length vs))))); [|lia].
    eexists. split; [reflexivity|]. cbn [nb_out]. rewrite app_assoc. reflexivity.
  - unfold nb_items, nb_items_header. rewrite nb_mt_spec by (unfold M_ITEMS; cbn [nb_room]; try assumption; try lia; specialize (LH 4); lia).
    cbn [bind]. rewrite EM. unfold nb_store. cbn [nb_room nb_out]. unfold M_ITEMS. specialize (LH 4).
    destruct (Nat.leb_spec (length vs) (room - length (rfc_head 4 (N.of_nat (length vs))))); [|lia].
    eexists. split; [reflexivity|]. cbn [nb_out]. rewrite app_assoc. reflexivity.
  - assert (G : forall l, (length l <= length (flat_map (rfc_head 0) l))%nat).
    { induction l as [|v r IH]; [cbn; lia|]. cbn [flat_map]. rewrite app_length. cbn [length].
      assert (1 <= length (rfc_head 0 v))%nat by (unfold rfc_head; repeat destruct (_ <? _); cbn [length]; lia). lia. }
    split; intro H.
    + clear -H G. induction vs as [|v r IH]; [constructor|]. cbn [flat_map] in H.
      assert (A : (length (rfc_head 0 v) <= 1)%nat) by (apply (f_equal (@length N)) in H; rewrite app_length in H; cbn [length] in H; specialize (G r); lia).
      assert (V : v < 24).
      { unfold rfc_head in A. destruct (N.ltb_spec v 24); [assumption|]. exfalso. destruct (v <? 256); [cbn in A; lia|].
        destruct (v <? 65536); [cbn [length] in A; rewrite be_bytes_length in A; lia|]. destruct (v <? 2 ^ 32); cbn [length] in A; rewrite be_bytes_length in A; lia. }
      constructor; [exact V|]. apply IH. unfold rfc_head in H at 1. destruct (N.ltb_spec v 24); [|lia]. cbn [app] in H. apply (f_equal (@tl N)) in H. exact H.
    + clear -H. induction H as [|v r Hv Hr IH]; [reflexivity|]. cbn [flat_map]. rewrite <- IH. unfold rfc_head. destruct (N.ltb_spec v 24); [|lia]. reflexivity.
Qed.
Print Assumptions C31_lists.

(** The list forms store each element as one byte; from 24 on that byte is not the
    encoding of the element. *)
Theorem C31_items_refuted : exists s, nb_items [24] (Nb [] 10) = Ok s /\ nb_out s = [0x81; 24] /\ rfc_int_head 24 = [24; 24].
Proof. eexists. split; [vm_compute; reflexivity|]. split; reflexivity. Qed.
Print Assumptions C31_items_refuted.

Example C31_case : Forall op_ok [OMap 2; OString [0x61; 0x62]; OInt 32 (-500)%Z; ONull; OBool true] /\
  nb_run [OMap 2; OString [0x61; 0x62]; OInt 32 (-500)%Z; ONull; OBool true] (Nb [] 20) =
    Ok (Nb [0xA2; 0x62; 0x61; 0x62; 0x39; 0x01; 0xF3; 0xF6; 0xF5] 11).
Proof. split; [repeat apply Forall_cons; try apply Forall_nil; cbn; repeat split; try discriminate; try lia; try (right; reflexivity)|vm_compute; reflexivity]. Qed.

(** * C32: round trip of single heads *)

(** Wherever a head lies in the data, process consumes exactly its bytes, leaves
    the decoder with its type, and for integers the value is the one encoded. *)
Theorem C32_head_decodes : forall pre post g d m v, m < 8 -> v < 2 ^ 32 -> length (c_buf d) = 4%nat ->
  c_state d = CHeaderStart \/ c_state d = CItemDone ->
  exists d', c_process (pre ++ rfc_head m v ++ post) g d (length pre) = Ok (d', (length pre + length (rfc_head m v))%nat, false) /\
    c_type d' = m /\ (m <> 1 -> c_integer 64 d' = Ok (Z.of_N v) /\ c_unsigned d' = Ok v).
Proof.
  intros pre post g d m v Hm Hv Hb Hs. destruct (process_head pre post g d m v Hm Hv Hb Hs) as (d' & E & H).
  exists d'. split; [exact E|]. split; [apply (h_type _ _ _ H)|]. intros H1. split; [|apply (h_uns _ _ _ H H1)].
  rewrite (h_int _ _ _ H) by lia. unfold seen. destruct (N.eqb_spec m 1); [congruence|reflexivity].
Qed.
Print Assumptions C32_head_decodes.

(** Read as unsigned, a negative integer comes out modulo 2^32, a tiny one (wrongly) without its sign. *)
Theorem C32_unsigned_negative : forall pre post g d v, v < 2 ^ 32 -> length (c_buf d) = 4%nat -> c_state d = CHeaderStart \/ c_state d = CItemDone ->
  exists d', c_process (pre ++ rfc_head 1 v ++ post) g d (length pre) = Ok (d', (length pre + length (rfc_head 1 v))%nat, false) /\
    (24 <= v -> exists u, c_unsigned d' = Ok u /\ (Z.of_N u = (-1 - Z.of_N v) mod 2 ^ 32)%Z) /\
    (v < 24 -> c_unsigned d' = Ok v).
Proof.
  intros pre post g d v Hv Hb Hs. destruct (process_head pre post g d 1 v ltac:(lia) Hv Hb Hs) as (d' & E & H).
  exists d'. split; [exact E|]. unfold c_unsigned. destruct (h_arg _ _ _ H) as [(A & B & C)|(A & B & C & D & F)].
  - rewrite B, C. split; [lia|reflexivity].
  - rewrite B, (h_type _ _ _ H). split; [|lia]. intros _. unfold BUF_LEN. destruct (Nat.leb_spec (N.to_nat (c_addlen d')) 4) as [L|L]; [|lia].
    rewrite (get_firstn 32 _ v (N.to_nat (c_addlen d'))) by (rewrite ?N2Nat.id; auto; try (rewrite F; apply be_bytes_ok); lia).
    change (1 =? M_NEG) with true. cbn iota. eexists. split; [reflexivity|].
    rewrite N.mod_small by lia. replace (Z.of_N (2 ^ 32 - 1 - v)) with (2 ^ 32 - 1 - Z.of_N v)%Z by (rewrite !N2Z.inj_sub by lia; reflexivity).
    replace (-1 - Z.of_N v)%Z with (2 ^ 32 - 1 - Z.of_N v + -1 * 2 ^ 32)%Z by lia. rewrite Z.mod_add by discriminate. symmetry. apply Z.mod_small. lia.
Qed.
Print Assumptions C32_unsigned_negative.
Example C32_unsigned_case : match c_process (rfc_head 1 499) 0 (c_init [0;0;0;0] 0 0) 0 with
  | Ok (d, _, _) => c_unsigned d = Ok 4294966796 /\ c_integer 32 d = Ok (-500)%Z | _ => False end.
Proof. vm_compute. auto. Qed.

Theorem C32_round_trip : forall m v bs pre post g d, m < 8 -> v < 2 ^ 32 -> v <> 24 -> m <> 1 -> mt_int m v = Ok bs ->
  length (c_buf d) = 4%nat -> c_state d = CHeaderStart \/ c_state d = CItemDone ->
  exists d', c_process (pre ++ bs ++ post) g d (length pre) = Ok (d', (length pre + length bs)%nat, false) /\
    c_type d' = m /\ c_integer 64 d' = Ok (Z.of_N v) /\ (v < 2 ^ 31 -> c_integer 32 d' = Ok (Z.of_N v)).
Proof.
  intros m v bs pre post g d Hm Hv Hn H1 E Hb Hs.
  assert (v < 2 ^ 64) by (eapply N.lt_trans; [exact Hv|reflexivity]).
  rewrite mt_int_rfc in E by assumption. injection E as <-.
  destruct (process_head pre post g d m v Hm Hv Hb Hs) as (d' & E & H'). exists d'. split; [exact E|]. split; [apply (h_type _ _ _ H')|].
  assert (S : seen m v = Z.of_N v) by (unfold seen; destruct (N.eqb_spec m 1); [congruence|reflexivity]).
  rewrite <- S. split; [apply (h_int _ _ _ H'); lia|apply (h_int32 _ _ _ H')].
Qed.
Print Assumptions C32_round_trip.

(** What is emitted for 24 swallows the first byte of whatever follows. *)
Theorem C32_24_refuted : forall g, exists bs d', mt_int 0 24 = Ok bs /\
  c_process (bs ++ [0x07]) g (c_init [0; 0; 0; 0] 0 0) 0 = Ok (d', 2%nat, false) /\ c_integer 64 d' = Ok 7%Z.
Proof. intros g. eexists. eexists. split; [reflexivity|]. split; [vm_compute; reflexivity|]. vm_compute. reflexivity. Qed.
Print Assumptions C32_24_refuted.

(** Any head with one, two or four argument bytes, minimal or not, in particular with a small argument, decodes: the
    argument is those bytes, and a negative integer gets its sign. *)
Theorem C32_long_head : forall pre post g d m x bs, m < 8 -> 24 <= x <= 26 -> bytes_ok bs -> N.of_nat (length bs) = 2 ^ (x - 24) ->
  length (c_buf d) = 4%nat -> c_state d = CHeaderStart \/ c_state d = CItemDone ->
  exists d', c_process (pre ++ (m * 32 + x) :: bs ++ post) g d (length pre) = Ok (d', (length pre + S (length bs))%nat, false) /\
    c_type d' = m /\ c_integer 64 d' = Ok (if m =? 1 then (-1 - Z.of_N (be bs))%Z else Z.of_N (be bs)) /\ (m <> 1 -> c_unsigned d' = Ok (be bs)).
Proof.
  intros pre post g [buf hd p st] m x bs Hm Hx Hok Hl Hb Hs. cbn [c_buf c_state] in *.
  assert (Hpow : 1 <= 2 ^ (x - 24) <= 4) by (split; [pose proof (N.pow_nonzero 2 (x - 24)); lia|change 4 with (2 ^ 2); apply N.pow_le_mono_r; lia]).
  set (chunk := pre ++ (m * 32 + x)%N :: bs ++ post).
  assert (LC : length chunk = (length pre + S (length bs + length post))%nat) by (unfold chunk; rewrite app_length; cbn [length]; now rewrite app_length).
  assert (Hlt : (length pre < length chunk)%nat) by lia.
  assert (G : forall w buf', 32 <= w -> firstn (length bs) buf' = bs -> uint_get w (firstn (N.to_nat (2 ^ (x - 24))) buf') = be bs).
  { intros w buf' Hw F. replace (N.to_nat (2 ^ (x - 24))) with (length bs) by lia. rewrite F, uint_get_be by (auto; lia).
    apply N.mod_small. eapply N.lt_le_trans; [apply be_bound, Hok|]. eapply N.le_trans; [|apply N.pow_le_mono_r; [lia|exact Hw]].
    change (2 ^ 32) with (256 ^ 4). apply N.pow_le_mono_r; lia. }
  assert (V32 : be bs < 2 ^ 32).
  { eapply N.lt_le_trans; [apply be_bound, Hok|]. change (2 ^ 32) with (256 ^ 4). apply N.pow_le_mono_r; lia. }
  assert (R : forall f p0 hd0, (12 + length bs <= f)%nat -> exists d',
    c_loop f chunk g (CDec buf hd0 p0 CHeader) (length pre) = Ok (d', (length pre + S (length bs))%nat, false) /\
    c_type d' = m /\ c_integer 64 d' = Ok (if m =? 1 then (-1 - Z.of_N (be bs))%Z else Z.of_N (be bs)) /\ (m <> 1 -> c_unsigned d' = Ok (be bs))).
  { intros f p0 hd0 Hf. destruct f as [|[|[|f]]]; try lia.
    destruct (run_additional bs (f - length bs - 1) (pre ++ [m * 32 + x]) post g buf m x 0) as (buf' & A & _ & C & D); auto; try lia.
    rewrite <- app_assoc in D. cbn [app N.to_nat skipn] in C, D. rewrite app_length in D. cbn [length] in D.
    replace (length pre + 1)%nat with (S (length pre)) in D by lia. replace (length bs + S (f - length bs - 1))%nat with f in D by lia.
    exists (CDec buf' (m * 32 + x) (2 ^ (x - 24)) (end_state m)). split.
    - assert (GO : forall d, can_go chunk d (S (length pre))) by (intros d; left; lia).
      rewrite loop_eq by (now left). unfold chunk at 1. rewrite nth_pre0. cbn [c_iterate c_state bind after c_buf c_pos].
      rewrite loop_eq by apply GO. cbn [c_iterate c_state bind]. rewrite tiny_val by lia. destruct (N.ltb_spec x 24); [lia|].
      unfold c_set. cbn [c_buf c_hdr c_pos after c_state].
      rewrite loop_eq by apply GO. cbn [c_iterate c_state bind after c_buf c_hdr].
      unfold chunk. rewrite D. do 2 f_equal. f_equal. lia.
    - assert (HA : forall s, c_addlen (CDec buf' (m * 32 + x) (2 ^ (x - 24)) s) = 2 ^ (x - 24)).
      { intros s. rewrite addlen_val by lia. rewrite N.shiftl_mul_pow2, N.mul_1_l. apply N.mod_small. lia. }
      split; [apply type_val; lia|]. split.
      + unfold c_integer. rewrite tiny_val, type_val, HA by lia. destruct (N.ltb_spec x 24); [lia|].
        unfold BUF_LEN. destruct (Nat.leb_spec (N.to_nat (2 ^ (x - 24))) 4); [|lia]. cbn [c_buf]. rewrite G by (auto; lia).
        assert (V63 : be bs < 2 ^ (64 - 1)) by (eapply N.lt_le_trans; [exact V32|apply N.pow_le_mono_r; lia]). rewrite sgn_small by (exact V63 || lia). reflexivity.
      + intros Hm1. unfold c_unsigned. rewrite tiny_val, type_val, HA by lia. destruct (N.ltb_spec x 24); [lia|].
        unfold BUF_LEN. destruct (Nat.leb_spec (N.to_nat (2 ^ (x - 24))) 4); [|lia]. cbn [c_buf]. rewrite G by (auto; lia).
        unfold M_NEG. destruct (N.eqb_spec m 1); [congruence|reflexivity]. }
  unfold c_process, c_fuel. cbn [Nat.add]. destruct Hs as [->| ->].
  - rewrite loop_eq by (now left). cbn [c_iterate c_state bind]. unfold c_set. cbn [after c_state c_buf c_hdr c_pos]. apply R. lia.
  - rewrite loop_eq by (now left). cbn [c_iterate c_state bind]. unfold c_set. cbn [after c_state c_buf c_hdr c_pos].
    rewrite loop_eq by (now left). cbn [c_iterate c_state bind]. unfold c_set. cbn [after c_state c_buf c_hdr c_pos]. apply R. lia.
Qed.
Print Assumptions C32_long_head.

Example C32_long_case : exists d', c_process [0xFF; 0x38; 5; 9] 0 (c_init [1; 2; 3; 4] 77 3) 1 = Ok (d', 3%nat, false) /\ c_integer 64 d' = Ok (-6)%Z.
Proof. eexists. split; [vm_compute; reflexivity|]. vm_compute. reflexivity. Qed.

(** What is emitted for 24 swallows the byte that follows, whatever its major type and whatever that byte. *)
Theorem C32_24_swallows : forall m b pre post g d, m < 8 -> b < 256 -> length (c_buf d) = 4%nat -> c_state d = CHeaderStart \/ c_state d = CItemDone ->
  exists bs d', mt_int m 24 = Ok bs /\ c_process (pre ++ bs ++ b :: post) g d (length pre) = Ok (d', (length pre + S (length bs))%nat, false) /\
    c_type d' = m /\ c_integer 64 d' = Ok (if m =? 1 then (-1 - Z.of_N b)%Z else Z.of_N b).
Proof.
  intros m b pre post g d Hm Hb HB HS. destruct (C32_long_head pre post g d m 24 [b] Hm ltac:(lia)) as (d' & E & T & I & _); auto.
  { constructor; [exact Hb|constructor]. }
  exists [m * 32 + 24], d'. split; [apply C31_24_refuted, Hm|]. split; [exact E|]. split; [exact T|].
  replace (be [b]) with b in I by (cbn; lia). exact I.
Qed.
Print Assumptions C32_24_swallows.

Example C32_24_case : exists d', c_process [0x78; 0x61] 0 (c_init [0; 0; 0; 0] 0 0) 0 = Ok (d', 2%nat, false) /\ c_type d' = 3 /\ c_unsigned d' = Ok 0x61.
Proof. eexists. split; [vm_compute; reflexivity|]. split; vm_compute; reflexivity. Qed.

Example C32_case : exists d', c_process ([0xFF] ++ [0x1A; 0; 1; 0x86; 0xA0] ++ [5]) 9 (c_init [1; 2; 3; 4] 77 3) 1 = Ok (d', 6%nat, false) /\
  c_integer 64 d' = Ok 100000%Z /\ mt_int 0 100000 = Ok [0x1A; 0; 1; 0x86; 0xA0].
Proof. eexists. split; [vm_compute; reflexivity|]. split; vm_compute; reflexivity. Qed.

(** * C33: negative integers *)

(** NetBufEncoder emits the RFC encoding of every negative integer but -25 and the least
    one of a type of 32 bits or more. *)
Theorem C33_netbuf_encodes : forall w z s, (- 2 ^ Z.of_N (w - 1) <= z < 0)%Z -> w < 32 \/ (- 2 ^ Z.of_N (w - 1) < z)%Z -> (- 2 ^ 64 <= z)%Z -> z <> (-25)%Z -> (9 <= nb_room s)%nat ->
  exists s', nb_integer w z s = Ok s' /\ nb_out s' = nb_out s ++ rfc_int_head z.
Proof.
  intros w z s Hz HL H64 H25 Hr. unfold nb_integer. destruct (Z.leb_spec 0 z); [lia|].
  destruct (Z.eqb_spec z (- 2 ^ Z.of_N (N.max w 32 - 1))) as [E|_]; [exfalso; revert E; apply not_least; tauto|]. clear HL.
  assert (L : (length (rfc_head 1 (Z.to_N (- z - 1))) <= 9)%nat).
  { unfold rfc_head. repeat destruct (_ <? _); cbn [length]; rewrite ?be_bytes_length; lia. }
  rewrite nb_mt_spec by (unfold M_NEG; lia). eexists. split; [reflexivity|]. cbn [nb_out]. unfold rfc_int_head, M_NEG.
  destruct (Z.leb_spec 0 z); [lia|]. replace (-1 - z)%Z with (- z - 1)%Z by lia. reflexivity.
Qed.
Print Assumptions C33_netbuf_encodes.

(** It round-trips from -26 downwards (32-bit arguments). *)
Theorem C33_round_trip : forall w z s s' g d, (- 2 ^ Z.of_N (w - 1) <= z)%Z -> w < 32 \/ (- 2 ^ Z.of_N (w - 1) < z)%Z -> (- 2 ^ 32 <= z < -25)%Z -> (9 <= nb_room s)%nat ->
  nb_out s = [] -> nb_integer w z s = Ok s' -> length (c_buf d) = 4%nat -> c_state d = CHeaderStart ->
  exists d', c_process (nb_out s') g d 0 = Ok (d', length (nb_out s'), false) /\ c_type d' = M_NEG /\ c_integer 64 d' = Ok z.
Proof.
  intros w z s s' g d Hw HL Hz Hr Ho E Hb Hs.
  destruct (C33_netbuf_encodes w z s) as (s1 & E1 & E2); try assumption; try lia. rewrite E in E1. injection E1 as <-. rewrite E2, Ho. cbn [app].
  unfold rfc_int_head. destruct (Z.leb_spec 0 z); [lia|].
  destruct (process_head [] [] g d 1 (Z.to_N (-1 - z)) ltac:(lia)) as (d' & X1 & X2); auto; [lia|].
  cbn [app length Nat.add] in X1. rewrite app_nil_r in X1. exists d'. split; [exact X1|]. split; [apply (h_type _ _ _ X2)|].
  rewrite (h_int _ _ _ X2) by lia. unfold seen. change (1 =? 1) with true. destruct (N.leb_spec 24 (Z.to_N (-1 - z))); [|lia]. cbn [andb]. f_equal. lia.
Qed.
Print Assumptions C33_round_trip.

(** -1 .. -24 are encoded right and read as 0 .. 23. *)
Theorem C33_tiny_refuted : forall z g d, (-24 <= z < 0)%Z -> length (c_buf d) = 4%nat -> c_state d = CHeaderStart ->
  exists d', c_process (rfc_int_head z) g d 0 = Ok (d', 1%nat, false) /\ c_type d' = M_NEG /\ c_integer 64 d' = Ok (-1 - z)%Z.
Proof.
  intros z g d Hz Hb Hs. unfold rfc_int_head. destruct (Z.leb_spec 0 z); [lia|].
  destruct (process_head [] [] g d 1 (Z.to_N (-1 - z)) ltac:(lia)) as (d' & X1 & X2); auto; [lia|].
  cbn [app length Nat.add] in X1. rewrite app_nil_r in X1. exists d'.
  assert (L : length (rfc_head 1 (Z.to_N (-1 - z))) = 1%nat) by (unfold rfc_head; destruct (N.ltb_spec (Z.to_N (-1 - z)) 24); [reflexivity|lia]).
  rewrite L in X1. split; [exact X1|]. split; [apply (h_type _ _ _ X2)|].
  rewrite (h_int _ _ _ X2) by lia. unfold seen. destruct (N.leb_spec 24 (Z.to_N (-1 - z))); [lia|]. rewrite andb_false_r. f_equal. lia.
Qed.
Print Assumptions C33_tiny_refuted.

(** layer1/layer3::Encoder emit for every negative integer the encoding of the
    integer below it; negating the least integer of a type of 32 bits or more is undefined. *)
Theorem C33_plain_encoder_refuted : forall w cap z, (9 <= cap)%nat -> (- 2 ^ Z.of_N (w - 1) <= z < 0)%Z -> w < 32 \/ (- 2 ^ Z.of_N (w - 1) < z)%Z -> (- 2 ^ 64 < z)%Z -> z <> (-24)%Z ->
  enc_integer w cap z = Ok (rfc_int_head (z - 1)).
Proof.
  intros w cap z Hc Hz HL H64 H24. unfold enc_integer. destruct (Z.leb_spec 0 z); [lia|].
  destruct (Z.eqb_spec z (- 2 ^ Z.of_N (N.max w 32 - 1))) as [E|_]; [exfalso; revert E; apply not_least; tauto|]. clear HL.
  unfold enc_mt_int. rewrite mt_int_rfc by (unfold M_NEG; lia). cbn [bind].
  assert (L : (length (rfc_head M_NEG (Z.to_N (- z))) <= 9)%nat).
  { unfold rfc_head. repeat destruct (_ <? _); cbn [length]; rewrite ?be_bytes_length; lia. }
  destruct (Nat.leb_spec (length (rfc_head M_NEG (Z.to_N (- z)))) cap); [|lia]. f_equal. unfold rfc_int_head, M_NEG. destruct (Z.leb_spec 0 (z - 1)); [lia|].
  f_equal. lia.
Qed.
Print Assumptions C33_plain_encoder_refuted.

Theorem C33_least_refuted : forall w cap s, 32 <= w -> enc_integer w cap (- 2 ^ Z.of_N (w - 1)) = Fault /\ nb_integer w (- 2 ^ Z.of_N (w - 1)) s = Fault.
Proof.
  intros w cap s Hw. assert (0 < 2 ^ Z.of_N (w - 1))%Z by (apply Z.pow_pos_nonneg; lia).
  unfold enc_integer, nb_integer. rewrite N.max_l by lia. destruct (Z.leb_spec 0 (- 2 ^ Z.of_N (w - 1))); [lia|]. rewrite Z.eqb_refl. auto.
Qed.
Print Assumptions C33_least_refuted.
Example C33_narrow_case : bind (nb_integer 8 (-128) (Nb [] 9)) (fun s => Ok (nb_out s)) = Ok [0x38; 0x7F] /\ nb_integer 32 (- 2 ^ 31) (Nb [] 9) = Fault /\
  enc_integer 16 5 (-32768) = Ok [0x39; 0x80; 0x00].
Proof. repeat split; vm_compute; reflexivity. Qed.

Example C33_case : exists s' d', nb_integer 32 (-123456789) (Nb [] 9) = Ok s' /\ nb_out s' = [0x3A; 0x07; 0x5B; 0xCD; 0x14] /\
  c_process (nb_out s') 0 (c_init [0; 0; 0; 0] 0 0) 0 = Ok (d', 5%nat, false) /\ c_integer 64 d' = Ok (-123456789)%Z /\
  enc_integer 32 5 (-123456789) = Ok [0x3A; 0x07; 0x5B; 0xCD; 0x15].
Proof. eexists. eexists. split; [vm_compute; reflexivity|]. split; [vm_compute; reflexivity|]. split; [vm_compute; reflexivity|]. split; vm_compute; reflexivity. Qed.

(** * C42: sequences of items *)

(** Any non-empty flat sequence of well-formed items (containers as heads followed
    by their content) is read item by item as RFC 7049 has it, with negative
    arguments from 24 on; the bytes after the data do not matter. *)
Theorem C42_sequence : forall its g buf hd p, its <> [] -> Forall item_ok its -> Forall (fun i => match i with CI 1 v => 24 <= v | _ => True end) its ->
  length buf = 4%nat ->
  c_read (S (length its)) (items_bytes its) g (c_init buf hd p) = Ok (map item_reads its).
Proof.
  intros its g buf hd p HN HO HT HB. rewrite read_items by assumption. f_equal. apply map_ext_in. intros i Hi.
  rewrite Forall_forall in HT, HO. specialize (HT i Hi). specialize (HO i Hi). unfold reads. destruct i as [m v|m s]; cbn [im iv ic item_reads item_ok] in *.
  - unfold seen, rfc_int. destruct (N.eqb_spec m 1) as [->|]; cbn [andb]; [|reflexivity]. destruct (N.leb_spec 24 v); [reflexivity|lia].
  - unfold seen. destruct (N.eqb_spec m 1) as [->|]; cbn [andb]; [|reflexivity]. lia.
Qed.
Print Assumptions C42_sequence.

(** What a sequence of NetBufEncoder calls wrote reads back as the items asked
    for. *)
Theorem C42_encode_read : forall os room s g buf hd p, os <> [] -> Forall op_ok os -> Forall op_readable os ->
  (length (flat_map op_bytes os) <= room)%nat -> length buf = 4%nat -> nb_run os (Nb [] room) = Ok s ->
  c_read (S (length os)) (nb_out s) g (c_init buf hd p) = Ok (map (fun o => item_reads (op_item o)) os).
Proof.
  intros os room s g buf hd p HN HO HR HL HB E. rewrite (C31_sequence os [] room HO HL) in E. injection E as <-. cbn [nb_out app].
  rewrite <- op_items_bytes by assumption. rewrite <- (map_length op_item os). rewrite read_items; auto.
  - f_equal. rewrite map_map. apply map_ext_in. intros o Ho. apply op_item_reads. rewrite Forall_forall in HR. auto.
  - rewrite Forall_forall in *. intros i Hi. apply in_map_iff in Hi. destruct Hi as (o & <- & Ho). apply op_item_ok. auto.
  - destruct os; [congruence|discriminate].
Qed.
Print Assumptions C42_encode_read.

(** When the data ends behind a string (or an empty container), moving on reads
    one byte past the data. *)
Theorem C42_past_end_refuted : forall g, exists d1 d2, c_process [0x61; 0x41] g (c_init [0; 0; 0; 0] 0 0) 0 = Ok (d1, 1%nat, false) /\
  c_state d1 = CLongStart /\ c_fast_forward [0x61; 0x41] g d1 1 = Ok (d2, 3%nat, true) /\ c_hdr d2 = g.
Proof. intros g. eexists. eexists. split; [vm_compute; reflexivity|]. split; [reflexivity|]. split; [vm_compute; reflexivity|]. reflexivity. Qed.
Print Assumptions C42_past_end_refuted.

Example C42_case : let its := [CI 5 1; CS 3 [0x76; 0x61; 0x6C]; CI 1 123456788; CI 4 2; CI 0 24; CI 7 22] in
  Forall item_ok its /\ Forall (fun i => match i with CI 1 v => 24 <= v | _ => True end) its /\
  c_read 7 (items_bytes its) 0xAA (c_init [9; 9; 9; 9] 1 2) =
    Ok [(5, 1%Z, []); (3, 3%Z, [0x76; 0x61; 0x6C]); (1, (-123456789)%Z, []); (4, 2%Z, []); (0, 24%Z, []); (7, 22%Z, [])].
Proof.
  split; [|split]; [| |vm_compute; reflexivity].
  - repeat constructor; cbn; lia.
  - repeat constructor; cbn; lia.
Qed.

(** * C43: the decoder on any input *)

(** Whatever the data, a call of process returns (or stores out of bounds). *)
Theorem C43_terminates : forall chunk g d pos, c_state d <> CLong -> c_state d <> CLongDone ->
  c_process chunk g d pos <> NoFuel /\
  forall d' pos' b, c_process chunk g d pos = Ok (d', pos', b) -> c_state d' <> CLong /\ c_state d' <> CLongDone.
Proof.
  intros chunk g d pos H1 H2. unfold c_process, c_fuel.
  destruct (Nat.le_gt_cases pos (length chunk)) as [L|L].
  - apply loop_ends; [split; assumption|]. destruct (c_state d); cbn [rank]; lia.
  - cbn [Nat.add]. rewrite loop_end by (intros [X|(X & _)]; lia). split; [discriminate|]. intros d' pos' b E. injection E as <- _ _. auto.
Qed.
Print Assumptions C43_terminates.

(** A head byte with additional information 27 to 31 (64-bit arguments, reserved,
    indefinite length) followed by five bytes makes the decoder store outside its
    four-byte buffer. *)
Theorem C43_buffer_refuted : forall pre post g d b, b < 256 -> 27 <= b mod 32 -> (5 <= length post)%nat -> length (c_buf d) = 4%nat ->
  c_state d = CHeaderStart \/ c_state d = CItemDone -> c_process (pre ++ b :: post) g d (length pre) = Fault.
Proof. exact process_fault. Qed.
Print Assumptions C43_buffer_refuted.

(** Exactly: a call that starts at an item stores outside the buffer if and only if the head
    byte has additional information 27 to 31 and four bytes follow it.  (The fifth one
    stored is the next byte or, if there is none, what lies after the data.) *)
Theorem C43_store_exact : forall pre post g d b, b < 256 -> length (c_buf d) = 4%nat -> c_state d = CHeaderStart \/ c_state d = CItemDone ->
  (c_process (pre ++ b :: post) g d (length pre) = Fault <-> 27 <= b mod 32 /\ (4 <= length post)%nat).
Proof.
  intros pre post g [buf hd p st] b Hb HB HS. cbn [c_buf c_state] in *.
  assert (X : exists m x, b = m * 32 + x /\ m < 8 /\ x < 32) by (exists (b / 32), (b mod 32); lia).
  destruct X as (m & x & -> & Hm & Hx). replace ((m * 32 + x) mod 32) with x by lia. clear Hb.
  set (chunk := pre ++ (m * 32 + x)%N :: post).
  assert (LC : length chunk = (length pre + S (length post))%nat) by (unfold chunk; rewrite app_length; reflexivity).
  assert (Hlt : (length pre < length chunk)%nat) by lia.
  assert (R : forall f p0 hd0, (12 + length post <= f)%nat ->
    (c_loop f chunk g (CDec buf hd0 p0 CHeader) (length pre) = Fault <-> 27 <= x /\ (4 <= length post)%nat)).
  { intros f p0 hd0 Hf. destruct (N.lt_ge_cases x 24) as [T|T].
    { destruct f as [|[|f]]; try lia. unfold chunk. rewrite run_tiny by assumption. split; [discriminate|lia]. }
    destruct f as [|[|[|f]]]; try lia.
    assert (GO : forall d, is_item_done d = false -> can_go chunk d (S (length pre))).
    { intros d E. unfold can_go. destruct post; [right; split; [rewrite LC; cbn; lia|exact E]|left; rewrite LC; cbn; lia]. }
    rewrite loop_eq by (now left). unfold chunk at 1. rewrite nth_pre0. cbn [c_iterate c_state bind after c_buf c_pos].
    rewrite loop_eq by (apply GO; reflexivity). cbn [c_iterate c_state bind]. rewrite tiny_val by lia.
    destruct (N.ltb_spec x 24); [lia|]. unfold c_set. cbn [c_buf c_hdr c_pos after c_state].
    rewrite loop_eq by (apply GO; reflexivity). cbn [c_iterate c_state bind after c_buf c_hdr].
    assert (EC : forall n, chunk = (pre ++ [m * 32 + x]) ++ firstn n post ++ skipn n post) by (intros n; unfold chunk; now rewrite firstn_skipn, <- app_assoc).
    assert (EP : S (length pre) = length (pre ++ [m * 32 + x])) by (rewrite app_length; cbn; lia).
    destruct (N.lt_ge_cases x 27) as [T2|T2].
    - split; [|lia]. intros F. exfalso.
      assert (Hpow : 1 <= 2 ^ (x - 24) <= 4) by (split; [pose proof (N.pow_nonzero 2 (x - 24)); lia|change 4 with (2 ^ 2); apply N.pow_le_mono_r; lia]).
      destruct (Nat.lt_ge_cases (length post) (N.to_nat (2 ^ (x - 24)))) as [L|L].
      + destruct (short_run post (f - length post) (pre ++ [m * 32 + x]) [] g buf m x 0) as (buf' & A & B); auto; [lia|lia|].
        rewrite app_nil_r in B. replace (length post + (f - length post))%nat with f in B by lia.
        rewrite EP in F. unfold chunk in F. replace (pre ++ m * 32 + x :: post) with ((pre ++ [m * 32 + x]) ++ post) in F by (now rewrite <- app_assoc).
        rewrite B in F. replace (f - length post)%nat with (S (S (f - length post - 2))) in F by lia.
        rewrite <- app_length in F. destruct (short_end (f - length post - 2) ((pre ++ [m * 32 + x]) ++ post) g buf' m x (0 + N.of_nat (length post))) as (d & E); auto; [lia|lia|].
        rewrite E in F. discriminate.
      + set (n := N.to_nat (2 ^ (x - 24))) in *.
        destruct (run_additional (firstn n post) (f - n - 1) (pre ++ [m * 32 + x]) (skipn n post) g buf m x 0) as (buf' & _ & _ & _ & D); auto; try lia.
        { rewrite firstn_length. lia. } { rewrite firstn_length. lia. }
        rewrite <- EC in D. rewrite firstn_length, Nat.min_l in D by lia. rewrite <- EP in D.
        replace (n + S (f - n - 1))%nat with f in D by lia. rewrite D in F. discriminate.
    - split; [|].
      + intros F. split; [lia|]. destruct (Nat.lt_ge_cases (length post) 4) as [L|L]; [exfalso|exact L].
        destruct (long_run post 0 (f - length post) (pre ++ [m * 32 + x]) [] g buf m x) as (buf' & A & B); auto; [lia|].
        rewrite app_nil_r in B. replace (length post + (f - length post))%nat with f in B by lia.
        rewrite EP in F. unfold chunk in F. replace (pre ++ m * 32 + x :: post) with ((pre ++ [m * 32 + x]) ++ post) in F by (now rewrite <- app_assoc).
        rewrite B in F. replace (f - length post)%nat with (S (S (f - length post - 2))) in F by lia.
        rewrite <- app_length in F. destruct (long_end (f - length post - 2) ((pre ++ [m * 32 + x]) ++ post) g buf' m x (0 + N.of_nat (length post))) as (d & E); auto; [lia|].
        rewrite E in F. discriminate.
      + intros (_ & L). destruct (long_run (firstn 4 post) 0 (f - 4) (pre ++ [m * 32 + x]) (skipn 4 post) g buf m x) as (buf' & A & B); auto.
        { rewrite firstn_length. lia. }
        rewrite <- EC in B. rewrite firstn_length, Nat.min_l in B by lia. rewrite <- EP in B.
        replace (4 + (f - 4))%nat with f in B by lia. rewrite B. replace (f - 4)%nat with (S (f - 5)) by lia.
        apply long_full. lia. }
  unfold c_process, c_fuel. cbn [Nat.add]. destruct HS as [->| ->].
  - rewrite loop_eq by (now left). cbn [c_iterate c_state bind]. unfold c_set. cbn [after c_state c_buf c_hdr c_pos]. apply R. lia.
  - rewrite loop_eq by (now left). cbn [c_iterate c_state bind]. unfold c_set. cbn [after c_state c_buf c_hdr c_pos].
    rewrite loop_eq by (now left). cbn [c_iterate c_state bind]. unfold c_set. cbn [after c_state c_buf c_hdr c_pos]. apply R. lia.
Qed.
Print Assumptions C43_store_exact.

Example C43_exact_case : c_process [0x1B; 1; 2; 3; 4] 0 (c_init [0; 0; 0; 0] 0 0) 0 = Fault /\
  c_process [0x1B; 1; 2; 3] 0 (c_init [0; 0; 0; 0] 0 0) 0 <> Fault /\ c_process [0x1A; 1; 2; 3; 4; 5] 0 (c_init [0; 0; 0; 0] 0 0) 0 <> Fault.
Proof. repeat split; vm_compute; try reflexivity; discriminate. Qed.

(** A truncated head takes the byte after the data as its content. *)
Theorem C43_truncated_refuted : forall g, exists d, c_process [0x18] g (c_init [0; 0; 0; 0] 0 0) 0 = Ok (d, 2%nat, true) /\
  c_state d = CAdditionalDone /\ firstn 1 (c_buf d) = [g].
Proof. intros g. eexists. split; [vm_compute; reflexivity|]. split; reflexivity. Qed.
Print Assumptions C43_truncated_refuted.

Example C43_case : c_process [0x01; 0x9F; 1; 2; 3; 4; 5] 0 (c_init [0; 0; 0; 0] 0 0) 1 = Fault.
Proof. vm_compute. reflexivity. Qed.

(** * C44: the older decoder *)

(** It consumes exactly the head; the value is right below 25 and from 256 on. *)
Theorem C44_head : forall d m v post, o_ready d -> m < 8 -> v < 2 ^ 32 -> v < 25 \/ 256 <= v ->
  exists d', o_process d (rfc_head m v ++ post) = Ok (d', post) /\ o_ready d' /\ N.shiftr (o_head d') 5 = m /\ forall w, 32 <= w -> o_value w d' = Ok v.
Proof.
  intros d m v post HR Hm Hv HX. destruct (o_head_spec d m v post HR Hm Hv) as (d' & A & B & C & D). exists d'. split; [exact A|]. split; [exact B|]. split; [exact C|].
  intros w Hw. rewrite (D w Hw). f_equal. destruct (N.leb_spec 24 v); destruct (N.ltb_spec v 256); cbn [andb]; lia.
Qed.
Print Assumptions C44_head.

(** Every value 25 .. 255 reads as 24. *)
Theorem C44_one_byte_refuted : forall d m v post, o_ready d -> m < 8 -> 25 <= v < 256 ->
  exists d', o_process d (rfc_head m v ++ post) = Ok (d', post) /\ forall w, 32 <= w -> o_value w d' = Ok 24.
Proof.
  intros d m v post HR Hm Hv. destruct (o_head_spec d m v post HR Hm) as (d' & A & B & C & D); [change (2 ^ 32) with 4294967296; lia|]. exists d'. split; [exact A|].
  intros w Hw. rewrite (D w Hw). f_equal. destruct (N.leb_spec 24 v); destruct (N.ltb_spec v 256); cbn [andb]; lia.
Qed.
Print Assumptions C44_one_byte_refuted.

Lemma get_int_arg : forall d m v post, o_ready d -> m = 0 \/ m = 1 -> v < 2 ^ 31 -> v < 25 \/ 256 <= v ->
  o_get_int d (rfc_head m v ++ post) = Ok (Some (rfc_int m v), post).
Proof.
  intros d m v post HR Hm Hv HX. destruct (C44_head d m v post HR ltac:(lia)) as (d' & A & B & C & D); [eapply N.lt_trans; [exact Hv|reflexivity]|assumption|].
  unfold o_get_int. rewrite A. cbn [bind]. rewrite C, (D 32) by lia. unfold rfc_int, M_UINT, M_NEG. destruct Hm as [->| ->].
  - change (0 =? 0) with true. cbn [bind]. rewrite sgn_small by (auto; lia). reflexivity.
  - change (1 =? 0) with false. change (1 =? 1) with true. cbn [bind]. rewrite sgn_small by (auto; lia). reflexivity.
Qed.

(** get_int_experimental returns every 32-bit integer whose argument is not in
    25 .. 255, negative or not, and leaves what follows. *)
Theorem C44_get_int : forall d z post, o_ready d -> (- 2 ^ 31 <= z < 2 ^ 31)%Z -> ~ (25 <= z < 256)%Z -> ~ (-256 <= z < -25)%Z ->
  o_get_int d (rfc_int_head z ++ post) = Ok (Some z, post).
Proof.
  intros d z post HR Hz H1 H2. unfold rfc_int_head. destruct (Z.leb_spec 0 z).
  - rewrite get_int_arg; auto; try lia. unfold rfc_int. change (0 =? 1) with false. cbn iota. replace (Z.of_N (Z.to_N z)) with z by lia. reflexivity.
  - rewrite get_int_arg; auto; try lia. unfold rfc_int. change (1 =? 1) with true. cbn iota. replace (-1 - Z.of_N (Z.to_N (-1 - z)))%Z with z by lia. reflexivity.
Qed.
Print Assumptions C44_get_int.

(** get_string_experimental returns the bytes of a string that is not 25 .. 255
    bytes long and within the caller's limit. *)
Theorem C44_get_string : forall d s post maxlen, o_ready d -> N.of_nat (length s) < 2 ^ 32 -> ~ (25 <= length s < 256)%nat -> (length s <= maxlen)%nat ->
  o_get_string maxlen d (rfc_head 3 (N.of_nat (length s)) ++ s ++ post) = Ok (Some (s, true), post).
Proof.
  intros d s post maxlen HR Hl HX Hm. destruct (C44_head d 3 (N.of_nat (length s)) (s ++ post) HR ltac:(lia) Hl ltac:(lia)) as (d' & A & B & C & D).
  unfold o_get_string. rewrite A. cbn [bind]. rewrite C, (D 64) by lia. change (3 =? M_STRING) with true. cbn [bind]. rewrite Nat2N.id.
  destruct (Nat.ltb_spec maxlen (length s)); [lia|]. rewrite app_length. destruct (Nat.leb_spec (length s) (length s + length post)); [|lia].
  rewrite firstn_app, Nat.sub_diag, firstn_all. cbn [firstn]. rewrite app_nil_r, skipn_app, Nat.sub_diag, skipn_all. reflexivity.
Qed.
Print Assumptions C44_get_string.

Example C44_case : o_ready (ODec 0 [] OUninitialized) /\
  o_get_int (ODec 0 [] OUninitialized) [0x3A; 0x07; 0x5B; 0xCD; 0x14; 0x61] = Ok (Some (-123456789)%Z, [0x61]) /\
  o_get_string 999 (ODec 0x3A [7; 0x5B; 0xCD; 0x14] ODone) [0x61; 0x41; 0xF6] = Ok (Some ([0x41], true), [0xF6]) /\
  o_get_int (ODec 0 [] OUninitialized) [0x18; 100] = Ok (Some 24%Z, []).
Proof. repeat split. Qed.

(** A head with a reserved argument (28 .. 30) or the indefinite mark (31) is one byte;
    asking for its value fires the assertion on the word size. *)
Theorem C44_reserved : forall d m x post, o_ready d -> m < 8 -> 28 <= x < 32 ->
  exists d', o_process d (m * 32 + x :: post) = Ok (d', post) /\ o_ready d' /\ N.shiftr (o_head d') 5 = m /\ forall w, w < 2040 -> o_value w d' = Fault.
Proof.
  intros d m x post HR Hm Hx. cbn [o_process]. rewrite (o_first d _ m x) by (auto; lia). cbn [bind].
  replace ((x =? 24) || (x =? 25) || (x =? 26) || (x =? 27)) with false by lia. cbn [o_state].
  eexists. split; [reflexivity|]. split; [exact I|]. split; [cbn [o_head]; rewrite N.shiftr_div_pow2; change (2 ^ 5) with 32; lia|].
  intros w Hw. unfold o_value, o_wordsize. rewrite o_info_val by lia.
  replace (x <=? 24) with false by lia. replace (x =? 24) with false by lia. replace (x =? 25) with false by lia.
  replace (x =? 26) with false by lia. replace (x =? 27) with false by lia. replace (8 * 255 <=? w) with false by lia. reflexivity.
Qed.
Print Assumptions C44_reserved.

(** A head with an 8-byte argument fires an assertion at its first argument byte. *)
Theorem C44_64_bit : forall d m post, o_ready d -> m < 8 -> o_process d (m * 32 + 27 :: post) = Fault.
Proof.
  intros d m post HR Hm. cbn [o_process]. rewrite (o_first d _ m 27) by (auto; lia). cbn [bind].
  change ((27 =? 24) || (27 =? 25) || (27 =? 26) || (27 =? 27)) with true. cbn [o_state]. destruct post as [|b post]; [reflexivity|].
  cbn [o_process o_byte o_iterate o_state o_more app length bind]. change (5 <? 2)%nat with false. cbn iota. rewrite o_info_val by lia. change (27 =? 27) with true. reflexivity.
Qed.
Print Assumptions C44_64_bit.

Example C44_reserved_case : o_get_int (ODec 0 [] OUninitialized) [0x1C; 1] = Fault /\ o_get_int (ODec 0 [] OUninitialized) [0x1B; 0; 0; 0; 0; 0; 0; 0; 1] = Fault /\
  o_get_int (ODec 0 [] OUninitialized) [0x5F; 1] = Ok (None, [1]).
Proof. repeat split; vm_compute; reflexivity. Qed.
