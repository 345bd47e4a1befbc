(** C60: what the library knows about options.  C61: the diagnostic observer. *)
From Coq Require Import String ZArith.
From Verif Require Import Base UIntModel UIntSpec UIntProofs HeaderModel HeaderProofs OptEncModel OptSpec OptDecModel DecoderModel DecoderSpec DecoderProofs DecoderProps
  DiagModel DiagSpec DiagProofs.
Local Open Scope N_scope.

(** C60: a format that is given is the registered one ... *)
Theorem C60_format : forall n, get_format n <> FUnknown -> exists name range, registered n name (get_format n) range.
Proof.
  intros n H. unfold get_format in *. unfold o_if_match, o_uri_host, o_etag, o_if_none_match, o_uri_port, o_location_path, o_uri_path, o_content_format, o_uri_query, o_accept, o_block1, o_block2 in *.
  unfold registered, registry, entry. revert H. repeat match goal with |- context [n =? ?k] => destruct (N.eqb_spec n k) as [->|?]; [intros _; eexists; eexists; cbn [In]; tauto|] end. congruence.
Qed.
Print Assumptions C60_format.

(** ... but seven registered options have none. *)
Theorem C60_format_refuted : forall n, (exists name f range, registered n name f range) /\ get_format n = FUnknown <-> In n [6; 14; 20; 28; 35; 39; 60].
Proof.
  intros n. split.
  - intros ((name & f & range & R) & F). unfold registered, registry, entry in R. cbn [In] in R.
    repeat (destruct R as [R|R]; [injection R as <- <- <- <-; cbn in F; (discriminate || (cbn; tauto))|]). destruct R.
  - cbn [In]. intros I. repeat (destruct I as [<-|I]; [split; [|reflexivity]; do 3 eexists; unfold registered, registry, entry; cbn [In]; tauto|]). destruct I.
Qed.
Print Assumptions C60_format_refuted.

(** The second table: what it gives is registered, with the length limits ... *)
Theorem C60_traits : forall n, let '(f, range) := runtime_trait traits_known n in
  (f <> FUnknown -> exists name, registered n name f range) /\ (f = FUnknown -> range = (-1, -1)%Z).
Proof.
  intros n. unfold traits_known. cbn [runtime_trait]. 
  repeat match goal with |- context [if n =? ?k then _ else _] => destruct (N.eqb_spec n k) as [->|?];
    [cbn; split; [intros _; eexists; unfold registered, registry, entry; cbn [In]; tauto|discriminate]|] end.
  split; [congruence|reflexivity].
Qed.
Print Assumptions C60_traits.

(** ... and lacks eight options; so where both tables know an option they agree. *)
Theorem C60_traits_refuted : forall n, (exists name f range, registered n name f range) /\ fst (runtime_trait traits_known n) = FUnknown <->
  In n [3; 5; 6; 7; 8; 14; 15; 28].
Proof.
  intros n. split.
  - intros ((name & f & range & R) & F). unfold registered, registry, entry in R. cbn [In] in R.
    repeat (destruct R as [R|R]; [injection R as <- <- <- <-; cbn in F; (discriminate || (cbn; tauto))|]). destruct R.
  - cbn [In]. intros I. repeat (destruct I as [<-|I]; [split; [|reflexivity]; do 3 eexists; unfold registered, registry, entry; cbn [In]; tauto|]). destruct I.
Qed.
Print Assumptions C60_traits_refuted.

Lemma registered_once : forall n name f range name' f' range', registered n name f range -> registered n name' f' range' -> (name, f, range) = (name', f', range').
Proof.
  intros n name f range name' f' range' A B. unfold registered, registry, entry in *. cbn [In] in A.
  repeat (destruct A as [A|A]; [injection A as <- <- <- <-; cbn [In] in B; repeat (destruct B as [B|B]; [try discriminate B; injection B as <- <- <-; reflexivity|]); destruct B|]). destruct A.
Qed.
Theorem C60_tables_agree : forall n, get_format n <> FUnknown -> fst (runtime_trait traits_known n) <> FUnknown -> fst (runtime_trait traits_known n) = get_format n.
Proof.
  intros n A B. destruct (C60_format n A) as (name & range & R). pose proof (C60_traits n) as T. destruct (runtime_trait traits_known n) as [f rg]. cbn [fst] in *.
  destruct T as (T & _). destruct (T B) as (name' & R'). pose proof (registered_once _ _ _ _ _ _ _ R R') as E. congruence.
Qed.
Print Assumptions C60_tables_agree.

(** The numbers of the enumeration are those of the registry, except that the two
    block options have each other's name (C60_block_refuted). *)
Theorem C60_numbers :
  Forall (fun x => exists f range, registered (fst x) (snd x) f range)
    [(o_if_match, "If-Match"); (o_uri_host, "Uri-Host"); (o_etag, "ETag"); (o_if_none_match, "If-None-Match"); (o_observe, "Observe");
     (o_uri_port, "Uri-Port"); (o_location_path, "Location-Path"); (o_uri_path, "Uri-Path"); (o_content_format, "Content-Format");
     (o_max_age, "Max-Age"); (o_uri_query, "Uri-Query"); (o_accept, "Accept"); (o_location_query, "Location-Query");
     (o_block1, "Block2"); (o_block2, "Block1"); (o_proxy_uri, "Proxy-Uri"); (o_proxy_scheme, "Proxy-Scheme"); (o_size1, "Size1")]%string.
Proof. repeat (apply Forall_cons || apply Forall_nil); do 2 eexists; unfold registered, registry, entry; cbn [In fst snd]; tauto. Qed.
Print Assumptions C60_numbers.

(** A name that is given is the registered one, except for the two block options. *)
Theorem C60_name : forall n s, describe n = Some s -> n <> 0 -> n <> 23 -> n <> 27 -> exists f range, registered n s f range.
Proof.
  intros n s H Z A B. unfold describe, o_etag, o_observe, o_uri_path, o_content_format, o_uri_query, o_accept, o_block1, o_block2 in H. unfold registered, registry, entry.
  repeat match type of H with (if n =? ?k then _ else _) = _ => destruct (N.eqb_spec n k) as [->|?]; [try congruence; injection H as <-; do 2 eexists; cbn [In]; tauto|] end. discriminate.
Qed.
Print Assumptions C60_name.

(** These options have a name and no others: Max-Age, Location-Path and the rest of
    the registry have none. *)
Theorem C60_named : forall n, describe n <> None <-> In n [0; 4; 6; 11; 12; 15; 17; 23; 27].
Proof.
  intro n. unfold describe, o_etag, o_observe, o_uri_path, o_content_format, o_uri_query, o_accept, o_block1, o_block2. cbn [In].
  repeat match goal with |- context [if ?m =? ?k then _ else _] => destruct (N.eqb_spec m k) as [->|?]; [split; [tauto|discriminate]|] end.
  split; [congruence|intuition congruence].
Qed.
Print Assumptions C60_named.

(** These are swapped: RFC 7959 has Block2 = 23 and Block1 = 27. *)
Theorem C60_block_refuted : forall s f range,
  (registered o_block1 s f range -> s = "Block2"%string /\ describe o_block1 = Some "Block1"%string) /\
  (registered o_block2 s f range -> s = "Block1"%string /\ describe o_block2 = Some "Block2"%string).
Proof.
  intros s f range. split; intros R; (split; [|reflexivity]).
  - assert (Q : registered 23 "Block2" FUInt (0, 3)%Z) by (unfold registered, registry, entry; cbn [In]; tauto). pose proof (registered_once _ _ _ _ _ _ _ R Q). congruence.
  - assert (Q : registered 27 "Block1" FUInt (0, 3)%Z) by (unfold registered, registry, entry; cbn [In]; tauto). pose proof (registered_once _ _ _ _ _ _ _ R Q). congruence.
Qed.
Print Assumptions C60_block_refuted.

Example C60_case : get_format 11 = FString /\ get_format 6 = FUnknown /\ runtime_trait traits_known 35 = (FString, (1, 1034)%Z) /\
  registered 11 "Uri-Path" FString (0, 255)%Z /\ registered 35 "Proxy-Uri" FString (1, 1034)%Z /\ registered o_block1 "Block2" FUInt (0, 3)%Z /\
  describe 12 = Some "Content-Format"%string /\ describe 3 = None.
Proof. unfold registered, registry, entry. cbn [In]. repeat split; tauto. Qed.

(** ---- C61 ---- *)

(** C61: the numbers in the log are numerals, the only ones. *)
Theorem C61_numbers : forall up b n t, 2 <= b <= 16 -> (t = digits up b n <-> numeral up b n t).
Proof. intros up b n t H. split; [intros ->; now apply digits_numeral|now apply numeral_unique]. Qed.
Print Assumptions C61_numbers.

(** C61: tokens, opaque values and payloads can be read back from their line, all bytes. *)
Theorem C61_dump : forall b indent m, bytes_ok b -> exists hex, unhex hex = Some b /\ List.length hex = (3 * List.length b)%nat /\
  dump_line b indent m = (if indent then str "   " else []) ++ hex ++ concat (repeat (str ".. ") (m - List.length b)) ++ str "   " ++ b ++ [10].
Proof.
  intros b indent m H. eexists. split; [apply unhex_dump; exact H|]. split; [apply dump_length; exact H|]. unfold dump_line. destruct indent; reflexivity.
Qed.
Print Assumptions C61_dump.

(** C61: what is printed for a value, by the registered format of its option. *)
Theorem C61_value : forall w n v name f range, 8 <= w -> bytes_ok v -> registered n name f range ->
  match get_format n with
  | FString => f = FString /\ ((List.length v < 128)%nat -> ~ In 0 v -> diag_value w n v = Ok (v ++ [10]))
  | FUInt => f = FUInt /\ exists t, diag_value w n v = Ok (t ++ [10]) /\ numeral false 10 (be v mod 2 ^ w) t
  | FOpaque => f = FOpaque /\ diag_value w n v = Ok (dump_line v false 0)
  | FEmpty => f = FEmpty /\ diag_value w n v = Ok (str "(Empty)" ++ [10])
  | FUnknown => diag_value w n v = Ok (str "N/A" ++ [10])
  end.
Proof.
  intros w n v name f range Hw Hv R. assert (F : get_format n <> FUnknown -> f = get_format n).
  { intros G. destruct (C60_format n G) as (name' & range' & R'). pose proof (registered_once _ _ _ _ _ _ _ R R'). congruence. }
  unfold diag_value. destruct (get_format n); [reflexivity| | | |]; (split; [apply F; discriminate|]); try reflexivity.
  - eexists. split; [reflexivity|]. rewrite <- uint_get_be by assumption. apply digits_numeral. lia.
  - intros L Z. apply Nat.ltb_lt in L. rewrite L, c_str_id by exact Z. reflexivity.
Qed.
Print Assumptions C61_value.

(** the log of a message *)
Definition log_option (w : N) (o : opt) : list N :=
  str "[DEBUG] Option: (" ++ digits false 10 (fst o) ++ str ") len=" ++ pad_left 3 32 (digits false 10 (len (snd o))) ++ str " " ++
  pad_right 10 (str (match describe (fst o) with Some d => d | None => "Unknown" end)) ++ str " value = " ++
  match get_format (fst o) with
  | FString => c_str (snd o) ++ [10]
  | FUInt => digits false 10 (be (snd o) mod 2 ^ w) ++ [10]
  | FOpaque => dump_line (snd o) false 0
  | FEmpty => str "(Empty)" ++ [10]
  | FUnknown => str "N/A" ++ [10]
  end.
Definition log_of (w : N) (m : msg) : list N :=
  str "[DEBUG] Header: tkl=" ++ digits false 10 (len (m_tok m)) ++ str " mid=" ++ digits false 16 (h2 (m_hdr m) * 256 + h3 (m_hdr m)) ++ [10] ++
  str "[DEBUG] Token: " ++ dump_line (m_tok m) false 0 ++
  concat (map (log_option w) (m_opts m)) ++
  match m_pay m with None => [] | Some b => str "[DEBUG] Payload: len=" ++ digits false 10 (len b) ++ [10] ++ dump_line b true 16 end ++
  str "[DEBUG] Completed" ++ [10].
Definition printable (m : msg) : Prop := Forall (fun o => get_format (fst o) = FString -> (List.length (snd o) < 128)%nat) (m_opts m).

Lemma diag_options : forall w os, 8 <= w -> Forall (fun o => bytes_ok (snd o)) os -> Forall (fun o => get_format (fst o) = FString -> (List.length (snd o) < 128)%nat) os ->
  diag w (opt_events os) = Ok (concat (map (log_option w) os)).
Proof.
  intros w os Hw. induction os as [|[n v] os IH]; intros Hb Hp; [reflexivity|]. inversion Hb as [|? ? Hv Hb']; subst. inversion Hp as [|? ? Hl Hp']; subst. cbn [fst snd] in *.
  unfold opt_events in *. cbn [map diag fst snd concat]. rewrite IH by assumption. cbn [diag_event].
  assert (E : diag_value w n v = Ok (match get_format n with FString => c_str v ++ [10] | FUInt => digits false 10 (be v mod 2 ^ w) ++ [10]
    | FOpaque => dump_line v false 0 | FEmpty => str "(Empty)" ++ [10] | FUnknown => str "N/A" ++ [10] end)).
  { unfold diag_value. destruct (get_format n); try reflexivity; [rewrite uint_get_be by assumption; reflexivity|].
    specialize (Hl eq_refl). apply Nat.ltb_lt in Hl. rewrite Hl. reflexivity. }
  rewrite E. cbn [bind]. f_equal. f_equal. unfold diag_option_head, log_option, len. cbn [fst snd]. rewrite <- !app_assoc. reflexivity.
Qed.

Lemma diag_message : forall w m, 8 <= w -> msg_ok m -> printable m -> diag w (msg_events m) = Ok (log_of w m).
Proof.
  intros w m Hw Hm Hp. destruct Hm as (Hh & Ht & _ & _ & Ho & _). unfold msg_events. rewrite !diag_app. rewrite diag_options; [|exact Hw| |exact Hp].
  2: { clear - Ho. revert Ho. generalize 0. induction (m_opts m) as [|[n v] os IH]; intros k H; [constructor|]. cbn [opts_ok] in H. constructor; [apply H|]. eapply IH, H. }
  cbn [diag diag_event bind app]. rewrite tkl_mod, Ht.
  assert (M : hdr_mid (m_hdr m) = h2 (m_hdr m) * 256 + h3 (m_hdr m)) by (unfold hdr_mid; apply hdr_ok_iff in Hh; apply nto_val; apply Hh). rewrite M.
  unfold log_of, len. destruct (m_pay m) as [b|]; cbn [pay_events diag diag_event bind app]; f_equal; rewrite ?app_nil_r, <- !app_assoc; reflexivity.
Qed.

(** C61: the log of a well formed message received in one piece, if no text is too long. *)
Theorem C61_message : forall w m d fuel, 8 <= w -> msg_ok m -> m_opts m <> [] \/ m_pay m <> None -> idle d -> printable m -> (dec_fuel (msg_bytes m) <= fuel)%nat ->
  exists es d1, dec_run fuel (msg_bytes m) d 0 = Ok (es, d1, List.length (msg_bytes m)) /\ diag w es = Ok (log_of w m).
Proof.
  intros w m d fuel Hw Hm Hne Hd Hp Hf. destruct (C14_whole_message m d fuel Hm Hne Hd Hf) as (d1 & A & _). exists (msg_events m), d1. split; [exact A|].
  now apply diag_message.
Qed.
Print Assumptions C61_message.

(** The same for a header with or without a token and nothing else, except that a payload of
    no bytes is printed if there is no token and the decoder's memory reads as if a marker
    had been seen (C15). *)
Theorem C61_bare : forall w h tok d fuel, 8 <= w -> msg_ok (Msg h tok [] None) -> idle d -> (20 <= fuel)%nat ->
  exists es d1, dec_run fuel (hdr_bytes h ++ tok) d 0 = Ok (es, d1, (4 + List.length tok)%nat) /\
    (tok <> [] \/ d_st (k_od d) <> OPayload -> diag w es = Ok (log_of w (Msg h tok [] None))) /\
    (tok = [] -> d_st (k_od d) = OPayload -> diag w es = Ok (log_of w (Msg h tok [] (Some [])))).
Proof.
  intros w h tok d fuel Hw Hm Hd Hf. pose proof Hm as (Hh & Ht & H8 & Hb & _). cbn [m_hdr m_tok] in *.
  assert (Hm2 : msg_ok (Msg h tok [] (Some []))) by (destruct Hm as (A & B & C & D & E & F); repeat split; auto; try apply A; constructor).
  assert (P : forall p, printable (Msg h tok [] p)) by (intros p; constructor).
  destruct tok as [|b t].
  - destruct (C15_header_only d h fuel Hd Hh Ht Hf) as (d1 & A & _). rewrite app_nil_r. eexists. exists d1. split; [exact A|].
    split; [intros [X|X]; [congruence|]|intros _ X].
    + replace (ostate_eqb (d_st (k_od d)) OPayload) with false by (destruct (d_st (k_od d)); try reflexivity; congruence).
      exact (diag_message w (Msg h [] [] None) Hw Hm (P None)).
    + rewrite X. exact (diag_message w (Msg h [] [] (Some [])) Hw Hm2 (P (Some []))).
  - destruct (C15_token_only d h (b :: t) fuel Hd Hh Hb Ht ltac:(cbn [List.length] in *; lia) Hf) as (d1 & A & _). eexists. exists d1. split; [exact A|].
    split; [|discriminate]. intros _. exact (diag_message w (Msg h (b :: t) [] None) Hw Hm (P None)).
Qed.
Print Assumptions C61_bare.

(** That any message can be printed is false: exactly those with a text option of 128 bytes
    or more, up to 255 being allowed, write past the buffer. *)
Theorem C61_overrun_refuted : forall w m d fuel, msg_ok m -> m_opts m <> [] \/ m_pay m <> None -> idle d -> (dec_fuel (msg_bytes m) <= fuel)%nat ->
  exists es d1, dec_run fuel (msg_bytes m) d 0 = Ok (es, d1, List.length (msg_bytes m)) /\ (diag w es = Fault <-> ~ printable m).
Proof.
  intros w m d fuel Hm Hne Hd Hf. destruct (C14_whole_message m d fuel Hm Hne Hd Hf) as (d1 & A & _). exists (msg_events m), d1. split; [exact A|].
  assert (X : Exists too_long (msg_events m) <-> ~ printable m).
  { assert (Y : Exists too_long (msg_events m) <-> Exists (fun o => get_format (fst o) = FString /\ (128 <= List.length (snd o))%nat) (m_opts m)).
    { rewrite !Exists_exists. split.
      - intros (e & I & T). unfold msg_events in I. apply in_app_or in I. destruct I as [I|I].
        + cbn [In] in I. destruct I as [<-|[<-|[<-|[]]]]; destruct T.
        + apply in_app_or in I. destruct I as [I|I].
          * unfold opt_events in I. apply in_map_iff in I. destruct I as (o & <- & I). exists o. split; [exact I|exact T].
          * cbn [app In] in I. destruct I as [<-|I]; [destruct T|]. apply in_app_or in I. destruct I as [I|I].
            -- destruct (m_pay m); cbn in I; [destruct I as [<-|[]]; destruct T|destruct I].
            -- cbn in I. destruct I as [<-|[]]; destruct T.
      - intros (o & I & T). exists (EOption (fst o) (snd o) true). split; [|exact T]. unfold msg_events. apply in_or_app. right. apply in_or_app. left.
        unfold opt_events. apply in_map_iff. exists o. auto. }
    rewrite Y. unfold printable. split.
    - intros E F. apply Exists_exists in E. destruct E as (o & I & G & L). rewrite Forall_forall in F. specialize (F o I G). lia.
    - intros NF. destruct (Exists_dec (fun o => get_format (fst o) = FString /\ (128 <= List.length (snd o))%nat) (m_opts m)) as [E|E].
      + intros [n v]. cbn [fst snd]. destruct (get_format n); try (right; intros [? ?]; discriminate).
        destruct (le_dec 128 (List.length v)); [left; auto|right; intros [_ ?]; contradiction].
      + exact E.
      + exfalso. apply NF. apply Forall_forall. intros o I G. destruct (le_lt_dec 128 (List.length (snd o))); [|assumption]. exfalso. apply E. apply Exists_exists. exists o. auto. }
  rewrite <- X. destruct (diag_ok w (msg_events m)) as [((t & E) & T)|(E & T)]; rewrite E; split; intro H; try discriminate; try contradiction; auto.
Qed.
Print Assumptions C61_overrun_refuted.

(** That different messages print differently is false: a text is cut at a zero byte, and
    neither type nor code is printed. *)
Theorem C61_same_log_refuted : forall w n t u u' c, get_format n = FString -> ~ In 0 t -> List.length u = List.length u' ->
  (diag_event w (EOption n (t ++ 0 :: u) c) = diag_event w (EOption n (t ++ 0 :: u') c)) /\
  (forall h h', h0 h mod 16 = h0 h' mod 16 -> h2 h = h2 h' -> h3 h = h3 h' -> diag_event w (EHeader h) = diag_event w (EHeader h')).
Proof.
  intros w n t u u' c F Z L. split.
  - cbn [diag_event]. unfold diag_value, diag_option_head. rewrite F, !c_str_cut by exact Z. rewrite !app_length. cbn [List.length]. rewrite L. reflexivity.
  - intros h h' A B C. cbn [diag_event]. rewrite !tkl_mod, A. unfold hdr_mid. rewrite B, C. reflexivity.
Qed.
Print Assumptions C61_same_log_refuted.

(** CON GET, id 0x1234, token 0A FF, Uri-Path temp, Content-Format 60, an unknown option,
    payload hi *)
Definition log_msg : msg := Msg (Hdr 66 1 18 52) [10; 255] [(11, str "temp"); (12, [60]); (2000, [1])] (Some (str "hi")).
Definition nl : string := String (Ascii.ascii_of_N 10) EmptyString.
Example C61_case : msg_ok log_msg /\ printable log_msg /\ idle sample_dec /\
  log_of 64 log_msg =
    str ("[DEBUG] Header: tkl=2 mid=1234" ++ nl ++ "[DEBUG] Token: 0A FF    ")%string ++ [10; 255; 10] ++
    str ("[DEBUG] Option: (11) len=  4 Uri-Path   value = temp" ++ nl ++
         "[DEBUG] Option: (12) len=  1 Content-Format value = 60" ++ nl ++
         "[DEBUG] Option: (2000) len=  1 Unknown    value = N/A" ++ nl ++
         "[DEBUG] Payload: len=2" ++ nl ++
         "   68 69 .. .. .. .. .. .. .. .. .. .. .. .. .. ..    hi" ++ nl ++ "[DEBUG] Completed" ++ nl)%string /\
  diag 64 (msg_events log_msg) = Ok (log_of 64 log_msg) /\
  diag 64 [EOption 15 (repeat 97 127) true] <> Fault /\ diag 64 [EOption 15 (repeat 97 128) true] = Fault.
Proof.
  split.
  { split; [apply hdr_ok_iff; repeat split; vm_compute; reflexivity|]. split; [reflexivity|]. split; [cbn; lia|]. 
    split; [repeat constructor; unfold byte_ok; lia|]. split; [cbn; unfold len, bytes_ok, byte_ok; cbn; repeat split; try lia; repeat constructor; lia|]. repeat constructor; vm_compute; reflexivity. }
  split; [repeat constructor; cbn; intros; try discriminate; lia|]. split; [exact sample_idle|]. split; [vm_compute; reflexivity|]. split; [vm_compute; reflexivity|].
  split; [vm_compute; discriminate|vm_compute; reflexivity].
Qed.

Example C61_bare_case : msg_ok (Msg (Hdr 64 0 18 52) [] [] None) /\ idle sample_dec /\
  log_of 64 (Msg (Hdr 64 0 18 52) [] [] None) = str ("[DEBUG] Header: tkl=0 mid=1234" ++ nl ++ "[DEBUG] Token:    " ++ nl ++ "[DEBUG] Completed" ++ nl)%string /\
  d_st (k_od sample_dec) = OPayload.
Proof.
  split. { unfold msg_ok, hdr_ok, bytes_ok, byte_ok. cbn. repeat split; repeat constructor; try lia. }
  split; [apply sample_idle|]. split; vm_compute; reflexivity.
Qed.
