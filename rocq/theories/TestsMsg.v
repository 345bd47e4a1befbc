(** The expectations of the unit tests in /repo/test/unit-tests, computed with the model:
    messages, options and numbers.  These are no proofs about the code; they compare the model
    with what its authors observed.  The tests are built without DEBUG (CMakeLists.txt 13). *)
From Coq Require Import String.
From Verif Require Import Base UIntModel HeaderModel OptEncModel OptDecModel DecoderModel NetDecModel SbDecModel StreambufModel BlockModel DiagModel.
From Verif Require NetbufModel NbEncModel.
Local Open Scope N_scope.
Local Open Scope list_scope.

(** test-data.h 5-17 *)
Definition buffer_16bit_delta : list N := [64; 1; 1; 35; 225; 0; 1; 3; 18; 4; 5; 255; 16; 17; 18; 19; 20; 21; 22].
(** test-data.h 20-31 *)
Definition buffer_plausible : list N := [64; 0; 0; 0; 180] ++ str "TEST" ++ [3] ++ str "POS" ++ [255; 16; 17; 18; 19; 20; 21; 22].
(** test-data.h 33-39 *)
Definition buffer_with_token : list N := [66; 1; 1; 35; 119; 120; 255] ++ str "hi".
(** test-data.h 42-47 *)
Definition buffer_payload_only : list N := [64; 0; 0; 0; 255; 16; 17; 18; 19; 20; 21; 22].
(** test-data.h 50-54 *)
Definition buffer_oversimplified_observe : list N := [64; 0; 1; 35; 96].
(** test-data.h 56-59 *)
Definition buffer_simplest_request : list N := [64; 0; 1; 35].
(** test-data.h 62-65 *)
Definition buffer_ack : list N := [96; 0; 1; 35].

(** a decoder just made; whatever [j] its memory held *)
Definition made (j : N) : dec := Dec Uninitialized (Hdr j j j j) j (repeat j 8) j (ODec OptionDone j j j j j) (Holder j j).

(** what the tests look at after each process_iterate: state, state of the options, number,
    length, whether the chunk is used up *)
Fixpoint iterated (n : nat) (chunk : list N) (last : bool) (d : dec) (pos : nat) : res (list (rstate * ostate * N * N * bool)) :=
  match n with
  | O => Ok []
  | S k =>
      bind (dec_iterate chunk last d pos) (fun x => let '(d1, p1, f) := x in
        bind (iterated k chunk last d1 p1) (fun r => Ok ((k_st d1, d_st (k_od d1), hd_num (k_hold d1), hd_len (k_hold d1), f) :: r)))
  end.
(** only the states *)
Definition states (r : res (list (rstate * ostate * N * N * bool))) : res (list rstate) := bind r (fun l => Ok (map (fun x => fst (fst (fst (fst x)))) l)).

(** coap-decoder-test.cpp 43-68, Payload only test *)
Example test_payload_only : states (iterated 6 buffer_payload_only true (made 0) 0) = Ok [RHeader; HeaderDone; TokenDone; OptionsStart; OptionsDone; RPayload].
Proof. vm_compute. reflexivity. Qed.

(** coap-decoder-test.cpp 69-119, 16 bit delta test (with FEATURE_MCCOAP_SUCCINCT_OPTIONDECODE);
    number and length are looked at where the test does *)
Example test_16bit : bind (iterated 9 buffer_16bit_delta true (made 0) 0) (fun l => Ok (map (fun x => (fst (fst (fst (fst x))), snd x)) (firstn 4 l), skipn 4 l)) =
  Ok ([(RHeader, false); (HeaderDone, false); (TokenDone, false); (OptionsStart, false)],
      [(ROptions, ValueStart, 270, 1, false); (ROptions, OptionValueDone, 270, 1, false); (ROptions, ValueStart, 271, 2, false); (ROptions, OptionValueDone, 271, 2, false); (OptionsDone, OPayload, 271, 2, false)]).
Proof. vm_compute. reflexivity. Qed.

(** coap-decoder-test.cpp 120-135, Parity test with bronze-star project: four calls go through *)
Example test_bronze : states (iterated 4 [68; 1; 111; 52] true (made 0) 0) = Ok [RHeader; HeaderDone; TokenStart; RToken].
Proof. vm_compute. reflexivity. Qed.

(** coap-observable-test.cpp 18-48, (over)simplest example (the test does not look at the state of
    the options) *)
Example test_observe : bind (iterated 5 buffer_oversimplified_observe true (made 0) 0) (fun l => Ok (nth 4 l (RDone, OptionDone, 9, 9, false), map (fun x => fst (fst (fst (fst x)))) (firstn 3 l))) =
  Ok ((ROptions, OptionDeltaAndLengthDone, 6, 0, true), [RHeader; HeaderDone; TokenDone]) /\ uint_get_t 16 [] = 0.
Proof. split; vm_compute; reflexivity. Qed.

(** what the tests look at after each byte, given one at a time *)
Fixpoint bytewise (bs : list N) (d : dec) : res (list (rstate * ostate * N * N)) :=
  match bs with
  | [] => Ok []
  | b :: r =>
      bind (dec_drain 20 [b] (match r with [] => true | _ => false end) d 0) (fun x => let '(_, d1, _) := x in
        bind (bytewise r d1) (fun l => Ok ((k_st d1, d_st (k_od d1), hd_num (k_hold d1), hd_len (k_hold d1)) :: l)))
  end.

(** coap_lowlevel.cpp 32-94, Basic parsing: after byte 4 and on *)
Example test_lowlevel : bind (bytewise [64; 0; 0; 0; 17; 3; 18; 4; 5] (made 0)) (fun l => Ok (map (fun x => fst (fst (fst x))) (firstn 4 l), skipn 4 l)) =
  Ok ([RHeader; RHeader; RHeader; HeaderDone],
      [(ROptions, OptionDeltaAndLengthDone, 1, 1); (ROptions, OptionValueDone, 1, 1); (ROptions, OptionDeltaAndLengthDone, 2, 2); (ROptions, OptionValue, 2, 2); (OptionsDone, OptionValueDone, 2, 2)]).
Proof. vm_compute. reflexivity. Qed.

(** coap_lowlevel.cpp 95-178, Basic Parsing: 16 bit *)
Example test_lowlevel_16bit : bind (bytewise buffer_16bit_delta (made 0)) (fun l => Ok (firstn 9 (skipn 3 l))) =
  Ok [(HeaderDone, OptionDone, 0, 0); (ROptions, OptionLengthDone, 0, 1); (ROptions, OptionDelta, 0, 1); (ROptions, OptionDeltaDone, 270, 1); (ROptions, OptionValueDone, 270, 1);
      (ROptions, OptionDeltaAndLengthDone, 271, 2); (ROptions, OptionValue, 271, 2); (ROptions, OptionValueDone, 271, 2); (OptionsDone, OPayload, 271, 2)].
Proof. vm_compute. reflexivity. Qed.

(** coap-decoder-test.cpp 136-248, streambuf native style: after each of the eleven
    process_iterate_streambuf; before the last one the test takes the seven bytes of payload *)
Fixpoint sb_iterated (n : nat) (d : dec) (s : sbuf) : res (list (rstate * ostate * N * N * bool) * dec * sbuf) :=
  match n with
  | O => Ok ([], d, s)
  | S k =>
      bind (sbd_step true false d s) (fun x => let '(d1, s1, f) := x in
        bind (sb_iterated k d1 s1) (fun r => let '(l, d2, s2) := r in Ok ((k_st d1, d_st (k_od d1), hd_num (k_hold d1), hd_len (k_hold d1), f) :: l, d2, s2)))
  end.
Example test_streambuf : bind (sb_iterated 10 (made 0) (SBuf buffer_16bit_delta [])) (fun x => let '(l, d, s) := x in
    bind (sbd_step true false d (SBuf [] (s_rest s))) (fun y => let '(d1, _, f) := y in
      Ok (map (fun x => (fst (fst (fst (fst x))), snd x)) (firstn 4 l), skipn 4 l, hdr_mid (k_h d), s_cur s, k_st d1, f))) =
  Ok ([(RHeader, false); (HeaderDone, false); (TokenDone, false); (OptionsStart, false)],
      [(ROptions, ValueStart, 270, 1, false); (ROptions, OptionValueDone, 270, 1, false); (ROptions, ValueStart, 271, 2, false); (ROptions, OptionValueDone, 271, 2, false);
       (OptionsDone, OPayload, 271, 2, false); (RPayload, OPayload, 271, 2, false)],
      291, [16; 17; 18; 19; 20; 21; 22], PayloadDone, true).
Proof. vm_compute. reflexivity. Qed.

(** decoder-subject-test.cpp 128-149, 174-220: two options with numbers of at least 270 and then
    completion, over a chunk and over a stream buffer: a counter goes from 0 to 3 *)
Definition counted (es : list event) : list N := map (fun e => match e with EOption n _ _ => n | ECompleted => 1 | _ => 0 end) (filter (fun e => match e with EOption _ _ _ | ECompleted => true | _ => false end) es).
Example test_subject :
  bind (dec_run 20 buffer_16bit_delta (made 0) 0) (fun x => let '(es, _, _) := x in Ok (counted es)) = Ok [270; 271; 1] /\
  bind (sbd_run 20 true false true (made 0) (SBuf buffer_16bit_delta [])) (fun x => let '(es, _, _) := x in Ok (counted es)) = Ok [270; 271; 1].
Proof. split; vm_compute; reflexivity. Qed.

(** netbuf-test.cpp 70-86, netbuf decoder *)
Example test_netbuf : bind (nd_header buffer_16bit_delta true (ND (made 0) 0)) (fun x => bind (nd_token buffer_16bit_delta true (snd x)) (fun y =>
    Ok (hdr_mid (fst x), hdr_tkl (fst x), fst y, nd_state (snd y)))) = Ok (291, 0, [], OptionsStart).
Proof. vm_compute. reflexivity. Qed.

(** netbuf-test.cpp 179-205, token decoding *)
Example test_token : bind (nd_header buffer_with_token true (ND (made 0) 0)) (fun x => bind (nd_token buffer_with_token true (snd x)) (fun y => Ok (hdr_tkl (fst x), fst y))) = Ok (2, [119; 120]).
Proof. vm_compute. reflexivity. Qed.

(** netbuf-test.cpp 35-50, 141-178, suite: header, token, then the loop over the options.  The
    expected state is Payload or Done; the file is compiled out (OBSOLETE, line 1), and with two
    options the state is OptionsDone (C55). *)
Definition suite (c : list N) : res rstate := bind (nd_read 20 c true (made 0)) (fun x => Ok (nd_state (snd x))).
Example test_suite : suite buffer_simplest_request = Ok RDone /\ suite buffer_oversimplified_observe = Ok RDone /\ suite buffer_payload_only = Ok RPayload /\ suite buffer_16bit_delta = Ok OptionsDone.
Proof. repeat split; vm_compute; reflexivity. Qed.

(** coap_lowlevel.cpp 14-31, Basic header construction *)
Example test_header : hdr_new CON = Hdr 64 0 0 0 /\ hdr_type (hdr_new CON) = CON /\ hdr_set_type NON (hdr_new CON) = Hdr 80 0 0 0 /\ hdr_type (hdr_set_type NON (hdr_new CON)) = NON.
Proof. repeat split. Qed.

(** coap.cpp 88-137: single options *)
Example test_generate :
  bind (pull 2 20 (OBase 1 1 (str "a")) oenc_init) (fun x => Ok (fst x, e_st (snd x))) = Ok ([17; 97], OptionValueDone) /\
  bind (pull 4 20 (OBase 10000 1 (str "a")) oenc_init) (fun x => Ok (fst x, e_st (snd x))) = Ok ([225; N.shiftr (10000 - 269) 8; N.land (10000 - 269) 255; 97], OptionValueDone).
Proof. split; vm_compute; reflexivity. Qed.

(** coap-encoder-test.cpp 221-245: the header of buffer_16bit_delta *)
Definition header_16bit : hdr := hdr_set_mid 291 (hdr_set_code 1 (hdr_new CON)).

(** coap-encoder-test.cpp 250-304, streambuf encoder, Test 1 *)
Example test_encoder : bind (sb_run [CHeader header_16bit; COptStr 11 (str "hello"); COptStr 11 (str "hi2u"); COpt 60 0; CPayload; CRaw (str "PAYLOAD")] (sb_init 128)) (fun x => Ok (s_out (sb_sink (snd x)))) =
  Ok (firstn 4 buffer_16bit_delta ++ N.lor (N.shiftl 11 4) 5 :: str "hello" ++ 4 :: str "hi2u" ++ [N.shiftl 13 4; 60 - 11 - 13; 255] ++ str "PAYLOAD").
Proof. vm_compute. reflexivity. Qed.

(** coap-encoder-test.cpp 305-338, Regenerate buffer_16bit_delta; 339-368, stream operators *)
Example test_regenerate :
  bind (sb_run [CHeader header_16bit; COpt 270 1; CRaw [3]; COpt 271 2; CRaw [4]; CRaw [5]; CPayload; CRaw [16; 17; 18; 19; 20; 21; 22]] (sb_init 128)) (fun x => Ok (s_out (sb_sink (snd x)))) = Ok buffer_16bit_delta /\
  bind (sb_run [CHeader header_16bit; CToken []; COpt 270 1; CRaw [3]; COpt 271 2; CRaw [4]; CRaw [5]; CPayload; CRaw [16; 17; 18; 19; 20; 21; 22]] (sb_init 128)) (fun x => Ok (s_out (sb_sink (snd x)))) = Ok buffer_16bit_delta.
Proof. split; vm_compute; reflexivity. Qed.

(** coap-encoder-test.cpp 339-368, with the operators themselves, over a buffer of 128 zeros *)
Example test_operators :
  bind (NbEncModel.shifts ([NbEncModel.MHeader header_16bit; NbEncModel.MToken []; NbEncModel.MOption 270 1; NbEncModel.MPut 3; NbEncModel.MOption 271 2; NbEncModel.MPut 4; NbEncModel.MPut 5;
    NbEncModel.MPayload] ++ map NbEncModel.MPut [16; 17; 18; 19; 20; 21; 22]) (NbEncModel.nb_init (repeat 0 128) [])) (fun x => Ok (NbEncModel.nb_sendto x)) = Ok (buffer_16bit_delta ++ repeat 0 109).
Proof. vm_compute. reflexivity. Qed.

(** coap-encoder-test.cpp 114-194, NetBuf encoder: what is in the netbuf in the end *)
Example test_netbuf_encoder : forall h, hdr_set_tkl 3 (Hdr 0 0 0 0) = Ok h ->
  bind (NetbufModel.nbe_run [NetbufModel.NHeader h; NetbufModel.NToken [1; 2; 3]; NetbufModel.NOption 11 (str "test"); NetbufModel.NOption 11 (str "test2");
    NetbufModel.NOptionInt 12 50; NetbufModel.NPayload (str "payload")] (NetbufModel.nbe_init false 256)) (fun x => Ok (fst x, s_out (NetbufModel.n_sink (snd x)))) =
  Ok (repeat true 6, [3; 0; 0; 0] ++ [1; 2; 3] ++ 180 :: str "test" ++ 5 :: str "test2" ++ [17; 50; 255] ++ str "payload").
Proof. intros h H. vm_compute in H. injection H as <-. vm_compute. reflexivity. Qed.

(** coap-encoder-test.cpp 195-220, synthetic test 1; [<<] after payload_header is modelled by payload *)
Example test_synthetic : bind (NetbufModel.nbe_run [NetbufModel.NHeader (hdr_new_code CON 69); NetbufModel.NToken [0; 1; 2; 3]; NetbufModel.NPayload (str "hi2u")] (NetbufModel.nbe_init false 256))
    (fun x => Ok (skipn 4 (s_out (NetbufModel.n_sink (snd x))))) = Ok ([0; 1; 2; 3; 255] ++ str "hi2u").
Proof. vm_compute. reflexivity. Qed.

(** uint-test.cpp 9-21; coap-token-test.cpp 13-45, 46-68 *)
Example test_uint : uint_set_padded 77 4 = Ok [0; 0; 0; 77] /\ uint_get_t 32 [0; 0; 0; 77] = 77 /\ uint_set 0xFEDCBA = Ok [0xFE; 0xDC; 0xBA] /\
  layer2_set 4 0xFEDCBA = Ok [0xFE; 0xDC; 0xBA] /\ uint_get_t 32 [0xFE; 0xDC; 0xBA] = 0xFEDCBA /\
  bind (token_generate 0x101) (fun x => Ok (List.length (fst x))) = Ok 2%nat /\ bind (token_generate 0x30201) (fun x => Ok (fst x)) = Ok [3; 2; 1].
Proof. repeat split; vm_compute; reflexivity. Qed.

(** blockwise-test.cpp 9-48 *)
Example test_block : (decode_szx [1], decode_num 16 [1], decode_m [1]) = (Ok 32, 0, Ok false) /\ (decode_szx [16], decode_num 16 [16], decode_m [16]) = (Ok 16, 1, Ok false) /\
  (decode_szx [0x32; 0x1A], decode_num 16 [0x32; 0x1A], decode_m [0x32; 0x1A]) = (Ok 64, 0x321, Ok true) /\ block_encode 32 0x321 true 2 = Ok [0x32; 0x1A].
Proof. repeat split; vm_compute; reflexivity. Qed.

(** experimental-test.cpp 82-103, option traits *)
Example test_traits : get_format o_uri_path = FString /\ trait o_uri_path = (FString, (0, 255)%Z) /\ runtime_trait traits_known o_uri_path = (FString, (0, 255)%Z).
Proof. repeat split; vm_compute; reflexivity. Qed.
