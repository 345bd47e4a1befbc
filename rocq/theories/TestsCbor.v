(** The expectations of /repo/test/unit-tests/cbor-test.cpp, computed with the model (see
    TestsMsg.v). *)
From Coq Require Import String.
From Verif Require Import Base UIntModel DiagModel CborModel.
Local Open Scope N_scope.
Local Open Scope list_scope.

(** test-data.h 69-79 *)
Definition cbor_cred : list N := [162; 100] ++ str "ssid" ++ [105] ++ str "ssid_name" ++ [100] ++ str "pass" ++ [102] ++ str "secret".
(** test-data.h 81-87 *)
Definition cbor_int : list N := [161; 99] ++ str "val" ++ [58; 7; 91; 205; 20].

(** the older decoder, just made *)
Definition o_made : odec := ODec 0 [] OUninitialized.

(** cbor-test.cpp 117-129, True/false test; 130-147, 16-bit integer test *)
Example test_simple : bind (o_process o_made [N.lor 224 21]) (fun x => Ok (o_head (fst x), o_state (fst x))) = Ok (245, ODone) /\
  bind (o_process o_made [25; 240; 119]) (fun x => bind (o_value 16 (fst x)) (fun v => Ok (N.shiftr (o_head (fst x)) 5, o_info (fst x), v))) = Ok (M_UINT, 25, 0xF077).
Proof. split; vm_compute; reflexivity. Qed.

(** cbor-test.cpp 148-170, very manual: map of 2, then four strings, each skipped by hand *)
Definition manual (len : nat) (x : odec * list N) : res (odec * list N) := o_process (fst x) (skipn len (snd x)).
Definition seen (len : nat) (x : odec * list N) : N * N * list N := (N.shiftr (o_head (fst x)) 5, o_info (fst x), firstn len (snd x)).
Example test_manual : bind (o_process o_made cbor_cred) (fun a => bind (manual 0 a) (fun b => bind (manual 4 b) (fun c => bind (manual 9 c) (fun d => bind (manual 4 d) (fun e =>
    Ok (seen 0 a, [seen 4 b; seen 9 c; seen 4 d; seen 6 e])))))) =
  Ok ((M_MAP, 2, []), [(M_STRING, 4, str "ssid"); (M_STRING, 9, str "ssid_name"); (M_STRING, 4, str "pass"); (M_STRING, 6, str "secret")]).
Proof. vm_compute. reflexivity. Qed.

(** cbor-test.cpp 171-190, with helpers; 191-198, int decoder *)
Example test_helpers :
  bind (o_process o_made cbor_cred) (fun x => bind (o_get_string 999 (fst x) (snd x)) (fun a => bind (o_get_string 999 (fst x) (snd a)) (fun b =>
    bind (o_get_string 999 (fst x) (snd b)) (fun c => bind (o_get_string 999 (fst x) (snd c)) (fun d => Ok ([fst a; fst b; fst c; fst d], snd d)))))) =
    Ok ([Some (str "ssid", true); Some (str "ssid_name", true); Some (str "pass", true); Some (str "secret", true)], []) /\
  bind (o_process o_made cbor_int) (fun x => bind (o_get_string 999 (fst x) (snd x)) (fun a => bind (o_get_int (fst x) (snd a)) (fun b => Ok (fst a, fst b)))) =
    Ok (Some (str "val", true), Some (-123456789)%Z).
Proof. split; vm_compute; reflexivity. Qed.

(** cbor-test.cpp 199-237: the encoder, layer1 and layer3 *)
Example test_encoder : enc_integer 32 9 10 = Ok [10] /\ bind (enc_integer 32 9 100) (fun l => Ok (nth 0 l 0)) = Ok 24 /\
  bind (enc_integer 32 9 (-123456789)) (fun l => Ok (nth 0 l 0)) = Ok (N.lor (N.shiftl M_NEG 5) 26) /\ enc_string 9 5 = Ok [N.lor (N.shiftl M_STRING 5) 5].
Proof. repeat split; vm_compute; reflexivity. Qed.

(** cbor-test.cpp 240-277, revamped cbor decoder: the calls as written there *)
Fixpoint fed (bs : list N) (d : cdec) : res cdec := match bs with [] => Ok d | b :: r => bind (c_iterate d b) (fun x => fed r (fst x)) end.
Example test_revamped : forall j, bind (fed [161; 161; 99] (c_init [j; j; j; j] j j)) (fun a => bind (fed [99; 99; 99; 118] (c_set a CHeaderStart)) (fun b =>
    bind (c_integer 32 b) (fun n => bind (fed [58; 58; 7] (c_set b CHeaderStart)) (fun c => bind (fed [7; 7; 91; 205; 20] c) (fun d => bind (c_integer 32 d) (fun v =>
      Ok ((c_state a, c_type a), (c_state b, c_type b, n), (c_state c, c_type c), (c_state d, v)))))))) =
  Ok ((CLongStart, M_MAP), (CLongStart, M_STRING, 3%Z), (CAdditionalStart, M_NEG), (CAdditionalDone, (-123456789)%Z)).
Proof. intro j. vm_compute. reflexivity. Qed.

(** cbor-test.cpp 280-332, revamped netbuf encoder; 397-414, boolean and NULL *)
Example test_netbuf : bind (nb_string (str "Hello world") (Nb [] 100)) (fun a => bind (nb_integer 32 (-5) (fst a)) (fun b => bind (nb_integer 32 0x1234 b) (fun c => bind (nb_map 4 c) (fun d =>
    bind (nb_string (str "Hi") d) (fun e => bind (nb_items [1; 2; 3] (fst e)) (fun f => Ok (nb_out f))))))) =
  Ok (0x6B :: str "Hello world" ++ [0x24; 25; 0x12; 0x34; 0xA4; 0x62] ++ str "Hi" ++ [0x83; 1; 2; 3]) /\
  bind (nb_boolean true (Nb [] 100)) (fun a => bind (nb_null a) (fun b => Ok (nb_out b))) = Ok [0xF5; 0xF6].
Proof. split; vm_compute; reflexivity. Qed.

(** cbor-test.cpp 334-363, experimental cbor decoder; 374-395, next gen synthetic cred test *)
Example test_stream : forall j g, c_read 20 cbor_int g (c_init [j; j; j; j] j j) = Ok [(M_MAP, 1%Z, []); (M_STRING, 3%Z, str "val"); (M_NEG, (-123456789)%Z, [])].
Proof. intros j g. vm_compute. reflexivity. Qed.
Example test_cred : forall j, bind (c_process cbor_cred 0 (c_init [j; j; j; j] j j) 0) (fun a => let '(d0, p0, _) := a in
    bind (c_fast_forward cbor_cred 0 d0 p0) (fun b => let '(d1, p1, _) := b in bind (c_see cbor_cred d1 p1) (fun s1 =>
    bind (c_fast_forward cbor_cred 0 d1 p1) (fun b => let '(d2, p2, _) := b in bind (c_see cbor_cred d2 p2) (fun s2 =>
    bind (c_fast_forward cbor_cred 0 d2 p2) (fun b => let '(d3, p3, _) := b in bind (c_see cbor_cred d3 p3) (fun s3 =>
    bind (c_fast_forward cbor_cred 0 d3 p3) (fun b => let '(d4, p4, _) := b in bind (c_see cbor_cred d4 p4) (fun s4 =>
      Ok (c_state d0, c_type d0, c_integer 32 d0, [c_state d1; c_state d2; c_state d3; c_state d4], [s1; s2; s3; s4])))))))))) =
  Ok (CLongStart, M_MAP, Ok 2%Z, [CLongStart; CLongStart; CLongStart; CLongStart],
      [(M_STRING, 4%Z, str "ssid"); (M_STRING, 9%Z, str "ssid_name"); (M_STRING, 4%Z, str "pass"); (M_STRING, 6%Z, str "secret")]).
Proof. intro j. vm_compute. reflexivity. Qed.
