(** The expectations of the unit tests in /repo/test/unit-tests, computed with the model:
    paths, dispatching, contexts, retries and buffers.  These are no proofs about the code;
    they compare the model with what its authors observed. *)
From Coq Require Import String ZArith.
From Verif Require Import Base HeaderModel OptDecModel DecoderModel DispatchModel DispatchSpec ContextModel SubjectModel CtxSubModel CopyModel RetryModel UriModel DiagModel TestsMsg.
Local Open Scope N_scope.
Local Open Scope list_scope.

(** test-uri-data.h 31-49 *)
Definition test_map : list row :=
  [Row (str "v1") 0 NONE; Row (str "api") 1 0; Row (str "power") 2 1; Row (str "test") 6 1;
   Row (str "v2") 4 NONE; Row (str "api") 5 4;
   Row (str "nested") 9 5; Row (str "nested") 10 9;
   Row (str "test") 11 5;
   Row (str ".well-known") 7 0; Row (str "core") 8 7]%Z.

(** experimental2-test.cpp 143-146 *)
Example test_match : option_map r_id (match_row test_map (str "api") 0) = Some 1%Z.
Proof. vm_compute. reflexivity. Qed.
(** experimental2-test.cpp 156-183, UriPathMatcher2 *)
Example test_matcher2 :
  let m := m2_init test_map in
  let '(a, m1) := m2_find (str "v1") m in
  let '(b, m2) := m2_find (str "api") m1 in
  let '(c, _) := m2_find (str "power") m2 in
  (m2_lookup (str "v1") NONE m, a, b, c) = (0, 0, 1, 2)%Z.
Proof. vm_compute. reflexivity. Qed.
(** the ids that find of UriPathMatcher3 gives along a path *)
Definition ids (p : list (list N)) : list (option Z) := map (option_map r_id) (fst (m3_path p (m3_init test_map))).
(** experimental2-test.cpp 296-339, UriPathMatcher3 *)
Example test_matcher3 :
  ids [str "v2"; str "api"; str "nested"; str "nested"] = [Some 4; Some 5; Some 9; Some 10]%Z
  /\ ids [str "v2"; str "api"; str "test"] = [Some 4; Some 5; Some 11]%Z
  /\ ids [str "v3"] = [None].
Proof. vm_compute. repeat split; reflexivity. Qed.
(** experimental2-test.cpp 97-108, RandomPolicy: at the ends of what rand gives *)
Example test_random : (policy_rand 0 100 200, policy_rand 99 100 200, policy_rand 2147483647 100 200) = (100, 199, 147).
Proof. vm_compute. reflexivity. Qed.

(** the whole of a buffer nobody has written to *)
Definition mb_blank : mbuf := mb_new (repeat 0 (N.to_nat 1024)) (repeat (0, 0) 10).
(** experimental-test.cpp 104-144, ManagedBuffer *)
Definition managed : res mbuf :=
  bind (mb_write (str "abc") mb_blank) (fun b => bind (mb_boundary 1 3 b) (fun b =>
  bind (mb_write (str "ABD") b) (fun b => bind (mb_boundary 1 4 b) (fun b => bind (mb_boundary 2 0 b) (fun b =>
  Ok (mb_reset false b)))))).
(** experimental-test.cpp 104-144: the first byte and the length of three chunks *)
Example test_managed :
  bind managed (fun b => bind (mb_next b) (fun b1 =>
    let look x c := (hd 0 (skipn (N.to_nat (fst (mb_current_ro c x))) (b_mem x)), snd (mb_current_ro c x)) in
    Ok (look b 1, look b1 1, snd (mb_current_ro 2 (mb_reset false b1)))))
  = Ok ((hd 0 (str "a"), 3), (hd 0 (str "A"), 4), 7).
Proof. vm_compute. reflexivity. Qed.
(** experimental-test.cpp 145-177, More ManagedBuffer *)
Example test_managed_read :
  bind (mb_fill [(2, str "12"); (2, str "abc")] mb_blank) (fun b =>
    bind (mb_read 2 (mb_reset false b)) (fun x => bind (mb_read 2 (snd x)) (fun y => Ok (mb_bytes b (fst x), mb_bytes b (fst y)))))
  = Ok (Some (str "12"), Some (str "abc")).
Proof. vm_compute. reflexivity. Qed.

(** experimental-test.cpp 178-210, FnFactory: not_found gives -1 *)
Example test_fn_factory :
  let items := [(str "wilma", 77); (str "fred", 7)] in
  (factory_find items (str "test"), factory_find items (str "fred"), factory_find items (str "wilma")) = (None, Some 7, Some 77).
Proof. vm_compute. reflexivity. Qed.
(** experimental-test.cpp 211-232: the observer made for "barny" is called *)
Example test_aggregate_uri :
  let h := agg_handler [(str "barny", rec_handler 0)] in
  let '(s0, w0) := h_new h [] in
  snd (calls h [OnValue URI_PATH (str "barny") true; OnComplete] s0 w0) = [(0%nat, OnValue URI_PATH (str "barny") true); (0%nat, OnComplete)].
Proof. vm_compute. reflexivity. Qed.

(** coap-dispatcher-test.cpp 147-160 with the factories of 85-142 but the first two (a context
    handler and an observer that is never interested): the innermost observer gets the payload *)
Example test_dispatcher :
  let sub := disp_handler true [uri_handler (str "POS") (rec_handler 0)] in
  let top := disp_handler true [uri_handler (str "v1") sub; uri_handler (str "TEST") sub] in
  bind (sub_dispatch buffer_plausible true (made 7)) (fun x =>
    let '(s0, w0) := h_new top [] in
    Ok (filter (fun c => match c with (_, OnPayload _ _) => true | _ => false end) (snd (calls top (fst (fst x)) s0 w0))))
  = Ok [(0%nat, OnPayload [16; 17; 18; 19; 20; 21; 22] true)].
Proof. vm_compute. reflexivity. Qed.

(** coap-datapump-test.cpp 83-134 and decoder-subject-test.cpp 57-64: the context has the
    header of the message *)
Example test_context :
  ctx_have_header (ctx_new (repeat 7 8)) = false
  /\ bind (cdh_receive [buffer_16bit_delta] (made 7) (ctx_new (repeat 7 8))) (fun x => Ok (ctx_have_header (fst x), hdr_mid (c_hdr (fst x)))) = Ok (true, 291).
Proof. vm_compute. split; reflexivity. Qed.

(** netbuf-test.cpp 120-140: a copy, and a copy but the first byte *)
Example test_netbuf_copy :
  let to skip := bind (netbuf_copy 10 buffer_simplest_request [] skip (Dest [] [] 256 [])) (fun d => Ok (t_cur d)) in
  (to 0%nat, to 1%nat) = (Ok [64; 0; 1; 35], Ok [0; 1; 35]).
Proof. vm_compute. reflexivity. Qed.

(** retry-test.cpp 93-114 *)
Example test_delta : (meta_delta 0 2500, meta_delta 1 2500, meta_delta 2 2500) = (2500, 5000, 10000).
Proof. vm_compute. reflexivity. Qed.
(** retry-test.cpp 115-200: the message is tracked at 2000, rand having given 500 (2500 ms);
    how much is sent at each of 4600, 9600, 19600 and 25000, and what is left at the end *)
Fixpoint serviced (ts : list N) (q : queue) : res (list nat * nat) :=
  match ts with
  | [] => Ok ([], List.length q)
  | t :: r => bind (service_retry 32 t 0 q) (fun x => bind (serviced r (fst x)) (fun y => Ok (List.length (snd x) :: fst y, snd y)))
  end.
(** test-data.h 5-17 as a tracked message *)
Definition tracked_msg : netmsg := NetMsg (Hdr 64 1 1 35) [] (skipn 4 buffer_16bit_delta).
(** retry-test.cpp 115-200 *)
Example test_retry : bind (on_sent 32 0 tracked_msg 9 2000 500 []) (serviced [4600; 9600; 19600; 25000]) = Ok ([1; 1; 1; 0]%nat, 0%nat).
Proof. vm_compute. reflexivity. Qed.
(** retry-test.cpp 201-258: the acknowledgement is taken for the tracked message *)
Example test_retry_ack :
  let ack := NetMsg (Hdr 96 0 1 35) [] [] in
  bind (on_sent 32 0 tracked_msg 9 2000 500 []) (fun q => Ok (rop_legal N.eqb (RReceived ack 9 (Some 0%nat)) q, service_ack ack (Some 0%nat) q)) = Ok (true, ([], true)).
Proof. vm_compute. reflexivity. Qed.
