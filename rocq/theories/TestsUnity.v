(** The expectations of the tests in /repo/test/unity, computed with the model.  These are no
    proofs about the code; they compare the model with what its authors observed. *)
From Coq Require Import String ZArith.
From Verif Require Import Base UIntModel HeaderModel OptEncModel OptDecModel DecoderModel SbDecModel StreambufModel ContextModel UriModel DiagModel TestsMsg TestsApp.
Local Open Scope N_scope.
Local Open Scope list_scope.

(** basic.cpp 11-17 *)
Example unity_header : (hdr_type (hdr_new ACK), hdr_version (hdr_new ACK)) = (ACK, 1).
Proof. vm_compute. reflexivity. Qed.

(** encoder.cpp 17-54: options by number and length with the values written to the stream; what
    is in the buffer afterwards is buffer_plausible.  finalize does nothing on a span. *)
Example unity_encoder : bind (sb_run [CHeader (hdr_new CON); COpt 11 4; CRaw (str "TEST"); COpt 11 3; CRaw (str "POS"); CPayload; CRaw [0x10]; CRaw [0x11]; CRaw [0x12]; CRaw [0x13]; CRaw [0x14]; CRaw [0x15]; CRaw [0x16]] (sb_init 512))
    (fun x => Ok (s_out (sb_sink (snd x)))) = Ok buffer_plausible.
Proof. vm_compute. reflexivity. Qed.

(** encoder.cpp 56-97: a reply with code 200, one option of two bytes and a marker is eight bytes *)
Definition unity_ctx : ctx := ctx_set_header (hdr_set_mid 0x123 (hdr_new CON)) (ctx_new (repeat 0 8)).
Example unity_reply : bind (build_reply unity_ctx 200 (sb_init 512)) (fun b =>
    bind (sb_run [COptInt 17 50; CPayload] b) (fun x =>
      let o := s_out (sb_sink (snd x)) in
      let h := Hdr (nth 0 o 0) (nth 1 o 0) (nth 2 o 0) (nth 3 o 0) in
      Ok (hdr_version h, hdr_tkl h, hdr_code h, hdr_mid h, List.length o))) = Ok (1, 0, 200, 0x123, 8%nat).
Proof. vm_compute. reflexivity. Qed.

(** encoder.cpp 99-123 *)
Example unity_reply_stream : bind (build_reply unity_ctx 0x43 (sb_init 512)) (fun b =>
    bind (sb_run [CPayload; CRaw (str "{"); CRaw (str "hi2u"); CRaw (str "}")] b) (fun x => Ok (List.length (s_out (sb_sink (snd x)))))) = Ok 11%nat.
Proof. vm_compute. reflexivity. Qed.

(** decoder.cpp 25-97: ten calls; the payload is not taken out of the stream *)
Example unity_streambuf : bind (sb_iterated 10 (made 0) (SBuf buffer_16bit_delta [])) (fun x => Ok (fst (fst x))) =
  Ok [(RHeader, OptionDone, 0, 0, false); (HeaderDone, OptionDone, 0, 0, false); (TokenDone, OptionDone, 0, 0, false); (OptionsStart, OptionDone, 0, 0, false);
      (ROptions, ValueStart, 270, 1, false); (ROptions, OptionValueDone, 270, 1, false); (ROptions, ValueStart, 271, 2, false); (ROptions, OptionValueDone, 271, 2, false);
      (OptionsDone, OPayload, 271, 2, false); (RPayload, OPayload, 271, 2, false)].
Proof. vm_compute. reflexivity. Qed.

(** decoder.cpp 99-155: until the end is reported and once more; the listener, which leaves the
    payload in the stream, counts header, token, two options, payload and completion *)
Fixpoint unity_loop (fuel : nat) (d : dec) (s : sbuf) : res (list event * dec * sbuf) :=
  match fuel with
  | O => NoFuel
  | S k => bind (sbd_notify true false false d s) (fun x => let '(es, d1, s1, f) := x in
      if f then Ok (es, d1, s1) else bind (unity_loop k d1 s1) (fun y => let '(fs, d2, s2) := y in Ok (es ++ fs, d2, s2)))
  end.
Definition unity_counts (e : event) : bool := match e with EOptStart | EOptDone => false | _ => true end.
Example unity_notify : bind (unity_loop 20 (made 0) (SBuf buffer_16bit_delta [])) (fun x => let '(es, d, s) := x in
    bind (sbd_notify true false false d s) (fun y => let '(fs, _, _, _) := y in Ok (filter unity_counts (es ++ fs)))) =
  Ok [EHeader (Hdr 64 1 1 35); EToken []; EOption 270 [3] true; EOption 271 [4; 5] true; EPayload [16; 17; 18; 19; 20; 21; 22] true; ECompleted].
Proof. vm_compute. reflexivity. Qed.

(** uri.cpp 11-17 *)
Example unity_match : option_map r_id (match_row (firstn 8 test_map) (str "test") 1) = Some 6%Z.
Proof. vm_compute. reflexivity. Qed.
(** uri.cpp 19-34 *)
Example unity_matcher3 : let '(l, m) := m3_path [str "v1"; str "api"; str "power"] (m3_init test_map) in
  (map (option_map r_id) l, m3_found m) = ([Some 0; Some 1; Some 2], 2)%Z.
Proof. vm_compute. reflexivity. Qed.
