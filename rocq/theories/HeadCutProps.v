(** C19, C53: streams that end inside an option header, whatever precedes it. *)
From Verif Require Import Base HeaderModel HeaderProofs OptEncModel OptSpec OptDecModel OptDecSpec OptDecProofs DecoderModel DecoderSpec DecoderProofs DecoderProps
  ChunkSpec SbDecModel SbDecSpec SbDecProofs SbDecProps CutProofs HeadCutSpec HeadCutProofs.
Local Open Scope N_scope.

(** C19: after any bytes that read as complete options, well formed or not, a header that lacks bytes
    trips an assertion if one of its nibbles is 15 and otherwise is reported as one option without
    value.  The split into complete options and that header does not depend on the decoder. *)
Theorem C19_cut_header_anywhere : forall h tok rest vs, bytes_ok (hdr_bytes h ++ tok ++ rest) ->
  h0 h mod 16 = N.of_nat (length tok) -> (length tok <= 8)%nat -> rest <> [] -> parse 0 (4 + length tok) rest = (vs, EndInHead) ->
  let chunk := hdr_bytes h ++ tok ++ rest in
  exists pre b r, cut_after 0 (4 + length tok) rest pre b r vs /\
  forall d fuel, idle d -> (dec_fuel chunk <= fuel)%nat ->
  if (b / 16 =? 15) || (b mod 16 =? 15) then dec_run fuel chunk d 0 = Fault
  else exists d1, dec_run fuel chunk d 0 = Ok ([EHeader h; EToken tok; EOptStart] ++ map (vev 0 chunk) vs ++
         [EOption (cut_num (last_num vs 0) b r) [] (cut_len (last_vlen vs 0) b =? 0); EOptDone; ECompleted], d1, length chunk) /\ idle d1.
Proof. exact message_inhead. Qed.
Print Assumptions C19_cut_header_anywhere.

(** C53: the same from a chain of segments, where the end of the data is not announced as a negative
    count (there it is an assertion in every case, C53_refines_parser). *)
Theorem C53_cut_header_anywhere : forall sg eat L h tok rest vs, bytes_ok (concat L) ->
  h0 h mod 16 = N.of_nat (length tok) -> (length tok <= 8)%nat -> rest <> [] -> (sg = true -> ~ In 255 (hdr_bytes h ++ tok)) ->
  concat L = hdr_bytes h ++ tok ++ rest -> parse 0 (4 + length tok) rest = (vs, EndInHead) ->
  exists pre b r, cut_after 0 (4 + length tok) rest pre b r vs /\ forall d, idle d ->
  if (b / 16 =? 15) || (b mod 16 =? 15) then sb_faults sg false eat L d
  else sb_reports sg false eat L d ([EHeader h; EToken tok; EOptStart] ++ map (opt_view L 0) vs ++
         [EOption (cut_num (last_num vs 0) b r) [] (cut_len (last_vlen vs 0) b =? 0); EOptDone; ECompleted]).
Proof.
  intros sg eat L h tok rest vs Hok Hk H8 Hr Hs HL HP. rewrite <- tkl_mod in Hk.
  assert (LL : length (hdr_bytes h ++ tok) = (4 + length tok)%nat) by (rewrite app_length; reflexivity). rewrite <- LL in *.
  rewrite (app_assoc (hdr_bytes h)) in HL.
  destruct (stream_inhead L sg eat h tok (hdr_bytes h ++ tok) rest vs Hok Hk H8 (skims_clean _ _ Hs) Hr HL HP) as (pre & b & r & C & Q).
  exists pre, b, r. split; [exact C|]. intros d Hd. specialize (Q d Hd).
  destruct ((b / 16 =? 15) || (b mod 16 =? 15)); [now apply of_SF|now apply of_SR].
Qed.
Print Assumptions C53_cut_header_anywhere.

(** Options 500, then 4 by a delta of 65040 (no message has that), then a header that announces two
    bytes of delta and two of length, of which three are there; and one with a reserved nibble. *)
Example C19_anywhere_case :
  let pre := [225; 0; 231; 97; 225; 253; 3; 98] in
  parse 0 4 (pre ++ [238; 0; 1; 7]) = ([(500, 1, 7%nat); (4, 1, 11%nat)], EndInHead) /\
  cut_after 0 4 (pre ++ [238; 0; 1; 7]) pre 238 [0; 1; 7] [(500, 1, 7%nat); (4, 1, 11%nat)] /\
  cut_num 4 238 [0; 1; 7] = 274 /\ cut_len 1 238 = 1 /\
  map fst (match dec_run 3000 ([64; 1; 0; 1] ++ pre ++ [238; 0; 1; 7]) sample_dec 0 with Ok (es, _, p) => [(es, p)] | _ => [] end) =
    [[EHeader (Hdr 64 1 0 1); EToken []; EOptStart; EOption 500 [97] true; EOption 4 [98] true; EOption 274 [] false; EOptDone; ECompleted]] /\
  cut_after 0 4 (pre ++ [239; 0]) pre 239 [0] [(500, 1, 7%nat); (4, 1, 11%nat)] /\
  dec_run 400 ([64; 1; 0; 1] ++ pre ++ [239; 0]) sample_dec 0 = Fault /\
  (* in three segments *)
  map fst (match sbd_run 3000 false false true sample_dec (SBuf [] [[64; 1; 0; 1; 225]; [0; 231; 97; 225; 253; 3]; [98; 238; 0; 1; 7]]) with Ok (es, _, p) => [(es, p)] | _ => [] end) =
    [[EHeader (Hdr 64 1 0 1); EToken []; EOptStart; EOption 500 [97] true; EOption 4 [98] true; EOption 274 [] false; EOptDone; ECompleted]].
Proof.
  cbv zeta. split; [vm_compute; reflexivity|].
  split; [split; [reflexivity|]; split; [discriminate|]; split; [right; exists 270, [7]; split; vm_compute; reflexivity|vm_compute; reflexivity]|].
  split; [vm_compute; reflexivity|]. split; [vm_compute; reflexivity|]. split; [vm_compute; reflexivity|].
  split; [split; [reflexivity|]; split; [discriminate|]; split; [left; vm_compute; reflexivity|vm_compute; reflexivity]|].
  split; vm_compute; reflexivity.
Qed.
