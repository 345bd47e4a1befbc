(** C52: options pulled byte by byte out of the option encoder (OptionEncoder::generate). *)
From Verif Require Import Base HeaderModel OptEncModel OptSpec StreambufModel OptEncProofs PullProofs.
Local Open Scope N_scope.

(** Any sequence of options with values of 1 to 256 bytes inside the header guard of
    C08/C09 comes out as RFC 7252 demands, and the number of the last one is remembered. *)
Theorem C52_sequence : forall os st cur pos, opts_within (fun d l => (enc_short d l \/ enc_long d l) /\ 0 < l /\ l <= 256) cur os ->
  exists F st' q, forall n fuel, (F <= n)%nat -> (F <= fuel)%nat ->
    pull_options n fuel os (OEnc st cur pos) = Ok (opts_bytes cur os, OEnc st' (last_number cur os) q).
Proof. exact pull_list. Qed.
Print Assumptions C52_sequence.

(** An option with an empty value is never finished: the header comes out, and then
    generate() does not return. *)
Theorem C52_empty_value_refuted : forall num cur pos n fuel, cur <= num -> num < 65536 -> enc_short (num - cur) 0 ->
  pull n fuel (OBase num 0 []) (oenc_next (OEnc OptionValueDone cur pos)) = NoFuel.
Proof. intros num cur pos n fuel A B C. apply pull_empty; auto. Qed.
Print Assumptions C52_empty_value_refuted.

(** Nor is one with more than 256 bytes, even if its header is right: the position
    has eight bits and the value starts over. *)
Theorem C52_long_value_refuted : forall num v cur pos n fuel, cur <= num -> num < 65536 -> enc_long (num - cur) (len v) -> (256 < length v)%nat ->
  pull n fuel (OBase num (len v) v) (oenc_next (OEnc OptionValueDone cur pos)) = NoFuel.
Proof. intros num v cur pos n fuel A B C D. apply pull_long; auto. Qed.
Print Assumptions C52_long_value_refuted.

(** The two cases of the unit test in a row, with an option of 26 bytes before *)
Example C52_case :
  opts_within (fun d l => (enc_short d l \/ enc_long d l) /\ 0 < l /\ l <= 256) 0 [(1, repeat 7 26); (1, [97]); (10001, [97])] /\
  pull_options 300 300 [(1, [97]); (10001, [97])] oenc_init = Ok ([17; 97; 225; 38; 3; 97], OEnc OptionValueDone 10001 1) /\
  enc_long 5 (len (repeat 7 282)) /\ (256 < length (repeat 7 282))%nat.
Proof.
  split.
  { cbn [opts_within]. unfold enc_short, enc_long, len. cbn [length repeat].
    split; [lia|]. split; [lia|]. split; [split; [right|]; lia|].
    split; [lia|]. split; [lia|]. split; [split; [left|]; lia|].
    split; [lia|]. split; [lia|]. split; [split; [left|]; lia|exact I]. }
  split; [vm_compute; reflexivity|]. split; [|rewrite repeat_length; lia].
  unfold enc_long, len. rewrite repeat_length. split; [lia|]. right. split; [lia|]. split; [lia|]. split; [discriminate|]. left. reflexivity.
Qed.
