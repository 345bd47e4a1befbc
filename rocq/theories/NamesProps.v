(** C80: names of states and types.  C81: the Uri-Path repeater. *)
From Coq Require Import String.
From Verif Require Import Base HeaderModel HeaderProofs OptEncModel OptSpec OptDecModel DecoderModel DecoderSpec DecoderProofs DecoderProps ChunkSpec ChunkProps DiagModel NamesModel.
Local Open Scope N_scope.

(** C80: the name of a decoder state, if it has one, names no other; only the initial state has none. *)
Theorem C80_root : (forall s t n, describe_root s = Some n -> describe_root t = Some n -> s = t) /\
  (forall s, describe_root s = None <-> s = Uninitialized).
Proof.
  split; [intros [] [] n H K; cbn in *; try discriminate; try reflexivity; congruence|].
  intros []; split; cbn; congruence.
Qed.
Print Assumptions C80_root.

(** C80: what is put out for a state of the option decoder tells the state, and is never empty. *)
Theorem C80_option : (forall s t, print_option s = print_option t -> s = t) /\ (forall s, print_option s <> []).
Proof. split; [intros [] []; vm_compute; congruence|intros []; vm_compute; discriminate]. Qed.
Print Assumptions C80_option.

(** C80: for the type of any received header a name is put out, and tells the type. *)
Theorem C80_type : (forall h, hdr_ok h -> exists t, print_type (hdr_type h) = Ok t) /\
  (forall a b t, print_type a = Ok t -> print_type b = Ok t -> a = b).
Proof.
  split.
  - intros h H. assert (T := hdr_type_lt h H).
    unfold print_type, type_string. destruct (N.eqb_spec (hdr_type h) 0); [eexists; reflexivity|].
    destruct (N.eqb_spec (hdr_type h) 1); [eexists; reflexivity|]. destruct (N.eqb_spec (hdr_type h) 2); [eexists; reflexivity|].
    destruct (N.eqb_spec (hdr_type h) 3); [eexists; reflexivity|]. lia.
  - intros a b t. unfold print_type, type_string.
    destruct (N.eqb_spec a 0) as [->|]; [|destruct (N.eqb_spec a 1) as [->|]; [|destruct (N.eqb_spec a 2) as [->|]; [|destruct (N.eqb_spec a 3) as [->|]; [|discriminate]]]];
    (destruct (N.eqb_spec b 0) as [->|]; [|destruct (N.eqb_spec b 1) as [->|]; [|destruct (N.eqb_spec b 2) as [->|]; [|destruct (N.eqb_spec b 3) as [->|]; [|discriminate]]]]);
    vm_compute; congruence.
Qed.
Print Assumptions C80_type.

Example C80_case : describe_root TokenDone = Some "Token Done"%string /\ describe_root RToken = Some "Token"%string /\
  print_option ValueStart = [55] /\ print_option OptionDone = [49; 48] /\ print_option OptionDelta = [68; 101; 108; 116; 97; 32; 102; 111; 117; 110; 100] /\
  print_type 3 = Ok [82; 101; 115; 101; 116] /\ print_type 4 = Fault.
Proof. repeat split. Qed.

(** ** C81 *)

Definition segments (os : list opt) : list (list N) := map snd (filter (fun o => fst o =? 11) os).

Lemma repeat_app : forall a b, repeat_events (a ++ b) = repeat_events a ++ repeat_events b.
Proof. intros a b. apply flat_map_app. Qed.

Lemma repeat_msg : forall m, repeat_events (msg_events m) = map snd (m_opts m).
Proof.
  intros m. unfold msg_events. rewrite !repeat_app. cbn [repeat_events flat_map repeat_event List.app].
  assert (A : repeat_events (opt_events (m_opts m)) = map snd (m_opts m)).
  { induction (m_opts m) as [|[n v] r IH]; [reflexivity|]. cbn. f_equal. exact IH. }
  rewrite A. destruct (m_pay m); cbn; rewrite !app_nil_r; reflexivity.
Qed.

(** C81: of every message the repeater passes on the values of all options, in order, as path segments ... *)
Theorem C81_all : forall m d fuel, msg_ok m -> m_opts m <> [] \/ m_pay m <> None -> idle d -> (dec_fuel (msg_bytes m) <= fuel)%nat ->
  exists es d1 p, dec_run fuel (msg_bytes m) d 0 = Ok (es, d1, p) /\ repeat_events es = map snd (m_opts m).
Proof.
  intros m d fuel Hm Hn Hd Hf. destruct (C14_whole_message m d fuel Hm Hn Hd Hf) as (d1 & E & _).
  exists (msg_events m), d1, (List.length (msg_bytes m)). split; [exact E|apply repeat_msg].
Qed.
Print Assumptions C81_all.

Lemma filter_length_le : forall (os : list opt), (List.length (filter (fun o => fst o =? 11)%N os) <= List.length os)%nat.
Proof. induction os as [|o r IH]; cbn; [lia|]. destruct (fst o =? 11); cbn; lia. Qed.

Lemma segments_all : forall os, map snd os = segments os <-> Forall (fun o => fst o = 11) os.
Proof.
  intros os. unfold segments. split.
  - intros H. apply (f_equal (@List.length _)) in H. rewrite !map_length in H. revert H.
    induction os as [|[n v] r IH]; intros H; [constructor|]. cbn in H. destruct (N.eqb_spec n 11) as [->|].
    + constructor; [reflexivity|]. apply IH. cbn in H. lia.
    + pose proof (filter_length_le r) as K. unfold opt in *. lia.
  - induction 1 as [|[n v] r H _ IH]; [reflexivity|]. cbn [fst] in H. subst n. cbn [map filter fst snd]. change (11 =? 11) with true. cbn [map snd]. f_equal. exact IH.
Qed.

(** ... which is the path exactly if the message has no other option. *)
Theorem C81_path : forall m d fuel es d1 p, msg_ok m -> m_opts m <> [] \/ m_pay m <> None -> idle d -> (dec_fuel (msg_bytes m) <= fuel)%nat ->
  dec_run fuel (msg_bytes m) d 0 = Ok (es, d1, p) ->
  (repeat_events es = segments (m_opts m) <-> Forall (fun o => fst o = 11) (m_opts m)).
Proof.
  intros m d fuel es d1 p Hm Hn Hd Hf E. destruct (C14_whole_message m d fuel Hm Hn Hd Hf) as (d2 & E2 & _).
  rewrite E in E2. injection E2 as -> -> ->. rewrite repeat_msg. apply segments_all.
Qed.
Print Assumptions C81_path.

(** However the message is cut into chunks, as many segments are passed on as there are options ... *)
Theorem C81_chunks : forall m cs final d, msg_ok m -> m_opts m <> [] \/ m_pay m <> None -> idle d ->
  Forall (fun c => c <> []) (cs ++ [final]) -> List.concat (cs ++ [final]) = msg_bytes m ->
  exists F es d1, (forall fuel, (F <= fuel)%nat -> dec_chunks fuel cs final d = Ok (es, d1)) /\
    List.length (repeat_events es) = List.length (m_opts m).
Proof.
  intros m cs final d Hm Hn Hd Hf Hs. destruct (C20_cut_independent m cs final d Hm Hn Hd Hf Hs) as (F & es & d1 & _ & B & E).
  exists F, es, d1. split; [exact E|].
  assert (K : forall l, List.length (repeat_events l) = List.length (repeat_events (bare l))).
  { intros l. unfold bare. induction l as [|e r IH]; [reflexivity|]. destruct e; cbn; auto. }
  rewrite K, B, <- K, repeat_msg, map_length. reflexivity.
Qed.
Print Assumptions C81_chunks.

(** ... but one whose value lies in two chunks is passed on cut short, as a whole segment. *)
Theorem C81_chunks_refuted : exists m cs final d es d1, msg_ok m /\ idle d /\ Forall (fun c => c <> []) (cs ++ [final]) /\
  List.concat (cs ++ [final]) = msg_bytes m /\ Forall (fun o => fst o = 11) (m_opts m) /\
  dec_chunks 40 cs final d = Ok (es, d1) /\ segments (m_opts m) = [[104; 105]] /\ repeat_events es = [[104]].
Proof.
  exists (Msg (Hdr 64 1 0 1) [] [(11, [104; 105])] (Some [1; 2; 3])), [[64; 1]; [0; 1; 178; 104]; [105; 255; 1; 2]], [3], sample_dec.
  do 2 eexists. split; [|split; [apply sample_idle|split; [|split; [reflexivity|split; [|split; [vm_compute; reflexivity|split; reflexivity]]]]]].
  - unfold msg_ok, hdr_ok, bytes_ok, byte_ok. cbn. repeat split; repeat constructor; try lia.
  - repeat constructor; discriminate.
  - repeat constructor.
Qed.
Print Assumptions C81_chunks_refuted.

(** a message with four options, two of them of the path: four segments are passed on *)
Example C81_case : msg_ok sample_msg /\ segments (m_opts sample_msg) = [[97; 98]; []] /\
  (exists es d1 p, dec_run 40 (msg_bytes sample_msg) sample_dec 0 = Ok (es, d1, p) /\ repeat_events es = [[104]; [97; 98]; []; [1]]) /\
  (exists es d1 p, dec_run 40 [64; 1; 0; 1; 177; 97; 1; 98] sample_dec 0 = Ok (es, d1, p) /\ repeat_events es = [[97]; [98]]).
Proof.
  split; [apply C14_case|]. split; [reflexivity|]. split; do 3 eexists; (split; [vm_compute; reflexivity|reflexivity]).
Qed.
