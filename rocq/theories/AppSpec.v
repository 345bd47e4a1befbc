(** What a server should answer. *)
From Verif Require Import Base HeaderModel HeaderSpec OptSpec DecoderSpec.
Local Open Scope N_scope.

(** the Uri-Path segments of a message *)
Definition path_of (os : list opt) : list (list N) := map snd (filter (fun o => fst o =? 11) os).

(** the acknowledgement that answers header [h] with token [tok] *)
Definition answer (h : hdr) (tok : list N) (code : N) (os : list opt) (p : option (list N)) : list N :=
  wire (Fields (hdr_version h) ACK (hdr_tkl h) code (hdr_mid h)) ++ tok ++ opts_bytes 0 os ++ pay_bytes p.
Definition not_found (h : hdr) (tok : list N) : list N := answer h tok 132 [] None.
Definition version_answer (h : hdr) (tok text : list N) : list N := answer h tok 69 [(12, [])] (Some text).
