(** Model of test/posix/cbor/main.cpp: the CBOR server in the loop of PumpModel. *)
From Coq Require Import ZArith.
From Verif Require Import Base HeaderModel NetbufModel ContextModel RespModel OptDecModel DecoderModel PumpModel CborModel CborRespModel.
Local Open Scope N_scope.

(** No code: what fresh memory holds in a turn: that of the other servers, the 4096 bytes of the
    netbuf the datagram is put into (src/platform/generic/malloc_netbuf.h 126-127), and the
    members of the CBOR decoder object *)
Record cworld : Type := CWorld { q_world : world; q_chunk : list N; q_buf : list N; q_hdr : N; q_pos : N }.

(** No code: the memory behind a datagram in its netbuf *)
Definition q_behind (w : cworld) (b : list N) : list N := skipn (length b) (q_chunk w).

(** test/posix/cbor/main.cpp 11-24; what is printed is left out here (see [cbor_server]) *)
Definition cbor_app {A} (debug : bool) (fuel : nat) : server A cworld unit :=
  Server (fun w _ b _ =>
      bind (bind (cbor_server debug nb_size fuel (w_hdr (q_world w)) (w_tok (q_world w)) b (q_behind w b) (w_dec (q_world w)) (q_buf w) (q_hdr w) (q_pos w)) (fun r => Ok (snd r)))
        (fun r => Ok (r, tt)))
    (fun _ _ => Ok ([], tt)).
