(** Model of the daemons of test/pio/esp8266/datapump and datapump-raw-uri: the ping and the uri server in
    the loop of src/platform/lwip/lwip-datapump.cpp. *)
From Verif Require Import Base HeaderModel NetbufModel ContextModel RespModel OptDecModel DecoderModel PumpModel.
Local Open Scope N_scope.

(** test/pio/esp8266/datapump/src/lwip+freertos-datapump.cpp 14-32, coap_daemon; [cap] is the room of a
    fresh LwipNetbuf (external).  A received netbuf is taken as one chunk. *)
Definition lwip_ping {A} (skip debug : bool) (cap fuel : nat) : server A world unit :=
  Server (fun w _ b _ => bind (ping skip debug cap fuel (w_hdr w) (w_tok w) b (w_dec w)) (fun r => Ok (r, tt))) (fun _ _ => Ok ([], tt)).

(** test/pio/esp8266/datapump-raw-uri/src/lwip+freertos-datapump.cpp 14-26, coap_daemon *)
Definition lwip_uri {A} (cap fuel : nat) : server A world unit :=
  Server (fun w _ b _ => bind (uri_server false cap fuel (w_hdr w) (w_tok w) b (w_dec w)) (fun r => Ok (r, tt))) (fun _ _ => Ok ([], tt)).
