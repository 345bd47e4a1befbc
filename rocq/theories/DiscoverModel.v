(** Model of the tables and the loop of test/posix/discoverable/main.cpp; the server itself is
    [core_server] of RespModel. *)
From Coq Require Import String ZArith.
From Verif Require Import Base HeaderModel NetbufModel ContextModel UriModel DiagModel RespModel OptDecModel DecoderModel PumpModel.
Local Open Scope N_scope.

(** test/posix/discoverable/main.cpp 29-33 with 14-15 *)
Definition disc_data : list core_data :=
  [CoreData 2 (str "test1_resource") (str "test_interface"); CoreData 3 (str "test2_resource") (str "test_interface")].

(** test/posix/discoverable/main.cpp 36-48, extra_link_attribute_handler *)
Definition disc_extra (id : Z) : list N := if Z.eqb id 2 then str ";title=""test title 1""" else [].

(** test/posix/discoverable/main.cpp 50-170.  The item is taken from the queue before the reply
    is made (118), which [service] does after; nothing in between looks at the queue. *)
Definition disc_app {A} (debug : bool) (fuel : nat) : server A world unit :=
  Server (fun w _ b _ => bind (core_server debug nb_size fuel (w_hdr w) core_rows disc_data disc_extra id_core (w_tok w) b (w_dec w)) (fun r => Ok (r, tt)))
    (fun _ _ => Ok ([], tt)).
