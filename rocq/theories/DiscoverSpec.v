(** What the discoverable program answers (C89). *)
From Coq Require Import String.
From Verif Require Import Base HeaderModel OptSpec DiagModel RespSpec PumpModel PumpAnySpec VisitSpec.
Local Open Scope N_scope.

(** the resources, and the path of the list of links *)
Definition disc_paths : list (list (list N)) :=
  [[str "v1"]; [str "v1"; str "api"]; [str "v1"; str "api"; str "test1"]; [str "v1"; str "api"; str "test2"]; [str ".well-known"]].
Definition disc_core : list (list N) := [str ".well-known"; str "core"].

(** RFC 6690 *)
Definition disc_links : list N :=
  str "</v1/api/test1>;rt=""test1_resource"";if=""test_interface"";title=""test title 1"",</v1/api/test2>;rt=""test2_resource"";if=""test_interface""".

(** [r] is the reply to the datagram [c]; [path] is what is seen of its path *)
Definition disc_told (c r : list N) : Prop :=
  exists h tok rest l, parts c h tok rest /\ answerable h /\ seen (fun n => (n =? 11) || (n =? 15)) rest = Ok l /\
    let path := values_of 11 l in
    (path = disc_core /\ r = answer_head 69 h tok ++ 255 :: disc_links) \/
    (In path disc_paths /\ r = answer_head 69 h tok ++ [255]) \/
    (path <> disc_core /\ ~ In path disc_paths /\ r = answer_head 132 h tok ++ [255]).
