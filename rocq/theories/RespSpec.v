(** What the example servers see of a request and what they send. *)
From Verif Require Import Base HeaderModel OptSpec ReplyProps.
Local Open Scope N_scope.

(** the values of the options with number [n], in order *)
Fixpoint values_of (n : N) (os : list (N * list N)) : list (list N) :=
  match os with
  | [] => []
  | (k, v) :: r => if k =? n then v :: values_of n r else values_of n r
  end.

(** a path written with a slash after each segment *)
Definition slashed (vs : list (list N)) : list N := concat (map (fun v => v ++ [47]) vs).

(** confirmable requests are acknowledged, others answered in kind *)
Definition answer_head (code : N) (h : hdr) (tok : list N) : list N :=
  reply_wire (if hdr_type h =? CON then ACK else NON) code h tok.

(** requests that can be answered *)
Definition answerable (h : hdr) : Prop := hdr_type h = CON \/ hdr_type h = NON.

(** what a server sends into a netbuf of [cap] bytes: header and token, and a payload
    behind its marker as far as it fits *)
Definition sent (cap : nat) (code : N) (h : hdr) (tok payload : list N) : list N :=
  firstn cap (answer_head code h tok ++ 255 :: payload).

(** the code for a visited Observe option: 2.03 for 0 and 1, 4.02 for the rest *)
Definition observe_code (v : list N) : N := match v with [] | 0 :: _ | 1 :: _ => 67 | _ => 130 end.
(** asks to register *)
Definition registers (v : list N) : bool := match v with [] | 0 :: _ => true | _ => false end.
