(** What the loops of the example servers make of any traffic (C85). *)
From Verif Require Import Base HeaderModel HeaderSpec OptSpec RespSpec PumpModel ObserveModel NetAnySpec.
From Verif Require ObserveSpec.
Local Open Scope N_scope.

(** header, token and the rest of a datagram *)
Definition parts (c : list N) (h : hdr) (tok rest : list N) : Prop :=
  c = hdr_bytes h ++ tok ++ rest /\ h0 h mod 16 = len tok /\ (length tok <= 8)%nat.

(** [r] is the reply of a ping server to the datagram [c]; with [skip] it looks at the options *)
Definition pinged (skip : bool) (c r : list N) : Prop :=
  exists h tok rest, parts c h tok rest /\ answerable h /\ (skip = true -> ~ unreadable (4 + length tok) rest) /\ r = answer_head 69 h tok.

(** How a program ends that replies as [rep] says, in the memory it finds in that turn: with a fault, with exit, or it still runs and
    has a datagram to send or none; with what it has sent, turn by turn. *)
Inductive outcome (A : Type) : Type :=
| Crashed
| Exited (out : list (option (A * list N)))
| Running (out : list (option (A * list N))) (waiting : option (A * list N)).
Arguments Crashed {A}.
Arguments Exited {A}.
Arguments Running {A}.

Definition after {A} (x : option (A * list N)) (o : outcome A) : outcome A :=
  match o with Crashed => Crashed | Exited l => Exited (x :: l) | Running l w => Running (x :: l) w end.

Inductive course {A W} (rep : W -> list N -> list N -> Prop) : option (A * list N) -> list (event A * W) -> outcome A -> Prop :=
| c_end : forall x, course rep x [] (Running [] x)
| c_unsent : forall x e m r, v_sent e = false -> course rep (Some x) ((e, m) :: r) (Exited [None])
| c_exit : forall x e m r, x = None \/ v_sent e = true -> v_poll e = PError \/ (exists a, v_poll e = PData a []) -> course rep x ((e, m) :: r) (Exited [x])
| c_quiet : forall x e m r o, x = None \/ v_sent e = true -> v_poll e = PNone -> course rep None r o -> course rep x ((e, m) :: r) (after x o)
| c_reply : forall x e m r o a dg b, x = None \/ v_sent e = true -> v_poll e = PData a dg -> dg <> [] -> rep m (firstn 4096 dg) b ->
    course rep (Some (a, b)) r o -> course rep x ((e, m) :: r) (after x o)
| c_crash : forall x e m r a dg, x = None \/ v_sent e = true -> v_poll e = PData a dg -> dg <> [] -> (forall b, ~ rep m (firstn 4096 dg) b) ->
    course rep x ((e, m) :: r) Crashed.

(** anything may arrive, and fresh memory may hold anything *)
Definition open_ok {A} (e : event A * world) : Prop :=
  hdr_ok (w_hdr (snd e)) /\ DecoderSpec.idle (w_dec (snd e)) /\ match v_poll (fst e) with PData _ dg => bytes_ok dg | _ => True end.

(** the datagrams that came, as far as [cut] leaves them *)
Fixpoint heard {A W} (cut : list N -> list N) (es : list (event A * W)) : list (A * list N) :=
  match es with
  | [] => []
  | (e, _) :: r => match v_poll e with PData a dg => (a, cut dg) :: heard cut r | _ => heard cut r end
  end.

(** a reply to one of the datagrams *)
Definition is_reply {A} (got : list (A * list N)) (x : A * list N) : Prop :=
  exists c h tok rest code path, In (fst x, c) got /\ parts c h tok rest /\ answerable h /\ snd x = sent 4096 code h tok path.
(** somebody at this address has used this token *)
Definition has_used {A} (got : list (A * list N)) (a : A) (tok : list N) : Prop :=
  exists c h rest, In (a, c) got /\ parts c h tok rest /\ answerable h.
(** a notification for one who has asked with this token *)
Definition is_notice {A} (got : list (A * list N)) (x : A * list N) : Prop :=
  exists tok k seq, has_used got (fst x) tok /\ ObserveSpec.notification k tok seq (snd x).
