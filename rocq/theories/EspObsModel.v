(** Model of test/pio/esp8266/observable-raw/src/lwip+freertos-datapump.cpp: the observable
    server on FreeRTOS and LwIP. *)
From Verif Require Import Base NetbufModel ObserveModel PumpModel.
Local Open Scope N_scope.

(** lwip+freertos-datapump.cpp 42: xTaskGetTickCount() gives [check]; portTickType has 32 bits;
    [period] is portTICK_PERIOD_MS, the milliseconds of one tick *)
Definition esp_due (period check last : N) : bool := 1000 <? ((check + 2 ^ 32 - last) mod 2 ^ 32) / period.

(** No code: the readings of the tick counter in one turn (lines 39 and 42) *)
Record ticks : Type := Ticks { k_now : N; k_check : N }.

(** lwip+freertos-datapump.cpp 37-49, a turn of the loop.  [room] is the size of a new netbuf.
    The time of the last round is [o_last].  lwip_loop always leaves a pump. *)
Definition esp_turn {A} (debug : bool) (room size : nat) (period : N) (e : event A) (k : ticks) (p : pump A) (s : obs_state A)
  : res (option (A * list N) * (pump A * obs_state A)) :=
  bind (lwip_loop size e p) (fun x =>
    match snd x with
    | None => Fault
    | Some p1 =>
        if esp_due period (k_check k) (o_last s) then
          bind (for_each debug room emit_observed (o_mid s) (o_regs s)) (fun y =>
            let '(mid, regs, outs) := y in
            bind (enqueue_all size outs (p_out p1)) (fun q => Ok (fst x, (Pump (p_in p1) q, ObsState regs mid (k_now k)))))
        else Ok (fst x, (p1, s))
    end).

(** the loop (35-51), as many turns as there are events: what is sent in each turn *)
Fixpoint esp_run {A} (debug : bool) (room size : nat) (period : N) (es : list (event A * ticks)) (p : pump A) (s : obs_state A)
  : res (list (option (A * list N)) * (pump A * obs_state A)) :=
  match es with
  | [] => Ok ([], (p, s))
  | (e, k) :: r =>
      bind (esp_turn debug room size period e k p s) (fun x =>
        bind (esp_run debug room size period r (fst (snd x)) (snd (snd x))) (fun y => Ok (fst x :: fst y, snd y)))
  end.

(** lwip+freertos-datapump.cpp 19-33: nothing registered, nothing in the queues, the counter
    read once before the loop *)
Definition esp_start {A} (start : N) : pump A * obs_state A := (Pump [] [], ObsState [] 0 start).
