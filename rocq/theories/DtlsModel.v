(** Model of src/platform/mbedtls/dtls-datapump.cpp (Dtls::loop), dtls.hpp (DtlsServer) and
    the daemon of test/rtos/esp32/dtls-datapump/main/mbedtls+freertos-datapump.cpp as
    programs over what the library calls return; and of src/platform/mbedtls/esp8266-timing.cpp. *)
From Coq Require Import ZArith.
From Verif Require Import Base.
Local Open Scope Z_scope.

(** error codes of mbedtls 2 (external) *)
Definition WANT_READ : Z := -26880.
Definition WANT_WRITE : Z := -26752.
Definition SSL_TIMEOUT : Z := -26624.
Definition HELLO_VERIFY : Z := -27264.
Definition CLOSE_NOTIFY : Z := -30848.

(** mbedtls_ssl_read (external): a record (of which as much is delivered as there is room
    for) or an error *)
Inductive reading : Type := RData (bs : list N) | RErr (e : positive).

(** What the library answers in one turn of Dtls::loop: mbedtls_net_accept, the address it
    stores, mbedtls_ssl_set_client_transport_id, and the answers to the repeated calls of
    mbedtls_ssl_handshake, _read, _write and _close_notify.  Once such a list is used up
    the call does not return. *)
Record turn : Type := Turn {
  t_accept : Z; t_ip : list N; t_id : Z;
  t_shake : list Z; t_read : list reading; t_write : list Z; t_close : list Z }.

(** the library calls made *)
Inductive lib : Type :=
| LFree | LReset | LAccept | LId (ip : list N) | LBio | LShake | LRead (room : nat) | LWrite (bs : list N) | LClose.
(** what is printed of the data: dtls-datapump.cpp 448 and 472 *)
Inductive shown : Type := SRead (n : Z) (text : list N) | SWritten (n : Z) (text : list N).

(** do ret = call(); while (ret == WANT_READ || ret == WANT_WRITE); as in dtls-datapump.cpp
    390-392, 419-421, 461-463: how many calls, and the last answer *)
Fixpoint insist {R} (want : R -> bool) (rs : list R) : res (nat * R) :=
  match rs with
  | [] => NoFuel
  | r :: t => if want r then bind (insist want t) (fun x => Ok (S (fst x), snd x)) else Ok (1%nat, r)
  end.

(** the condition of these loops *)
Definition want (r : Z) : bool := (r =? WANT_READ) || (r =? WANT_WRITE).
(** dtls-datapump.cpp 481-482 *)
Definition want_write (r : Z) : bool := r =? WANT_WRITE.
(** dtls-datapump.cpp 124-125: the buffer. *)
Definition BUFSIZE : nat := N.to_nat 8192.
(** dtls-datapump.cpp 414: len, a byte less. *)
Definition room : nat := N.to_nat 8191.
(** what mbedtls_ssl_read returns: bytes stored, or the error *)
Definition read_ret (size : nat) (r : reading) : Z :=
  match r with RData bs => Z.of_nat (length (firstn size bs)) | RErr e => Z.neg e end.

(** printf("%s"): up to the first zero; a fault if there is none in the array *)
Fixpoint cstring (b : list N) : res (list N) :=
  match b with
  | [] => Fault
  | x :: r => if (x =? 0)%N then Ok [] else bind (cstring r) (fun t => Ok (x :: t))
  end.

(** dtls-datapump.cpp 415-419: the buffer, zeroed, after the read *)
Definition filled (bs : list N) : list N := firstn room bs ++ repeat 0%N (BUFSIZE - length (firstn room bs)).

(** dtls-datapump.cpp 477-487 *)
Definition dtls_close (t : turn) (l : list lib) (s : list shown) : res (list lib * list shown * Z * bool) :=
  bind (insist want_write (t_close t)) (fun x => Ok (l ++ repeat LClose (fst x), s, 0, true)).

(** dtls-datapump.cpp 442-487: echo what was read *)
Definition dtls_echo (t : turn) (l : list lib) (bs : list N) (len : Z) : res (list lib * list shown * Z * bool) :=
  let buf := filled bs in
  bind (cstring buf) (fun text =>
    bind (insist want (t_write t)) (fun x =>
      let l1 := l ++ repeat (LWrite (firstn (Z.to_nat len) buf)) (fst x) in
      if snd x <? 0 then Ok (l1, [SRead len text], snd x, false)
      else dtls_close t l1 [SRead len text; SWritten (snd x) text])).

(** dtls-datapump.cpp 408-440 *)
Definition dtls_request (t : turn) (l : list lib) : res (list lib * list shown * Z * bool) :=
  bind (insist (fun r => want (read_ret room r)) (t_read t)) (fun x =>
    let l1 := l ++ repeat (LRead room) (fst x) in
    let ret := read_ret room (snd x) in
    if ret <=? 0 then
      if ret =? SSL_TIMEOUT then Ok (l1, [], ret, true)
      else if ret =? CLOSE_NOTIFY then dtls_close t l1 []
      else Ok (l1, [], ret, true)
    else match snd x with
         | RData bs => dtls_echo t l1 bs ret
         | RErr _ => Fault                                     (* negative *)
         end).

(** dtls-datapump.cpp 329-488: the calls, what is printed, *ret and the result.  The
    printing of errors (340) and of what is going on is left out. *)
Definition dtls_loop (t : turn) : res (list lib * list shown * Z * bool) :=
  let l0 := [LFree; LReset; LAccept] in
  if negb (t_accept t =? 0) then Ok (l0, [], t_accept t, false)
  else
    let l1 := l0 ++ [LId (t_ip t)] in
    if negb (t_id t =? 0) then Ok (l1, [], t_id t, false)
    else
      bind (insist want (t_shake t)) (fun x =>
        let l2 := l1 ++ LBio :: repeat LShake (fst x) in
        if snd x =? HELLO_VERIFY then Ok (l2, [], 0, true)
        else if negb (snd x =? 0) then Ok (l2, [], snd x, true)
        else dtls_request t l2).

(** dtls-datapump.cpp 168-321 and dtls.hpp 134-182, 209-299: the calls of setup that can
    fail *)
Inductive step : Type := SCrt | SCas | SKey | SBind | SSeed | SDefaults | SOwnCert | SCookie | SSetup.
(** dtls-datapump.cpp 168-321, in order; the CA list is parsed twice (210-224) *)
Definition setup_steps : list step := [SCrt; SCas; SCas; SKey; SBind; SSeed; SDefaults; SOwnCert; SCookie; SSetup].
(** dtls.hpp 134-182 *)
Definition cert_steps : list step := [SCrt; SCas; SCas; SKey].
(** dtls.hpp 209-299 *)
Definition server_steps : list step := [SBind; SSeed; SDefaults; SOwnCert; SCookie; SSetup].
(** each is called unless one before it failed ([k]: how many were called before) *)
Fixpoint run_steps (answer : nat -> step -> Z) (k : nat) (ss : list step) : list step * Z :=
  match ss with
  | [] => ([], 0)
  | s :: r =>
      if answer k s =? 0 then let '(l, z) := run_steps answer (S k) r in (s :: l, z)
      else ([s], answer k s)
  end.

(** mbedtls+freertos-datapump.cpp 26-67: what the daemon does *)
Inductive deed : Type := DSetup (r : Z) | DTurn (l : list lib) | DShutdown.
(** mbedtls+freertos-datapump.cpp 41-63 with DIAGNOSTIC_MODE (24).  [ss]: what the further
    setups return.  The last component: the result of the setup that ended it, none if it
    still runs after these turns. *)
Fixpoint daemon_loop (ts : list turn) (ss : list Z) (ret : Z) (go : bool) : res (list deed * option Z) :=
  if (ret =? 0) && go then
    match ts with
    | [] => Ok ([], None)
    | t :: r =>
        bind (dtls_loop t) (fun x =>
          let '(l, _, ret1, go1) := x in
          if negb go1 || negb (ret1 =? 0) then
            match ss with
            | [] => NoFuel
            | s :: ss' => bind (daemon_loop r ss' s true) (fun y => Ok (DTurn l :: DShutdown :: DSetup s :: fst y, snd y))
            end
          else bind (daemon_loop r ss ret1 go1) (fun y => Ok (DTurn l :: fst y, snd y)))
    end
  else Ok ([], Some ret).
(** mbedtls+freertos-datapump.cpp 26-72 *)
Definition daemon (s : Z) (ts : list turn) (ss : list Z) : res (list deed * option Z) :=
  bind (daemon_loop ts ss s true) (fun y =>
    Ok (DSetup s :: fst y ++ match snd y with Some _ => [DShutdown] | None => [] end, snd y)).

(** dtls.hpp 302-375, handshake(context, ret): the calls, *ret, the result *)
Definition hs_once (t : turn) : res (list lib * Z * bool) :=
  let l0 := [LFree; LReset; LAccept] in
  if negb (t_accept t =? 0) then Ok (l0, t_accept t, false)
  else
    let l1 := l0 ++ [LId (t_ip t)] in
    if negb (t_id t =? 0) then Ok (l1, t_id t, false)
    else
      bind (insist want (t_shake t)) (fun x =>
        let l2 := l1 ++ LBio :: repeat LShake (fst x) in
        if snd x =? HELLO_VERIFY then Ok (l2, 0, true)
        else if negb (snd x =? 0) then Ok (l2, snd x, false)
        else Ok (l2, snd x, true)).

(** dtls.hpp 378-392, handshake(): until an attempt fails; how many attempts, and the error *)
Fixpoint hs_all (ts : list turn) : res (nat * Z) :=
  match ts with
  | [] => NoFuel
  | t :: r =>
      bind (hs_once t) (fun x =>
        let '(_, ret, ok) := x in
        if ok && (ret =? 0) then bind (hs_all r) (fun y => Ok (S (fst y), snd y)) else Ok (1%nat, ret))
  end.

(** dtls.hpp 402-439, read(netbuf) with a netbuf of [size] bytes: what is in it afterwards
    and the result; how many bytes that are is not passed on *)
Definition srv_read (buf : list N) (rs : list reading) : res (list N * bool) :=
  bind (insist (fun r => want (read_ret (length buf) r)) rs) (fun x =>
    let ret := read_ret (length buf) (snd x) in
    let buf1 := match snd x with RData bs => firstn (length buf) bs ++ skipn (length (firstn (length buf) bs)) buf | RErr _ => buf end in
    Ok (buf1, if ret <=? 0 then negb (ret =? CLOSE_NOTIFY) else true)).

(** src/platform/mbedtls/esp8266-timing.cpp 33-41: xTaskGetTickCount() is 32 bits wide,
    [rate] is portTICK_RATE_MS (external); both are unsigned 32 bit, so is the product *)
Definition tm_now (rate ticks : N) : N := (((ticks mod 2 ^ 32) * rate) mod 2 ^ 32)%N.
(** mbedtls_timing_delay_context (external): timer, int_ms, fin_ms *)
Record delay : Type := Delay { dl_timer : N; dl_int : N; dl_fin : N }.
(** esp8266-timing.cpp 46-64, mbedtls_timing_set_delay (TIMING_METHOD_2) *)
Definition tm_set (rate ticks int_ms fin_ms : N) : delay := Delay (tm_now rate ticks) int_ms fin_ms.
(** esp8266-timing.cpp 69-92, mbedtls_timing_get_delay *)
Definition tm_get (rate ticks : N) (c : delay) : Z :=
  if (dl_fin c =? 0)%N then -1
  else
    let e := ((tm_now rate ticks + 2 ^ 32 - dl_timer c) mod 2 ^ 32)%N in
    if (dl_fin c <? e)%N then 2 else if (dl_int c <? e)%N then 1 else 0.
