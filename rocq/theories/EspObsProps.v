(** C70: the observable server on FreeRTOS and LwIP. *)
From Verif Require Import Base HeaderModel NetbufModel ObserveModel PumpModel EspObsModel EspObsSpec EspObsProofs.
Local Open Scope N_scope.

(** Whatever arrives and however long it runs, the server sends nothing and registers nobody:
    what arrives stays in the queue, until it is full. *)
Theorem C70_silent : forall A debug room size P start (es : list (event A * ticks)),
  let got := concat (map (fun e => arrived (fst e)) es) in
  if (length got <=? size)%nat
  then exists l, esp_run debug room size P es (fst (esp_start start)) (snd (esp_start start)) = Ok (map (fun _ => None) es, (Pump got [], ObsState [] 0 l))
  else esp_run debug room size P es (fst (esp_start start)) (snd (esp_start start)) = Fault.
Proof.
  intros A debug room size P start es. cbv zeta. unfold esp_start. cbn [fst snd].
  assert (G : forall (es : list (event A * ticks)) q l, (length q <= size)%nat -> let got := q ++ concat (map (fun e => arrived (fst e)) es) in
    if (length got <=? size)%nat then exists l1, esp_run debug room size P es (Pump q []) (ObsState [] 0 l) = Ok (map (fun _ => None) es, (Pump got [], ObsState [] 0 l1))
    else esp_run debug room size P es (Pump q []) (ObsState [] 0 l) = Fault).
  { clear es start. induction es as [|[e k] r IH]; intros q l Hq; cbv zeta.
    - cbn. rewrite app_nil_r. replace (length q <=? size)%nat with true by (symmetry; now apply Nat.leb_le). now exists l.
    - assert (Turn : forall q1, lwip_loop size e (Pump q []) = Ok (None, Some (Pump q1 [])) -> exists l1, esp_turn debug room size P e k (Pump q []) (ObsState [] 0 l) = Ok (None, (Pump q1 [], ObsState [] 0 l1))).
      { intros q1 H. unfold esp_turn. rewrite H. cbn [bind snd fst o_last]. destruct (esp_due P (k_check k) l); cbn; eexists; reflexivity. }
      cbn [map concat fst]. rewrite app_assoc. assert (Ar : arrived e = match v_poll e with PData a b => [(a, b)] | _ => [] end) by reflexivity. rewrite !Ar. clear Ar.
      destruct (v_poll e) as [|a b|] eqn:E.
      + destruct (Turn q) as (l1 & T); [unfold lwip_loop; rewrite E; reflexivity|]. rewrite app_nil_r. specialize (IH q l1 Hq). cbv zeta in IH. cbn [esp_run]. rewrite T. cbn [bind fst snd].
        destruct (_ <=? size)%nat; [destruct IH as (l2 & IH); exists l2|]; rewrite IH; reflexivity.
      + destruct (length q <? size)%nat eqn:F.
        * destruct (Turn (q ++ [(a, b)])) as (l1 & T); [unfold lwip_loop; rewrite E; cbn; unfold enqueue; rewrite F; reflexivity|].
          assert (Hq' : (length (q ++ [(a, b)]) <= size)%nat) by (apply Nat.ltb_lt in F; rewrite app_length; cbn [length]; lia).
          specialize (IH (q ++ [(a, b)]) l1 Hq'). cbv zeta in IH. cbn [esp_run]. rewrite T. cbn [bind fst snd].
          destruct (_ <=? size)%nat; [destruct IH as (l2 & IH); exists l2|]; rewrite IH; reflexivity.
        * assert (X : (length ((q ++ [(a, b)]) ++ concat (map (fun e => arrived (fst e)) r)) <=? size)%nat = false).
          { apply Nat.leb_gt. apply Nat.ltb_ge in F. rewrite !app_length. cbn [length]. lia. }
          rewrite X. cbn [esp_run]. unfold esp_turn, lwip_loop. rewrite E. cbn [p_in]. unfold enqueue. rewrite F. reflexivity.
      + destruct (Turn q) as (l1 & T); [unfold lwip_loop; rewrite E; reflexivity|]. rewrite app_nil_r. specialize (IH q l1 Hq). cbv zeta in IH. cbn [esp_run]. rewrite T. cbn [bind fst snd].
        destruct (_ <=? size)%nat; [destruct IH as (l2 & IH); exists l2|]; rewrite IH; reflexivity. }
  exact (G es [] start (Nat.le_0_l size)).
Qed.
Print Assumptions C70_silent.

(** Were there registrations, a round would come in every turn that finds 1001 times the period
    ticks gone since the last one, over a wrap of the counter too; a round gives every
    registration one message, and the registrations stay who they are. *)
Theorem C70_rounds : forall A debug room size P last es ts p regs mid s1 p1 out, 1 <= P -> timely P last ts ->
  map snd es = map (fun t => Ticks (counter (fst t)) (counter (snd t))) ts ->
  esp_run debug room size P es p (ObsState regs mid (counter last)) = Ok (out, (p1, s1)) ->
  o_mid s1 = mid + N.of_nat (fst (rounds P last ts) * length regs) /\ o_last s1 = counter (snd (rounds P last ts)) /\ map (@os_addr A) (o_regs s1) = map os_addr regs.
Proof.
  intros A debug room size P last es ts p regs mid s1 p1 out HP. revert last es p regs mid s1 p1 out. induction ts as [|[now check] ts IH]; intros last es p regs mid s1 p1 out Ht Hk H.
  - destruct es as [|? ?]; [|discriminate]. cbn in H. injection H as <- <- <-. cbn. repeat split. lia.
  - destruct es as [|[e k] es]; [discriminate|]. cbn [map snd fst] in Hk. injection Hk as -> Hk. cbn [timely] in Ht. destruct Ht as (Ho & Hs & Ht).
    cbn [esp_run] in H. unfold esp_turn in H. destruct (lwip_loop size e p) as [[o [q|]]| |]; try discriminate. cbn [bind snd fst k_check k_now o_last o_mid o_regs] in H.
    rewrite due_iff in H by (assumption || lia). cbn [rounds]. destruct (1001 * P <=? check - last) eqn:E.
    + destruct (for_each debug room emit_observed mid regs) as [((m & r1) & os)| |] eqn:F; try discriminate. cbn [bind] in H. destruct (for_each_count _ _ _ _ _ _ _ _ _ F) as (F1 & F2 & F3 & F4).
      destruct (enqueue_all size os (p_out q)); try discriminate. cbn [bind fst snd] in H.
      destruct (esp_run debug room size P es _ _) as [[o1 [q1 s2]]| |] eqn:G; try discriminate. cbn [bind fst snd] in H. injection H as <- <- <-.
      destruct (IH _ _ _ _ _ _ _ _ Ht Hk G) as (I1 & I2 & I3). destruct (rounds P now ts) as [n l]. cbn [fst snd] in *. rewrite I1, I3, F1, F2, F3. repeat split; [lia|exact I2].
    + cbn [bind fst snd] in H. destruct (esp_run debug room size P es _ _) as [[o1 [q1 s2]]| |] eqn:G; try discriminate. cbn [bind fst snd] in H. injection H as <- <- <-.
      exact (IH _ _ _ _ _ _ _ _ Ht Hk G).
Qed.
Print Assumptions C70_rounds.

(** The intention was a round when a second has passed: ticks are divided by the milliseconds of
    a tick where they should be multiplied, so that with a tick of P milliseconds there is no
    round for P * P seconds, and one in every turn after P * P seconds and P * P milliseconds. *)
Theorem C70_second_refuted : forall P last t, 1 <= P -> last <= t -> t - last < 2 ^ 32 ->
  (millis P (t - last) <= P * P * 1000 -> esp_due P (counter t) (counter last) = false) /\
  (P * P * 1001 <= millis P (t - last) -> esp_due P (counter t) (counter last) = true).
Proof.
  intros P last t HP H K. rewrite due_iff by assumption. unfold millis. split; intro L.
  - apply N.leb_gt. assert (t - last <= P * 1000) by (apply (N.mul_le_mono_pos_r _ _ P); lia). lia.
  - apply N.leb_le. apply (N.mul_le_mono_pos_r _ _ P); lia.
Qed.
Print Assumptions C70_second_refuted.

(** a tick of ten milliseconds: nothing after 100 seconds; a round 100.1 seconds after the start
    of the server, whose counter wrapped in between *)
Example C70_case :
  let con := Event true (PData 7%nat [64; 1; 0; 1]) in let es := [(con, Ticks 5 5); (Event false PError, Ticks 6 7)] in
  esp_run false 4096 1 10 es (fst (esp_start 4294957297)) (snd (esp_start 4294957297)) = Ok ([None; None], (Pump [(7%nat, [64; 1; 0; 1])] [], ObsState [] 0 4294957297)) /\
  esp_run false 4096 1 10 (es ++ es) (fst (esp_start 0)) (snd (esp_start 0)) = Fault /\
  esp_due 10 (counter (4294957297 + 10000)) (counter 4294957297) = false /\ esp_due 10 (counter (4294957297 + 10010)) (counter 4294957297) = true /\
  timely 10 4294957297 [(4294957298, 4294957298); (4294967306, 4294967307); (4294967310, 4294967310)] /\
  rounds 10 4294957297 [(4294957298, 4294957298); (4294967306, 4294967307); (4294967310, 4294967310)] = (1%nat, 4294967306) /\
  match esp_run false 4096 1 10 (map (fun k => (Event true (PNone (A := nat)), k)) [Ticks 4294957298 4294957298; Ticks 10 11; Ticks 14 14]) (Pump [] []) (ObsState [Session 4 7%nat [9]] 0 4294957297) with
  | Ok (out, (p, s)) => out = [None; None; Some (7%nat, [81; 69; 0; 0; 9; 97; 5; 255; 79; 98; 115; 101; 114; 118; 101; 100; 58; 32; 53])] /\ s = ObsState [Session 5 7%nat [9]] 1 10 /\ p = Pump [] []
  | _ => False
  end.
Proof. vm_compute. repeat split; auto; discriminate. Qed.
