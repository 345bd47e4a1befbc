(** Lemmas for C70. *)
From Verif Require Import Base NetbufModel ObserveModel PumpModel EspObsModel EspObsSpec.
Local Open Scope N_scope.

Lemma counter_diff : forall a b, a <= b -> b - a < 2 ^ 32 -> (counter b + 2 ^ 32 - counter a) mod 2 ^ 32 = b - a.
Proof.
  intros a b H K. unfold counter. assert (D : 2 ^ 32 <> 0) by discriminate. pose proof (N.mod_lt a _ D) as La. pose proof (N.mod_lt b _ D) as Lb.
  pose proof (N.div_mod a _ D) as Ea. pose proof (N.div_mod b _ D) as Eb.
  set (qa := a / 2 ^ 32) in *. set (qb := b / 2 ^ 32) in *. set (ra := a mod 2 ^ 32) in *. set (rb := b mod 2 ^ 32) in *. change (2 ^ 32) with 4294967296 in *.
  assert (C : qb = qa \/ qb = qa + 1) by lia. destruct C as [C|C].
  - replace (rb + 4294967296 - ra) with ((b - a) + 1 * 4294967296) by lia. rewrite N.mod_add by discriminate. apply N.mod_small. lia.
  - replace (rb + 4294967296 - ra) with (b - a) by lia. apply N.mod_small. lia.
Qed.

Lemma due_iff : forall P a b, 1 <= P -> a <= b -> b - a < 2 ^ 32 -> esp_due P (counter b) (counter a) = (1001 * P <=? b - a).
Proof.
  intros P a b HP H K. unfold esp_due. rewrite counter_diff by assumption. destruct (1001 * P <=? b - a) eqn:E.
  - apply N.leb_le in E. apply N.ltb_lt. assert (1001 <= (b - a) / P) by (apply N.div_le_lower_bound; lia). lia.
  - apply N.leb_gt in E. apply N.ltb_ge. assert ((b - a) / P < 1001) by (apply N.div_lt_upper_bound; lia). lia.
Qed.

Lemma for_each_count : forall A debug room emit (regs : list (session A)) mid mid1 regs1 outs,
  for_each debug room emit mid regs = Ok (mid1, regs1, outs) -> mid1 = mid + N.of_nat (length regs) /\ length regs1 = length regs /\ map os_addr regs1 = map os_addr regs /\ map fst outs = map os_addr regs.
Proof.
  intros A debug room emit. induction regs as [|s r IH]; intros mid mid1 regs1 outs H.
  - cbn in H. injection H as <- <- <-. cbn. repeat split. lia.
  - cbn [for_each] in H. destruct (notify_one debug room emit mid s) as [((m & s1) & o)| |] eqn:E; try discriminate. cbn [bind] in H.
    destruct (for_each debug room emit m r) as [((m2 & r2) & o2)| |] eqn:F; try discriminate. cbn [bind] in H. injection H as <- <- <-.
    destruct (IH _ _ _ _ F) as (A1 & A2 & A3 & A4).
    assert (K : m = mid + 1 /\ os_addr s1 = os_addr s /\ fst o = os_addr s).
    { unfold notify_one in E. cbv zeta in E. destruct (mid <? 2 ^ 31 - 1); try discriminate.
      repeat match type of E with bind ?x _ = _ => destruct x; cbn [bind] in E; try discriminate end. injection E as <- <- <-. auto. }
    destruct K as (K1 & K2 & K3). cbn [length map]. rewrite A2, A3, A4, K2, K3. repeat split; lia.
Qed.
