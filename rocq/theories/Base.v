(** Common vocabulary: outcomes, bytes, list helpers.  No code of /repo is
    modelled here. *)
From Coq Require Export List NArith ZArith Arith Lia Bool.
From Coq Require Export ZifyBool ZifyNat ZifyN.
Export ListNotations.
Ltac Zify.zify_post_hook ::= Z.div_mod_to_equations.

Arguments N.add : simpl never.
Arguments N.sub : simpl never.
Arguments N.mul : simpl never.
Arguments N.div : simpl never.
Arguments N.modulo : simpl never.
Arguments N.pow : simpl never.
Arguments N.shiftl : simpl never.
Arguments N.shiftr : simpl never.
Arguments N.land : simpl never.
Arguments N.lor : simpl never.
Arguments N.ltb : simpl never.
Arguments N.leb : simpl never.
Arguments N.eqb : simpl never.

(** Outcome of a modelled call.  [Fault]: an ASSERT_ERROR/ASSERT_ABORT fired or
    memory outside an object was touched.  [NoFuel]: the fuel given to a
    modelled loop ran out (the C++ loop has not ended yet). *)
Inductive res (A : Type) : Type :=
| Ok (a : A)
| Fault
| NoFuel.
Arguments Ok {A} a.
Arguments Fault {A}.
Arguments NoFuel {A}.

Definition bind {A B} (r : res A) (k : A -> res B) : res B :=
  match r with
  | Ok a => k a
  | Fault => Fault
  | NoFuel => NoFuel
  end.

Definition byte_ok (b : N) : Prop := (b < 256)%N.
Definition bytes_ok (bs : list N) : Prop := Forall byte_ok bs.

(** Lifting a finite sweep to a universally quantified statement. *)
Definition upto (n : nat) : list N := map N.of_nat (seq 0 n).

Lemma in_upto : forall n (b : N), (b < N.of_nat n)%N -> In b (upto n).
Proof.
  intros n b Hb. unfold upto. apply in_map_iff. exists (N.to_nat b).
  split; [lia|]. apply in_seq. lia.
Qed.

Lemma sweep : forall (n : nat) (P : N -> bool),
  forallb P (upto n) = true -> forall b, (b < N.of_nat n)%N -> P b = true.
Proof.
  intros n P H b Hb. rewrite forallb_forall in H. apply H, in_upto, Hb.
Qed.

Lemma bytes_ok_app : forall xs ys, bytes_ok (xs ++ ys) <-> bytes_ok xs /\ bytes_ok ys.
Proof. intros; unfold bytes_ok; apply Forall_app. Qed.

(** Low masks and disjoint [lor]. *)
Lemma land_mask : forall a k, N.land a (N.ones k) = (a mod 2 ^ k)%N.
Proof. intros; apply N.land_ones. Qed.

Lemma lor_add : forall a b k, (b < 2 ^ k)%N -> N.lor (a * 2 ^ k) b = (a * 2 ^ k + b)%N.
Proof.
  intros a b k Hb.
  rewrite <- N.lxor_lor.
  - symmetry. apply N.add_nocarry_lxor.
    apply N.bits_inj_iff. intro n. rewrite N.land_spec, N.bits_0.
    destruct (N.lt_ge_cases n k) as [Hn|Hn].
    + rewrite N.mul_pow2_bits_low by assumption. reflexivity.
    + rewrite <- (N.mod_small b (2 ^ k)) by assumption.
      rewrite N.mod_pow2_bits_high by assumption. apply andb_false_r.
  - apply N.bits_inj_iff. intro n. rewrite N.land_spec, N.bits_0.
    destruct (N.lt_ge_cases n k) as [Hn|Hn].
    + rewrite N.mul_pow2_bits_low by assumption. reflexivity.
    + rewrite <- (N.mod_small b (2 ^ k)) by assumption.
      rewrite N.mod_pow2_bits_high by assumption. apply andb_false_r.
Qed.
