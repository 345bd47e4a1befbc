(** Lemmas for C60 and C61. *)
From Coq Require Import String ZArith.
From Verif Require Import Base UIntModel HeaderModel OptDecModel DecoderModel DiagModel DiagSpec.
Local Open Scope N_scope.

Lemma digit_back : forall up d, d < 16 -> digit_of up (digit up d) = Some d.
Proof.
  intros up d H. unfold digit, digit_of. destruct (N.ltb_spec d 10).
  - destruct (N.leb_spec 48 (48 + d)); [|lia]. destruct (N.leb_spec (48 + d) 57); [|lia]. cbn [andb]. f_equal. lia.
  - destruct up.
    + destruct (N.leb_spec (55 + d) 57); [lia|]. rewrite andb_false_r. destruct (N.leb_spec 65 (55 + d)); [|lia]. destruct (N.leb_spec (55 + d) 70); [|lia]. cbn [andb]. f_equal. lia.
    + destruct (N.leb_spec (87 + d) 57); [lia|]. rewrite andb_false_r. destruct (N.leb_spec 97 (87 + d)); [|lia]. destruct (N.leb_spec (87 + d) 102); [|lia]. cbn [andb]. f_equal. lia.
Qed.
Lemma digit_only : forall up c d, digit_of up c = Some d -> c = digit up d.
Proof.
  intros up c d. unfold digit, digit_of. destruct (N.leb_spec 48 c); destruct (N.leb_spec c 57); cbn [andb].
  1: { intros H1. injection H1 as <-. destruct (N.ltb_spec (c - 48) 10); lia. }
  all: destruct up.
  all: match goal with |- (if (?a <=? ?x) && (?x <=? ?b) then _ else _) = _ -> _ => destruct (N.leb_spec a x); destruct (N.leb_spec x b) end; cbn [andb];
    intros HH; try discriminate; injection HH as <-; match goal with |- context [?y <? 10] => destruct (N.ltb_spec y 10) end; lia.
Qed.
Lemma digit_zero : forall up d, d < 16 -> digit up d = 48 -> d = 0.
Proof. intros up d H E. unfold digit in E. destruct (N.ltb_spec d 10); destruct up; lia. Qed.

Lemma value_app : forall up b s t, value_of up b (s ++ t) = fold_left (fun a c => a * b + match digit_of up c with Some d => d | None => 0 end) t (value_of up b s).
Proof. intros. unfold value_of. apply fold_left_app. Qed.

Lemma value_zero : forall up b, value_of up b [48] = 0.
Proof. intros. unfold value_of. cbn [fold_left]. replace (digit_of up 48) with (Some 0) by (destruct up; reflexivity). lia. Qed.

Definition goods (up : bool) (b : N) (t : list N) : Prop := Forall (fun c => exists d, digit_of up c = Some d /\ d < b) t.
Lemma value_fold : forall up b t a, fold_left (fun a c => a * b + match digit_of up c with Some d => d | None => 0 end) t a = a * b ^ N.of_nat (List.length t) + value_of up b t.
Proof.
  intros up b. induction t as [|c t IH]; intros a; [cbn; unfold value_of; cbn; lia|]. cbn [fold_left]. rewrite IH.
  unfold value_of at 2. cbn [fold_left]. rewrite IH. cbn [List.length]. rewrite Nnat.Nat2N.inj_succ, N.pow_succ_r'. lia.
Qed.

Lemma loop_ok : forall fuel up b n acc, 2 <= b <= 16 -> n < 2 ^ N.of_nat fuel -> (fuel <> 0)%nat ->
  exists s, digits_loop fuel up b n acc = s ++ acc /\ numeral up b n s.
Proof.
  induction fuel as [|k IH]; intros up b n acc Hb Hn Hf; [congruence|]. cbn [digits_loop]. destruct (N.ltb_spec n b) as [L|L].
  - exists [digit up n]. split; [reflexivity|]. split; [|split; [|split; [discriminate|]]].
    + constructor; [|constructor]. exists n. split; [apply digit_back; lia|exact L].
    + unfold value_of. cbn [fold_left]. rewrite digit_back by lia. lia.
    + cbn [hd]. intros ->. reflexivity.
  - assert (Dm := N.div_mod n b ltac:(lia)). assert (Ml := N.mod_lt n b ltac:(lia)). assert (Q : n / b <= n / 2) by (apply N.div_le_compat_l; lia).
    assert (Q1 : n / b <> 0) by (intro E; apply N.div_small_iff in E; lia).
    assert (Hk : n / b < 2 ^ N.of_nat k).
    { apply N.le_lt_trans with (n / 2); [exact Q|]. apply N.div_lt_upper_bound; [discriminate|]. rewrite <- N.pow_succ_r', <- Nnat.Nat2N.inj_succ. exact Hn. }
    assert (K : (k <> 0)%nat) by (intros ->; cbn in Hk; lia).
    destruct (IH up b (n / b) (digit up (n mod b) :: acc) Hb Hk K) as (s & E & G & V & Ne & Hz).
    exists (s ++ [digit up (n mod b)]). split; [rewrite E, <- app_assoc; reflexivity|]. split; [|split; [|split]].
    + apply Forall_app. split; [exact G|]. constructor; [|constructor]. exists (n mod b). split; [apply digit_back; lia|exact Ml].
    + rewrite value_app, V. cbn [fold_left]. rewrite digit_back by lia. lia.
    + destruct s; discriminate.
    + destruct s as [|c s]; [congruence|]. cbn [app hd] in *. intros ->. rewrite (Hz eq_refl), value_zero in V. lia.
Qed.
Lemma size_bound : forall n, n < 2 ^ N.of_nat (S (N.size_nat n)).
Proof.
  intros n. apply N.lt_le_trans with (2 ^ N.size n); [apply N.size_gt|]. apply N.pow_le_mono_r; [discriminate|]. rewrite Nnat.Nat2N.inj_succ.
  destruct n as [|p]; [cbn; lia|]. cbn [N.size N.size_nat]. clear. induction p; cbn [Pos.size Pos.size_nat] in *; lia.
Qed.
Lemma digits_numeral : forall up b n, 2 <= b <= 16 -> numeral up b n (digits up b n).
Proof.
  intros up b n Hb. destruct (loop_ok (S (N.size_nat n)) up b n [] Hb (size_bound n) ltac:(discriminate)) as (s & E & H).
  unfold digits. rewrite E, app_nil_r. exact H.
Qed.

Lemma value_pos : forall up b c t, 2 <= b <= 16 -> goods up b (c :: t) -> c <> 48 -> 0 < value_of up b (c :: t).
Proof.
  intros up b c t Hb H Hc. unfold value_of. cbn [fold_left]. rewrite value_fold. inversion H as [|x l (d & D & L) G]; subst. rewrite D.
  assert (d <> 0). { intros ->. apply Hc. rewrite (digit_only up c 0 D). reflexivity. }
  assert (b ^ N.of_nat (List.length t) <> 0) by (apply N.pow_nonzero; lia). nia.
Qed.
Lemma canon_unique : forall up b, 2 <= b <= 16 -> forall s t, goods up b s -> goods up b t -> hd 0 s <> 48 -> hd 0 t <> 48 ->
  value_of up b s = value_of up b t -> s = t.
Proof.
  intros up b Hb. induction s as [|c s IH] using rev_ind; intros t Gs Gt Cs Ct V.
  - destruct t as [|c t]; [reflexivity|]. assert (P := value_pos up b c t Hb Gt Ct). change (value_of up b []) with 0 in V. lia.
  - destruct t as [|c' t _] using rev_ind.
    + exfalso. destruct s as [|x s]; cbn [app] in *.
      * assert (P := value_pos up b c [] Hb Gs Cs). change (value_of up b []) with 0 in V. lia.
      * assert (P := value_pos up b x (s ++ [c]) Hb Gs Cs). change (value_of up b []) with 0 in V. lia.
    + apply Forall_app in Gs. apply Forall_app in Gt. destruct Gs as (Gs & Gc). destruct Gt as (Gt & Gc'). inversion Gc as [|? ? (d & D & L) _]; subst.
      inversion Gc' as [|? ? (d' & D' & L') _]; subst. rewrite !value_app in V. cbn [fold_left] in V. rewrite D, D' in V.
      assert (E : d = d' /\ value_of up b s = value_of up b t).
      { assert (M := f_equal (fun z => z mod b) V). cbn beta in M. rewrite !(N.add_comm (_ * b)), !N.mod_add in M by lia. rewrite !N.mod_small in M by assumption. split; [exact M|]. nia. }
      destruct E as (-> & V'). rewrite (digit_only up c d' D), (digit_only up c' d' D'). f_equal. apply IH; try assumption.
      * destruct s; [discriminate|exact Cs].
      * destruct t; [discriminate|exact Ct].
Qed.
Lemma numeral_unique : forall up b n t, 2 <= b <= 16 -> numeral up b n t -> t = digits up b n.
Proof.
  intros up b n t Hb (G & V & Ne & Z). destruct (digits_numeral up b n Hb) as (G' & V' & Ne' & Z').
  destruct (N.eq_dec (hd 0 t) 48) as [E|E]; destruct (N.eq_dec (hd 0 (digits up b n)) 48) as [E'|E'].
  - rewrite (Z E), (Z' E'). reflexivity.
  - rewrite (Z E), value_zero in V. destruct (digits up b n) as [|c l] eqn:D; [congruence|]. assert (P := value_pos up b c l Hb G' E'). lia.
  - rewrite (Z' E'), value_zero in V'. destruct t as [|c l]; [congruence|]. assert (P := value_pos up b c l Hb G E). lia.
  - apply (canon_unique up b Hb); try assumption. congruence.
Qed.

Lemma hex_two : forall x, x < 256 -> pad_left 2 48 (digits true 16 x) = [digit true (x / 16); digit true (x mod 16)].
Proof.
  intros x H. assert (Dm := N.div_mod x 16 ltac:(lia)). assert (Ml := N.mod_lt x 16 ltac:(lia)). destruct (N.ltb_spec x 16) as [L|L].
  - rewrite N.div_small, N.mod_small by exact L. assert (E : digits true 16 x = [digit true x]).
    { unfold digits. cbn [digits_loop]. apply N.ltb_lt in L. rewrite L. reflexivity. }
    rewrite E. reflexivity.
  - assert (Q : x / 16 < 16) by (apply N.div_lt_upper_bound; lia).
    assert (Q1 : x / 16 <> 0) by (intro E; apply N.div_small_iff in E; lia).
    rewrite <- (numeral_unique true 16 x [digit true (x / 16); digit true (x mod 16)]); [reflexivity|lia|].
    split; [|split; [|split; [discriminate|]]].
    + repeat constructor; eexists; (split; [apply digit_back; assumption|assumption]).
    + unfold value_of. cbn [fold_left]. rewrite !digit_back by assumption. lia.
    + cbn [hd]. intros E. apply digit_zero in E; [contradiction|exact Q].
Qed.
Lemma unhex_dump : forall b, Forall (fun x => x < 256) b -> unhex (concat (map (fun x => pad_left 2 48 (digits true 16 x) ++ [32]) b)) = Some b.
Proof.
  induction b as [|x b IH]; intros H; [reflexivity|]. inversion H as [|? ? Hx Hb]; subst. cbn [map concat]. rewrite hex_two by exact Hx. cbn [app unhex].
  assert (Q : x / 16 < 16) by (apply N.div_lt_upper_bound; lia). assert (Ml := N.mod_lt x 16 ltac:(lia)).
  rewrite !digit_back by assumption. rewrite IH by exact Hb. cbn [N.eqb]. change (32 =? 32) with true. cbn iota. do 2 f_equal.
  assert (Dm := N.div_mod x 16 ltac:(lia)). lia.
Qed.
Lemma dump_length : forall b, Forall (fun x => x < 256) b -> List.length (concat (map (fun x => pad_left 2 48 (digits true 16 x) ++ [32]) b)) = (3 * List.length b)%nat.
Proof.
  induction b as [|x b IH]; intros H; [reflexivity|]. inversion H as [|? ? Hx Hb]; subst. cbn [map concat]. rewrite hex_two by exact Hx. cbn [app List.length]. rewrite IH by exact Hb. lia.
Qed.
Lemma c_str_id : forall t, ~ In 0 t -> c_str t = t.
Proof.
  induction t as [|x t IH]; intros H; [reflexivity|]. cbn [c_str]. destruct (N.eqb_spec x 0) as [->|Nx]; [elim H; left; reflexivity|].
  rewrite IH; [reflexivity|]. intro I. apply H. right; exact I.
Qed.
Lemma c_str_cut : forall t u, ~ In 0 t -> c_str (t ++ 0 :: u) = t.
Proof.
  induction t as [|x t IH]; intros u H; [reflexivity|]. cbn [app c_str]. destruct (N.eqb_spec x 0) as [->|Nx]; [elim H; left; reflexivity|].
  rewrite IH; [reflexivity|]. intro I. apply H. right; exact I.
Qed.

Lemma diag_app : forall w a b, diag w (a ++ b) = bind (diag w a) (fun t => bind (diag w b) (fun u => Ok (t ++ u))).
Proof.
  intros w. induction a as [|e a IH]; intros b; cbn [app diag bind]; [destruct (diag w b); reflexivity|].
  destruct (diag_event w e) as [t| |]; [|reflexivity..]. cbn [bind]. rewrite IH. destruct (diag w a) as [u| |]; [|reflexivity..]. cbn [bind].
  destruct (diag w b) as [z| |]; [|reflexivity..]. cbn [bind]. rewrite app_assoc. reflexivity.
Qed.
(** the events that cannot be printed *)
Definition too_long (e : event) : Prop :=
  match e with EOption n v _ => get_format n = FString /\ (128 <= List.length v)%nat | _ => False end.
Lemma event_ok : forall w e, (exists t, diag_event w e = Ok t) /\ ~ too_long e \/ diag_event w e = Fault /\ too_long e.
Proof.
  intros w [h|t| |n v c| |b l|]; try (left; split; [eexists; reflexivity|intros []]; fail); try (left; split; [eexists; reflexivity|cbn; tauto]; fail).
  cbn [diag_event too_long]. unfold diag_value. destruct (get_format n); try (left; split; [eexists; reflexivity|intros [? ?]; discriminate]; fail).
  destruct (Nat.ltb_spec (List.length v) 128); [left|right].
  - split; [eexists; reflexivity|]. intros [_ ?]. lia.
  - split; [reflexivity|]. split; [reflexivity|assumption].
Qed.
Lemma diag_ok : forall w es, (exists t, diag w es = Ok t) /\ ~ Exists too_long es \/ diag w es = Fault /\ Exists too_long es.
Proof.
  intros w. induction es as [|e es IH]; [left; split; [eexists; reflexivity|intro H; inversion H]|]. cbn [diag].
  destruct (event_ok w e) as [((t & ->) & Ne)|(-> & Te)]; cbn [bind]; [|right; split; [reflexivity|left; exact Te]].
  destruct IH as [((u & ->) & Nes)|(-> & Tes)]; cbn [bind]; [|right; split; [reflexivity|right; exact Tes]].
  left. split; [eexists; reflexivity|]. intro H. inversion H; contradiction.
Qed.
