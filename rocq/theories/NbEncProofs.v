(** Lemmas for C76: the encoder over a network buffer writes as over a buffer of its whole size. *)
From Verif Require Import Base UIntModel HeaderModel OptEncModel OptSpec StreambufModel StreambufProofs OptEncProps NbEncModel.
Local Open Scope N_scope.

(** [s] holds in front of its write position what [k] holds, with the same room *)
Definition same_sink (k : sink) (s : nsb) : Prop :=
  (ns_pos s <= length (ns_mem s))%nat /\ s_out k = firstn (ns_pos s) (ns_mem s) /\
  s_room k = (length (ns_mem s) - ns_pos s + length (concat (ns_new s)))%nat.
Definition same_enc (b : sbenc) (n : nbenc) : Prop := sb_enc b = ne_enc n /\ same_sink (sb_sink b) (ne_sb n).

Lemma put_same : forall b new mem pos k, (pos <= length mem)%nat -> s_out k = firstn pos mem -> s_room k = (length mem - pos + length (concat new))%nat ->
  match sputc b k, nb_put new mem pos b with
  | None, None => True
  | Some k1, Some s1 => same_sink k1 s1
  | _, _ => False
  end.
Proof.
  intros b. induction new as [|c r IH]; intros mem pos k Hp Ho Hr; cbn [nb_put].
  - destruct (Nat.ltb_spec pos (length mem)) as [L|L]; unfold sputc; rewrite Hr; cbn [concat length].
    + replace (length mem - pos + 0)%nat with (S (length mem - pos - 1))%nat by lia.
      assert (Lf : length (firstn pos mem) = pos) by (rewrite firstn_length; lia).
      split; [|split]; cbn [ns_mem ns_pos ns_new s_out s_room].
      * rewrite app_length, Lf. cbn [length]. lia.
      * rewrite Ho. replace (S pos) with (length (firstn pos mem) + 1)%nat at 1 by lia. rewrite firstn_app_2. reflexivity.
      * rewrite app_length, Lf. cbn [length concat]. rewrite skipn_length. lia.
    + replace (length mem - pos + 0)%nat with 0%nat by lia. exact I.
  - destruct (Nat.ltb_spec pos (length mem)) as [L|L].
    + unfold sputc. rewrite Hr. replace (length mem - pos + length (concat (c :: r)))%nat with (S (length mem - pos - 1 + length (concat (c :: r))))%nat by lia.
      assert (Lf : length (firstn pos mem) = pos) by (rewrite firstn_length; lia).
      split; [|split]; cbn [ns_mem ns_pos ns_new s_out s_room].
      * rewrite app_length, Lf. cbn [length]. lia.
      * rewrite Ho. replace (S pos) with (length (firstn pos mem) + 1)%nat at 1 by lia. rewrite firstn_app_2. reflexivity.
      * rewrite app_length, Lf. cbn [length]. rewrite skipn_length. lia.
    + apply IH.
      * rewrite app_length. lia.
      * rewrite Ho. rewrite firstn_app. replace (pos - length mem)%nat with 0%nat by lia. cbn [firstn]. now rewrite app_nil_r.
      * rewrite Hr. cbn [concat]. rewrite !app_length. lia.
Qed.

Lemma sputc_same : forall b k s, same_sink k s ->
  (sputc b k = None /\ nb_sputc b s = None) \/ (exists k1 s1, sputc b k = Some k1 /\ nb_sputc b s = Some s1 /\ same_sink k1 s1).
Proof.
  intros b k s (A & B & C). pose proof (put_same b (ns_new s) (ns_mem s) (ns_pos s) k A B C) as P. unfold nb_sputc.
  destruct (sputc b k) as [k1|], (nb_put _ _ _ _) as [s1|]; try contradiction; [right; eauto|left; auto].
Qed.

Lemma sputn_cons : forall b bs k, sputn (b :: bs) k = match sputc b k with None => (0%nat, k) | Some k1 => let '(n, k2) := sputn bs k1 in (S n, k2) end.
Proof.
  intros b bs [r o]. unfold sputn, sputc. cbn [s_room s_out length]. destruct r as [|r].
  - cbn [Nat.min firstn]. rewrite Nat.sub_0_r, app_nil_r. reflexivity.
  - cbn [s_room s_out]. rewrite <- Nat.succ_min_distr. cbn [firstn]. rewrite <- app_assoc. reflexivity.
Qed.

Lemma sputn_same : forall bs k s, same_sink k s -> fst (sputn bs k) = fst (nb_sputn bs s) /\ same_sink (snd (sputn bs k)) (snd (nb_sputn bs s)).
Proof.
  induction bs as [|b bs IH]; intros k s H.
  - unfold sputn. cbn [length Nat.min firstn nb_sputn fst snd]. rewrite Nat.sub_0_r, app_nil_r. destruct k. auto.
  - rewrite sputn_cons. cbn [nb_sputn]. destruct (sputc_same b k s H) as [(-> & ->)|(k1 & s1 & -> & -> & H1)]; [auto|].
    destruct (IH k1 s1 H1) as (E & R). destruct (sputn bs k1) as [n k2], (nb_sputn bs s1) as [n2 s2]. cbn [fst snd] in *. subst. auto.
Qed.

(** results correspond *)
Definition same_res (x : res (bool * sbenc)) (y : res (bool * nbenc)) : Prop :=
  match x, y with
  | Ok (a, b), Ok (c, n) => a = c /\ same_enc b n
  | Fault, Fault => True
  | NoFuel, NoFuel => True
  | _, _ => False
  end.

Lemma loop_same : forall fuel o e k s, same_sink k s -> same_res (sb_option_loop fuel o e k) (nb_option_loop fuel o e s).
Proof.
  induction fuel as [|fuel IH]; intros o e k s H; [exact I|]. cbn [sb_option_loop nb_option_loop].
  destruct (generate_iterate o e) as [[r e1]| |]; cbn [bind fst snd]; try exact I.
  assert (G : forall k1 s1, same_sink k1 s1 -> same_res (if ostate_eqb (e_st e1) OptionLengthDone then Ok (true, SB e1 k1) else sb_option_loop fuel o e1 k1)
    (if ostate_eqb (e_st e1) OptionLengthDone then Ok (true, NE e1 s1) else nb_option_loop fuel o e1 s1)).
  { intros k1 s1 H1. destruct (ostate_eqb _ _); [|now apply IH]. split; [reflexivity|]. split; [reflexivity|exact H1]. }
  destruct r as [b|]; [|now apply G]. destruct (sputc_same b k s H) as [(-> & ->)|(k1 & s1 & -> & -> & H1)]; [|now apply G].
  split; [reflexivity|]. split; [reflexivity|exact H].
Qed.

Lemma option_same : forall n l b x, same_enc b x -> same_res (sb_option n l b) (nb_option n l x).
Proof.
  intros n l [e k] [e2 s] (E & H). cbn [sb_enc sb_sink ne_enc ne_sb] in *. subst e2. unfold sb_option, nb_option. cbn [sb_enc sb_sink ne_enc ne_sb].
  destruct H as (A & B & C). rewrite C. apply loop_same. repeat split; assumption.
Qed.

Lemma write_same : forall bs b x, same_enc b x -> same_enc (sb_write bs b) (nb_write bs x).
Proof.
  intros bs [e k] [e2 s] (E & H). unfold sb_write, nb_write. cbn [sb_enc sb_sink ne_enc ne_sb] in *. split; [exact E|]. cbn [sb_sink ne_sb]. now apply sputn_same.
Qed.

Lemma array_same : forall n v b x, same_enc b x -> same_res (sb_option_array n v b) (nb_option_array n v x).
Proof.
  intros n v b x H. unfold sb_option_array, nb_option_array. pose proof (option_same n (N.of_nat (length v)) b x H) as G.
  destruct (sb_option _ _ _) as [[a c]| |], (nb_option _ _ _) as [[a2 c2]| |]; cbn [same_res bind fst snd] in *; try contradiction; try exact I.
  destruct G as (-> & G). destruct a2; cbn [same_res]; (split; [reflexivity|]); [apply (write_same v c c2 G)|exact G].
Qed.

Lemma call_same : forall c b x, same_enc b x -> same_res (sb_call c b) (nb_call c x).
Proof.
  intros c b x H. destruct c as [h|t|n l|n v|n v|n v| |bs]; cbn [sb_call nb_call].
  - split; [reflexivity|]. now apply write_same.
  - split; [reflexivity|]. now apply write_same.
  - now apply option_same.
  - now apply array_same.
  - unfold sb_option_str, nb_option_str. pose proof (option_same n (N.of_nat (length v)) b x H) as G.
    destruct (sb_option _ _ _) as [[a c]| |], (nb_option _ _ _) as [[a2 c2]| |]; cbn [same_res bind fst snd] in *; try contradiction; try exact I.
    destruct G as (-> & G1 & G2). destruct (sputn_same v _ _ G2) as (E & R). destruct (sputn v _) as [n1 k1], (nb_sputn v _) as [n2 s2]. cbn [fst snd] in *. subst.
    split; [reflexivity|]. split; [exact G1|exact R].
  - unfold sb_option_int, nb_option_int. destruct (layer2_set 4 v) as [w| |]; cbn [bind]; try exact I. now apply array_same.
  - unfold sb_payload, nb_payload. destruct H as (E & H). destruct (sputc_same 255 _ _ H) as [(-> & ->)|(k1 & s1 & -> & -> & H1)]; (split; [reflexivity|]); split; assumption.
  - split; [reflexivity|]. now apply write_same.
Qed.

Lemma run_same : forall cs b x ys b1, same_enc b x -> sb_run cs b = Ok (ys, b1) -> exists x1, nb_run cs x = Ok (ys, x1) /\ same_enc b1 x1.
Proof.
  induction cs as [|c cs IH]; intros b x ys b1 H R; cbn [sb_run nb_run] in *; [injection R as <- <-; eauto|].
  pose proof (call_same c b x H) as G. destruct (sb_call c b) as [[a c1]| |], (nb_call c x) as [[a2 c2]| |]; cbn [same_res bind fst snd] in *; try contradiction; try discriminate.
  destruct G as (-> & G). destruct (sb_run cs c1) as [[zs c3]| |] eqn:E; cbn [bind fst snd] in R; try discriminate. injection R as <- <-.
  destruct (IH c1 c2 zs c3 G E) as (x1 & -> & X). cbn [bind fst snd]. eauto.
Qed.

Lemma init_same : forall mem new, same_enc (sb_init (length mem + length (concat new))) (nb_init mem new).
Proof.
  intros. split; [reflexivity|]. split; [cbn; lia|]. split; [reflexivity|]. cbn [sb_init sb_sink s_room nb_init ne_sb ns_mem ns_pos ns_new]. lia.
Qed.

Lemma same_reply : forall b x, same_enc b x -> nb_reply x = s_out (sb_sink b).
Proof. intros b x (_ & _ & H & _). symmetry. exact H. Qed.

(** ** Operators *)

(** the call an operator makes *)
Definition call_of (m : manip) : sbcall :=
  match m with
  | MHeader h => CHeader h
  | MToken t => CToken t
  | MOption n sz => COpt n (sz mod 65536)
  | MPayload => CPayload
  | MPut b => CRaw [b]
  end.

Lemma shift_call : forall m x, shift m x = bind (nb_call (call_of m) x) (fun r => Ok (snd r)).
Proof. intros [h|t|n sz| |b] x; cbn [call_of nb_call shift bind snd]; reflexivity. Qed.

Lemma shifts_run : forall ms x ys x1, nb_run (map call_of ms) x = Ok (ys, x1) -> shifts ms x = Ok x1.
Proof.
  induction ms as [|m ms IH]; intros x ys x1 R; cbn [map nb_run shifts] in *; [congruence|]. rewrite shift_call.
  destruct (nb_call (call_of m) x) as [[a c]| |]; cbn [bind fst snd] in *; try discriminate. destruct (nb_run _ c) as [[zs c1]| |] eqn:E; cbn [bind fst snd] in R; try discriminate.
  injection R as _ <-. eapply IH. exact E.
Qed.
