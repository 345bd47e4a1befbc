(** Lemmas on the lookups of [FactoryModel]. *)
From Coq Require Import ZArith Lia.
From Verif Require Import Base UriModel UriSpec UriProofs FactoryModel FactorySpec.
Local Open Scope N_scope.

Lemma strcmp_spec : forall a b l r, holds l a -> holds r b -> exists e, strcmp_eq l r = Ok e /\ (e = true <-> a = b).
Proof.
  induction a as [|x a IH]; intros b l r [Na [ta ->]] [Nb [tb ->]].
  - destruct b as [|y b]; cbn [app strcmp_eq].
    + exists true. split; [reflexivity|tauto].
    + destruct (N.eqb_spec 0 y) as [<-|_]; [exfalso; apply Nb; left; reflexivity|]. exists false. split; [reflexivity|]. split; discriminate.
  - destruct b as [|y b]; cbn [app strcmp_eq].
    + destruct (N.eqb_spec x 0) as [->|_]; [exfalso; apply Na; left; reflexivity|]. exists false. split; [reflexivity|]. split; discriminate.
    + destruct (N.eqb_spec x y) as [->|D].
      * destruct (N.eqb_spec y 0) as [->|_]; [exfalso; apply Na; left; reflexivity|].
        destruct (IH b (a ++ 0 :: ta) (b ++ 0 :: tb)) as (e & E & H).
        -- split; [intros I; apply Na; right; exact I|exists ta; reflexivity].
        -- split; [intros I; apply Nb; right; exact I|exists tb; reflexivity].
        -- exists e. split; [exact E|]. rewrite H. split; [intros ->; reflexivity|intros K; injection K; auto].
      * exists false. split; [reflexivity|]. split; [discriminate|]. intros K. injection K as K _. contradiction.
Qed.

Lemma starts_spec : forall k m s n, holds m k -> (n <= length s)%nat -> mem_starts_with s n m = Ok (factory_starts_with (firstn n s) k).
Proof.
  induction k as [|p k IH]; intros m s n [Nk [t ->]] L; cbn [app mem_starts_with factory_starts_with].
  - reflexivity.
  - destruct (N.eqb_spec p 0) as [->|_]; [exfalso; apply Nk; left; reflexivity|].
    destruct n as [|n]; [reflexivity|]. destruct s as [|c s]; [cbn [length] in L; lia|]. cbn [firstn]. cbn [length] in L.
    destruct (char_eqb p c); [|reflexivity]. apply IH; [|lia]. split; [intros I; apply Nk; right; exact I|exists t; reflexivity].
Qed.

(** [b] tells whether the entry has [P], for every item asked. *)
Lemma loop_spec : forall Q K A V (eq : Q -> K -> res bool) (P : A * V -> Prop) (nf : V) key items tab,
  Forall2 (fun it e => (exists b, eq key (fst it) = Ok b /\ (b = true <-> P e)) /\ snd it = snd e) items tab ->
  (forall e, first_of P tab e -> kv_loop eq nf items (length items) key = Ok (snd e)) /\
  (none_of P tab -> kv_loop eq nf items (length items) key = Ok nf).
Proof.
  intros Q K A V eq P nf key items tab H. induction H as [|[k v] e items tab [(b & E & B) Hv] H [I1 I2]]; cbn [length kv_loop fst snd] in *.
  - split; [|reflexivity]. intros e (pre & post & X & _). destruct pre; discriminate.
  - rewrite E. cbn [bind]. split.
    + intros e0 (pre & post & X & Pe & N0). destruct pre as [|a pre]; cbn [app] in X; injection X as -> ->.
      * rewrite (proj2 B Pe). rewrite Hv. reflexivity.
      * inversion N0; subst. destruct b; [exfalso; tauto|]. apply I1. exists pre, post. auto.
    + intros N0. inversion N0; subst. destruct b; [exfalso; tauto|]. apply I2. assumption.
Qed.

Lemma table_length : forall V (items tab : list (list N * V)), table items tab -> length items = length tab.
Proof. intros V items tab H. induction H; cbn [length]; congruence. Qed.

Lemma str_asked : forall V (items tab : list (list N * V)) m s, table items tab -> holds m s ->
  Forall2 (fun it e => (exists b, str_equals (KStr m) (fst it) = Ok b /\ (b = true <-> named s e)) /\ snd it = snd e) items tab.
Proof.
  intros V items tab m s H Hm. induction H as [|it e items tab [H1 H2] H IH]; constructor; [|exact IH]. split; [|exact H2].
  cbn [str_equals]. destruct (strcmp_spec s (fst e) m (fst it) Hm H1) as (b & E & B). exists b. split; [exact E|]. rewrite B. unfold named. split; congruence.
Qed.

Lemma chunk_asked : forall V (items tab : list (list N * V)) data len, table items tab -> (len <= length data)%nat ->
  Forall2 (fun it e => (exists b, str_equals (KChunk data len) (fst it) = Ok b /\ (b = true <-> begins (firstn len data) e)) /\ snd it = snd e) items tab.
Proof.
  intros V items tab data len H L. induction H as [|it e items tab [H1 H2] H IH]; constructor; [|exact IH]. split; [|exact H2].
  cbn [str_equals]. rewrite (starts_spec (fst e)) by assumption. eexists. split; [reflexivity|]. unfold begins. apply factory_prefix.
Qed.

Lemma num_asked : forall V (items : list (Z * V)) key,
  Forall2 (fun it e => (exists b, num_equals key (fst it) = Ok b /\ (b = true <-> fst e = key)) /\ snd it = snd e) items items.
Proof.
  intros V items key. induction items as [|it items IH]; constructor; [|exact IH]. split; [|reflexivity]. eexists. split; [reflexivity|].
  rewrite Z.eqb_eq. split; congruence.
Qed.

Lemma find_len : forall Q K V (eq : Q -> K -> res bool) (nf : V) items key,
  kv_find eq nf items (Z.of_nat (length items)) key = kv_loop eq nf items (length items) key.
Proof. intros. unfold kv_find. rewrite Nat2Z.id. reflexivity. Qed.

Lemma loop_prefix : forall Q K V (eq : Q -> K -> res bool) (nf : V) items n key, (n <= length items)%nat ->
  kv_loop eq nf items n key = kv_loop eq nf (firstn n items) n key.
Proof.
  intros Q K V eq nf items n key. revert items. induction n as [|n IH]; intros items L; [reflexivity|]. destruct items as [|[k v] items]; [reflexivity|].
  cbn [firstn kv_loop]. cbn [length] in L. rewrite <- IH by lia. reflexivity.
Qed.

(** With more rounds than items the loop runs off the array unless an item is found. *)
Lemma loop_over : forall Q K A V (eq : Q -> K -> res bool) (P : A * V -> Prop) (nf : V) key items tab n,
  Forall2 (fun it e => (exists b, eq key (fst it) = Ok b /\ (b = true <-> P e)) /\ snd it = snd e) items tab -> (length items < n)%nat ->
  (forall e, first_of P tab e -> kv_loop eq nf items n key = Ok (snd e)) /\ (none_of P tab -> kv_loop eq nf items n key = Fault).
Proof.
  intros Q K A V eq P nf key items tab n H. revert n. induction H as [|[k v] e items tab [(b & E & B) Hv] H IH]; intros n L; (destruct n as [|n]; [cbn [length] in L; lia|]); cbn [length kv_loop fst snd] in *.
  - split; [|reflexivity]. intros e (pre & post & X & _). destruct pre; discriminate.
  - rewrite E. cbn [bind]. destruct (IH n ltac:(lia)) as [I1 I2]. split.
    + intros e0 (pre & post & X & Pe & N0). destruct pre as [|a pre]; cbn [app] in X; injection X as -> ->.
      * rewrite (proj2 B Pe). rewrite Hv. reflexivity.
      * inversion N0; subst. destruct b; [exfalso; tauto|]. apply I1. exists pre, post. auto.
    + intros N0. inversion N0; subst. destruct b; [exfalso; tauto|]. apply I2. assumption.
Qed.
