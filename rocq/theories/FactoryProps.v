(** C98: lookup in key/value tables and function factories. *)
From Coq Require Import ZArith Lia.
From Verif Require Import Base UriModel UriSpec UriProofs FactoryModel FactorySpec FactoryProofs.
Local Open Scope N_scope.

(** A map from C strings to ints gives the value of the first entry with just that name, and
    -1 without one; nothing is read outside of the strings. *)
Theorem C98_map : forall items tab m s, table items tab -> holds m s ->
  (forall k v, first_of (named s) tab (k, v) -> map_find items m = Ok v) /\ (none_of (named s) tab -> map_find items m = Ok (-1)%Z).
Proof.
  intros items tab m s H Hm. unfold map_find. rewrite find_len.
  destruct (loop_spec _ _ _ _ str_equals (named s) (-1)%Z (KStr m) items tab (str_asked _ _ _ _ _ H Hm)) as [I1 I2].
  split; [|exact I2]. intros k v F. apply (I1 (k, v) F).
Qed.
Print Assumptions C98_map.

Theorem C98_map_number : forall items key,
  (forall v, first_of (fun e : Z * Z => fst e = key) items (key, v) -> map_find_num items key = Ok v) /\
  (none_of (fun e => fst e = key) items -> map_find_num items key = Ok (-1)%Z).
Proof.
  intros items key. unfold map_find_num. rewrite find_len.
  destruct (loop_spec _ _ _ _ num_equals (fun e : Z * Z => fst e = key) (-1)%Z key items items (num_asked _ _ _)) as [I1 I2].
  split; [|exact I2]. intros v F. apply (I1 (key, v) F).
Qed.
Print Assumptions C98_map_number.

(** Full claim (false): -1 tells that there is no such name. *)
Theorem C98_not_found_refuted : forall m s rest, holds m s -> map_find ((m, (-1)%Z) :: rest) m = Ok (-1)%Z /\ In (m, (-1)%Z) ((m, (-1)%Z) :: rest).
Proof.
  intros m s rest Hm. split; [|left; reflexivity]. unfold map_find, kv_find. rewrite Nat2Z.id. cbn [length kv_loop str_equals].
  destruct (strcmp_spec s s m m Hm Hm) as (b & E & B). rewrite E. cbn [bind]. rewrite (proj2 B eq_refl). reflexivity.
Qed.
Print Assumptions C98_not_found_refuted.

(** A factory asked with a C string calls the function of the first entry with just that
    name; a null function there counts as no entry, whatever follows. *)
Theorem C98_create : forall C V (nf : V) items tab m s (ctx : C), table items tab -> holds m s ->
  (forall k f, first_of (named s) tab (k, Some f) -> fn_create_array str_equals nf items (KStr m) ctx = f ctx) /\
  (forall k, first_of (named s) tab (k, None) -> fn_create_array str_equals nf items (KStr m) ctx = Ok nf) /\
  (none_of (named s) tab -> fn_create_array str_equals nf items (KStr m) ctx = Ok nf).
Proof.
  intros C V nf items tab m s ctx H Hm. unfold fn_create_array, fn_create. rewrite find_len.
  destruct (loop_spec _ _ _ _ str_equals (named s) None (KStr m) items tab (str_asked _ _ _ _ _ H Hm)) as [I1 I2]. repeat split.
  - intros k f F. rewrite (I1 _ F). reflexivity.
  - intros k F. rewrite (I1 _ F). reflexivity.
  - intros N0. rewrite (I2 N0). reflexivity.
Qed.
Print Assumptions C98_create.

(** Asked with a chunk of bytes it calls the function of the first entry whose name begins
    the bytes. *)
Theorem C98_create_chunk : forall C V (nf : V) items tab data len (ctx : C), table items tab -> (len <= length data)%nat ->
  (forall k f, first_of (begins (firstn len data)) tab (k, Some f) -> fn_create_array str_equals nf items (KChunk data len) ctx = f ctx) /\
  (forall k, first_of (begins (firstn len data)) tab (k, None) -> fn_create_array str_equals nf items (KChunk data len) ctx = Ok nf) /\
  (none_of (begins (firstn len data)) tab -> fn_create_array str_equals nf items (KChunk data len) ctx = Ok nf).
Proof.
  intros C V nf items tab data len ctx H L. unfold fn_create_array, fn_create. rewrite find_len.
  destruct (loop_spec _ _ _ _ str_equals (begins (firstn len data)) None (KChunk data len) items tab (chunk_asked _ _ _ _ _ H L)) as [I1 I2]. repeat split.
  - intros k f F. rewrite (I1 _ F). reflexivity.
  - intros k F. rewrite (I1 _ F). reflexivity.
  - intros N0. rewrite (I2 N0). reflexivity.
Qed.
Print Assumptions C98_create_chunk.

(** Full claim (false): a name asked for as a C string and as a chunk gives the same.  It does for a
    name of the table if it is of 7-bit characters and no name begins another one. *)
Theorem C98_same : forall C V (nf : V) items tab m s (ctx : C), table items tab -> holds m s -> no_prefixes tab ->
  Forall (fun c => c < 128) s -> (exists f, In (s, f) tab) ->
  fn_create_array str_equals nf items (KChunk s (length s)) ctx = fn_create_array str_equals nf items (KStr m) ctx.
Proof.
  intros C V nf items tab m s ctx H Hm NP A (f & If).
  assert (X : exists e, first_of (named s) tab e).
  { clear - If. induction tab as [|[k v] tab IH]; [destruct If|]. destruct (list_eq_dec N.eq_dec k s) as [->|D].
    - exists (s, v), [], tab. split; [reflexivity|]. split; [reflexivity|constructor].
    - destruct If as [E|If]; [injection E as -> _; contradiction|]. destruct (IH If) as (e & pre & post & -> & P & N0).
      exists e, ((k, v) :: pre), post. split; [reflexivity|]. split; [exact P|]. constructor; [exact D|exact N0]. }
  destruct X as ([k g] & F). assert (G : first_of (begins (firstn (length s) s)) tab (k, g)).
  { rewrite firstn_all. destruct F as (pre & post & E & P & N0). exists pre, post. split; [exact E|]. unfold named in P. cbn [fst] in P. subst k. split.
    - split; [exact A|]. exists []. cbn [fst]. rewrite app_nil_r. reflexivity.
    - rewrite Forall_forall in *. intros x Ix [_ [t T]]. apply (N0 x Ix). unfold named.
      apply (NP x (s, f)); [rewrite E; apply in_or_app; left; exact Ix|exact If|]. exists t. exact T. }
  destruct (C98_create C V nf items tab m s ctx H Hm) as (S1 & S2 & _).
  destruct (C98_create_chunk C V nf items tab s (length s) ctx H (le_n _)) as (T1 & T2 & _).
  destruct g as [g|]; [rewrite (S1 _ _ F), (T1 _ _ G)|rewrite (S2 _ F), (T2 _ G)]; reflexivity.
Qed.
Print Assumptions C98_same.

(** An entry whose name begins a later one's takes its requests, if they come as a chunk. *)
Theorem C98_same_refuted : forall C V (nf : V) k t f g (mk mt : list N) (ctx : C), holds mk k -> holds mt (k ++ t) -> t <> [] -> Forall (fun c => c < 128) k ->
  fn_create_array str_equals nf [(mk, Some f); (mt, Some g)] (KChunk (k ++ t) (length (k ++ t))) ctx = f ctx /\
  fn_create_array str_equals nf [(mk, Some f); (mt, Some g)] (KStr mt) ctx = g ctx.
Proof.
  intros C V nf k t f g mk mt ctx Hk Ht Nt A.
  assert (T : table [(mk, Some f); (mt, Some g)] [(k, Some f); (k ++ t, Some g)]) by (repeat constructor; cbn [fst snd]; try apply Hk; try apply Ht).
  split.
  - apply (proj1 (C98_create_chunk C V nf _ _ (k ++ t) (length (k ++ t)) ctx T (le_n _)) k f). exists [], [(k ++ t, Some g)]. rewrite firstn_all.
    split; [reflexivity|]. split; [|constructor]. split; [exact A|exists t; reflexivity].
  - apply (proj1 (C98_create C V nf _ _ mt (k ++ t) ctx T Ht) (k ++ t) g). exists [(k, Some f)], []. split; [reflexivity|]. split; [reflexivity|].
    constructor; [|constructor]. unfold named. cbn [fst]. intros E. apply Nt. apply (app_inv_head k). rewrite app_nil_r. symmetry. exact E.
Qed.
Print Assumptions C98_same_refuted.

(** A chunk whose length is beyond its memory is read past the end if the first name goes on there. *)
Theorem C98_chunk_beyond_refuted : forall C V (nf : V) data len c t m f rest (ctx : C), holds m (data ++ c :: t) -> (length data < len)%nat ->
  Forall (fun c => c < 128) data -> fn_create_array str_equals nf ((m, f) :: rest) (KChunk data len) ctx = Fault.
Proof.
  intros C V nf data len c t m f rest ctx Hm L A. unfold fn_create_array, fn_create, kv_find. rewrite Nat2Z.id. cbn [length kv_loop str_equals].
  enough (X : mem_starts_with data len m = Fault) by (rewrite X; reflexivity). destruct Hm as [N0 [r ->]]. revert len L.
  induction data as [|d data IH]; intros len L; (destruct len as [|len]; [cbn [length] in L; lia|]); cbn [app mem_starts_with length] in *.
  - destruct (N.eqb_spec c 0) as [->|_]; [exfalso; apply N0; left; reflexivity|reflexivity].
  - destruct (N.eqb_spec d 0) as [->|_]; [exfalso; apply N0; left; reflexivity|]. inversion A; subst.
    rewrite (proj2 (char_eqb_iff d d) (conj eq_refl H1)). apply IH; [intros I; apply N0; right; exact I|assumption|lia].
Qed.
Print Assumptions C98_chunk_beyond_refuted.

(** A count given by the caller: only that many items are looked at, none if it is not
    positive; with more than there are the lookup runs off the array unless it finds an item. *)
Theorem C98_count : forall V (nf : V) items tab count m s, table items tab -> holds m s ->
  ((count <= 0)%Z -> kv_find str_equals nf items count (KStr m) = Ok nf) /\
  ((0 <= count <= Z.of_nat (length items))%Z ->
     (forall k v, first_of (named s) (firstn (Z.to_nat count) tab) (k, v) -> kv_find str_equals nf items count (KStr m) = Ok v) /\
     (none_of (named s) (firstn (Z.to_nat count) tab) -> kv_find str_equals nf items count (KStr m) = Ok nf)) /\
  ((Z.of_nat (length items) < count)%Z ->
     (forall k v, first_of (named s) tab (k, v) -> kv_find str_equals nf items count (KStr m) = Ok v) /\
     (none_of (named s) tab -> kv_find str_equals nf items count (KStr m) = Fault)).
Proof.
  intros V nf items tab count m s H Hm. unfold kv_find. repeat apply conj.
  - intros L. replace (Z.to_nat count) with 0%nat by lia. reflexivity.
  - intros L. rewrite loop_prefix by lia.
    assert (T : table (firstn (Z.to_nat count) items) (firstn (Z.to_nat count) tab)).
    { clear L Hm. generalize (Z.to_nat count) as n. induction H as [|a b l l' Hab H IH]; intros [|n]; cbn [firstn]; constructor; auto. apply IH. }
    assert (LE : length (firstn (Z.to_nat count) items) = Z.to_nat count) by (rewrite firstn_length; lia).
    destruct (loop_spec _ _ _ _ str_equals (named s) nf (KStr m) _ _ (str_asked _ _ _ _ _ T Hm)) as [I1 I2]. rewrite LE in I1, I2.
    split; [|exact I2]. intros k v F. apply (I1 (k, v) F).
  - intros L. destruct (loop_over _ _ _ _ str_equals (named s) nf (KStr m) items tab (Z.to_nat count) (str_asked _ _ _ _ _ H Hm)) as [I1 I2]; [lia|].
    split; [|exact I2]. intros k v F. apply (I1 (k, v) F).
Qed.
Print Assumptions C98_count.

(** "wilma" and "fred" of the unit test (test/unit-tests/experimental-test.cpp 178-210 and 233-248). *)
Definition wilma : list N := [0x77; 0x69; 0x6C; 0x6D; 0x61].
Definition fred : list N := [0x66; 0x72; 0x65; 0x64].
Definition test_items : list (list N * option (unit -> res Z)) := [(wilma ++ [0], Some (fun _ => Ok 77%Z)); (fred ++ [0], Some (fun _ => Ok 7%Z))].

Example C98_case : table test_items [(wilma, Some (fun _ => Ok 77%Z)); (fred, Some (fun _ => Ok 7%Z))] /\ holds (fred ++ [0]) fred /\
  fn_create_array str_equals (-1)%Z test_items (KStr (fred ++ [0])) tt = Ok 7%Z /\
  fn_create_array str_equals (-1)%Z test_items (KStr [0x74; 0]) tt = Ok (-1)%Z /\
  fn_create_array str_equals (-1)%Z test_items (KChunk (fred ++ [1]) 5) tt = Ok 7%Z /\
  fn_create_array str_equals (-1)%Z ((fred ++ [0], None) :: test_items) (KStr (fred ++ [0])) tt = Ok (-1)%Z /\
  map_find [(fred ++ [0], 7%Z); (wilma ++ [0], 77%Z)] (wilma ++ [0]) = Ok 77%Z /\ map_find_num [(3, 30); (5, 50)]%Z 5 = Ok 50%Z /\
  kv_find str_equals 0%Z [(fred ++ [0], 7%Z)] 2 (KStr (wilma ++ [0])) = Fault /\
  fn_create_array str_equals (-1)%Z test_items (KChunk [0x77; 0x69] 3) tt = Fault.
Proof.
  assert (N1 : ~ In 0 wilma) by (cbn; intuition discriminate). assert (N2 : ~ In 0 fred) by (cbn; intuition discriminate).
  split; [repeat constructor; cbn [fst snd]; try (exact N1); try (exact N2); exists []; reflexivity|].
  split; [split; [exact N2|exists []; reflexivity]|]. repeat split; vm_compute; reflexivity.
Qed.
