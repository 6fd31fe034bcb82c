(** Base: outcomes of C functions, C integers, loops, arrays.
    Nothing here models a particular source file; it is the vocabulary the model
    files are written in.  Platform: LP64, gcc, two's complement. *)
From Coq Require Export String List ZArith Lia Bool.
Export ListNotations.
#[global] Open Scope Z_scope.

(** Outcome of running a C function: returned, [abort()] (e.g. handles.c 88), [exit(c)] (e.g. mpi.c 235), undefined
    behaviour, or (fuelled loops only) did not finish. *)
Inductive res (A : Type) : Type :=
| Ok (a : A)
| Abort (m : string)
| Exit (c : Z) (m : string)
| UB (m : string)
| Diverge.
Arguments Ok {A} a.
Arguments Abort {A} m.
Arguments Exit {A} c m.
Arguments UB {A} m.
Arguments Diverge {A}.

(** C: one statement after another, e.g. list.c 36-45. *)
Definition bind {A B} (x : res A) (f : A -> res B) : res B :=
  match x with
  | Ok a => f a
  | Abort m => Abort m
  | Exit c m => Exit c m
  | UB m => UB m
  | Diverge => Diverge
  end.

Notation "'do' x <- e ; f" := (bind e (fun x => f))
  (at level 200, x pattern, e at level 100, f at level 200, right associativity).

(** Which outcome it is: returned (e.g. handles.c 91). *)
Definition is_ok {A} (x : res A) : bool := match x with Ok _ => true | _ => false end.
(** Ended by abort(), e.g. handles.c 88. *)
Definition is_abort {A} (x : res A) : bool := match x with Abort _ => true | _ => false end.
(** Ended by exit(), e.g. mpi.c 235, type.c 139. *)
Definition is_exit {A} (x : res A) : bool := match x with Exit _ _ => true | _ => false end.
(** Undefined behaviour; no line of the sources asks for it. *)
Definition is_ub {A} (x : res A) : bool := match x with UB _ => true | _ => false end.

Lemma bind_ok {A B} (x : res A) (f : A -> res B) b :
  bind x f = Ok b -> exists a, x = Ok a /\ f a = Ok b.
Proof. destruct x; simpl; intros H; try discriminate; eauto. Qed.

Lemma Ok_inj {A} (a b : A) : Ok a = Ok b -> a = b.
Proof. intros H; inversion H; reflexivity. Qed.

Lemma bind_assoc {A B C} (x : res A) (f : A -> res B) (g : B -> res C) :
  bind (bind x f) g = bind x (fun a => bind (f a) g).
Proof. destruct x; reflexivity. Qed.

(** C integer ranges, LP64: int, e.g. mpi.h 6, and long, e.g. type.h 19.  The largest int. *)
Definition INT_MAX : Z := 2147483647.
(** The smallest int; type.c 48 uses it by this name. *)
Definition INT_MIN : Z := -2147483648.
(** The largest long (type.h 19, 26-27). *)
Definition LONG_MAX : Z := 9223372036854775807.
(** The smallest long (type.h 19, 26-27). *)
Definition LONG_MIN : Z := -9223372036854775808.
(** The number of ints (mpi.h 6). *)
Definition TWO32 : Z := 4294967296.
(** The number of unsigned longs (MPI_Aint, mpi.h 66). *)
Definition TWO64 : Z := 18446744073709551616.

(** A number that an int can hold (e.g. type.h 25). *)
Definition in_int (z : Z) : bool := (INT_MIN <=? z) && (z <=? INT_MAX).
(** A number that a long can hold (e.g. type.h 26-27). *)
Definition in_long (z : Z) : bool := (LONG_MIN <=? z) && (z <=? LONG_MAX).

(** Result of a signed [int] operation, e.g. list.c 36; overflow is undefined. *)
Definition chk_int (z : Z) : res Z :=
  if in_int z then Ok z else UB "signed int overflow".
(** Result of a signed [long] operation, e.g. type.c 177; overflow is undefined. *)
Definition chk_long (z : Z) : res Z :=
  if in_long z then Ok z else UB "signed long overflow".

(** Conversion to [unsigned long], e.g. to MPI_Aint in type.c 718 (gcc: reduce modulo 2^64). *)
Definition to_u64 (z : Z) : Z := z mod TWO64.
(** Conversion to [long], e.g. of a sum with an MPI_Aint stored in a disp (type.c 351-352; gcc: reduce modulo 2^64). *)
Definition to_s64 (z : Z) : Z := (z + 9223372036854775808) mod TWO64 - 9223372036854775808.
(** Conversion to [int], e.g. of a long in type.c 59 (gcc: reduce modulo 2^32). *)
Definition to_s32 (z : Z) : Z := (z + 2147483648) mod TWO32 - 2147483648.

Lemma chk_int_ok z : INT_MIN <= z <= INT_MAX -> chk_int z = Ok z.
Proof.
  intros H. unfold chk_int, in_int.
  destruct (Z.leb_spec INT_MIN z); destruct (Z.leb_spec z INT_MAX); simpl; try reflexivity; lia.
Qed.

Lemma chk_int_inv z y : chk_int z = Ok y -> y = z /\ INT_MIN <= z <= INT_MAX.
Proof.
  unfold chk_int, in_int. destruct (Z.leb_spec INT_MIN z); destruct (Z.leb_spec z INT_MAX);
    simpl; intros E; inversion E; subst; split; auto.
Qed.

Lemma chk_long_ok z : LONG_MIN <= z <= LONG_MAX -> chk_long z = Ok z.
Proof.
  intros H. unfold chk_long, in_long.
  destruct (Z.leb_spec LONG_MIN z); destruct (Z.leb_spec z LONG_MAX); simpl; try reflexivity; lia.
Qed.

Lemma chk_long_inv z y : chk_long z = Ok y -> y = z /\ LONG_MIN <= z <= LONG_MAX.
Proof.
  unfold chk_long, in_long. destruct (Z.leb_spec LONG_MIN z); destruct (Z.leb_spec z LONG_MAX);
    simpl; intros E; inversion E; subst; split; auto.
Qed.

Lemma to_s32_id z : INT_MIN <= z <= INT_MAX -> to_s32 z = z.
Proof.
  unfold INT_MIN, INT_MAX, to_s32, TWO32. intros H.
  rewrite Z.mod_small; lia.
Qed.

Lemma to_s32_range z : INT_MIN <= to_s32 z <= INT_MAX.
Proof.
  unfold to_s32, TWO32, INT_MIN, INT_MAX.
  pose proof (Z.mod_pos_bound (z + 2147483648) 4294967296 ltac:(lia)). lia.
Qed.

Lemma to_s64_id z : LONG_MIN <= z <= LONG_MAX -> to_s64 z = z.
Proof.
  unfold LONG_MIN, LONG_MAX, to_s64, TWO64. intros H.
  rewrite Z.mod_small; lia.
Qed.

Lemma to_s64_range z : LONG_MIN <= to_s64 z <= LONG_MAX.
Proof.
  unfold to_s64, TWO64, LONG_MIN, LONG_MAX.
  pose proof (Z.mod_pos_bound (z + 9223372036854775808) 18446744073709551616 ltac:(lia)). lia.
Qed.

Lemma to_u64_range z : 0 <= to_u64 z < TWO64.
Proof. unfold to_u64. apply Z.mod_pos_bound. unfold TWO64; lia. Qed.

Lemma to_u64_id z : 0 <= z < TWO64 -> to_u64 z = z.
Proof. unfold to_u64. intros H. apply Z.mod_small; exact H. Qed.

Lemma to_s64_u64 z : to_s64 (to_u64 z) = to_s64 z.
Proof.
  unfold to_s64, to_u64, TWO64.
  rewrite Z.add_mod_idemp_l by lia. reflexivity.
Qed.

Lemma to_s32_u64 z : to_s32 (to_u64 z) = to_s32 z.
Proof.
  unfold to_s32, to_u64, TWO64, TWO32. f_equal.
  rewrite (Z.add_comm (z mod _)), (Z.add_comm z).
  rewrite <- (Z.add_mod_idemp_r _ (z mod _)) by lia.
  rewrite <- (Z.add_mod_idemp_r _ z) by lia.
  replace 18446744073709551616 with (4294967296 * 4294967296) by reflexivity.
  rewrite Z.rem_mul_r by lia.
  replace ((z mod 4294967296 + 4294967296 * (z / 4294967296 mod 4294967296)) mod 4294967296)
    with (z mod 4294967296); [reflexivity|].
  rewrite Z.mul_comm, Z.mod_add by lia. symmetry. apply Z.mod_mod; lia.
Qed.

(** [for (i = lo; n iterations; i++) body] over a state, e.g. handles.c 114-118. *)
Fixpoint for_from {S : Type} (n : nat) (i : Z) (body : Z -> S -> res S) (s : S) : res S :=
  match n with
  | O => Ok s
  | Datatypes.S n' => do s' <- body i s; for_from n' (i + 1) body s'
  end.

(** [for (i = lo; i < hi; i++) body], e.g. handles.c 114-118, type.c 53-57. *)
Definition for_loop {S : Type} (lo hi : Z) (body : Z -> S -> res S) (s : S) : res S :=
  for_from (Z.to_nat (hi - lo)) lo body s.

Lemma for_from_inv {S} (P : Z -> S -> Prop) body : forall n i s,
  P i s ->
  (forall j s0, i <= j < i + Z.of_nat n -> P j s0 -> exists s1, body j s0 = Ok s1 /\ P (j + 1) s1) ->
  exists s', for_from n i body s = Ok s' /\ P (i + Z.of_nat n) s'.
Proof.
  induction n as [|n IH]; intros i s Hi Hb.
  - simpl. exists s. rewrite Z.add_0_r. auto.
  - cbn [for_from]. destruct (Hb i s ltac:(lia) Hi) as (s1 & E & H1).
    rewrite E. cbn [bind].
    destruct (IH (i + 1) s1 H1) as (s' & E' & H').
    { intros j s0 Hj. apply Hb. lia. }
    exists s'. split; [exact E'|]. replace (i + Z.of_nat (Datatypes.S n)) with (i + 1 + Z.of_nat n) by lia.
    exact H'.
Qed.

Lemma for_loop_inv {S} (P : Z -> S -> Prop) lo hi body s :
  lo <= hi -> P lo s ->
  (forall j s0, lo <= j < hi -> P j s0 -> exists s1, body j s0 = Ok s1 /\ P (j + 1) s1) ->
  exists s', for_loop lo hi body s = Ok s' /\ P hi s'.
Proof.
  intros Hle Hi Hb. unfold for_loop.
  destruct (for_from_inv P body (Z.to_nat (hi - lo)) lo s Hi) as (s' & E & H).
  { intros j s0 Hj. apply Hb. lia. }
  exists s'. split; [exact E|]. replace hi with (lo + Z.of_nat (Z.to_nat (hi - lo))) by lia. exact H.
Qed.

Lemma for_loop_empty {S} lo hi body (s : S) : hi <= lo -> for_loop lo hi body s = Ok s.
Proof. intros H. unfold for_loop. replace (Z.to_nat (hi - lo)) with O by lia. reflexivity. Qed.

Lemma for_from_app {S} body : forall n m i (s : S),
  for_from (n + m) i body s = (do s1 <- for_from n i body s; for_from m (i + Z.of_nat n) body s1).
Proof.
  induction n as [|n IH]; intros m i s.
  - cbn [for_from bind Nat.add]. rewrite Z.add_0_r. reflexivity.
  - cbn [Nat.add for_from]. rewrite bind_assoc. destruct (body i s) as [a| | | |]; cbn [bind]; auto.
    rewrite IH. replace (i + Z.of_nat (Datatypes.S n)) with (i + 1 + Z.of_nat n) by lia. reflexivity.
Qed.

Lemma for_loop_split {S} lo mid hi body (s : S) : lo <= mid <= hi ->
  for_loop lo hi body s = (do s1 <- for_loop lo mid body s; for_loop mid hi body s1).
Proof.
  intros H. unfold for_loop.
  replace (Z.to_nat (hi - lo)) with (Z.to_nat (mid - lo) + Z.to_nat (hi - mid))%nat by lia.
  rewrite for_from_app. replace (lo + Z.of_nat (Z.to_nat (mid - lo))) with mid by lia. reflexivity.
Qed.

Lemma for_loop_S {S} lo hi body (s : S) : lo < hi ->
  for_loop lo hi body s = (do s1 <- body lo s; for_loop (lo + 1) hi body s1).
Proof.
  intros H. unfold for_loop.
  replace (Z.to_nat (hi - lo)) with (Datatypes.S (Z.to_nat (hi - (lo + 1)))) by lia. reflexivity.
Qed.

(** Loop over the same state with an extensionally equal body. *)
Lemma for_from_ext {S} (b1 b2 : Z -> S -> res S) : forall n i s,
  (forall j s0, i <= j < i + Z.of_nat n -> b1 j s0 = b2 j s0) ->
  for_from n i b1 s = for_from n i b2 s.
Proof.
  induction n as [|n IH]; intros i s H; cbn [for_from]; auto.
  rewrite H by lia. destruct (b2 i s); cbn [bind]; auto. apply IH. intros; apply H; lia.
Qed.

Lemma for_loop_ext {S} lo hi (b1 b2 : Z -> S -> res S) s :
  (forall j s0, lo <= j < hi -> b1 j s0 = b2 j s0) ->
  for_loop lo hi b1 s = for_loop lo hi b2 s.
Proof. intros H. unfold for_loop. apply for_from_ext. intros; apply H; lia. Qed.

(** Arrays as lists, e.g. pairs[i] in type.c 55; an access outside the array is undefined. *)
Definition arr_get {A} (l : list A) (i : Z) : res A :=
  if i <? 0 then UB "array index" else
  match nth_error l (Z.to_nat i) with Some a => Ok a | None => UB "array index" end.

(** The list with its [n]-th element replaced; a store into an array, e.g. mpi.c 282. *)
Fixpoint list_upd {A} (l : list A) (n : nat) (a : A) : list A :=
  match l, n with
  | [], _ => []
  | _ :: t, O => a :: t
  | x :: t, Datatypes.S n' => x :: list_upd t n' a
  end.

(** A store into an array, e.g. mpi.c 282; outside the array it is undefined. *)
Definition arr_set {A} (l : list A) (i : Z) (a : A) : res (list A) :=
  if i <? 0 then UB "array index" else
  if i <? Z.of_nat (length l) then Ok (list_upd l (Z.to_nat i) a) else UB "array index".

Lemma list_upd_length {A} (l : list A) : forall n a, length (list_upd l n a) = length l.
Proof. induction l as [|x l IH]; intros [|n] a; simpl; auto. Qed.

Lemma list_upd_nth {A} (l : list A) : forall n m a,
  nth_error (list_upd l n a) m =
  if Nat.eqb n m then (if Nat.ltb n (length l) then Some a else None) else nth_error l m.
Proof.
  induction l as [|x l IH]; intros n m a.
  - destruct n, m; simpl; auto. destruct (Nat.eqb n m); auto.
  - destruct n as [|n], m as [|m]; simpl; auto. rewrite IH. reflexivity.
Qed.

Lemma arr_get_ok {A} (l : list A) i :
  0 <= i < Z.of_nat (length l) -> exists a, arr_get l i = Ok a /\ nth_error l (Z.to_nat i) = Some a.
Proof.
  intros H. unfold arr_get. destruct (Z.ltb_spec i 0); [lia|].
  destruct (nth_error l (Z.to_nat i)) as [a|] eqn:E; [eauto|].
  apply nth_error_None in E. lia.
Qed.

Lemma arr_get_nth {A} (l : list A) i a :
  0 <= i -> nth_error l (Z.to_nat i) = Some a -> arr_get l i = Ok a.
Proof. intros H E. unfold arr_get. destruct (Z.ltb_spec i 0); [lia|]. rewrite E. reflexivity. Qed.

Lemma arr_set_ok {A} (l : list A) i a :
  0 <= i < Z.of_nat (length l) -> arr_set l i a = Ok (list_upd l (Z.to_nat i) a).
Proof.
  intros H. unfold arr_set. destruct (Z.ltb_spec i 0); [lia|].
  destruct (Z.ltb_spec i (Z.of_nat (length l))); [reflexivity|lia].
Qed.

(** Finite-support maps used as heaps: total functions with pointwise update (a store through a pointer, e.g. list.c 212). *)
Definition upd {V} (m : Z -> V) (k : Z) (v : V) : Z -> V := fun x => if x =? k then v else m x.

Lemma upd_same {V} (m : Z -> V) k v : upd m k v k = v.
Proof. unfold upd. rewrite Z.eqb_refl. reflexivity. Qed.
Lemma upd_other {V} (m : Z -> V) k v x : x <> k -> upd m k v x = m x.
Proof. unfold upd. intros H. destruct (Z.eqb_spec x k); [contradiction|reflexivity]. Qed.
Lemma upd_id {V} (m : Z -> V) k x : upd m k (m k) x = m x.
Proof. unfold upd. destruct (Z.eqb_spec x k); subst; reflexivity. Qed.

(** Comparison of two pointers, NULL being [None], e.g. list.c 304. *)
Definition opt_eqb (a b : option Z) : bool :=
  match a, b with Some x, Some y => x =? y | None, None => true | _, _ => false end.
Lemma opt_eqb_spec a b : reflect (a = b) (opt_eqb a b).
Proof.
  destruct a as [x|], b as [y|]; simpl; try (constructor; congruence).
  destruct (Z.eqb_spec x y); constructor; congruence.
Qed.

Lemma NoDup_app_intro {A} (a b : list A) :
  NoDup a -> NoDup b -> (forall x, In x a -> ~ In x b) -> NoDup (a ++ b).
Proof.
  induction a as [|x a IH]; simpl; intros Ha Hb H; auto.
  inversion Ha; subst. constructor.
  - rewrite in_app_iff. intros [H1|H1]; [auto|]. apply (H x); auto.
  - apply IH; auto.
Qed.

(** Remove a key from a list of keys (free of the cell with that key, e.g. list.c 59). *)
Definition remove_id (l : Z) (ids : list Z) : list Z := filter (fun k => negb (k =? l)) ids.

Lemma in_remove_id k l ids : In k (remove_id l ids) <-> In k ids /\ k <> l.
Proof.
  unfold remove_id. rewrite filter_In. destruct (Z.eqb_spec k l); simpl; split; intros [H1 H2]; split; auto; congruence.
Qed.

Lemma remove_id_notin ids l : ~ In l ids -> remove_id l ids = ids.
Proof.
  induction ids as [|a r IH]; simpl; intros H; auto.
  destruct (Z.eqb_spec a l) as [->|]; simpl; [exfalso; auto|]. rewrite IH; auto.
Qed.

Lemma remove_id_length {ids l} : NoDup ids -> In l ids -> length ids = S (length (remove_id l ids)).
Proof.
  induction ids as [|a r IH]; simpl; intros ND H; [tauto|]. inversion ND; subst.
  destruct (Z.eqb_spec a l) as [->|Hne]; simpl.
  - rewrite remove_id_notin; auto.
  - f_equal. apply IH; auto. destruct H; congruence.
Qed.
