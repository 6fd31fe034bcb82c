(** Facts for C89: every datatype object is well formed. *)
From Coq Require Import Lia.
From Verif Require Import Base HandleSpec HandleExact TypeModel TypeSpec TypeProofs TypeStruct TypeCons CopyModel CopySpec SysModel CollModel SysCalls SysSpec SysLog SysReach SysHist SysFacts SysFacts2 SysFacts3 SysFacts5 MoveFacts StaleFacts FormSpec.

Lemma for_ok_i {S} (P : Z -> S -> Prop) body lo hi s s' : for_loop lo hi body s = Ok s' -> P lo s ->
  (forall i s s', lo <= i < hi -> P i s -> body i s = Ok s' -> P (i + 1) s') -> P (Z.max lo hi) s'.
Proof.
  unfold for_loop. intros E H B.
  assert (G : forall n i, lo <= i -> i + Z.of_nat n <= Z.max lo hi -> forall s, P i s -> for_from n i body s = Ok s' -> P (i + Z.of_nat n) s').
  { induction n as [|n IH]; intros i L U t Ht; cbn [for_from]; [intros X; injection X as <-; rewrite Z.add_0_r; exact Ht|].
    destruct (body i t) as [t'| | | |] eqn:F; cbn [bind]; try discriminate. intros X.
    replace (i + Z.of_nat (Datatypes.S n)) with (i + 1 + Z.of_nat n) by lia. apply (IH (i + 1) ltac:(lia) ltac:(lia) t'); auto. apply (B i t); auto. lia. }
  replace (Z.max lo hi) with (lo + Z.of_nat (Z.to_nat (hi - lo))) by lia. apply (G _ lo (Z.le_refl lo)) with (s := s); auto. lia.
Qed.

Section Form.
Variable c : cfg.
(** An object whose parts exist; its elements have known sizes at least where Type_extent does not check it. *)
Record sane (t : typestruct) : Prop := {
  sn_count : 0 <= ts_count t <= INT_MAX;
  sn_pairs : (1 <= length (ts_pairs t))%nat /\ ts_count t <= Z.of_nat (length (ts_pairs t));
  sn_disp : forall e, In e (typemap t) -> LONG_MIN <= snd e <= LONG_MAX;
  sn_known : ts_olb t <> 0 \/ ts_oub t <> 0 -> forall e, In e (typemap t) -> TypeProofs.known c e
}.
Lemma wf_sane t : wf_ts c t -> sane t.
Proof. intros W. constructor; [apply (wf_count _ _ W)|apply (wf_pairs _ _ W)|apply (wf_disp _ _ W)|intros _; apply (wf_known _ _ W)]. Qed.
Lemma sane_commit t : sane t -> sane (committed t).
Proof. intros [A B C D]. constructor; auto. Qed.
Lemma wf_commit t : wf_ts c t -> wf_ts c (committed t).
Proof. intros [A B C D]. constructor; auto. Qed.
Lemma sane_wf t : sane t -> (forall e, In e (typemap t) -> TypeProofs.known c e) -> wf_ts c t.
Proof. intros [A B C D] K. constructor; auto. Qed.

Lemma in_typemap t i p : 0 <= i < ts_count t -> nth_error (ts_pairs t) (Z.to_nat i) = Some p -> In (tp_type p, tp_disp p) (typemap t).
Proof.
  intros Hi E. unfold typemap. apply (in_map (fun p => (tp_type p, tp_disp p))). apply nth_error_In with (n := Z.to_nat i).
  assert (L : forall n (l : list typepair) k, (k < n)%nat -> nth_error (firstn n l) k = nth_error l k).
  { induction n as [|n IH]; intros l k H; [lia|]. destruct l as [|x l]; [reflexivity|]. destruct k; cbn; [reflexivity|]. apply IH. lia. }
  rewrite L by lia. exact E.
Qed.
Lemma typemap_in t e : In e (typemap t) -> exists i p, 0 <= i < ts_count t /\ nth_error (ts_pairs t) (Z.to_nat i) = Some p /\ e = (tp_type p, tp_disp p).
Proof.
  unfold typemap. intros H. apply in_map_iff in H. destruct H as (p & <- & Hp). apply In_nth_error in Hp. destruct Hp as (k & Hk).
  assert (L : forall n (l : list typepair) k p, nth_error (firstn n l) k = Some p -> (k < n)%nat /\ nth_error l k = Some p).
  { induction n as [|n IH]; intros l j q H; [destruct j; discriminate|]. destruct l as [|x l]; [destruct j; discriminate|].
    destruct j; cbn in *; [split; [lia|exact H]|]. apply IH in H. split; [lia|apply H]. }
  apply L in Hk. exists (Z.of_nat k), p. rewrite Nat2Z.id. split; [lia|]. split; [apply Hk|reflexivity].
Qed.
Lemma padding_known t m : calc_padding c t = Ok m -> forall e, In e (typemap t) -> TypeProofs.known c e.
Proof.
  unfold calc_padding. destruct (for_loop 0 (ts_count t) _ INT_MIN) as [x| | | |] eqn:E; cbn [bind]; try discriminate. intros _.
  assert (K : forall k p, 0 <= k < Z.max 0 (ts_count t) -> nth_error (ts_pairs t) (Z.to_nat k) = Some p -> exists s, Simpletype_length c (tp_type p) = Ok s).
  { refine (for_ok_i (fun i (_ : Z) => forall k p, 0 <= k < i -> nth_error (ts_pairs t) (Z.to_nat k) = Some p -> exists s, Simpletype_length c (tp_type p) = Ok s) _ _ _ _ _ E _ _); [intros; lia|].
    intros i s s' Hi IH. destruct (arr_get (ts_pairs t) i) as [q| | | |] eqn:A; cbn [bind]; try discriminate.
    destruct (Simpletype_length c (tp_type q)) as [len| | | |] eqn:L; cbn [bind]; try discriminate. intros _ k p Hk Ep.
    destruct (Z.eq_dec k i) as [->|N]; [|apply (IH k p); auto; lia]. apply arr_get_at in A. assert (q = p) by congruence. subst q. eauto. }
  intros e He. apply typemap_in in He. destruct He as (i & p & Hi & Ep & ->). apply (K i p); auto. lia.
Qed.
Lemma extent_known t x : sane t -> Type_extent c t = Ok x -> forall e, In e (typemap t) -> TypeProofs.known c e.
Proof.
  intros S. unfold Type_extent. destruct (Z.eqb_spec (ts_olb t) 0) as [A|A]; cbn [andb].
  - destruct (Z.eqb_spec (ts_oub t) 0) as [B|B].
    + destruct (calc_padding c t) as [m| | | |] eqn:P; cbn [bind]; try discriminate. intros _. exact (padding_known t m P).
    + intros _. apply (sn_known _ S). auto.
  - intros _. apply (sn_known _ S). auto.
Qed.

(** *** MPI_Type_struct *)
Section Args.
Variables (bls ds : list Z) (olds : list typestruct) (count : Z).
Hypothesis BL : forall k b, 0 <= k < count -> nth_error bls (Z.to_nat k) = Some b -> 0 <= b.
Hypothesis OL : forall k t, 0 <= k < count -> nth_error olds (Z.to_nat k) = Some t -> sane t.
(** Elements contributed by one block, and by the first ones. *)
Definition contrib (k : nat) : Z :=
  match nth_error olds k, nth_error bls k with Some t, Some b => if is_marker t then 0 else b * ts_count t | Some t, None => 0 | _, _ => 0 end.
Fixpoint upto_sum (n : nat) : Z := match n with O => 0 | S n => upto_sum n + contrib n end.
Lemma first_marker t f : first_type t = Ok f -> (f =? SIMPLE_LOWER) || (f =? SIMPLE_UPPER) = is_marker t.
Proof.
  unfold first_type, is_marker, is_lower, is_upper, arr_get. destruct (ts_pairs t) as [|p r]; cbn; [discriminate|]. intros X. injection X as <-. reflexivity.
Qed.
Lemma chk_int_eq z w : chk_int z = Ok w -> w = z /\ INT_MIN <= z <= INT_MAX.
Proof. unfold chk_int. destruct (in_int z) eqn:E; [|discriminate]. intros X. injection X as <-. split; auto. unfold in_int in E. lia. Qed.
Lemma pass1_count l u ol ou n : struct_pass1 count bls ds olds = Ok (l, u, ol, ou, n) -> n = upto_sum (Z.to_nat count) /\ 0 <= n <= INT_MAX.
Proof.
  unfold struct_pass1. intros E.
  pose proof (for_ok_i (fun i (st : Z * Z * bool * bool * Z) => snd st = upto_sum (Z.to_nat i) /\ 0 <= snd st <= INT_MAX) _ _ _ _ _ E) as P.
  cbn [snd] in P. replace (Z.to_nat (Z.max 0 count)) with (Z.to_nat count) in P by lia. apply P; clear P E; [cbn; unfold INT_MAX; lia|].
  intros i [[[[l0 u0] ol0] ou0] sc] s' Hi (E & B). replace (Z.to_nat (i + 1)) with (Datatypes.S (Z.to_nat i)) by lia. cbn [upto_sum snd] in *.
  destruct (arr_get olds i) as [t| | | |] eqn:A; cbn [bind]; try discriminate. apply arr_get_at in A.
  destruct (first_type t) as [f| | | |] eqn:F; cbn [bind]; try discriminate. pose proof (first_marker t f F) as M.
  unfold contrib. rewrite A.
  destruct (f =? SIMPLE_LOWER); cbn [orb] in M.
  { destruct (arr_get ds i); cbn [bind]; try discriminate. intros X. injection X as <-. cbn [snd]. rewrite <- M. destruct (nth_error bls _); lia. }
  destruct (f =? SIMPLE_UPPER).
  { destruct (arr_get ds i); cbn [bind]; try discriminate. intros X. injection X as <-. cbn [snd]. rewrite <- M. destruct (nth_error bls _); lia. }
  destruct (arr_get bls i) as [b| | | |] eqn:AB; cbn [bind]; try discriminate. apply arr_get_at in AB. rewrite AB, <- M.
  destruct (chk_int (b * ts_count t)) as [pr| | | |] eqn:C1; cbn [bind]; try discriminate. apply chk_int_eq in C1. destruct C1 as (-> & C1).
  destruct (chk_int (sc + b * ts_count t)) as [sc'| | | |] eqn:C2; cbn [bind]; try discriminate. apply chk_int_eq in C2. destruct C2 as (-> & C2).
  intros X. injection X as <-. cbn [snd]. pose proof (BL i b Hi AB). pose proof (sn_count _ (OL i t Hi A)). split; [lia|]. nia.
Qed.
Definition fine (p : typepair) : Prop := (exists s, Simpletype_length c (tp_type p) = Ok s) /\ LONG_MIN <= tp_disp p <= LONG_MAX.
Lemma s64_long z : LONG_MIN <= to_s64 z <= LONG_MAX.
Proof. unfold to_s64, LONG_MIN, LONG_MAX. pose proof (Z.mod_pos_bound (z + 9223372036854775808) TWO64 ltac:(reflexivity)). unfold TWO64 in *. lia. Qed.
Lemma pass2_pairs cap l0 u0 l u acc : struct_pass2 c cap count bls ds olds l0 u0 = Ok (l, u, acc) ->
  Z.of_nat (length acc) = upto_sum (Z.to_nat count) /\ Forall fine acc.
Proof.
  unfold struct_pass2. intros E.
  pose proof (for_ok_i (fun i (st : Z * Z * list typepair) => Z.of_nat (length (snd st)) = upto_sum (Z.to_nat i) /\ Forall fine (snd st)) _ _ _ _ _ E) as P.
  cbn [snd] in P. replace (Z.to_nat (Z.max 0 count)) with (Z.to_nat count) in P by lia. apply P; clear P E; [split; [reflexivity|constructor]|].
  intros i st st' Hi (E & FA). replace (Z.to_nat (i + 1)) with (Datatypes.S (Z.to_nat i)) by lia. cbn [upto_sum].
  destruct (arr_get olds i) as [t| | | |] eqn:A; cbn [bind]; try discriminate. apply arr_get_at in A.
  destruct (first_type t) as [f| | | |] eqn:F; cbn [bind]; try discriminate. pose proof (first_marker t f F) as M. rewrite M.
  unfold contrib. rewrite A. destruct (is_marker t).
  { intros X. injection X as <-. destruct (nth_error bls _); (split; [lia|auto]). }
  destruct (arr_get bls i) as [b| | | |] eqn:AB; cbn [bind]; try discriminate. apply arr_get_at in AB. rewrite AB.
  pose proof (BL i b Hi AB) as B0. pose proof (OL i t Hi A) as St. pose proof (sn_count _ St) as C0. intros X.
  pose proof (for_ok_i (fun j (s : Z * Z * list typepair) => Z.of_nat (length (snd s)) = upto_sum (Z.to_nat i) + j * ts_count t /\ Forall fine (snd s)) _ _ _ _ _ X) as P.
  replace (Z.max 0 b) with b in P by lia. apply P; clear P X; [split; [lia|auto]|]. clear E FA st st'.
  intros j [[l1 u1] a1] s' Hj (E & FA). cbn [snd] in *.
  destruct (Type_extent c t) as [x| | | |] eqn:Ex; cbn [bind]; try discriminate.
  destruct (arr_get ds i) as [d| | | |]; cbn [bind]; try discriminate.
  destruct (for_loop 0 (ts_count t) _ a1) as [a2| | | |] eqn:L; cbn [bind]; try discriminate. intros X. injection X as <-. cbn [snd].
  pose proof (extent_known t x St Ex) as KN.
  pose proof (for_ok_i (fun k (a : list typepair) => Z.of_nat (length a) = upto_sum (Z.to_nat i) + j * ts_count t + k /\ Forall fine a) _ _ _ _ _ L) as P.
  replace (Z.max 0 (ts_count t)) with (ts_count t) in P by lia.
  assert (Q : Z.of_nat (length a2) = upto_sum (Z.to_nat i) + j * ts_count t + ts_count t /\ Forall fine a2); [|split; [lia|apply Q]].
  apply P; clear P L; [split; [lia|auto]|]. intros k a a' Hk (E' & FA').
  destruct (arr_get (ts_pairs t) k) as [p| | | |] eqn:Ap; cbn [bind]; try discriminate. apply arr_get_at in Ap.
  destruct (Z.of_nat (length a) <? cap); [|discriminate]. intros X. injection X as <-. rewrite app_length. cbn [length]. split; [lia|].
  apply Forall_app. split; auto. constructor; [|constructor]. split; cbn [tp_type tp_disp].
  - exact (KN _ (in_typemap t k p ltac:(lia) Ap)).
  - apply s64_long.
Qed.
Lemma struct_sound jk t : Type_struct c jk count bls ds olds = Ok t -> wf_ts c t.
Proof.
  unfold Type_struct. destruct (struct_pass1 count bls ds olds) as [[[[[l u] ol] ou] n]| | | |] eqn:P1; cbn [bind]; try discriminate.
  destruct (pass1_count _ _ _ _ _ P1) as (En & Bn). destruct (n + 1 <? 0); [discriminate|].
  destruct (struct_pass2 c (n + 1) count bls ds olds l u) as [[[l2 u2] acc]| | | |] eqn:P2; cbn [bind]; try discriminate.
  destruct (pass2_pairs _ _ _ _ _ _ P2) as (La & FA). rewrite <- En in La. cbv zeta.
  destruct (if ol then _ else _) as [lb| | | |]; cbn [bind]; try discriminate.
  destruct (if ou then _ else _) as [ub| | | |]; cbn [bind]; try discriminate. intros X. injection X as <-.
  pose proof (typemap_temp jk n ub lb 0 (if ol then 1 else j_olb jk) (if ou then 1 else j_oub jk) acc La) as TM. cbn [ts_pairs].
  destruct (pad_pairs_first jk n acc La) as (_ & LP). rewrite Forall_forall in FA.
  constructor; cbn [ts_count ts_pairs]; [lia|rewrite LP; lia| |]; rewrite TM; intros e He; apply in_map_iff in He; destruct He as (p & <- & Hp); apply (FA p Hp).
Qed.
(** *** The typemap *)
Definition pm (ps : list typepair) : list elem := map (fun p => (tp_type p, tp_disp p)) ps.
Definition block_i (i : Z) : list elem :=
  match nth_error olds (Z.to_nat i) with
  | Some t => copies (at_ bls i) (extent_or_0 c t) (at_ ds i) (data_map t)
  | None => []
  end.
Lemma upto_succ j : 0 <= j -> upto (j + 1) = upto j ++ [j].
Proof.
  intros H. unfold upto. replace (Z.to_nat (j + 1)) with (Z.to_nat j + 1)%nat by lia. rewrite List.seq_app, map_app. cbn [List.seq map]. repeat f_equal. lia.
Qed.
Lemma firstn_succ {A} : forall n (l : list A) x, nth_error l n = Some x -> firstn (S n) l = firstn n l ++ [x].
Proof. induction n as [|n IH]; intros [|y l] x E; cbn in *; try discriminate; [congruence|]. rewrite <- (IH l x E). reflexivity. Qed.
Lemma at_nth l i v : nth_error l (Z.to_nat i) = Some v -> at_ l i = v.
Proof. unfold at_. revert l. induction (Z.to_nat i) as [|n IH]; intros [|y l] E; cbn in *; try discriminate; [congruence|]. auto. Qed.
Lemma wrapped_app a b : wrapped (a ++ b) = wrapped a ++ wrapped b. Proof. apply map_app. Qed.
Lemma pm_app a b : pm (a ++ b) = pm a ++ pm b. Proof. apply map_app. Qed.
Lemma data_of t : is_marker t = false -> data_map t = typemap t. Proof. unfold data_map. intros ->. reflexivity. Qed.
Lemma copies_none n x d : copies n x d [] = [].
Proof. unfold copies. induction (upto n); auto. Qed.
Lemma copies_succ j x d m : 0 <= j -> copies (j + 1) x d m = copies j x d m ++ shift (d + j * x) m.
Proof. intros H. unfold copies. rewrite (upto_succ j H), flat_map_app. cbn [flat_map]. rewrite app_nil_r. reflexivity. Qed.
Lemma pass2_map cap l0 u0 l u acc : struct_pass2 c cap count bls ds olds l0 u0 = Ok (l, u, acc) ->
  pm acc = wrapped (flat_map block_i (upto count)).
Proof.
  unfold struct_pass2. intros E.
  pose proof (for_ok_i (fun i (st : Z * Z * list typepair) => 0 <= i /\ pm (snd st) = wrapped (flat_map block_i (upto i))) _ _ _ _ _ E) as P.
  cbn [snd] in P. replace (upto (Z.max 0 count)) with (upto count) in P by (unfold upto; do 2 f_equal; lia).
  apply P; clear P E; [split; [lia|reflexivity]|].
  intros i st st' Hi (_ & E). rewrite (upto_succ i) by lia. rewrite flat_map_app, wrapped_app. cbn [flat_map]. rewrite app_nil_r.
  destruct (arr_get olds i) as [t| | | |] eqn:A; cbn [bind]; try discriminate. apply arr_get_at in A.
  destruct (first_type t) as [f| | | |] eqn:F; cbn [bind]; try discriminate. pose proof (first_marker t f F) as M. rewrite M.
  unfold block_i at 2. rewrite A. destruct (is_marker t) eqn:Mk.
  { intros X. injection X as <-. unfold data_map. rewrite Mk, copies_none. cbn [wrapped map]. rewrite app_nil_r. split; [lia|exact E]. }
  rewrite (data_of t Mk).
  destruct (arr_get bls i) as [b| | | |] eqn:AB; cbn [bind]; try discriminate. apply arr_get_at in AB. rewrite (at_nth _ _ _ AB).
  pose proof (BL i b Hi AB) as B0. pose proof (OL i t Hi A) as St. pose proof (sn_count _ St) as C0. intros X.
  pose proof (for_ok_i (fun j (s : Z * Z * list typepair) =>
    pm (snd s) = wrapped (flat_map block_i (upto i)) ++ wrapped (copies j (extent_or_0 c t) (at_ ds i) (typemap t))) _ _ _ _ _ X) as P.
  replace (Z.max 0 b) with b in P by lia. split; [lia|]. apply P; clear P X; [rewrite E, app_nil_r; reflexivity|]. clear E st st'.
  intros j [[l1 u1] a1] s' Hj E. cbn [snd] in *.
  destruct (Type_extent c t) as [x| | | |] eqn:Ex; cbn [bind]; try discriminate.
  destruct (arr_get ds i) as [d| | | |] eqn:Ad; cbn [bind]; try discriminate. apply arr_get_at in Ad.
  destruct (for_loop 0 (ts_count t) _ a1) as [a2| | | |] eqn:L; cbn [bind]; try discriminate. intros X. injection X as <-. cbn [snd].
  unfold extent_or_0 in *. rewrite Ex in *. rewrite (at_nth _ _ _ Ad) in *.
  rewrite (copies_succ j) by lia. rewrite wrapped_app, app_assoc, <- E.
  pose proof (for_ok_i (fun k (a : list typepair) => pm a = pm a1 ++ wrapped (shift (d + j * x) (firstn (Z.to_nat k) (pm (ts_pairs t))))) _ _ _ _ _ L) as P.
  replace (Z.max 0 (ts_count t)) with (ts_count t) in P by lia.
  replace (typemap t) with (firstn (Z.to_nat (ts_count t)) (pm (ts_pairs t))) by (unfold typemap, pm; rewrite firstn_map; reflexivity).
  apply P; clear P L; [cbn; rewrite app_nil_r; reflexivity|]. intros k a a' Hk E'.
  destruct (arr_get (ts_pairs t) k) as [p| | | |] eqn:Ap; cbn [bind]; try discriminate. apply arr_get_at in Ap.
  destruct (Z.of_nat (length a) <? cap); [|discriminate]. intros X. injection X as <-.
  replace (Z.to_nat (k + 1)) with (Datatypes.S (Z.to_nat k)) by lia.
  rewrite (firstn_succ (Z.to_nat k) (pm (ts_pairs t)) (tp_type p, tp_disp p)) by (unfold pm; rewrite nth_error_map, Ap; reflexivity).
  unfold shift. rewrite map_app, wrapped_app, pm_app, E', <- app_assoc. do 2 f_equal. cbn [pm wrapped map fst snd tp_type tp_disp]. do 2 f_equal.
  destruct (to_u64_ex (tp_disp p)) as (k1 & ->). destruct (to_u64_ex (j * x)) as (k2 & ->). apply (to_s64_cong _ _ (k1 + k2)). ring.
Qed.
Lemma struct_map_exact jk t : Type_struct c jk count bls ds olds = Ok t -> typemap t = wrapped (flat_map block_i (upto count)).
Proof.
  unfold Type_struct. destruct (struct_pass1 count bls ds olds) as [[[[[l u] ol] ou] n]| | | |] eqn:P1; cbn [bind]; try discriminate.
  destruct (pass1_count _ _ _ _ _ P1) as (En & Bn). destruct (n + 1 <? 0); [discriminate|].
  destruct (struct_pass2 c (n + 1) count bls ds olds l u) as [[[l2 u2] acc]| | | |] eqn:P2; cbn [bind]; try discriminate.
  destruct (pass2_pairs _ _ _ _ _ _ P2) as (La & _). rewrite <- En in La. pose proof (pass2_map _ _ _ _ _ _ P2) as PM. cbv zeta.
  destruct (if ol then _ else _) as [lb| | | |]; cbn [bind]; try discriminate.
  destruct (if ou then _ else _) as [ub| | | |]; cbn [bind]; try discriminate. intros X. injection X as <-.
  pose proof (typemap_temp jk n ub lb 0 (if ol then 1 else j_olb jk) (if ou then 1 else j_oub jk) acc La) as TM. cbn [ts_pairs].
  rewrite TM. exact PM.
Qed.
End Args.
End Form.

(** *** The constructors *)
Lemma wrapped_flat {A} (f g : A -> list elem) l : (forall x, In x l -> wrapped (f x) = wrapped (g x)) -> wrapped (flat_map f l) = wrapped (flat_map g l).
Proof.
  induction l as [|x l IH]; intros H; [reflexivity|]. cbn [flat_map]. rewrite !wrapped_app, (H x (or_introl eq_refl)), IH; [reflexivity|]. intros y Hy. apply H. right. exact Hy.
Qed.
Lemma wrapped_shift d d' m k : d = d' + k * TWO64 -> wrapped (shift d m) = wrapped (shift d' m).
Proof.
  intros ->. unfold wrapped, shift. rewrite !map_map. apply map_ext. intros e. cbn [fst snd]. f_equal. apply (to_s64_cong _ _ k). ring.
Qed.
Lemma wrapped_copies n x d d' m k : d = d' + k * TWO64 -> wrapped (copies n x d m) = wrapped (copies n x d' m).
Proof. intros E. unfold copies. apply wrapped_flat. intros j _. apply (wrapped_shift _ _ _ k). rewrite E. ring. Qed.
Lemma upto_bound n i : In i (upto n) -> 0 <= i < n.
Proof. apply upto_in. Qed.
Lemma tab_nth {A} n (f : Z -> A) i v : nth_error (tabulate n f) (Z.to_nat i) = Some v -> 0 <= i -> i < n /\ v = f i.
Proof.
  intros E H. rewrite tabulate_upto, nth_error_map in E. destruct (nth_error (upto n) (Z.to_nat i)) as [x|] eqn:F; [|discriminate].
  apply upto_nth in F. destruct F as [-> F]. cbn in E. injection E as <-. rewrite Z2Nat.id in * by lia. auto.
Qed.
Lemma tab_at n f i : 0 <= i < n -> at_ (tabulate n f) i = f i.
Proof.
  intros H. apply at_nth. rewrite tabulate_upto, nth_error_map, upto_nth_ok by lia. cbn. f_equal. f_equal. lia.
Qed.
Lemma tab_some {A} n (f : Z -> A) i : 0 <= i < n -> nth_error (tabulate n f) (Z.to_nat i) = Some (f i).
Proof. intros H. rewrite tabulate_upto, nth_error_map, upto_nth_ok by lia. cbn. f_equal. f_equal. lia. Qed.
Section Make.
Variable c : cfg.
Let built (t : typestruct) (m : list elem) : Prop := wf_ts c t /\ typemap t = wrapped m.
Lemma lens_nth n bls : (forall b, In b (firstn (Z.to_nat n) bls) -> 0 <= b) -> forall k b, 0 <= k < n -> nth_error bls (Z.to_nat k) = Some b -> 0 <= b.
Proof.
  intros H k b Hk E. apply H. apply nth_error_In with (n := Z.to_nat k). rewrite <- E.
  assert (L : forall n (l : list Z) k, (k < n)%nat -> nth_error (firstn n l) k = nth_error l k).
  { induction n0 as [|m IH]; intros l j L; [lia|]. destruct l as [|x l]; [reflexivity|]. destruct j; cbn; [reflexivity|]. apply IH. lia. }
  apply L. lia.
Qed.
Lemma hindexed_sound jk n bls ds old t : sane c old -> (forall k b, 0 <= k < n -> nth_error bls (Z.to_nat k) = Some b -> 0 <= b) ->
  Type_hindexed c jk n bls ds old = Ok t -> built t (flat_map (fun i => copies (at_ bls i) (extent_or_0 c old) (at_ ds i) (data_map old)) (upto n)).
Proof.
  intros S B. unfold Type_hindexed, vla. destruct (n <? 0); [discriminate|]. cbn [bind]. intros E.
  assert (O : forall k t, 0 <= k < n -> nth_error (tabulate n (fun _ => old)) (Z.to_nat k) = Some t -> sane c t).
  { intros k u Hk Eu. apply tab_nth in Eu; [|lia]. destruct Eu as [_ ->]. exact S. }
  split; [exact (struct_sound c _ _ _ _ B O _ _ E)|]. rewrite (struct_map_exact c _ _ _ _ B O _ _ E).
  apply wrapped_flat. intros i Hi. apply upto_bound in Hi. unfold block_i. rewrite tab_some by lia. reflexivity.
Qed.
Lemma hvector_sound jk n b s old t : sane c old -> 0 <= b -> Type_hvector c jk n b s old = Ok t ->
  built t (hvector_map n b s (extent_or_0 c old) (data_map old)).
Proof.
  intros S B. unfold Type_hvector, vla. destruct (n <? 0); [discriminate|]. cbn [bind]. destruct (Type_extent c old) as [x0| | | |] eqn:Ex; cbn [bind]; try discriminate. intros E.
  assert (O : forall k t, 0 <= k < n -> nth_error (tabulate n (fun _ => old)) (Z.to_nat k) = Some t -> sane c t).
  { intros k u Hk Eu. apply tab_nth in Eu; [|lia]. destruct Eu as [_ ->]. exact S. }
  assert (L : forall k v, 0 <= k < n -> nth_error (tabulate n (fun _ => b)) (Z.to_nat k) = Some v -> 0 <= v).
  { intros k u Hk Eu. apply tab_nth in Eu; [|lia]. destruct Eu as [_ ->]. exact B. }
  split; [exact (struct_sound c _ _ _ _ L O _ _ E)|]. rewrite (struct_map_exact c _ _ _ _ L O _ _ E). unfold hvector_map.
  apply wrapped_flat. intros i Hi. apply upto_bound in Hi. unfold block_i. rewrite tab_some by lia. rewrite !tab_at by lia.
  destruct (to_u64_ex (s * i)) as (k & Ek). rewrite Ek. apply (wrapped_copies _ _ _ _ _ k). ring.
Qed.
Lemma contiguous_sound jk n old t : sane c old -> Type_contiguous c jk n old = Ok t -> built t (contiguous_map n (extent_or_0 c old) (data_map old)).
Proof.
  intros S. unfold Type_contiguous, vla. destruct (n <? 0); [discriminate|]. cbn [bind]. destruct (Type_extent c old) as [x| | | |] eqn:Ex; cbn [bind]; try discriminate. intros E.
  assert (O : forall k t, 0 <= k < n -> nth_error (tabulate n (fun _ => old)) (Z.to_nat k) = Some t -> sane c t).
  { intros k u Hk Eu. apply tab_nth in Eu; [|lia]. destruct Eu as [_ ->]. exact S. }
  assert (L : forall k v, 0 <= k < n -> nth_error (tabulate n (fun _ => 1)) (Z.to_nat k) = Some v -> 0 <= v).
  { intros k u Hk Eu. apply tab_nth in Eu; [|lia]. destruct Eu as [_ ->]. lia. }
  split; [exact (struct_sound c _ _ _ _ L O _ _ E)|]. rewrite (struct_map_exact c _ _ _ _ L O _ _ E). unfold contiguous_map, copies at 1.
  apply wrapped_flat. intros i Hi. apply upto_bound in Hi. unfold block_i. rewrite tab_some by lia. rewrite !tab_at by lia. rewrite copies_one.
  unfold extent_or_0. rewrite Ex. destruct (to_u64_ex (x * i)) as (k & Ek). rewrite Ek. apply (wrapped_shift _ _ _ k). ring.
Qed.
Lemma vector_sound jk n b s old t : sane c old -> 0 <= b -> Type_vector c jk n b s old = Ok t ->
  built t (vector_map n b s (extent_or_0 c old) (data_map old)).
Proof.
  intros S B. unfold Type_vector. destruct (Type_extent c old) as [x| | | |] eqn:Ex; cbn [bind]; try discriminate. cbv zeta. intros E.
  destruct (hvector_sound _ _ _ _ _ _ S B E) as [W M]. split; [exact W|]. rewrite M. unfold hvector_map, vector_map. apply wrapped_flat. intros i Hi.
  unfold extent_or_0. rewrite Ex. destruct (to_u64_ex s) as (k1 & ->). destruct (to_u64_ex ((s + k1 * TWO64) * x)) as (k2 & ->).
  apply (wrapped_copies _ _ _ _ _ (i * k1 * x + i * k2)). ring.
Qed.
Lemma indexed_sound jk n bls ds old t : sane c old -> (forall k b, 0 <= k < n -> nth_error bls (Z.to_nat k) = Some b -> 0 <= b) ->
  Type_indexed c jk n bls ds old = Ok t ->
  built t (flat_map (fun i => copies (at_ bls i) (extent_or_0 c old) (at_ ds i * extent_or_0 c old) (data_map old)) (upto n)).
Proof.
  intros S B. unfold Type_indexed, vla. destruct (Z.ltb_spec n 0) as [|N]; [discriminate|]. cbn [bind].
  destruct (for_loop 0 n _ []) as [bd| | | |] eqn:L; cbn [bind]; try discriminate. intros E.
  destruct (hindexed_sound _ _ _ _ _ _ S B E) as [W M]. split; [exact W|]. rewrite M.
  assert (P : length bd = Z.to_nat n /\ forall i, 0 <= i < n -> at_ bd i = to_u64 (to_u64 (at_ ds i) * extent_or_0 c old)).
  { pose proof (for_ok_i (fun k (acc : list Z) => 0 <= k /\ length acc = Z.to_nat k /\ forall i, 0 <= i < k -> at_ acc i = to_u64 (to_u64 (at_ ds i) * extent_or_0 c old)) _ _ _ _ _ L) as P.
    replace (Z.max 0 n) with n in P by lia. apply P; clear P L; [split; [lia|split; [reflexivity|intros; lia]]|].
    intros k acc acc' Hk (_ & La & IH). destruct (Type_extent c old) as [x| | | |] eqn:Ex; cbn [bind]; try discriminate.
    destruct (arr_get ds k) as [d| | | |] eqn:Ad; cbn [bind]; try discriminate. apply arr_get_at in Ad. intros X. injection X as <-.
    split; [lia|]. rewrite app_length. cbn [length]. split; [lia|]. intros i Hi. unfold at_ at 1. destruct (Z.eq_dec i k) as [->|Ne].
    - rewrite app_nth2 by lia. rewrite La, Nat.sub_diag. cbn [nth]. unfold extent_or_0. rewrite Ex, (at_nth _ _ _ Ad). reflexivity.
    - rewrite app_nth1 by lia. apply IH. lia. }
  apply wrapped_flat. intros i Hi. apply upto_bound in Hi. rewrite (proj2 P i Hi).
  set (x := extent_or_0 c old). destruct (to_u64_ex (at_ ds i)) as (k1 & ->). destruct (to_u64_ex ((at_ ds i + k1 * TWO64) * x)) as (k2 & ->).
  apply (wrapped_copies _ _ _ _ _ (k1 * x + k2)). ring.
Qed.
Lemma types_at_nth a : forall hs ts, types_at c a hs = Some ts -> forall i t, nth_error ts i = Some t -> exists h, nth_error hs i = Some h /\ type_at c a h = Some t.
Proof.
  induction hs as [|h hs IH]; intros ts; cbn [types_at]; [intros X; injection X as <-; intros [|i] t; discriminate|].
  destruct (type_at c a h) as [u|] eqn:Eu; [|discriminate]. destruct (types_at c a hs) as [us|] eqn:Es; [|discriminate]. intros X. injection X as <-.
  intros [|i] t Et; cbn in *; [injection Et as <-; eauto|]. apply (IH us eq_refl i t Et).
Qed.
Lemma types_at_len a : forall hs ts, types_at c a hs = Some ts -> length ts = length hs.
Proof.
  induction hs as [|h hs IH]; intros ts; cbn [types_at]; [intros X; injection X as <-; reflexivity|].
  destruct (type_at c a h) as [u|] eqn:Eu; [|discriminate]. destruct (types_at c a hs) as [us|] eqn:Es; [|discriminate]. intros X. injection X as <-. cbn. f_equal. auto.
Qed.
Lemma make_sound tj a k t : (forall h t, type_at c a h = Some t -> sane c t) -> lens_ok k -> make_type c tj a k = Ok t ->
  built t (std_map (handle_map c a) (handle_ext c a) k).
Proof.
  intros S L. unfold make_type. destruct k as [n bls ds hs|n h|n b s h|n b s h|n bls ds h|n bls ds h|n b ds h]; cbv zeta; cbn [lens_ok] in L; cbn [std_map];
    [|destruct (type_at c a h) as [old|] eqn:Eo; [|discriminate]; unfold handle_map, handle_ext; rewrite Eo; pose proof (S h old Eo) as So..].
  - destruct ((n <? 0) || (Z.of_nat (length hs) <? n)) eqn:N; [discriminate|]. apply orb_false_iff in N. destruct N as [N1 N2]. apply Z.ltb_ge in N1, N2.
    destruct (types_at c a (firstn (Z.to_nat n) hs)) as [ts|] eqn:Et; [|discriminate]. intros E.
    assert (O : forall k t, 0 <= k < n -> nth_error ts (Z.to_nat k) = Some t -> sane c t).
    { intros k u Hk Eu. destruct (types_at_nth a _ _ Et _ _ Eu) as (h & _ & Eh). exact (S h u Eh). }
    pose proof (lens_nth n bls L) as B.
    split; [exact (struct_sound c _ _ _ _ B O _ _ E)|]. rewrite (struct_map_exact c _ _ _ _ B O _ _ E).
    apply wrapped_flat. intros i Hi. apply upto_bound in Hi. unfold block_i.
    destruct (nth_error ts (Z.to_nat i)) as [old|] eqn:Eo.
    + destruct (types_at_nth a _ _ Et _ _ Eo) as (h & Eh & Ea).
      assert (Eh' : at_ hs i = h).
      { apply at_nth. rewrite <- Eh. symmetry. clear -Hi. assert (G : forall n (l : list Z) k, (k < n)%nat -> nth_error (firstn n l) k = nth_error l k).
        { induction n0 as [|m IH]; intros l j L; [lia|]. destruct l as [|x l]; [reflexivity|]. destruct j; cbn; [reflexivity|]. apply IH. lia. }
        apply G. lia. }
      unfold handle_map, handle_ext. rewrite Eh', Ea. reflexivity.
    + apply nth_error_None in Eo. pose proof (types_at_len a _ _ Et) as Ln. rewrite firstn_length in Ln. lia.
  - apply contiguous_sound; auto.
  - apply hvector_sound; auto.
  - apply vector_sound; auto.
  - apply hindexed_sound; auto. apply lens_nth; auto.
  - apply indexed_sound; auto. apply lens_nth; auto.
  - unfold Type_create_indexed_block, vla. destruct (n <? 0); [discriminate|]. cbn [bind]. intros E.
    assert (B : forall k v, 0 <= k < n -> nth_error (tabulate n (fun _ => b)) (Z.to_nat k) = Some v -> 0 <= v).
    { intros k u Hk Eu. apply tab_nth in Eu; [|lia]. destruct Eu as [_ ->]. exact L. }
    destruct (indexed_sound _ _ _ _ _ _ So B E) as [W M]. split; [exact W|]. rewrite M. apply wrapped_flat. intros i Hi. apply upto_bound in Hi. rewrite tab_at by lia. reflexivity.
Qed.
End Make.

(** *** Reachable states *)
Definition tk {A} (e : sp A) : Prop := forall a x a', e a = Ret x a' -> forall h t, a_obj a' h = Some (AType t) -> a_obj a h = Some (AType t).
Ltac olds := intros ? ?; cbn [set_obj with_handles with_mem logged with_clock with_heads with_items with_init with_ntypes a_obj]; unfold upd; repeat (match goal with |- context [if ?b then _ else _] => destruct b end); auto; discriminate.
Lemma tk_ret {A} (x : A) : tk (sret x). Proof. intros a y a' E. apply Ret_state in E. subst. auto. Qed.
Lemma tk_bind {A B} (e : sp A) (f : A -> sp B) : tk e -> (forall x, tk (f x)) -> tk (sbind e f).
Proof. intros H1 H2 a x a'. unfold sbind. destruct (e a) as [y b| |] eqn:E; try discriminate. intros E2 h t E3. eapply H1; eauto. eapply H2; eauto. Qed.
Lemma tk_map {A} (f : A -> out -> Prop) e : tk e -> tk (smap f e).
Proof. intros H. apply tk_bind; auto. intros x. apply tk_ret. Qed.
Lemma tk_abort {A} w : tk (fun _ => @SAbort A w). Proof. intros a x a' E. discriminate. Qed.
Lemma tk_alloc f : (forall h t, f h <> AType t) -> tk (s_alloc f).
Proof. intros N a x a' E. apply alloc_inv in E. destruct E as (? & ? & _ & ->). intros h t. cbn [set_obj with_handles a_obj]. unfold upd. destruct (_ =? _); [intros X; injection X as X; destruct (N _ _ X)|auto]. Qed.
Lemma tk_xfer c x1 x2 x3 x4 x5 x6 : tk (s_xfer c x1 x2 x3 x4 x5 x6). Proof. intros a x a' E. apply xfer_inv in E. destruct E as (m & ->). auto. Qed.
Lemma tk_free h : tk (s_free h). Proof. intros a x a' E. apply Ret_state in E. subst. olds. Qed.
Lemma tk_test r : tk (s_test r).
Proof. intros a x a'. unfold s_test. destruct (r =? _); [intros E; apply Ret_state in E; subst; auto|]. destruct (req_at a r) as [q|]; [|discriminate]. destruct (report q); intros E; apply Ret_state in E; subst; [olds|auto]. Qed.
Lemma tk_wait m r : tk (s_wait m r).
Proof. apply tk_bind; [apply tk_test|]. intros [[x f] w]. destruct (f =? 0); [apply tk_abort|apply tk_ret]. Qed.
Lemma tk_isend c b n t d g cm : tk (s_isend c b n t d g cm).
Proof.
  intros a x a'. unfold s_isend. destruct (negb _); [discriminate|]. destruct (d =? _); [apply tk_alloc; discriminate|]. destruct (comm_at a cm); [|discriminate]. destruct (first_such _ _) as [[[? ?] ?]|].
  - apply tk_bind; [apply tk_alloc; discriminate|]. intros h. apply tk_bind; [apply tk_xfer|]. intros _ b0 y b' E. apply Ret_state in E. subst. olds.
  - apply tk_bind; [apply tk_alloc; discriminate|]. intros h b0 y b' E. apply Ret_state in E. subst. olds.
Qed.
Lemma tk_irecv c b n t d g cm : tk (s_irecv c b n t d g cm).
Proof.
  intros a x a'. unfold s_irecv. destruct (negb _); [discriminate|]. destruct (d =? _); [apply tk_alloc; discriminate|]. destruct (comm_at a cm); [|discriminate]. destruct (first_such _ _) as [[[? ?] ?]|].
  - apply tk_bind; [apply tk_alloc; discriminate|]. intros h. apply tk_bind; [apply tk_xfer|]. intros _ b0 y b' E. apply Ret_state in E. subst. olds.
  - apply tk_bind; [apply tk_alloc; discriminate|]. intros h b0 y b' E. apply Ret_state in E. subst. olds.
Qed.
Lemma tk_send c b n t d g cm : tk (s_send c b n t d g cm).
Proof. apply tk_bind; [apply tk_isend|]. intros r. apply tk_bind; [apply tk_wait|]. intros w. apply tk_ret. Qed.
Lemma tk_comm_new : tk s_comm_new.
Proof. intros a x a'. unfold s_comm_new. apply tk_bind; [apply tk_alloc; discriminate|]. intros h b y b' E. apply Ret_state in E. subst. olds. Qed.
Lemma tk_testany : forall n rs d, tk (s_testany n d rs).
Proof. induction n as [|n IH]; intros [|r rs] d; try apply tk_ret. apply tk_bind; [apply tk_test|]. intros [[x f] w]. destruct (f =? 0); [apply IH|apply tk_ret]. Qed.
Lemma tk_tests : forall n rs, tk (s_tests n rs).
Proof. induction n as [|n IH]; intros [|r rs]; try apply tk_ret. apply tk_bind; [apply tk_test|]. intros [[x f] w]. apply tk_bind; [apply IH|]. intros [[? ?] ?]. apply tk_ret. Qed.
Lemma tk_waitall : forall n rs, tk (s_waitall n rs).
Proof. induction n as [|n IH]; intros [|r rs]; try apply tk_ret. apply tk_bind; [apply tk_wait|]. intros [x w]. apply tk_bind; [apply IH|]. intros [? ?]. apply tk_ret. Qed.
Lemma tk_iprobe so g cm : tk (s_iprobe so g cm).
Proof. intros a x a'. unfold s_iprobe. destruct (negb _); [discriminate|]. destruct (comm_at a cm); [|discriminate]. destruct (first_such _ _) as [[[? ?] ?]|]; intros E; apply Ret_state in E; subst; auto. Qed.
Lemma tk_query c h q : tk (s_query c h q).
Proof. intros a x a' E. apply query_state in E. subst. auto. Qed.
Lemma tk_moves {A} (f : astate -> res (mem * A)) : tk (s_moves f).
Proof. intros a x a' E. apply moves_state in E. destruct E as [m ->]. auto. Qed.
Lemma tk_cart n dims : tk (s_cart n dims).
Proof. unfold s_cart. destruct (existsb _ _); [apply tk_abort|apply tk_comm_new]. Qed.
Lemma tk_startup : tk s_startup.
Proof. apply tk_bind; [apply tk_comm_new|]. intros h. destruct (h =? _); [|apply tk_abort]. intros a x a' E. apply Ret_state in E. subst. auto. Qed.
Lemma create_inv c tj k a h a' : s_type_create c tj k a = Ret h a' -> exists t, make_type c tj a k = Ok t /\ a_obj a' h = Some (AType t) /\ forall x, x <> h -> a_obj a' x = a_obj a x.
Proof.
  unfold s_type_create. destruct (next_handle _ _) as [[[h0 fr] top]|] eqn:N; [|discriminate]. destruct (make_type c tj a k) as [t| | | |]; try discriminate.
  unfold sbind, s_alloc. rewrite N. intros X. injection X as <- <-. exists t. split; [reflexivity|]. cbn [with_ntypes set_obj with_handles a_obj]. unfold upd. split; [rewrite Z.eqb_refl; reflexivity|].
  intros x Nx. destruct (Z.eqb_spec x h0); [congruence|reflexivity].
Qed.
(** Where the datatypes after a call come from. *)
Lemma spec_types c tj k a Q a' h t : spec c tj k a = Ret Q a' -> a_obj a' h = Some (AType t) ->
  a_obj a h = Some (AType t) \/ (exists u, k = KTypeCommit h /\ a_obj a h = Some (AType u) /\ t = committed u) \/
  (exists kk, k = KTypeCreate kk /\ make_type c tj a kk = Ok t).
Proof.
  assert (K : forall e : sp (out -> Prop), tk e -> e a = Ret Q a' -> a_obj a' h = Some (AType t) -> a_obj a h = Some (AType t) \/ (exists u, k = KTypeCommit h /\ a_obj a h = Some (AType u) /\ t = committed u) \/
    (exists kk, k = KTypeCreate kk /\ make_type c tj a kk = Ok t)) by (intros e T E H; left; eapply T; eauto).
  destruct k; cbn [spec]; try (apply K, tk_map; first [apply tk_comm_new|apply tk_isend|apply tk_irecv|apply tk_send|apply tk_test|apply tk_wait|apply tk_testany|apply tk_tests|apply tk_waitall|apply tk_iprobe|apply tk_query|apply tk_moves|apply tk_cart|apply tk_startup]; fail);
  try (match goal with |- context [if ?b then sret _ else s_comm_new] => destruct b end; apply K, tk_map; [apply tk_ret|apply tk_comm_new]; fail);
  try (intros E; apply Ret_state in E; subst a'; auto; fail).
  all: try (unfold s_finalize, smap, sbind; intros E; apply Ret_state in E; subst a'; discriminate).
  - apply K, tk_map. intros b x b'. unfold s_comm_free, sbind, s_free. destruct (comm_at b comm); [|discriminate]. intros E. apply Ret_state in E. subst b'. olds.
  - apply K, tk_map. apply tk_bind; [apply tk_isend|]. intros r b x b'. destruct (complete b r); [|discriminate]. intros E. apply Ret_state in E. subst. auto.
  - apply K, tk_map. apply tk_bind; [apply tk_irecv|]. intros r. apply tk_bind; [apply tk_wait|]. intros [? ?]. apply tk_ret.
  - apply K, tk_map. apply tk_bind; [apply tk_irecv|]. intros r. apply tk_bind; [apply tk_send|]. intros _. apply tk_bind; [apply tk_wait|]. intros [? ?]. apply tk_ret.
  - apply K, tk_map. apply tk_bind; [apply tk_testany|]. intros [[? f] ?]. destruct (f =? 0); [apply tk_abort|apply tk_ret].
  - apply K, tk_map. intros b x b'. unfold s_request_free. destruct (req =? _); intros E; apply Ret_state in E; subst; [auto|olds].
  - apply K, tk_map. apply tk_bind; [apply tk_iprobe|]. intros [f w]. destruct (f =? 0); [apply tk_abort|apply tk_ret].
  - unfold smap, sbind. match goal with |- context [s_type_create c tj ?kk a] => destruct (s_type_create c tj kk a) as [x b| |] eqn:E; try discriminate end.
    intros X. apply Ret_state in X. subst b. apply create_inv in E. destruct E as (u & E & H1 & H2). intros Eh.
    destruct (Z.eq_dec h x) as [->|Nx]; [|rewrite H2 in Eh; auto]. rewrite H1 in Eh. injection Eh as <-. right. right. eauto.
  - unfold smap, sbind, s_type_commit. match goal with |- context [a_obj a ?z] => destruct (a_obj a z) as [[| |u]|] eqn:E; intros X; apply Ret_state in X; subst; auto end.
    cbn [set_obj a_obj]. unfold upd. destruct (Z.eqb_spec h h0) as [->|]; auto. intros X. injection X as <-. right. left. eauto.
  - apply K, tk_map. apply tk_bind; [apply tk_free|]. intros _. apply tk_ret.
Qed.
Lemma pre_sane c h t : cfg_ok c -> predefined c h = Ok t -> sane c t.
Proof.
  intros CO. unfold predefined. destruct (_ || _); [discriminate|]. destruct (nth_error (simpletypes c) _) as [u|] eqn:E; [|discriminate]. intros X. injection X as <-.
  apply nth_error_In in E.
  assert (P1 : forall ub ty, sane c (pre1 ub ty)).
  { intros ub ty. constructor; cbn [pre1 ts_count ts_pairs ts_olb ts_oub length]; [unfold INT_MAX; lia|lia| |intros [F|F]; congruence].
    change (typemap (pre1 ub ty)) with [(ty, 0)]. intros e [<-|[]]. cbn. unfold LONG_MIN, LONG_MAX. lia. }
  assert (P2 : forall ub ty d ty', 0 <= d <= INT_MAX -> sane c (pre2 ub ty d ty')).
  { intros ub ty d ty' D. constructor; cbn [pre2 ts_count ts_pairs ts_olb ts_oub length]; [unfold INT_MAX; lia|lia| |intros [F|F]; congruence].
    change (typemap (pre2 ub ty d ty')) with [(ty, 0); (ty', d)]. unfold INT_MAX in D. intros e [<-|[<-|[]]]; cbn [snd]; unfold LONG_MIN, LONG_MAX; lia. }
  destruct CO as [C1 C2]. unfold simpletypes in E.
  repeat (destruct E as [<-|E]; [first [apply P1|apply P2; unfold INT_MAX; lia]|]). destruct E.
Qed.
Section Reach.
Variable c : cfg.
Variable tj : Z -> tjunk.
Hypothesis CO : cfg_ok c.
Lemma all_sane a : (forall h t, a_obj a h = Some (AType t) -> wf_ts c t) -> forall h t, type_at c a h = Some t -> sane c t.
Proof.
  intros W h t. unfold type_at. destruct (h <? 0).
  - destruct (predefined c h) as [u| | | |] eqn:E; try discriminate. intros X. injection X as <-. eapply pre_sane; eauto.
  - destruct (a_obj a h) as [[| |u]|] eqn:E; try discriminate. intros X. injection X as <-. eapply wf_sane, W; eauto.
Qed.
Theorem C89_lemma ks s a : reach_by c tj ks s a -> Forall no_negative_block ks -> forall h t, a_obj a h = Some (AType t) -> wf_ts c t.
Proof.
  induction 1 as [|ks s a k o s' Q a' R IH L E1 E2]; intros F h t; [discriminate|]. apply Forall_app in F. destruct F as [F1 F2]. specialize (IH F1).
  intros E. destruct (spec_types _ _ _ _ _ _ _ _ E2 E) as [E0|[(u & -> & E0 & ->)|(kk & -> & M)]].
  - eauto.
  - apply wf_commit. eauto.
  - inversion F2 as [|? ? N _ X]; subst. exact (proj1 (make_sound c tj a kk t (all_sane a IH) N M)).
Qed.
Lemma extent_u64 t x : Type_extent c t = Ok x -> to_u64 x = x.
Proof.
  unfold Type_extent. intros E. apply to_u64_id.
  assert (G : exists z, x = to_u64 z); [|destruct G as [z ->]; apply to_u64_range].
  repeat match type of E with
  | (if ?b then _ else _) = _ => destruct b
  | (do _ <- ?m; _) = _ => destruct m; cbn [bind] in E; try discriminate E
  | Ok _ = Ok _ => injection E as <-; eauto
  | _ => progress cbv zeta in E
  end.
Qed.
Theorem C89_typed_lemma ks s a h t x : reach_by c tj ks s a -> Forall no_negative_block ks -> type_at c a h = Some t -> Type_extent c t = Ok x -> typed c t x.
Proof.
  intros R F T E. pose proof (all_sane a (C89_lemma ks s a R F) h t T) as S. split; [|rewrite (extent_u64 t x E); exact E].
  apply sane_wf; auto. exact (extent_known c t x S E).
Qed.
Theorem C89_map_lemma ks s a k o s' a' : reach_by c tj ks s a -> Forall no_negative_block ks -> lens_ok k -> does c tj s a (KTypeCreate k) o s' a' ->
  exists h t, o = VInt h /\ a_obj a' h = Some (AType t) /\ typemap t = wrapped (std_map (handle_map c a) (handle_ext c a) k).
Proof.
  intros R F L (_ & _ & _ & Q & E & Qo). cbn [spec] in E. unfold smap, sbind in E. destruct (s_type_create c tj k a) as [h b| |] eqn:Ec; try discriminate.
  injection E as <- <-. apply create_inv in Ec. destruct Ec as (t & Em & Eo & _). exists h, t. split; [exact Qo|]. split; [exact Eo|].
  exact (proj2 (make_sound c tj a k t (all_sane a (C89_lemma ks s a R F)) L Em)).
Qed.
Lemma wrapped_id m : (forall e, In e m -> LONG_MIN <= snd e <= LONG_MAX) -> wrapped m = m.
Proof. intros H. unfold wrapped. rewrite <- (map_id m) at 2. apply map_ext_in. intros [ty d] He. cbn. rewrite to_s64_id; [reflexivity|exact (H _ He)]. Qed.
End Reach.

(** *** Equivalent constructor calls *)
Lemma flat_ext {A B} (f g : A -> list B) l : (forall x, In x l -> f x = g x) -> flat_map f l = flat_map g l.
Proof. induction l as [|x l IH]; intros H; [reflexivity|]. cbn. rewrite (H x (or_introl eq_refl)), IH; [reflexivity|]. intros y Hy. apply H. right. exact Hy. Qed.
Lemma at_repeat b n i : 0 <= i < n -> at_ (repeat b (Z.to_nat n)) i = b.
Proof. intros H. unfold at_. rewrite nth_indep with (d' := b) by (rewrite repeat_length; lia). apply nth_repeat. Qed.
Lemma at_map f l i : f 0 = 0 -> at_ (map f l) i = f (at_ l i).
Proof. intros F. unfold at_. rewrite <- F at 1. apply map_nth. Qed.
Lemma at_upto f n i : 0 <= i < n -> at_ (map f (upto n)) i = f i.
Proof. intros H. apply at_nth. rewrite nth_error_map, upto_nth_ok by lia. cbn. f_equal. f_equal. lia. Qed.
Lemma copies_add n k x d m : 0 <= n -> 0 <= k -> copies (n + k) x d m = copies n x d m ++ copies k x (d + n * x) m.
Proof.
  intros N K. unfold copies. assert (U : upto (n + k) = upto n ++ map (fun j => n + j) (upto k)).
  { unfold upto. rewrite Z2Nat.inj_add, List.seq_app, map_app by lia. f_equal. cbn [Nat.add].
    rewrite map_map. rewrite <- (Nat.add_0_l (Z.to_nat n)) at 1.
    assert (G : forall c0 a0, map Z.of_nat (List.seq (Z.to_nat n + a0) c0) = map (fun x0 => n + Z.of_nat x0) (List.seq a0 c0)).
    { induction c0 as [|c0 IH]; intros a0; [reflexivity|]. cbn [List.seq map]. f_equal; [lia|]. rewrite <- IH. do 2 f_equal. lia. }
    rewrite Nat.add_0_l. rewrite <- (Nat.add_0_r (Z.to_nat n)) at 1. apply G. }
  rewrite U, flat_map_app. f_equal. rewrite !flat_map_concat_map, map_map. f_equal. apply map_ext. intros j. f_equal. ring.
Qed.
Lemma dense n b x m : 0 <= n -> 0 <= b -> flat_map (fun i => copies b x (i * (b * x)) m) (upto n) = copies (n * b) x 0 m.
Proof.
  intros N B. rewrite <- (Z2Nat.id n N). induction (Z.to_nat n) as [|k IH]; [reflexivity|].
  rewrite Nat2Z.inj_succ. unfold Z.succ. rewrite upto_succ, flat_map_app, IH by lia. cbn [flat_map]. rewrite app_nil_r.
  replace ((Z.of_nat k + 1) * b) with (Z.of_nat k * b + b) by ring. rewrite copies_add by nia. f_equal. f_equal. ring.
Qed.
Lemma same_map map_at ext_at k k' : same_type ext_at k k' -> std_map map_at ext_at k = std_map map_at ext_at k'.
Proof.
  induction 1; cbn [std_map]; try congruence.
  - unfold contiguous_map, vector_map, copies at 1. apply flat_ext. intros i _. rewrite copies_one. f_equal. ring.
  - unfold vector_map, contiguous_map. apply dense; auto.
  - reflexivity.
  - unfold vector_map. apply flat_ext. intros i Hi. apply upto_bound in Hi. rewrite at_upto by lia. f_equal. ring.
  - apply flat_ext. intros i Hi. apply upto_bound in Hi. rewrite at_repeat by lia. reflexivity.
  - apply flat_ext. intros i Hi. rewrite (at_map (fun d => d * ext_at h)) by ring. reflexivity.
  - apply flat_ext. intros i Hi. apply upto_bound in Hi. rewrite at_repeat by lia. reflexivity.
Qed.
Theorem C90_lemma c tj ks s a k1 k2 o1 s1 a1 o2 s2 a2 : cfg_ok c -> reach_by c tj ks s a -> Forall no_negative_block ks -> lens_ok k1 -> lens_ok k2 ->
  same_type (handle_ext c a) k1 k2 -> does c tj s a (KTypeCreate k1) o1 s1 a1 -> does c tj s a (KTypeCreate k2) o2 s2 a2 ->
  exists h1 h2 t1 t2, o1 = VInt h1 /\ o2 = VInt h2 /\ a_obj a1 h1 = Some (AType t1) /\ a_obj a2 h2 = Some (AType t2) /\ typemap t1 = typemap t2.
Proof.
  intros CO R F L1 L2 S D1 D2. destruct (C89_map_lemma c tj CO _ _ _ _ _ _ _ R F L1 D1) as (h1 & t1 & -> & E1 & M1).
  destruct (C89_map_lemma c tj CO _ _ _ _ _ _ _ R F L2 D2) as (h2 & t2 & -> & E2 & M2). exists h1, h2, t1, t2.
  do 4 (split; [auto|]). rewrite M1, M2, (same_map _ _ _ _ S). reflexivity.
Qed.
