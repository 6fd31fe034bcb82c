From Verif Require Import Base ListModel HandleModel TypeModel TypeSpec CopyModel SysModel CollModel SysCalls HeaderModel FortModel FortSpec.

Section FortFacts.
Variable c : cfg.

Lemma first_size_ok h v : In (h, v) (first_sizes (fsize_real c) (fsize_dprec c)) ->
  h < 0 /\ (do t <- predefined c h; do p <- arr_get (ts_pairs t) 0; Simpletype_length c (tp_type p)) = Ok v.
Proof.
  unfold first_sizes. intros I. cbn [In] in I.
  repeat (destruct I as [I|I]; [injection I as <- <-; split; [reflexivity|vm_compute; reflexivity]|]). destruct I.
Qed.
Lemma first_size_fun h v w : In (h, v) (first_sizes (fsize_real c) (fsize_dprec c)) -> In (h, w) (first_sizes (fsize_real c) (fsize_dprec c)) -> v = w.
Proof.
  intros A B. apply first_size_ok in A, B. destruct A as [_ A], B as [_ B]. congruence.
Qed.
Lemma verify_size_ok fv sz n err v s :
  In (fv n, v) (first_sizes (fsize_real c) (fsize_dprec c)) -> is_int (sz n) ->
  verify_size c fv sz n err s = Ok (if sz n =? v then err else 1, s).
Proof.
  intros I R. destruct (first_size_ok _ _ I) as [L E]. unfold verify_size, mbind, get_type, pure, ret, mbind.
  apply Z.ltb_lt in L. rewrite L. destruct (predefined c (fv n)) as [t|m|z m|m|]; try discriminate. cbn [bind snd] in *.
  destruct (arr_get (ts_pairs t) 0) as [p|m|z m|m|]; try discriminate. cbn [bind] in *.
  rewrite E. cbn [bind]. rewrite to_s32_id by exact R. reflexivity.
Qed.
Lemma verify_field_ok fv n k err : is_int (fv n) -> fv n <> INT_MIN -> 0 <= k < 100 ->
  verify_field fv n (k * 4) err = Ok (if fv n =? k + 1 then err else 1).
Proof.
  intros R M K. unfold verify_field. unfold is_int in R. rewrite chk_int_ok by lia.
  cbn [bind]. f_equal. unfold to_u64. rewrite Zmult_mod_idemp_l. unfold INT_MIN, INT_MAX, TWO64 in *.
  rewrite (Z.mod_small (k * 4)) by lia. destruct (Z.eqb_spec (fv n) (k + 1)) as [E|E].
  - rewrite E. replace (k + 1 - 1) with k by lia. rewrite Z.mod_small by lia. rewrite Z.eqb_refl. reflexivity.
  - destruct (Z.eqb_spec (k * 4) (((fv n - 1) * 4) mod 18446744073709551616)) as [Q|Q]; [|reflexivity]. exfalso.
    destruct (Z.le_gt_cases 0 (fv n - 1)).
    + rewrite Z.mod_small in Q by lia. lia.
    + rewrite <- (Z_mod_plus_full _ 1) in Q. rewrite Z.mod_small in Q by lia. lia.
Qed.
Lemma status_size_ok fv err : is_int (fv "MPI_STATUS_SIZE"%string) ->
  verify_eq (fun n => to_u64 (fv n)) "MPI_STATUS_SIZE" 4 err = if fv "MPI_STATUS_SIZE"%string =? 4 then err else 1.
Proof.
  intros R. unfold verify_eq, is_int, to_u64, INT_MIN, INT_MAX, TWO64 in *. generalize dependent (fv "MPI_STATUS_SIZE"%string). intros x R.
  destruct (Z.eqb_spec x 4) as [->|N]; [reflexivity|]. destruct (Z.eqb_spec (x mod 18446744073709551616) 4) as [Q|Q]; [|reflexivity]. exfalso.
  destruct (Z.le_gt_cases 0 x).
  - rewrite Z.mod_small in Q by lia. lia.
  - rewrite <- (Z_mod_plus_full _ 1) in Q. rewrite Z.mod_small in Q by lia. lia.
Qed.

Definition eqs (fv : string -> Z) : list bool := map (fun x => fv (fst x) =? snd x) compared.
Lemma eqs_ok fv : forallb id (eqs fv) = true <-> forall n v, In (n, v) compared -> fv n = v.
Proof.
  unfold eqs. rewrite forallb_forall. split.
  - intros H n v I. apply Z.eqb_eq. apply (H (fv n =? v)). apply (in_map (fun x => fv (fst x) =? snd x) compared (n, v) I).
  - intros H b I. apply in_map_iff in I. destruct I as ([n v] & <- & I). apply Z.eqb_eq. apply H. exact I.
Qed.
Lemma if_err (b : bool) (e : Z) : ((if b then e else 1) =? 0) = b && (e =? 0).
Proof. destruct b; reflexivity. Qed.

Theorem C71_lemma fv sz s s1 :
  MPI_Init s = Ok (tt, s1) -> (forall n, is_int (fv n)) -> (forall n, is_int (sz n)) ->
  (forall n, In n ["MPI_SOURCE"; "MPI_TAG"; "MPI_ERROR"]%string -> fv n <> INT_MIN) ->
  name_types (fsize_real c) (fsize_dprec c) fv ->
  (agree (fsize_real c) (fsize_dprec c) fv sz -> mpi_init_fort c fv sz s = Ok (0, s1)) /\
  (~ agree (fsize_real c) (fsize_dprec c) fv sz -> exists m, mpi_init_fort c fv sz s = Abort m).
Proof.
  intros HI IV IS NM NT. unfold name_types, measured in NT.
  destruct (NT "MPI_INTEGER"%string) as [v1 I1]; [repeat ((left; reflexivity) || right)|].
  destruct (NT "MPI_LOGICAL"%string) as [v2 I2]; [repeat ((left; reflexivity) || right)|].
  destruct (NT "MPI_REAL"%string) as [v3 I3]; [repeat ((left; reflexivity) || right)|].
  destruct (NT "MPI_DOUBLE_PRECISION"%string) as [v4 I4]; [repeat ((left; reflexivity) || right)|].
  destruct (NT "MPI_COMPLEX"%string) as [v5 I5]; [repeat ((left; reflexivity) || right)|].
  set (good := forallb id (eqs fv) && ((sz "MPI_INTEGER"%string =? v1) && (sz "MPI_LOGICAL"%string =? v2) && (sz "MPI_REAL"%string =? v3) && (sz "MPI_DOUBLE_PRECISION"%string =? v4) && (sz "MPI_COMPLEX"%string =? v5))).
  assert (G : agree (fsize_real c) (fsize_dprec c) fv sz <-> good = true).
  { unfold agree, good. rewrite andb_true_iff, eqs_ok, !andb_true_iff, !Z.eqb_eq. split.
    - intros [A B]. split; [exact A|]. unfold measured in B.
      assert (B1 := B _ (or_introl eq_refl)). assert (B2 := B _ (or_intror (or_introl eq_refl))). assert (B3 := B _ (or_intror (or_intror (or_introl eq_refl)))).
      assert (B4 := B _ (or_intror (or_intror (or_intror (or_introl eq_refl))))). assert (B5 := B _ (or_intror (or_intror (or_intror (or_intror (or_introl eq_refl)))))).
      repeat split; eapply first_size_fun; eauto.
    - intros [A [[[[B1 B2] B3] B4] B5]]. split; [exact A|]. intros n I. cbn [measured In] in I.
      destruct I as [<-|[<-|[<-|[<-|[<-|[]]]]]]; congruence. }
  assert (E : mpi_init_fort c fv sz s = if good then Ok (0, s1) else Abort "mpi_init_fort").
  { unfold mpi_init_fort, mbind, pure. rewrite HI. cbn [bind].
    rewrite status_size_ok by auto.
    rewrite (verify_field_ok fv "MPI_SOURCE" 0) by (auto || lia || (apply NM; repeat ((left; reflexivity) || right))). cbn [bind].
    rewrite (verify_field_ok fv "MPI_TAG" 1) by (auto || lia || (apply NM; repeat ((left; reflexivity) || right))). cbn [bind].
    rewrite (verify_field_ok fv "MPI_ERROR" 2) by (auto || lia || (apply NM; repeat ((left; reflexivity) || right))). cbn [bind].
    rewrite (verify_size_ok fv sz "MPI_INTEGER" _ v1) by auto. cbn [bind].
    rewrite (verify_size_ok fv sz "MPI_LOGICAL" _ v2) by auto. cbn [bind].
    rewrite (verify_size_ok fv sz "MPI_REAL" _ v3) by auto. cbn [bind].
    rewrite (verify_size_ok fv sz "MPI_DOUBLE_PRECISION" _ v4) by auto. cbn [bind].
    rewrite (verify_size_ok fv sz "MPI_COMPLEX" _ v5) by auto. cbn [bind].
    match goal with |- (if negb (?e =? 0) then _ else _) _ = _ => set (err := e) end.
    assert (EG : (err =? 0) = good).
    { unfold err, good, eqs, compared, verify_eq. clear. cbn [map forallb fst snd id]. change (0 + 1) with 1. change (1 + 1) with 2. change (2 + 1) with 3.
      rewrite !if_err. unfold id. apply eq_true_iff_eq. rewrite !andb_true_iff. tauto. }
    rewrite EG. destruct good; cbn [negb]; [|reflexivity]. apply Z.eqb_eq in EG. unfold ret. rewrite EG. reflexivity. }
  rewrite G, E. split; [intros ->; reflexivity|]. destruct good; [congruence|]. eauto.
Qed.

(** C70. *)
Theorem C70_lemma f k : untranslated k <> Some (f_in_place f) -> binding f k = wanted f k.
Proof.
  intros H. destruct k; try reflexivity. destruct k; cbn [binding wanted with_in_place untranslated] in *; try reflexivity;
    match goal with |- context [if ?b =? ?p then _ else _] => destruct (Z.eqb_spec b p) as [->|]; [congruence|reflexivity] end.
Qed.

Theorem C70_untranslated_lemma f k : untranslated k = Some (f_in_place f) -> f_in_place f <> MPI_IN_PLACE -> binding f k = KColl (match k with FColl k => k | _ => CBarrier end) /\ wanted f k <> binding f k.
Proof.
  intros H N. destruct k; try discriminate. destruct k; try discriminate; cbn [untranslated] in H; injection H as ->; (split; [reflexivity|]);
  cbn [binding wanted with_in_place]; rewrite Z.eqb_refl; congruence.
Qed.

(** C79. *)
Lemma load_app n k m a x : load n m a = Ok x -> load (n + k) m a = (do r <- load k m (a + Z.of_nat n); Ok (x + 256 ^ Z.of_nat n * r)).
Proof.
  revert a x. induction n as [|n IH]; intros a x H.
  - cbn [load Nat.add] in *. injection H as <-. change (Z.of_nat 0) with 0. rewrite Z.add_0_r. destruct (load k m a) as [r|?|? ?|?|]; try reflexivity. cbn [bind]. f_equal. rewrite Z.pow_0_r. lia.
  - cbn [load Nat.add] in *. destruct (m a) as [b|]; [|discriminate]. destruct (load n m (a + 1)) as [r|?|? ?|?|] eqn:L; try discriminate. cbn [bind] in H. assert (x = b + 256 * r) by congruence. subst x. clear H.
    rewrite (IH _ _ L). rewrite Nat2Z.inj_succ. replace (a + 1 + Z.of_nat n) with (a + Z.succ (Z.of_nat n)) by lia.
    destruct (load k m (a + Z.succ (Z.of_nat n))) as [q|?|? ?|?|]; try reflexivity. cbn [bind]. f_equal. rewrite Z.pow_succ_r by lia. generalize (256 ^ Z.of_nat n). intros w. ring.
Qed.
Lemma load4 m a v : integer_at m a v -> load 4 m a = Ok (v mod 2 ^ 32).
Proof.
  intros [R B]. assert (B0 := B 0 ltac:(lia)). assert (B1 := B 1 ltac:(lia)). assert (B2 := B 2 ltac:(lia)). assert (B3 := B 3 ltac:(lia)).
  change (256 ^ 0) with 1 in B0. change (256 ^ 1) with 256 in B1. change (256 ^ 2) with 65536 in B2. change (256 ^ 3) with 16777216 in B3.
  cbn [load]. rewrite Z.add_0_r in B0. rewrite B0, B1. replace (a + 1 + 1) with (a + 2) by lia. rewrite B2. replace (a + 2 + 1) with (a + 3) by lia. rewrite B3.
  cbn [bind]. f_equal. change (2 ^ 32) with 4294967296 in *. change (2 ^ 31) with 2147483648 in *.
  clear B0 B1 B2 B3 B. rewrite Z.div_1_r.
  Z.to_euclidean_division_equations. nia.
Qed.

Definition wide (v w : Z) : Z := v mod 2 ^ 32 + 2 ^ 32 * (w mod 2 ^ 32).
Lemma load8 m a v w : integer_at m a v -> integer_at m (a + 4) w -> load 8 m a = Ok (wide v w).
Proof.
  intros A B. change 8%nat with (4 + 4)%nat. rewrite (load_app 4 4 m a _ (load4 _ _ _ A)). change (Z.of_nat 4) with 4. rewrite (load4 _ _ _ B). reflexivity.
Qed.
Lemma wide_s32 v w : - 2 ^ 31 <= v < 2 ^ 31 -> to_s32 (wide v w) = v.
Proof.
  intros R. unfold wide, to_s32, TWO32. change (2 ^ 32) with 4294967296. change (2 ^ 31) with 2147483648 in R.
  replace (v mod 4294967296 + 4294967296 * (w mod 4294967296) + 2147483648) with ((v mod 4294967296 + 2147483648) + (w mod 4294967296) * 4294967296) by lia.
  rewrite Z.mod_add by lia. rewrite Z.add_mod_idemp_l by lia. rewrite Z.mod_small by lia. lia.
Qed.
Theorem C79_hvector_lemma s count bl st old b b' d d' :
  integer_at (s_mem s) bl b -> integer_at (s_mem s) (bl + 4) b' -> integer_at (s_mem s) st d -> integer_at (s_mem s) (st + 4) d' ->
  mpi_type_hvector c count bl st old s = MPI_Type_create c (THvector count b (d mod 2 ^ 32 + 2 ^ 32 * (d' mod 2 ^ 32)) old) s.
Proof.
  intros B B' D D'. unfold mpi_type_hvector. rewrite (load8 _ _ _ _ B B'), (load8 _ _ _ _ D D'). cbn [bind]. rewrite wide_s32 by apply B. reflexivity.
Qed.
Lemma loads_ok m : forall n a (ds : list Z), length ds = (2 * n)%nat -> (forall i d, nth_error ds i = Some d -> integer_at m (a + 4 * Z.of_nat i) d) ->
  loads n m a = Ok (map (fun i => wide (nth (2 * i) ds 0) (nth (2 * i + 1) ds 0)) (List.seq 0 n)).
Proof.
  induction n as [|n IH]; intros a ds L H; [reflexivity|].
  destruct ds as [|d [|d' ds]]; try (cbn in L; lia). cbn [loads].
  assert (A := H 0%nat d eq_refl). assert (B := H 1%nat d' eq_refl). change (Z.of_nat 0) with 0 in A. change (Z.of_nat 1) with 1 in B. rewrite Z.mul_0_r, Z.add_0_r in A. rewrite Z.mul_1_r in B.
  rewrite (load8 _ _ _ _ A B). cbn [bind]. rewrite (IH (a + 8) ds); [|cbn [length] in L; lia|].
  - cbn [bind List.seq map]. f_equal. f_equal. rewrite <- (seq_shift n 0), map_map. apply map_ext. intros i.
    replace (2 * S i)%nat with (S (S (2 * i)))%nat by lia. replace (S (S (2 * i)) + 1)%nat with (S (S (2 * i + 1)))%nat by lia. reflexivity.
  - intros i x E. replace (a + 8 + 4 * Z.of_nat i) with (a + 4 * Z.of_nat (S (S i))) by lia. apply H. exact E.
Qed.
Theorem C79_arrays_lemma s count a (ds : list Z) (new : list Z) : 0 <= count -> Z.of_nat (length ds) = 2 * count ->
  (forall i d, nth_error ds i = Some d -> integer_at (s_mem s) (a + 4 * Z.of_nat i) d) ->
  new = map (fun i => nth (2 * i) ds 0 mod 2 ^ 32 + 2 ^ 32 * (nth (2 * i + 1) ds 0 mod 2 ^ 32)) (List.seq 0 (Z.to_nat count)) ->
  (forall bls olds, mpi_type_struct c count bls a olds s = MPI_Type_create c (TStruct count bls new olds) s) /\
  (forall bls old, mpi_type_hindexed c count bls a old s = MPI_Type_create c (THindexed count bls new old) s).
Proof.
  intros P L H ->. unfold mpi_type_struct, mpi_type_hindexed. rewrite (loads_ok (s_mem s) (Z.to_nat count) a ds) by (lia || exact H). split; reflexivity.
Qed.

Lemma byte_s32 v k : 0 <= k < 4 -> to_s32 v / 256 ^ k mod 256 = v / 256 ^ k mod 256.
Proof.
  intros K. assert (exists q, to_s32 v = v + q * 4294967296) as [q ->].
  { unfold to_s32, TWO32. exists (- ((v + 2147483648) / 4294967296)). rewrite (Z.mod_eq (v + 2147483648)) by lia. lia. }
  assert (C : k = 0 \/ k = 1 \/ k = 2 \/ k = 3) by lia.
  destruct C as [->|[->|[->| ->]]].
  - change (256 ^ 0) with 1. rewrite !Z.div_1_r. replace (v + q * 4294967296) with (v + (q * 16777216) * 256) by lia. apply Z.mod_add. lia.
  - change (256 ^ 1) with 256. replace (v + q * 4294967296) with (v + (q * 65536 * 256) * 256) by lia. rewrite Z.div_add by lia. apply Z.mod_add. lia.
  - change (256 ^ 2) with 65536. replace (v + q * 4294967296) with (v + (q * 256 * 256) * 65536) by lia. rewrite Z.div_add by lia. apply Z.mod_add. lia.
  - change (256 ^ 3) with 16777216. replace (v + q * 4294967296) with (v + (q * 256) * 16777216) by lia. rewrite Z.div_add by lia. apply Z.mod_add. lia.
Qed.
Lemma integer_bytes m a v : (forall k, 0 <= k < 4 -> m (a + k) = Some (v / 256 ^ k mod 256)) -> integer_at m a (to_s32 v).
Proof.
  intros H. split; [pose proof (to_s32_range v) as R; unfold INT_MIN, INT_MAX in R; change (2 ^ 31) with 2147483648; lia|].
  intros k K. rewrite H by exact K. rewrite byte_s32 by exact K. reflexivity.
Qed.
Theorem C79_result_lemma (e : M Z) a v s s1 : e s = Ok (v, s1) -> 0 <= v < TWO64 ->
  (forall k, 0 <= k < 8 -> s_mem s1 (a + k) <> None) ->
  exists m', store_result e a s = Ok (tt, set_mem s1 m') /\
    integer_at m' a (to_s32 v) /\ integer_at m' (a + 4) (to_s32 (v / 2 ^ 32)) /\ forall x, ~ a <= x < a + 8 -> m' x = s_mem s1 x.
Proof.
  intros E V AL. unfold store_result, mbind. rewrite E. cbn [bind]. unfold store8.
  assert (allocated (s_mem s1) a 8 = true) as ->.
  { unfold allocated. apply forallb_forall. intros k K. apply in_seq in K. change (Z.to_nat 8) with 8%nat in K.
    assert (N := AL (Z.of_nat k) ltac:(lia)). destruct (s_mem s1 (a + Z.of_nat k)); [reflexivity|congruence]. }
  cbn [bind]. eexists. split; [reflexivity|]. split; [|split].
  - apply integer_bytes. intros k K. assert ((a <=? a + k) && (a + k <? a + 8) = true) as ->; [apply andb_true_iff; rewrite Z.leb_le, Z.ltb_lt; lia|].
    rewrite to_u64_id by exact V. replace (a + k - a) with k by lia. reflexivity.
  - apply integer_bytes. intros k K. assert ((a <=? a + 4 + k) && (a + 4 + k <? a + 8) = true) as ->; [apply andb_true_iff; rewrite Z.leb_le, Z.ltb_lt; lia|].
    rewrite to_u64_id by exact V. replace (a + 4 + k - a) with (4 + k) by lia. rewrite Z.pow_add_r by lia. change (256 ^ 4) with (2 ^ 32). rewrite Z.div_div by lia. reflexivity.
  - intros x N. destruct ((a <=? x) && (x <? a + 8)) eqn:B; [|reflexivity]. apply andb_true_iff in B. rewrite Z.leb_le, Z.ltb_lt in B. lia.
Qed.
Theorem C79_overrun_lemma (e : M Z) a v s s1 k : e s = Ok (v, s1) -> 0 <= k < 8 -> s_mem s1 (a + k) = None ->
  store_result e a s = UB "write outside allocated memory".
Proof.
  intros E K N. unfold store_result, mbind. rewrite E. cbn [bind]. unfold store8. destruct (allocated (s_mem s1) a 8) eqn:A; [|reflexivity].
  exfalso. unfold allocated in A. rewrite forallb_forall in A. specialize (A (Z.to_nat k)). rewrite Z2Nat.id in A by lia. rewrite N in A. discriminate A.
  apply in_seq. change (Z.to_nat 8) with 8%nat. lia.
Qed.
End FortFacts.

Theorem C71_shipped_lemma :
  agree 4 8 shipped usual_sizes /\
  let real8 n := if String.eqb n "MPI_REAL" then 8 else if String.eqb n "MPI_COMPLEX" then 16 else usual_sizes n in
  ~ agree 4 8 shipped real8 /\ agree 8 8 shipped real8.
Proof.
  assert (P : forall fr sz, forallb (fun n => existsb (fun q => (fst q =? shipped n) && (snd q =? sz n)) (first_sizes fr 8)) measured = true -> agree fr 8 shipped sz).
  { intros fr sz H. split.
    - intros n v I. unfold compared in I. cbn [In] in I. repeat (destruct I as [I|I]; [injection I as <- <-; vm_compute; reflexivity|]). destruct I.
    - intros n I. rewrite forallb_forall in H. specialize (H n I). apply existsb_exists in H. destruct H as [[x y] [J E]]. cbn [fst snd] in E.
      apply andb_true_iff in E. rewrite !Z.eqb_eq in E. destruct E; subst. exact J. }
  split; [apply P; vm_compute; reflexivity|]. cbv zeta. split; [|apply P; vm_compute; reflexivity].
  intros [_ B]. specialize (B "MPI_REAL"%string (or_intror (or_intror (or_introl eq_refl)))). vm_compute in B.
  repeat (destruct B as [B|B]; [discriminate|]). destruct B.
Qed.

Theorem C78_lemma :
  (forall n v w, In (n, v) mpi_h -> In (n, w) mpif_h -> v = w) /\
  NoDup (map fst mpi_h) /\ NoDup (map fst mpif_h) /\
  (forall fr fd n h s x, In (n, h, s, x) (constants fr fd) -> In (n, h) mpi_h) /\
  (forall n v, In (n, v) compared -> In (n, v) mpif_h) /\
  (forall n, In n measured -> In (n, shipped n) mpif_h).
Proof.
  assert (B : forall (l : list (string * Z)) n v, existsb (fun q => (String.eqb (fst q) n && (snd q =? v))%bool) l = true -> In (n, v) l).
  { intros l n v H. apply existsb_exists in H. destruct H as [[x y] [J E]]. cbn [fst snd] in E. apply andb_true_iff in E. rewrite String.eqb_eq, Z.eqb_eq in E. destruct E; subst. exact J. }
  assert (N : forall l : list string, (fix nd l := match l with [] => true | x :: r => if existsb (String.eqb x) r then false else nd r end) l = true -> NoDup l).
  { induction l as [|x l IH]; intros H; [constructor|]. destruct (existsb (String.eqb x) l) eqn:E; [discriminate|].
    constructor; [|exact (IH H)]. intros I. assert (existsb (String.eqb x) l = true); [|congruence]. apply existsb_exists. exists x. split; [exact I|apply String.eqb_refl]. }
  split; [|split; [apply N; vm_compute; reflexivity|split; [apply N; vm_compute; reflexivity|split; [|split]]]].
  - assert (H : forallb (fun p => forallb (fun q => if String.eqb (fst p) (fst q) then snd p =? snd q else true) mpif_h) mpi_h = true) by (vm_compute; reflexivity).
    intros n v w I J. rewrite forallb_forall in H. specialize (H _ I). rewrite forallb_forall in H. specialize (H _ J). cbn [fst snd] in H.
    rewrite String.eqb_refl in H. apply Z.eqb_eq. exact H.
  - intros fr fd n h s x I. unfold constants in I. cbn [In] in I. apply B.
    repeat (destruct I as [I|I]; [injection I as <- <- _ _; vm_compute; reflexivity|]). destruct I.
  - intros n v I. unfold compared in I. cbn [In] in I. apply B. repeat (destruct I as [I|I]; [injection I as <- <-; vm_compute; reflexivity|]). destruct I.
  - intros n I. unfold measured in I. cbn [In] in I. apply B. repeat (destruct I as [<-|I]; [vm_compute; reflexivity|]). destruct I.
Qed.
