(** Type_struct computes the struct typemap; the other constructors are instances. *)
From Verif Require Import Base TypeModel TypeSpec TypeProofs.

(** Arithmetic modulo 2^64. *)
Lemma to_s64_cong a b k : a = b + k * TWO64 -> to_s64 a = to_s64 b.
Proof.
  intros ->. unfold to_s64, TWO64.
  replace (b + k * 18446744073709551616 + 9223372036854775808) with (b + 9223372036854775808 + k * 18446744073709551616) by lia.
  rewrite Z.mod_add by lia. reflexivity.
Qed.
Lemma to_u64_cong a b k : a = b + k * TWO64 -> to_u64 a = to_u64 b.
Proof. intros ->. unfold to_u64, TWO64. rewrite Z.mod_add by lia. reflexivity. Qed.
Lemma to_u64_ex z : exists k, to_u64 z = z + k * TWO64.
Proof.
  unfold to_u64. exists (- (z / TWO64)). pose proof (Z.div_mod z TWO64 ltac:(unfold TWO64; lia)). lia.
Qed.
Lemma to_s64_ex z : exists k, to_s64 z = z + k * TWO64.
Proof.
  unfold to_s64. exists (- ((z + 9223372036854775808) / TWO64)).
  pose proof (Z.div_mod (z + 9223372036854775808) TWO64 ltac:(unfold TWO64; lia)). lia.
Qed.

Definition bcount (b : iblock) : Z := if marker b then 0 else ib_len b * ts_count (ib_old b).
Definition total (bs : list iblock) : Z := fold_right Z.add 0 (map bcount bs).

Section Struct.
Variable c : cfg.

(** Conditions on one block. *)
Definition block_ok (b : iblock) : Prop :=
  ts_pairs (ib_old b) <> [] /\
  (marker b = false ->
     0 <= ib_len b <= INT_MAX /\
     0 <= ts_count (ib_old b) <= INT_MAX /\ ts_count (ib_old b) <= Z.of_nat (length (ts_pairs (ib_old b))) /\
     (0 < ib_len b -> Type_extent c (ib_old b) = Ok (to_u64 (ib_ext b)))).

Lemma first_type_ok t : ts_pairs t <> [] -> exists f, first_type t = Ok f /\
  (f =? SIMPLE_LOWER) = is_lower t /\ (f =? SIMPLE_UPPER) = is_upper t.
Proof.
  intros H. unfold first_type, is_lower, is_upper. destruct (ts_pairs t) as [|p r]; [congruence|].
  exists (tp_type p). repeat split.
Qed.

Lemma bcount_nonneg b : block_ok b -> 0 <= bcount b.
Proof. unfold bcount. intros [_ H]. destruct (marker b); [lia|]. specialize (H eq_refl). nia. Qed.
Lemma total_nonneg bs : Forall block_ok bs -> 0 <= total bs.
Proof.
  induction 1 as [|b bs H HF IH]; unfold total in *; simpl; [lia|]. pose proof (bcount_nonneg b H). lia.
Qed.
Lemma total_app a b : total (a ++ b) = total a + total b.
Proof. unfold total. rewrite map_app. induction a as [|x a IH]; simpl; lia. Qed.

(** Candidates for overridden bounds. *)
Definition lb_cands1 (b : iblock) : list Z := if is_lower (ib_old b) then [to_u64 (ib_disp b)] else [].
Definition ub_cands1 (b : iblock) : list Z :=
  if is_lower (ib_old b) then [] else if is_upper (ib_old b) then [to_u64 (ib_disp b)] else [].
Definition lb_flag (b : iblock) : bool := is_lower (ib_old b) || (negb (is_upper (ib_old b)) && negb (ts_olb (ib_old b) =? 0)).
Definition ub_flag (b : iblock) : bool :=
  negb (is_lower (ib_old b)) && (is_upper (ib_old b) || negb (ts_oub (ib_old b) =? 0)).
Definition lb_cands2 (b : iblock) : list Z :=
  if marker b || (ts_olb (ib_old b) =? 0) then [] else
  map (fun j => to_u64 (ts_lb (ib_old b) + ib_disp b + j * ib_ext b)) (upto (ib_len b)).
Definition ub_cands2 (b : iblock) : list Z :=
  if marker b || (ts_oub (ib_old b) =? 0) then [] else
  map (fun j => to_u64 (ts_ub (ib_old b) + ib_disp b + j * ib_ext b)) (upto (ib_len b)).

Definition pass1_step (b : iblock) (st : Z * Z * bool * bool * Z) : Z * Z * bool * bool * Z :=
  let '(l, u, ol, ou, sc) := st in
  (fold_left Z.min (lb_cands1 b) l, fold_left Z.max (ub_cands1 b) u, ol || lb_flag b, ou || ub_flag b, sc + bcount b).

Lemma arr_get_map_app {A B} (f : A -> B) l r k x : nth_error l k = Some x ->
  arr_get (map f l ++ r) (Z.of_nat k) = Ok (f x).
Proof.
  intros H. apply arr_get_nth; [lia|]. rewrite Nat2Z.id.
  rewrite nth_error_app1; [rewrite nth_error_map, H; reflexivity|].
  rewrite map_length. apply nth_error_Some. congruence.
Qed.
Lemma arr_get_map {A B} (f : A -> B) l k x : nth_error l k = Some x ->
  arr_get (map f l) (Z.of_nat k) = Ok (f x).
Proof. intros H. rewrite <- (app_nil_r (map f l)). apply arr_get_map_app; auto. Qed.

(** One iteration of the first pass. *)
Definition pass1_body (blocklens displacements : list Z) (olds : list typestruct) :=
  fun (i : Z) (st : Z * Z * bool * bool * Z) =>
    let '(new_lb, new_ub, ol, ou, sc) := st in
    do temp2 <- arr_get olds i;
    do ft <- first_type temp2;
    if ft =? SIMPLE_LOWER then
      do d <- arr_get displacements i;
      Ok (if new_lb >? d then d else new_lb, new_ub, true, ou, sc)
    else if ft =? SIMPLE_UPPER then
      do d <- arr_get displacements i;
      Ok (new_lb, if new_ub <? d then d else new_ub, ol, true, sc)
    else
      do b <- arr_get blocklens i;
      do prod <- chk_int (b * ts_count temp2);
      do sc <- chk_int (sc + prod);
      Ok (new_lb, new_ub, ol || negb (ts_olb temp2 =? 0), ou || negb (ts_oub temp2 =? 0), sc).

Lemma pass1_fold bs : forall r1 r2 pre st,
  Forall block_ok bs ->
  0 <= snd st -> snd st + total bs <= INT_MAX ->
  for_from (length bs) (Z.of_nat (length pre))
    (pass1_body (map ib_len (pre ++ bs) ++ r1) (map (fun b => to_u64 (ib_disp b)) (pre ++ bs) ++ r2) (map ib_old (pre ++ bs))) st
  = Ok (fold_left (fun s b => pass1_step b s) bs st).
Proof.
  induction bs as [|b bs IH]; intros r1 r2 pre st HF H0 HT; [reflexivity|].
  inversion HF as [|? ? Hb HF']; subst.
  cbn [length for_from].
  assert (NTH : nth_error (pre ++ b :: bs) (length pre) = Some b).
  { rewrite nth_error_app2 by lia. rewrite Nat.sub_diag. reflexivity. }
  set (A1 := map ib_len (pre ++ b :: bs) ++ r1) in *.
  set (A2 := map (fun b => to_u64 (ib_disp b)) (pre ++ b :: bs) ++ r2) in *.
  set (A3 := map ib_old (pre ++ b :: bs)) in *.
  assert (G1 : arr_get A1 (Z.of_nat (length pre)) = Ok (ib_len b)) by (apply arr_get_map_app; auto).
  assert (G2 : arr_get A2 (Z.of_nat (length pre)) = Ok (to_u64 (ib_disp b))).
  { unfold A2. rewrite (arr_get_map_app (fun b => to_u64 (ib_disp b)) _ _ _ _ NTH). reflexivity. }
  assert (G3 : arr_get A3 (Z.of_nat (length pre)) = Ok (ib_old b)) by (apply arr_get_map; auto).
  assert (TB : 0 <= bcount b) by (apply bcount_nonneg; auto).
  assert (TT : 0 <= total bs) by (apply total_nonneg; auto).
  assert (TE : total (b :: bs) = bcount b + total bs) by reflexivity.
  assert (STEP : pass1_body A1 A2 A3 (Z.of_nat (length pre)) st = Ok (pass1_step b st)).
  { destruct st as [[[[l u] ol] ou] sc]. unfold pass1_body, pass1_step. rewrite G3. cbn [bind].
    destruct Hb as [Hp Hn]. destruct (first_type_ok _ Hp) as (f & E & EL & EU). rewrite E. cbn [bind].
    rewrite EL, EU, G1, G2. cbn [bind].
    unfold lb_cands1, ub_cands1, lb_flag, ub_flag, bcount, marker, is_marker in *.
    destruct (is_lower (ib_old b)); cbn [orb andb negb fold_left].
    - rewrite orb_true_r, orb_false_r, Z.add_0_r. do 4 f_equal.
      rewrite Z.gtb_ltb. repeat f_equal. destruct (Z.ltb_spec (to_u64 (ib_disp b)) l); lia.
    - destruct (is_upper (ib_old b)); cbn [orb andb negb fold_left].
      + rewrite orb_true_r, orb_false_r, Z.add_0_r. repeat f_equal.
        destruct (Z.ltb_spec u (to_u64 (ib_disp b))); lia.
      + specialize (Hn eq_refl). cbn [snd] in *. cbn [orb] in *.
        rewrite chk_int_ok by (unfold INT_MIN; lia). cbn [bind].
        rewrite chk_int_ok by (unfold INT_MIN; lia). reflexivity. }
  rewrite STEP. cbn [bind fold_left].
  assert (LL : Z.of_nat (length pre) + 1 = Z.of_nat (length (pre ++ [b]))) by (rewrite app_length; simpl; lia).
  rewrite LL. unfold A1, A2, A3.
  replace (pre ++ b :: bs) with ((pre ++ [b]) ++ bs) by (rewrite <- app_assoc; reflexivity).
  apply IH; auto.
  - destruct st as [[[[l u] ol] ou] sc]. cbn [pass1_step snd] in *. lia.
  - destruct st as [[[[l u] ol] ou] sc]. cbn [pass1_step snd] in *. lia.
Qed.

Definition cat_map {A B} (f : A -> list B) (l : list A) : list B := flat_map f l.

Lemma pass1_steps bs : forall l u ol ou sc,
  fold_left (fun s b => pass1_step b s) bs (l, u, ol, ou, sc) =
  (fold_left Z.min (flat_map lb_cands1 bs) l, fold_left Z.max (flat_map ub_cands1 bs) u,
   ol || existsb lb_flag bs, ou || existsb ub_flag bs, sc + total bs).
Proof.
  induction bs as [|b bs IH]; intros; simpl.
  - rewrite !orb_false_r. unfold total; simpl. rewrite Z.add_0_r. reflexivity.
  - unfold total in *. rewrite IH. simpl. rewrite !fold_left_app, !orb_assoc, Z.add_assoc. reflexivity.
Qed.

Lemma pass1_ok bs r1 r2 : Forall block_ok bs -> total bs <= INT_MAX ->
  struct_pass1 (Z.of_nat (length bs)) (map ib_len bs ++ r1) (map (fun b => to_u64 (ib_disp b)) bs ++ r2) (map ib_old bs)
  = Ok (fold_left Z.min (flat_map lb_cands1 bs) LONG_MAX,
        fold_left Z.max (flat_map ub_cands1 bs) 9223372036854775808,
        existsb lb_flag bs, existsb ub_flag bs, total bs).
Proof.
  intros HF HT. unfold struct_pass1, for_loop. rewrite Z.sub_0_r, Nat2Z.id.
  pose proof (pass1_fold bs r1 r2 [] (LONG_MAX, to_u64 LONG_MIN, false, false, 0) HF) as P.
  cbn [snd length app] in P. change (Z.of_nat 0) with 0 in P. unfold pass1_body in P.
  rewrite P by lia. rewrite pass1_steps. reflexivity.
Qed.

(** *** Second pass *)
Definition out_pair (d off : Z) (p : typepair) : typepair := mkPair (to_s64 (tp_disp p + d + off)) (tp_type p).
Definition firstpairs (t : typestruct) := firstn (Z.to_nat (ts_count t)) (ts_pairs t).

Lemma inner_ok cap d off : forall (ps : list typepair) acc,
  Z.of_nat (length acc) + Z.of_nat (length ps) <= cap ->
  foldM (fun p acc => if Z.of_nat (length acc) <? cap then
           Ok (acc ++ [mkPair (to_s64 (to_u64 (tp_disp p) + (to_u64 d + to_u64 off))) (tp_type p)])
         else UB "heap overflow") ps acc
  = Ok (acc ++ map (out_pair d off) ps).
Proof.
  induction ps as [|p ps IH]; intros acc H; cbn [foldM map length] in *.
  - rewrite app_nil_r. reflexivity.
  - destruct (Z.ltb_spec (Z.of_nat (length acc)) cap); [|lia]. cbn [bind].
    rewrite IH by (rewrite app_length; simpl; lia). rewrite <- app_assoc. cbn [app]. do 3 f_equal. unfold out_pair. f_equal.
    destruct (to_u64_ex (tp_disp p)) as (k1 & ->). destruct (to_u64_ex d) as (k2 & ->). destruct (to_u64_ex off) as (k3 & ->).
    apply to_s64_cong with (k := k1 + k2 + k3). lia.
Qed.

(** Pairs contributed by one block. *)
Definition block_pairs (b : iblock) : list typepair :=
  if marker b then [] else
  flat_map (fun j => map (out_pair (ib_disp b) (j * ib_ext b)) (firstpairs (ib_old b))) (upto (ib_len b)).

Definition pass2_inner (cap : Z) (d : Z) (temp2 : typestruct) :=
  fun (j : Z) (st : Z * Z * list typepair) =>
        let '(new_lb, new_ub, acc) := st in
        do extent <- Type_extent c temp2;
        let tmp_offset := to_u64 (j * extent) in
        let l := to_u64 (to_u64 (ts_lb temp2) + d + tmp_offset) in
        let u := to_u64 (to_u64 (ts_ub temp2) + d + tmp_offset) in
        let new_lb := if negb (ts_olb temp2 =? 0) && (l <? new_lb) then l else new_lb in
        let new_ub := if negb (ts_oub temp2 =? 0) && (u >? new_ub) then u else new_ub in
        do acc <- for_loop 0 (ts_count temp2) (fun k acc =>
                    do p <- arr_get (ts_pairs temp2) k;
                    if Z.of_nat (length acc) <? cap then
                      Ok (acc ++ [mkPair (to_s64 (to_u64 (tp_disp p) + (d + tmp_offset))) (tp_type p)])
                    else UB "heap overflow") acc;
        Ok (new_lb, new_ub, acc).

Lemma out_pair_cong d o o' k p : o = o' + k * TWO64 -> out_pair d o p = out_pair d o' p.
Proof. intros ->. unfold out_pair. f_equal. apply to_s64_cong with (k := k). lia. Qed.

Lemma firstpairs_length t : 0 <= ts_count t <= Z.of_nat (length (ts_pairs t)) ->
  Z.of_nat (length (firstpairs t)) = ts_count t.
Proof. intros H. unfold firstpairs. rewrite firstn_length. lia. Qed.

Lemma pass2_inner_ok cap b : marker b = false -> 0 <= ib_len b ->
  0 <= ts_count (ib_old b) <= Z.of_nat (length (ts_pairs (ib_old b))) ->
  (0 < ib_len b -> Type_extent c (ib_old b) = Ok (to_u64 (ib_ext b))) ->
  forall js l u acc,
  (forall j, In j js -> 0 <= j < ib_len b) ->
  Z.of_nat (length acc) + Z.of_nat (length js) * ts_count (ib_old b) <= cap ->
  foldM (pass2_inner cap (to_u64 (ib_disp b)) (ib_old b)) js (l, u, acc) =
  Ok (fold_left Z.min (if ts_olb (ib_old b) =? 0 then [] else
        map (fun j => to_u64 (ts_lb (ib_old b) + ib_disp b + j * ib_ext b)) js) l,
      fold_left Z.max (if ts_oub (ib_old b) =? 0 then [] else
        map (fun j => to_u64 (ts_ub (ib_old b) + ib_disp b + j * ib_ext b)) js) u,
      acc ++ flat_map (fun j => map (out_pair (ib_disp b) (j * ib_ext b)) (firstpairs (ib_old b))) js).
Proof.
  intros HM HL HC HE. induction js as [|j js IH]; intros l u acc Hj Hcap.
  - cbn [foldM flat_map map]. rewrite app_nil_r.
    destruct (ts_olb (ib_old b) =? 0), (ts_oub (ib_old b) =? 0); reflexivity.
  - cbn [foldM]. assert (J : 0 <= j < ib_len b) by (apply Hj; simpl; auto).
    unfold pass2_inner at 1. rewrite HE by lia. cbn [bind].
    assert (CNT : Z.of_nat (length (firstpairs (ib_old b))) = ts_count (ib_old b)) by (apply firstpairs_length; auto).
    cbn [length] in Hcap.
    rewrite (for_loop_pairs (ib_old b) (fun p acc => if Z.of_nat (length acc) <? cap then
           Ok (acc ++ [mkPair (to_s64 (to_u64 (tp_disp p) + (to_u64 (ib_disp b) + to_u64 (j * to_u64 (ib_ext b))))) (tp_type p)])
         else UB "heap overflow")) by auto.
    fold (firstpairs (ib_old b)). rewrite inner_ok by (rewrite CNT; nia). cbn [bind].
    rewrite IH; [|intros; apply Hj; simpl; auto|].
    2:{ rewrite app_length, map_length, Nat2Z.inj_add, CNT. nia. }
    destruct (to_u64_ex (ib_ext b)) as (k & EK).
    assert (JE : j * to_u64 (ib_ext b) = j * ib_ext b + (j * k) * TWO64) by (rewrite EK; lia).
    assert (C : forall x, to_u64 (to_u64 x + to_u64 (ib_disp b) + to_u64 (j * to_u64 (ib_ext b)))
                 = to_u64 (x + ib_disp b + j * ib_ext b)).
    { intros x. destruct (to_u64_ex x) as (k1 & ->). destruct (to_u64_ex (ib_disp b)) as (k2 & ->).
      rewrite JE. destruct (to_u64_ex (j * ib_ext b + j * k * TWO64)) as (k3 & ->).
      apply to_u64_cong with (k := k1 + k2 + k3 + j * k). lia. }
    rewrite !C. rewrite <- app_assoc. do 2 f_equal.
    + f_equal.
      * destruct (ts_olb (ib_old b) =? 0); cbn [negb andb map fold_left]; [reflexivity|]. f_equal.
        destruct (Z.ltb_spec (to_u64 (ts_lb (ib_old b) + ib_disp b + j * ib_ext b)) l); lia.
      * destruct (ts_oub (ib_old b) =? 0); cbn [negb andb map fold_left]; [reflexivity|]. f_equal.
        rewrite Z.gtb_ltb. destruct (Z.ltb_spec u (to_u64 (ts_ub (ib_old b) + ib_disp b + j * ib_ext b))); lia.
    + f_equal. cbn [flat_map]. f_equal. apply map_ext. intros p. apply out_pair_cong with (k := j * k). exact JE.
Qed.

Definition pass2_body (cap : Z) (blocklens displacements : list Z) (olds : list typestruct) :=
  fun (i : Z) (st : Z * Z * list typepair) =>
    do temp2 <- arr_get olds i;
    do ft <- first_type temp2;
    if (ft =? SIMPLE_LOWER) || (ft =? SIMPLE_UPPER) then Ok st
    else
      do b <- arr_get blocklens i;
      for_loop 0 b (fun j st =>
        let '(new_lb, new_ub, acc) := st in
        do extent <- Type_extent c temp2;
        let tmp_offset := to_u64 (j * extent) in
        do d <- arr_get displacements i;
        let l := to_u64 (to_u64 (ts_lb temp2) + d + tmp_offset) in
        let u := to_u64 (to_u64 (ts_ub temp2) + d + tmp_offset) in
        let new_lb := if negb (ts_olb temp2 =? 0) && (l <? new_lb) then l else new_lb in
        let new_ub := if negb (ts_oub temp2 =? 0) && (u >? new_ub) then u else new_ub in
        do acc <- for_loop 0 (ts_count temp2) (fun k acc =>
                    do p <- arr_get (ts_pairs temp2) k;
                    if Z.of_nat (length acc) <? cap then
                      Ok (acc ++ [mkPair (to_s64 (to_u64 (tp_disp p) + (d + tmp_offset))) (tp_type p)])
                    else UB "heap overflow") acc;
        Ok (new_lb, new_ub, acc)) st.

Definition pass2_step (b : iblock) (st : Z * Z * list typepair) : Z * Z * list typepair :=
  let '(l, u, acc) := st in
  (fold_left Z.min (lb_cands2 b) l, fold_left Z.max (ub_cands2 b) u, acc ++ block_pairs b).

Lemma block_pairs_length b : block_ok b -> Z.of_nat (length (block_pairs b)) = bcount b.
Proof.
  intros [_ H]. unfold block_pairs, bcount. destruct (marker b); [reflexivity|].
  destruct (H eq_refl) as (H1 & H2 & H3 & _).
  assert (CNT : Z.of_nat (length (firstpairs (ib_old b))) = ts_count (ib_old b)) by (apply firstpairs_length; lia).
  assert (G : forall js, Z.of_nat (length (flat_map (fun j => map (out_pair (ib_disp b) (j * ib_ext b)) (firstpairs (ib_old b))) js))
     = Z.of_nat (length js) * ts_count (ib_old b)).
  { induction js as [|j js IH]; [reflexivity|]. cbn [flat_map length].
    rewrite app_length, map_length, Nat2Z.inj_add, IH, Nat2Z.inj_succ, CNT. ring. }
  rewrite G, upto_length. lia.
Qed.

Lemma pass2_fold cap bs : forall r1 r2 pre st,
  Forall block_ok bs -> Z.of_nat (length (snd st)) + total bs <= cap ->
  for_from (length bs) (Z.of_nat (length pre))
    (pass2_body cap (map ib_len (pre ++ bs) ++ r1) (map (fun b => to_u64 (ib_disp b)) (pre ++ bs) ++ r2) (map ib_old (pre ++ bs))) st
  = Ok (fold_left (fun s b => pass2_step b s) bs st).
Proof.
  induction bs as [|b bs IH]; intros r1 r2 pre st HF HT; [reflexivity|].
  inversion HF as [|? ? Hb HF']; subst.
  cbn [length for_from].
  assert (NTH : nth_error (pre ++ b :: bs) (length pre) = Some b).
  { rewrite nth_error_app2 by lia. rewrite Nat.sub_diag. reflexivity. }
  set (A1 := map ib_len (pre ++ b :: bs) ++ r1) in *.
  set (A2 := map (fun b => to_u64 (ib_disp b)) (pre ++ b :: bs) ++ r2) in *.
  set (A3 := map ib_old (pre ++ b :: bs)) in *.
  assert (G1 : arr_get A1 (Z.of_nat (length pre)) = Ok (ib_len b)) by (apply arr_get_map_app; auto).
  assert (G2 : arr_get A2 (Z.of_nat (length pre)) = Ok (to_u64 (ib_disp b))).
  { unfold A2. rewrite (arr_get_map_app (fun b => to_u64 (ib_disp b)) _ _ _ _ NTH). reflexivity. }
  assert (G3 : arr_get A3 (Z.of_nat (length pre)) = Ok (ib_old b)) by (apply arr_get_map; auto).
  assert (BL := block_pairs_length b Hb).
  assert (TB : 0 <= bcount b) by (apply bcount_nonneg; auto).
  assert (TT : 0 <= total bs) by (apply total_nonneg; auto).
  assert (TE : total (b :: bs) = bcount b + total bs) by reflexivity.
  assert (STEP : pass2_body cap A1 A2 A3 (Z.of_nat (length pre)) st = Ok (pass2_step b st)).
  { destruct st as [[l u] acc]. unfold pass2_body, pass2_step. rewrite G3. cbn [bind].
    destruct Hb as [Hp Hn]. destruct (first_type_ok _ Hp) as (f & E & EL & EU). rewrite E. cbn [bind].
    rewrite EL, EU. fold (is_marker (ib_old b)). fold (marker b).
    unfold lb_cands2, ub_cands2, block_pairs in *.
    destruct (marker b) eqn:M; cbn [orb]; [rewrite app_nil_r; reflexivity|].
    destruct (Hn eq_refl) as (H1 & H2 & H3 & H4).
    rewrite G1, G2. cbn [bind].
    rewrite for_loop_upto. cbn [snd] in HT.
    pose proof (pass2_inner_ok cap b M ltac:(lia) ltac:(lia) H4 (upto (ib_len b)) l u acc) as P.
    unfold pass2_inner in P. rewrite P.
    - reflexivity.
    - intros j. apply upto_in.
    - rewrite upto_length. unfold bcount in *. rewrite M in *. lia. }
  rewrite STEP. cbn [bind fold_left].
  assert (LL : Z.of_nat (length pre) + 1 = Z.of_nat (length (pre ++ [b]))) by (rewrite app_length; simpl; lia).
  rewrite LL. unfold A1, A2, A3.
  replace (pre ++ b :: bs) with ((pre ++ [b]) ++ bs) by (rewrite <- app_assoc; reflexivity).
  apply IH; auto.
  destruct st as [[l u] acc]. cbn [pass2_step snd] in *. rewrite app_length. lia.
Qed.

Lemma pass2_steps bs : forall l u acc,
  fold_left (fun s b => pass2_step b s) bs (l, u, acc) =
  (fold_left Z.min (flat_map lb_cands2 bs) l, fold_left Z.max (flat_map ub_cands2 bs) u, acc ++ flat_map block_pairs bs).
Proof.
  induction bs as [|b bs IH]; intros; simpl.
  - rewrite app_nil_r. reflexivity.
  - rewrite IH. rewrite !fold_left_app, <- app_assoc. reflexivity.
Qed.

Lemma pass2_ok bs r1 r2 cap l u : Forall block_ok bs -> total bs <= cap ->
  struct_pass2 c cap (Z.of_nat (length bs)) (map ib_len bs ++ r1) (map (fun b => to_u64 (ib_disp b)) bs ++ r2) (map ib_old bs) l u
  = Ok (fold_left Z.min (flat_map lb_cands2 bs) l, fold_left Z.max (flat_map ub_cands2 bs) u, flat_map block_pairs bs).
Proof.
  intros HF HT. unfold struct_pass2, for_loop. rewrite Z.sub_0_r, Nat2Z.id.
  pose proof (pass2_fold cap bs r1 r2 [] (l, u, []) HF) as P.
  cbn [snd length app] in P. change (Z.of_nat 0) with 0 in P.
  etransitivity; [apply P; cbn [length]; lia|]. rewrite pass2_steps. reflexivity.
Qed.

(** *** The whole function *)
Definition ov_lb (bs : list iblock) : Z :=
  fold_left Z.min (flat_map lb_cands1 bs ++ flat_map lb_cands2 bs) LONG_MAX.
Definition ov_ub (bs : list iblock) : Z :=
  fold_left Z.max (flat_map ub_cands1 bs ++ flat_map ub_cands2 bs) 9223372036854775808.

Lemma pairs_total bs : Forall block_ok bs -> Z.of_nat (length (flat_map block_pairs bs)) = total bs.
Proof.
  induction 1 as [|b bs Hb HF IH]; [reflexivity|]. simpl. rewrite app_length. unfold total in *. simpl.
  pose proof (block_pairs_length b Hb). lia.
Qed.

Lemma Type_struct_eq jk bs r1 r2 : Forall block_ok bs -> total bs <= INT_MAX ->
  Type_struct c jk (Z.of_nat (length bs)) (map ib_len bs ++ r1) (map (fun b => to_u64 (ib_disp b)) bs ++ r2) (map ib_old bs)
  = (let temp := mkTs (total bs) 0 0 0 (j_olb jk) (j_oub jk) (pad_pairs jk (total bs + 1) (flat_map block_pairs bs)) in
     do lb <- (if existsb lb_flag bs then Ok (to_s64 (ov_lb bs)) else calc_lb temp);
     do ub <- (if existsb ub_flag bs then Ok (to_s64 (ov_ub bs)) else calc_ub c temp);
     Ok (mkTs (total bs) ub lb 0 (if existsb lb_flag bs then 1 else j_olb jk) (if existsb ub_flag bs then 1 else j_oub jk)
          (ts_pairs temp))).
Proof.
  intros HF HT. unfold Type_struct. rewrite pass1_ok by auto. cbn [bind].
  assert (TT : 0 <= total bs) by (apply total_nonneg; auto).
  destruct (Z.ltb_spec (total bs + 1) 0); [lia|].
  rewrite pass2_ok by (auto; lia). cbn [bind]. unfold ov_lb, ov_ub. rewrite !fold_left_app. reflexivity.
Qed.

Lemma pad_pairs_first jk n acc : Z.of_nat (length acc) = n ->
  firstn (Z.to_nat n) (pad_pairs jk (n + 1) acc) = acc /\ length (pad_pairs jk (n + 1) acc) = S (length acc).
Proof.
  intros H. unfold pad_pairs. split.
  - replace (Z.to_nat n) with (length acc + 0)%nat by lia. rewrite firstn_app_2. simpl. apply app_nil_r.
  - rewrite app_length, map_length, seq_length. lia.
Qed.

(** Exact typemap of the pairs written. *)
Definition pairmap (ps : list typepair) : list elem := map (fun p => (tp_type p, tp_disp p)) ps.

Lemma pairmap_out d off ps :
  (forall e, In e (shift (d + off) (pairmap ps)) -> is_long (snd e)) ->
  pairmap (map (out_pair d off) ps) = shift (d + off) (pairmap ps).
Proof.
  intros H. unfold pairmap, shift in *. rewrite !map_map. apply map_ext_in. intros p Hp.
  unfold out_pair. cbn [tp_type tp_disp fst snd]. f_equal.
  replace (tp_disp p + d + off) with (tp_disp p + (d + off)) by lia.
  apply to_s64_id. apply (H (tp_type p, tp_disp p + (d + off))). rewrite map_map.
  apply in_map_iff. exists p. auto.
Qed.

Lemma block_map b : 
  (forall e, In e (copies (ib_len b) (ib_ext b) (ib_disp b) (sb_map (sblock_of b))) -> is_long (snd e)) ->
  pairmap (block_pairs b) = copies (ib_len b) (ib_ext b) (ib_disp b) (sb_map (sblock_of b)).
Proof.
  unfold block_pairs, sblock_of, copies. cbn [sb_map]. destruct (marker b).
  - intros _. induction (upto (ib_len b)) as [|j js IH]; simpl; auto.
  - induction (upto (ib_len b)) as [|j js IH]; intros H; simpl; auto.
    unfold pairmap in *. rewrite map_app. simpl in H. rewrite IH; [apply (f_equal (fun x => x ++ _))|].
    + apply pairmap_out. intros e He. apply H. apply in_or_app. left. exact He.
    + intros e He. apply H. apply in_or_app. right. exact He.
Qed.

Lemma blocks_map bs : (forall e, In e (struct_map (map sblock_of bs)) -> is_long (snd e)) ->
  pairmap (flat_map block_pairs bs) = struct_map (map sblock_of bs).
Proof.
  unfold struct_map. induction bs as [|b bs IH]; intros H; simpl; auto.
  unfold pairmap in *. rewrite map_app. simpl in H. rewrite IH; [apply (f_equal (fun x => x ++ _))|].
  - apply block_map. intros e He. apply H. apply in_or_app; auto.
  - intros e He. apply H. apply in_or_app; auto.
Qed.

Lemma typemap_temp jk n l u cm a b acc : Z.of_nat (length acc) = n ->
  typemap (mkTs n l u cm a b (pad_pairs jk (n + 1) acc)) = pairmap acc.
Proof. intros H. unfold typemap. cbn [ts_count ts_pairs]. destruct (pad_pairs_first jk n acc H) as [-> _]. reflexivity. Qed.

(** Elements of the result come from elements of the old types. *)
Lemma struct_known bs e : In e (struct_map (map sblock_of bs)) ->
  exists b e0, In b bs /\ marker b = false /\ In e0 (typemap (ib_old b)) /\ fst e0 = fst e.
Proof.
  unfold struct_map. rewrite in_flat_map. intros (sb & Hs & He). apply in_map_iff in Hs. destruct Hs as (b & <- & Hb).
  unfold copies in He. apply in_flat_map in He. destruct He as (j & _ & He). unfold shift in He.
  apply in_map_iff in He. destruct He as (e0 & <- & He0). cbn [sblock_of sb_map] in He0.
  destruct (marker b) eqn:M; [destruct He0|]. exists b, e0. auto.
Qed.

Definition elems_known (bs : list iblock) : Prop :=
  forall b e, In b bs -> marker b = false -> In e (typemap (ib_old b)) -> known c e.

(** Main lemma: typemap, count, flags and bounds of the result. *)
Theorem Type_struct_ok jk bs r1 r2 :
  cfg_ok c -> Forall block_ok bs -> elems_known bs -> total bs <= INT_MAX ->
  map_fits c (struct_map (map sblock_of bs)) ->
  exists t, Type_struct c jk (Z.of_nat (length bs)) (map ib_len bs ++ r1)
              (map (fun b => to_u64 (ib_disp b)) bs ++ r2) (map ib_old bs) = Ok t /\
    typemap t = struct_map (map sblock_of bs) /\
    ts_count t = Z.of_nat (length (struct_map (map sblock_of bs))) /\
    length (ts_pairs t) = S (length (struct_map (map sblock_of bs))) /\
    ts_committed t = 0 /\
    ts_olb t = (if existsb lb_flag bs then 1 else j_olb jk) /\
    ts_oub t = (if existsb ub_flag bs then 1 else j_oub jk) /\
    (existsb lb_flag bs = true -> ts_lb t = to_s64 (ov_lb bs)) /\
    (existsb ub_flag bs = true -> ts_ub t = to_s64 (ov_ub bs)) /\
    (existsb lb_flag bs = false -> (forall e, In e (struct_map (map sblock_of bs)) -> is_int (snd e)) ->
       ts_lb t = fold_left Z.min (disps (struct_map (map sblock_of bs))) INT_MAX) /\
    (existsb ub_flag bs = false ->
       ts_ub t = fold_left Z.max (ends c (struct_map (map sblock_of bs))) INT_MIN) /\
    is_long (ts_lb t) /\ is_long (ts_ub t) /\
    (total bs = 0 -> ts_pairs t = [j_pair jk 0]).
Proof.
  intros CO HF KN HT FIT. rewrite Type_struct_eq by auto. cbv zeta.
  assert (BM := blocks_map bs (fun e He => proj1 (FIT e He))).
  assert (PT := pairs_total bs HF).
  assert (LM : length (flat_map block_pairs bs) = length (struct_map (map sblock_of bs))).
  { rewrite <- BM. unfold pairmap. rewrite map_length. reflexivity. }
  set (m := struct_map (map sblock_of bs)) in *.
  set (acc := flat_map block_pairs bs) in *.
  set (temp := mkTs (total bs) 0 0 0 (j_olb jk) (j_oub jk) (pad_pairs jk (total bs + 1) acc)).
  assert (TM : typemap temp = m) by (unfold temp; rewrite typemap_temp by auto; exact BM).
  assert (TC : 0 <= ts_count temp <= Z.of_nat (length (ts_pairs temp))).
  { unfold temp. cbn [ts_count ts_pairs]. destruct (pad_pairs_first jk _ _ PT) as [_ ->]. lia. }
  assert (KM : forall e, In e m -> known c e).
  { intros e He. destruct (struct_known bs e He) as (b & e0 & Hb & M & H0 & E). unfold known. rewrite <- E. eapply KN; eauto. }
  assert (LBX : exists lb, (if existsb lb_flag bs then Ok (to_s64 (ov_lb bs)) else calc_lb temp) = Ok lb /\ is_long lb /\
     (existsb lb_flag bs = true -> lb = to_s64 (ov_lb bs)) /\
     (existsb lb_flag bs = false -> (forall e, In e m -> is_int (snd e)) -> lb = fold_left Z.min (disps m) INT_MAX)).
  { destruct (existsb lb_flag bs).
    - eexists. split; [reflexivity|]. split; [apply to_s64_range|]. split; [auto|discriminate].
    - destruct (calc_lb_runs temp TC) as (l & E & R). exists l. split; [exact E|].
      split; [unfold is_int, is_long, INT_MIN, INT_MAX, LONG_MIN, LONG_MAX in *; lia|]. split; [discriminate|].
      intros _ HI. rewrite calc_lb_ok in E; auto; [|rewrite TM; auto]. rewrite TM in E. congruence. }
  destruct LBX as (lb & EL & LL & L1 & L2).
  assert (UBX : exists ub, (if existsb ub_flag bs then Ok (to_s64 (ov_ub bs)) else calc_ub c temp) = Ok ub /\ is_long ub /\
     (existsb ub_flag bs = true -> ub = to_s64 (ov_ub bs)) /\
     (existsb ub_flag bs = false -> ub = fold_left Z.max (ends c m) INT_MIN)).
  { destruct (existsb ub_flag bs).
    - eexists. split; [reflexivity|]. split; [apply to_s64_range|]. split; [auto|discriminate].
    - rewrite (calc_ub_ok c CO temp TC).
      + rewrite TM. eexists. split; [reflexivity|]. split; [|split; [discriminate|reflexivity]].
        destruct (fold_max_spec (ends c m) INT_MIN) as (A & B & _). destruct A as [->|A].
        * unfold is_long, INT_MIN, LONG_MIN, LONG_MAX; lia.
        * unfold ends in A. apply in_map_iff in A. destruct A as (e & E & He).
          unfold ends. rewrite <- E. apply FIT; auto.
      + rewrite TM. intros e He. split; [auto|apply FIT; auto]. }
  destruct UBX as (ub & EU & UU & U1 & U2).
  rewrite EL. cbn [bind]. rewrite EU. cbn [bind]. eexists. split; [reflexivity|].
  cbn [ts_count ts_committed ts_olb ts_oub ts_lb ts_ub ts_pairs].
  destruct (pad_pairs_first jk _ _ PT) as [_ PL].
  split; [unfold typemap; cbn [ts_count ts_pairs]; exact TM|].
  split; [lia|]. split; [cbn [ts_pairs temp]; rewrite PL, LM; reflexivity|].
  repeat split; auto.
  - apply LL.
  - apply LL.
  - apply UU.
  - apply UU.
  - intros T0. assert (acc = []) by (destruct acc; [auto|simpl in PT; lia]).
    cbn [ts_pairs temp]. rewrite H, T0. reflexivity.
Qed.
End Struct.
