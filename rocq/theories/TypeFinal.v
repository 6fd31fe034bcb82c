(** Lemmas closing the property theorems on datatypes. *)
From Verif Require Import Base TypeModel TypeSpec TypeProofs TypeStruct TypeCons TypeTree TypeMore.

Lemma C35_lemma (c : cfg) (jk : tjunk) (bs : list iblock) (r1 r2 : list Z) :
    cfg_ok c -> Forall (struct_arg_ok c) bs ->
    Z.of_nat (length (struct_map (map sblock_of bs))) <= INT_MAX ->
    map_fits c (struct_map (map sblock_of bs)) ->
    exists t, Type_struct c jk (Z.of_nat (length bs)) (map ib_len bs ++ r1)
                (map (fun b => to_u64 (ib_disp b)) bs ++ r2) (map ib_old bs) = Ok t /\
      typemap t = struct_map (map sblock_of bs) /\ wf_ts c t /\ ts_committed t = 0.
Proof.
  intros CO HA HL FIT. destruct (struct_ok c CO jk bs r1 r2 HA HL FIT) as (t & E & S & _).
  exists t. split; [exact E|]. destruct S; auto.
Qed.

Lemma C36_lemma :
  forall (c : cfg) (jk : tjunk) (old : typestruct) (ext : Z), cfg_ok c -> data_type c old ext ->
  let m := typemap old in
  let good (mk : res typestruct) (new : list elem) :=
    Z.of_nat (length new) <= INT_MAX -> map_fits c new ->
    exists t, mk = Ok t /\ typemap t = new /\ wf_ts c t /\ ts_committed t = 0 in
  (forall n, int_nonneg n -> good (Type_contiguous c jk n old) (contiguous_map n ext m)) /\
  (forall n bl s, int_nonneg n -> int_nonneg bl -> good (Type_hvector c jk n bl (to_u64 s) old) (hvector_map n bl s ext m)) /\
  (forall n bl s, int_nonneg n -> int_nonneg bl -> good (Type_vector c jk n bl s old) (vector_map n bl s ext m)) /\
  (forall bds r1 r2, Forall (fun bd => int_nonneg (fst bd)) bds ->
     good (Type_hindexed c jk (Z.of_nat (length bds)) (map fst bds ++ r1) (map (fun bd => to_u64 (snd bd)) bds ++ r2) old)
          (hindexed_map bds ext m)) /\
  (forall bds r1 r2, Forall (fun bd => int_nonneg (fst bd)) bds ->
     good (Type_indexed c jk (Z.of_nat (length bds)) (map fst bds ++ r1) (map snd bds ++ r2) old) (indexed_map bds ext m)) /\
  (forall bl ds r2, int_nonneg bl ->
     good (Type_create_indexed_block c jk (Z.of_nat (length ds)) bl (ds ++ r2) old) (indexed_block_map bl ds ext m)).
Proof.
  intros c jk old ext CO D m good. unfold good, m. repeat split.
  - intros n Hn HL FIT. destruct (contiguous_ok c CO jk old ext n D Hn HL FIT) as (t & E & [] & _). exists t; auto.
  - intros n bl s Hn Hb HL FIT. destruct (hvector_ok c CO jk old ext n bl s (to_u64 s) D Hn Hb (u64_idem s) HL FIT) as (t & E & [] & _). exists t; auto.
  - intros n bl s Hn Hb HL FIT. destruct (vector_ok c CO jk old ext n bl s D Hn Hb HL FIT) as (t & E & [] & _). exists t; auto.
  - intros bds r1 r2 Hb HL FIT. destruct (hindexed_ok c CO jk old ext bds r1 r2 D Hb HL FIT) as (t & E & [] & _). exists t; auto.
  - intros bds r1 r2 Hb HL FIT. destruct (indexed_ok c CO jk old ext bds r1 r2 D Hb HL FIT) as (t & E & [] & _). exists t; auto.
  - intros bl ds r2 Hb HL FIT. destruct (indexed_block_ok c CO jk old ext bl ds r2 D Hb HL FIT) as (t & E & [] & _). exists t; auto.
Qed.

Lemma args_known c bs : Forall (struct_arg_ok c) bs -> forall e, In e (struct_map (map sblock_of bs)) -> known c e.
Proof.
  intros HA e He. destruct (struct_known bs e He) as (b & e0 & Hb & M & H0 & E0). unfold known. rewrite <- E0.
  eapply arg_known; eauto. rewrite Forall_forall in HA. auto.
Qed.

Lemma C37_lemma :
  forall (c : cfg), cfg_ok c ->
  (forall jk bs r1 r2 t, Forall (struct_arg_ok c) bs -> Forall (fun b => no_override (ib_old b)) bs ->
     let m := struct_map (map sblock_of bs) in
     m <> [] -> Z.of_nat (length m) <= INT_MAX -> (forall e, In e m -> is_int (snd e)) ->
     Type_struct c jk (Z.of_nat (length bs)) (map ib_len bs ++ r1)
       (map (fun b => to_u64 (ib_disp b)) bs ++ r2) (map ib_old bs) = Ok t ->
     is_lb m (ts_lb t) /\ is_ub c m (ts_ub t)) /\
  (forall jk e t, (forall x, j_olb (jk x) = 0 /\ j_oub (jk x) = 0) -> expr_ok c e -> derived e ->
     build c jk e = Ok t -> is_lb (den c e) (ts_lb t) /\ is_ub c (den c e) (ts_ub t)).
Proof.
  intros c CO. split.
  - intros jk bs r1 r2 t HA HN m NE HL HI E. unfold m in *.
    destruct (struct_ok c CO jk bs r1 r2 HA HL) as (t' & E' & S & P).
    { apply is_int_fits; auto. apply args_known; auto. }
    assert (t' = t) by congruence. subst t'. specialize (P HN). split; [apply (pr_lb _ _ _ _ P)|apply (pr_ub _ _ _ _ P)]; auto.
  - intros jk e t JK H D E. destruct (tree_ok c CO jk JK e H) as (t' & E' & _ & B).
    assert (t' = t) by congruence. subst t'. destruct (B D) as (B1 & B2 & _). auto.
Qed.

(** Checking the hypotheses on concrete expressions. *)
Definition node_okb (c : cfg) (e : texpr) : bool :=
  negb (Z.of_nat (length (den c e)) =? 0) && (Z.of_nat (length (den c e)) <=? INT_MAX) &&
  forallb (fun x => (INT_MIN <=? snd x) && (snd x <=? INT_MAX)) (den c e).
Lemma node_okb_ok c e : node_okb c e = true -> node_ok c e.
Proof.
  unfold node_okb, node_ok. intros H. apply andb_prop in H. destruct H as [H H3]. apply andb_prop in H. destruct H as [H1 H2].
  apply negb_true_iff, Z.eqb_neq in H1. apply Z.leb_le in H2. rewrite forallb_forall in H3.
  split; [intros E; rewrite E in H1; apply H1; reflexivity|]. split; [exact H2|].
  intros x Hx. specialize (H3 x Hx). apply andb_prop in H3. destruct H3 as [A B]. apply Z.leb_le in A, B. split; assumption.
Qed.
Ltac int_nn := unfold int_nonneg, INT_MAX; lia.
Ltac node := apply node_okb_ok; vm_compute; reflexivity.

Definition junk0 (a b : Z) : tjunk := mkJunk a b (fun _ => mkPair 0 0).

Lemma C37_refutation :
  exists (jk : texpr -> tjunk) (e : texpr) (t : typestruct),
    expr_ok default_cfg e /\ derived e /\ build default_cfg jk e = Ok t /\
    typemap t = den default_cfg e /\ ~ is_lb (den default_cfg e) (ts_lb t).
Proof.
  exists (fun _ => junk0 1 0). exists (EStruct [(1, -4, EContig 1 (EPre (-3)))]).
  eexists. split; [|split; [exact I|split; [vm_compute; reflexivity|split; [vm_compute; reflexivity|]]]].
  - split; [node|]. split; [int_nn|]. split; [|exact I]. split; [node|]. split; [int_nn|]. split; [node|exact I].
  - intros [[H|[]] _]. vm_compute in H. discriminate H.
Qed.

Lemma C38_lemma :
  forall (c : cfg), cfg_ok c ->
  (forall jk e, (forall x, j_olb (jk x) = 0 /\ j_oub (jk x) = 0) -> expr_ok c e ->
     exists t x, build c jk e = Ok t /\ typemap t = den c e /\ Type_extent c t = Ok x /\ is_extent c (den c e) x) /\
  (forall t a, wf_ts c t -> ts_olb t = 0 -> ts_oub t = 0 -> is_max a (sizes c (typemap t)) ->
     0 <= ts_ub t - ts_lb t <= LONG_MAX - 4096 ->
     exists x, Type_extent c t = Ok x /\ rounds_up (ts_ub t - ts_lb t) a x).
Proof.
  intros c CO. split.
  - intros jk e JK H. destruct (tree_ok c CO jk JK e H) as (t & E & G & _). exists t, (ext_of c (den c e)).
    split; [exact E|]. split; [apply (g_map _ _ _ G)|]. split; [apply (g_ext _ _ _ G)|].
    apply ext_of_ok; auto.
    + assert (NO : node_ok c e) by (destruct e; apply H). apply NO.
    + eapply good_known; eauto.
  - intros t a W O1 O2 M R. destruct (extent_plain c CO t a) as (x & E & RU & _); auto.
    + destruct (wf_count _ _ W), (wf_pairs _ _ W). lia.
    + apply (wf_known _ _ W).
    + exists x. auto.
Qed.

Lemma C39_refutation :
  exists (jk1 jk2 : texpr -> tjunk) (e : texpr) (t1 t2 : typestruct),
    expr_ok default_cfg e /\ build default_cfg jk1 e = Ok t1 /\ build default_cfg jk2 e = Ok t2 /\
    Type_extent default_cfg t1 = Ok 16 /\ Type_extent default_cfg t2 = Ok 9.
Proof.
  exists (fun _ => junk0 0 0), (fun _ => junk0 0 1), (EStruct [(1, 0, EPre (-10)); (1, 8, EPre (-1))]).
  eexists. eexists. split; [|split; [vm_compute; reflexivity|split; [vm_compute; reflexivity|split; vm_compute; reflexivity]]].
  split; [node|]. split; [int_nn|]. split; [split; [node|exact I]|].
  split; [int_nn|]. split; [split; [node|exact I]|]. exact I.
Qed.

Lemma C39_lemma (c : cfg) (jk : tjunk) (bs : list iblock) (r1 r2 : list Z) :
    cfg_ok c -> Forall (struct_arg_ok c) bs -> Forall (fun b => no_override (ib_old b)) bs ->
    let m := struct_map (map sblock_of bs) in
    m <> [] -> Z.of_nat (length m) <= INT_MAX -> (forall e, In e m -> is_int (snd e)) ->
    exists t lb ub x, Type_struct c jk (Z.of_nat (length bs)) (map ib_len bs ++ r1)
                (map (fun b => to_u64 (ib_disp b)) bs ++ r2) (map ib_old bs) = Ok t /\
      is_lb m lb /\ is_ub c m ub /\ Type_extent c t = Ok x /\
      (j_olb jk = 0 /\ j_oub jk = 0 -> is_extent c m x) /\
      (j_olb jk <> 0 \/ j_oub jk <> 0 -> x = ub - lb).
Proof.
  intros CO HA HN m NE HL HI. unfold m in *.
  destruct (struct_ok c CO jk bs r1 r2 HA HL) as (t & E & S & P).
  { apply is_int_fits; auto. apply args_known; auto. }
  destruct (junk_extent c jk _ t CO S (P HN) NE HI) as (lb & ub & x & A). exists t, lb, ub, x. auto.
Qed.

Lemma C40_refutation :
  (exists jk t lower upper, predefined default_cfg (-14) = Ok lower /\ predefined default_cfg (-15) = Ok upper /\
     Type_struct default_cfg jk 3 [1; 1; 1] [0; 0; 16] [lower; pre1 4 2; upper] = Ok t /\
     ts_lb t = 0 /\ ts_ub t = LONG_MIN) /\
  (exists jk t lower, predefined default_cfg (-14) = Ok lower /\
     Type_struct default_cfg jk 2 [1; 1] [to_u64 (-8); 0] [lower; pre1 4 2] = Ok t /\ ts_lb t = LONG_MAX).
Proof.
  split.
  - exists (junk0 0 0). eexists. eexists. eexists. split; [reflexivity|]. split; [reflexivity|].
    split; [vm_compute; reflexivity|]. split; reflexivity.
  - exists (junk0 0 0). eexists. eexists. split; [reflexivity|]. split; [vm_compute; reflexivity|]. reflexivity.
Qed.

Lemma filter_all {A} (f : A -> bool) l : (forall x, In x l -> f x = true) -> filter f l = l.
Proof.
  induction l as [|x l IH]; intros H; [reflexivity|]. cbn [filter]. rewrite H by (left; reflexivity).
  f_equal. apply IH. intros; apply H; right; auto.
Qed.

Lemma C40_lemma (c : cfg) (jk : tjunk) (bs : list iblock) (r1 r2 : list Z) :
    cfg_ok c -> Forall (struct_arg_ok c) bs ->
    Z.of_nat (length (struct_map (map sblock_of bs))) <= INT_MAX ->
    map_fits c (struct_map (map sblock_of bs)) -> own_markers bs ->
    (forall b, In b bs -> is_long (ib_disp b)) ->
    exists t, Type_struct c jk (Z.of_nat (length bs)) (map ib_len bs ++ r1)
                (map (fun b => to_u64 (ib_disp b)) bs ++ r2) (map ib_old bs) = Ok t /\
      (lb_disps bs <> [] -> ts_lb t = fold_left Z.min (filter (fun d => 0 <=? d) (lb_disps bs)) LONG_MAX) /\
      (lb_disps bs <> [] -> (forall d, In d (lb_disps bs) -> 0 <= d) -> is_min (ts_lb t) (lb_disps bs)) /\
      (ub_disps bs <> [] -> ts_ub t = fold_left Z.max (filter (fun d => d <? 0) (ub_disps bs)) LONG_MIN) /\
      (ub_disps bs <> [] -> (forall d, In d (ub_disps bs) -> d < 0) -> is_max (ts_ub t) (ub_disps bs)) /\
      (lb_disps bs <> [] \/ ub_disps bs <> [] -> is_long (ts_ub t - ts_lb t) ->
         Type_extent c t = Ok (to_u64 (ts_ub t - ts_lb t))).
Proof.
  intros CO HA HL FIT OM HD. destruct (markers_ok c CO jk bs r1 r2 HA HL FIT OM HD) as (t & E & L & U & X).
  exists t. split; [exact E|]. split; [exact L|]. split; [|split; [exact U|split; [|exact X]]].
  - intros NE Hn. rewrite (L NE). rewrite filter_all by (intros d Hd; apply Z.leb_le; auto).
    apply fold_min_is_min; auto. intros d Hd. apply in_map_iff in Hd. destruct Hd as (b & <- & Hb).
    apply filter_In in Hb. apply HD. apply Hb.
  - intros NE Hn. rewrite (U NE). rewrite filter_all by (intros d Hd; apply Z.ltb_lt; auto).
    apply fold_max_is_max; auto. intros d Hd. apply in_map_iff in Hd. destruct Hd as (b & <- & Hb).
    apply filter_In in Hb. apply HD. apply Hb.
Qed.

Lemma Type_size_val c t s : cfg_ok c -> wf_ts c t -> Type_size c t = Ok s -> s = map_size c (typemap t).
Proof.
  intros CO W. unfold Type_size.
  assert (HC : 0 <= ts_count t <= Z.of_nat (length (ts_pairs t))) by (destruct (wf_count _ _ W), (wf_pairs _ _ W); lia).
  rewrite (for_loop_pairs t (fun p s => do len <- Simpletype_length c (tp_type p); chk_int (s + len))) by exact HC.
  rewrite (foldM_typemap t (fun e s => do len <- Simpletype_length c (fst e); chk_int (s + len))) by reflexivity.
  assert (G : forall l a, (forall e, In e l -> known c e) ->
     foldM (fun (e : elem) (s : Z) => do len <- Simpletype_length c (fst e); chk_int (s + len)) l a = Ok s ->
     s = a + map_size c l).
  { induction l as [|e l IH]; intros a K H; cbn [foldM] in H.
    - apply Ok_inj in H. unfold map_size. cbn. lia.
    - destruct (known_size c CO e (K e (or_introl eq_refl))) as [E R]. rewrite E in H. cbn [bind] in H.
      destruct (chk_int (a + esize c e)) as [y| | | |] eqn:EC; try discriminate H.
      apply chk_int_inv in EC. destruct EC as [-> _]. cbn [bind] in H. apply IH in H; [|intros; apply K; right; auto]. unfold map_size in *. cbn [map fold_right]. lia. }
  intros H. apply G in H; [lia|]. apply (wf_known _ _ W).
Qed.

Lemma C41_lemma :
  forall (c : cfg), cfg_ok c ->
  (forall t, wf_ts c t -> map_size c (typemap t) <= INT_MAX -> Type_size c t = Ok (map_size c (typemap t))) /\
  (forall jk bs r1 r2 (size : iblock -> Z) t, Forall (struct_arg_ok c) bs ->
     Z.of_nat (length (struct_map (map sblock_of bs))) <= INT_MAX ->
     map_fits c (struct_map (map sblock_of bs)) ->
     (forall b, In b bs -> if marker b then size b = 0 else Type_size c (ib_old b) = Ok (size b)) ->
     fold_right Z.add 0 (map (fun b => ib_len b * size b) bs) <= INT_MAX ->
     Type_struct c jk (Z.of_nat (length bs)) (map ib_len bs ++ r1)
                (map (fun b => to_u64 (ib_disp b)) bs ++ r2) (map ib_old bs) = Ok t ->
     Type_size c t = Ok (fold_right Z.add 0 (map (fun b => ib_len b * size b) bs))) /\
  (forall jk e, (forall x, j_olb (jk x) = 0 /\ j_oub (jk x) = 0) -> expr_ok c e -> map_size c (den c e) <= INT_MAX ->
     exists t, build c jk e = Ok t /\ Type_size c t = Ok (map_size c (den c e))).
Proof.
  intros c CO. split; [|split].
  - intros t W H. apply wf_size; auto.
  - intros jk bs r1 r2 size t HA HL FIT SZ HM E.
    destruct (struct_ok c CO jk bs r1 r2 HA HL FIT) as (t' & E' & S & _). assert (t' = t) by congruence. subst t'.
    assert (EQ : map_size c (typemap t) = fold_right Z.add 0 (map (fun b => ib_len b * size b) bs)).
    { rewrite (sr_map _ _ _ _ S), map_size_struct, map_map. clear - HA SZ CO. induction HA as [|b bs H HF IH]; [reflexivity|].
      cbn [map fold_right]. rewrite IH by (intros; apply SZ; right; auto). f_equal.
      specialize (SZ b (or_introl eq_refl)). unfold sblock_of. cbn [sb_len sb_map]. destruct (marker b) eqn:M.
      - rewrite SZ. unfold map_size. cbn [map fold_right]. lia.
      - destruct H as [H|(R & W & _)]; [congruence|]. rewrite (Type_size_val c _ _ CO W SZ). rewrite Z.max_r by lia. reflexivity. }
    rewrite <- EQ in *. apply wf_size; auto. apply (sr_wf _ _ _ _ S).
  - intros jk e JK H HM. destruct (tree_ok c CO jk JK e H) as (t & E & G & _). exists t. split; [exact E|].
    rewrite <- (g_map _ _ _ G) in *. apply wf_size; auto. apply (g_wf _ _ _ G).
Qed.

Lemma C43_lemma (c : cfg) (t : typestruct) : cfg_ok c -> wf_ts c t -> typemap t = [] -> Type_size c t = Ok 0.
Proof.
  intros CO W E. rewrite wf_size; auto; rewrite E; [reflexivity|unfold map_size, INT_MAX; cbn; lia].
Qed.

Lemma C43_refutation :
  exists (jk : tjunk) (t : typestruct), Type_contiguous default_cfg jk 0 (pre1 4 2) = Ok t /\
    typemap t = [] /\ ts_lb t = INT_MAX /\ ts_ub t = INT_MIN /\ Type_extent default_cfg t = Ok (TWO64 - TWO32).
Proof.
  exists (junk0 0 0). eexists. split; [vm_compute; reflexivity|]. repeat split; vm_compute; reflexivity.
Qed.

Lemma C47_refutation :
  forall (jk_count : Z) (t : typestruct), exists m, Type_dup jk_count t = UB m.
Proof. intros. eexists. reflexivity. Qed.
Lemma heap_store_ok size off len : 0 <= off -> off + len <= size -> heap_store size off len = Ok tt.
Proof. intros H1 H2. unfold heap_store. rewrite (proj2 (Z.leb_le _ _) H1), (proj2 (Z.leb_le _ _) H2). reflexivity. Qed.
Lemma heap_store_bad size off len : size < off + len -> heap_store size off len = UB "heap overflow".
Proof. intros H. unfold heap_store. rewrite (proj2 (Z.leb_gt _ _) H), andb_false_r. reflexivity. Qed.
Lemma C47_room_lemma size jk t : 0 <= ts_count t ->
  (dup_needs t <= size -> Type_dup_in size jk t = Ok (mkTs jk (ts_ub t) (ts_lb t) (ts_committed t) (ts_olb t) (ts_oub t) (ts_pairs t))) /\
  (size < dup_needs t -> exists m, Type_dup_in size jk t = UB m).
Proof.
  intros N. unfold dup_needs. set (loop := for_loop 0 (ts_count t) (fun i (_ : unit) => do _ <- heap_store size (40 + 16 * i + 8) 4; heap_store size (40 + 16 * i) 8) tt).
  assert (D : Type_dup_in size jk t = (do _ <- heap_store size 24 4; do _ <- heap_store size 16 8; do _ <- heap_store size 8 8; do _ <- heap_store size 28 4; do _ <- heap_store size 32 4;
    do _ <- loop; Ok (mkTs jk (ts_ub t) (ts_lb t) (ts_committed t) (ts_olb t) (ts_oub t) (ts_pairs t)))) by reflexivity.
  rewrite D. clear D. split; intros H.
  - assert (36 <= size) by lia. rewrite !heap_store_ok by lia. cbn [bind].
    assert (L : loop = Ok tt); [|rewrite L; reflexivity]. unfold loop.
    destruct (for_loop_inv (fun _ (_ : unit) => True) 0 (ts_count t) (fun i (_ : unit) => do _ <- heap_store size (40 + 16 * i + 8) 4; heap_store size (40 + 16 * i) 8) tt N Logic.I) as ([] & E & _); [|exact E].
    intros i [] I _. exists tt. rewrite !heap_store_ok by lia. auto.
  - destruct (Z_lt_le_dec size 36) as [S|S].
    + unfold heap_store at 1. destruct ((0 <=? 24) && (24 + 4 <=? size)); [|eexists; reflexivity]. cbn [bind].
      unfold heap_store at 1. destruct ((0 <=? 16) && (16 + 8 <=? size)); [|eexists; reflexivity]. cbn [bind].
      unfold heap_store at 1. destruct ((0 <=? 8) && (8 + 8 <=? size)); [|eexists; reflexivity]. cbn [bind].
      unfold heap_store at 1. destruct ((0 <=? 28) && (28 + 4 <=? size)); [|eexists; reflexivity]. cbn [bind].
      rewrite heap_store_bad by lia. eexists. reflexivity.
    + rewrite !heap_store_ok by lia. cbn [bind].
      assert (L : exists m, loop = UB m); [|destruct L as [m L]; rewrite L; eexists; reflexivity]. unfold loop.
      set (b := (fun i (_ : unit) => do _ <- heap_store size (40 + 16 * i + 8) 4; heap_store size (40 + 16 * i) 8)).
      assert (G : forall n lo, 0 <= lo -> Z.of_nat n = ts_count t - lo -> (0 < n)%nat -> exists m, for_loop lo (ts_count t) b tt = UB m).
      { induction n as [|n IH]; intros lo L0 En Hn; [lia|]. rewrite for_loop_S by lia. unfold b at 1.
        destruct (Z_le_gt_dec (40 + 16 * lo + 8 + 4) size) as [E|E]; [|rewrite heap_store_bad by lia; eexists; reflexivity].
        rewrite !heap_store_ok by lia. cbn [bind]. destruct n as [|n]; [lia|]. apply IH; lia. }
      apply (G (Z.to_nat (ts_count t)) 0); lia.
Qed.

Lemma C47_partial_lemma size jk t : 0 <= ts_count t ->
  (dup_needs t <= size -> exists t', Type_dup_in size jk t = Ok t' /\ ts_count t' = jk /\
     ts_ub t' = ts_ub t /\ ts_lb t' = ts_lb t /\ ts_committed t' = ts_committed t /\ ts_olb t' = ts_olb t /\ ts_oub t' = ts_oub t /\
     ts_pairs t' = ts_pairs t /\ (t' = t <-> jk = ts_count t)) /\
  (size < dup_needs t -> exists m, Type_dup_in size jk t = UB m).
Proof.
  intros N. destruct (C47_room_lemma size jk t N) as [A B]. split; [|exact B]. intros H. eexists. split; [exact (A H)|].
  do 7 (split; [reflexivity|]). destruct t. cbn. split; [intros E; injection E as E; exact E|intros ->; reflexivity].
Qed.
Lemma C42_refutation :
  (exists t, predefined default_cfg (-36) = Ok t /\
     Type_size default_cfg t = Exit 1 "Invalid simple type" /\ Type_extent default_cfg t = Exit 1 "Invalid simple type") /\
  (exists m, predefined default_cfg (-46) = UB m) /\ (exists m, predefined default_cfg (-47) = UB m) /\
  (forall h, h = -14 \/ h = -15 -> exists t, predefined default_cfg h = Ok t /\
     Type_size default_cfg t = Exit 1 "Invalid simple type" /\ Type_extent default_cfg t = Exit 1 "Invalid simple type").
Proof.
  split; [|split; [|split]].
  - eexists. split; [reflexivity|]. split; reflexivity.
  - eexists. reflexivity.
  - eexists. reflexivity.
  - intros h [->| ->]; eexists; (split; [reflexivity|]; split; reflexivity).
Qed.

Lemma size_of_good c m t s : cfg_ok c -> good c m t -> map_size c m = s -> s <= INT_MAX -> Type_size c t = Ok s.
Proof.
  intros CO G <- H. rewrite <- (g_map _ _ _ G) in *. apply wf_size; auto. apply (g_wf _ _ _ G).
Qed.

Lemma quad_inj {A B C D} (a a' : A) (b b' : B) (x x' : C) (y y' : D) :
  (a, b, x, y) = (a', b', x', y') -> a = a' /\ b = b' /\ x = x' /\ y = y'.
Proof. intros H. repeat split; congruence. Qed.

Lemma C42_lemma (c : cfg) (name : string) (h size ext : Z) : cfg_ok c ->
    In (name, h, size, ext) (constants (fsize_real c) (fsize_dprec c)) ->
    exists t m, predefined c h = Ok t /\ In (name, h, m) (predef_maps (fsize_real c) (fsize_dprec c)) /\
      typemap t = m /\ wf_ts c t /\ ts_committed t = 1 /\ Type_size c t = Ok size /\ Type_extent c t = Ok ext.
Proof.
  intros CO Hin.
  assert (MAIN : exists t m, predefined c h = Ok t /\ In (name, h, m) (predef_maps (fsize_real c) (fsize_dprec c)) /\
     good c m t /\ ts_committed t = 1 /\ map_size c m = size /\ size <= 4096 /\ ext_of c m = ext).
  { destruct CO as [C1 C2]. pose proof (conj C1 C2 : cfg_ok c) as CO.
    unfold constants in Hin. cbn [In] in Hin.
    repeat (destruct Hin as [Hin|Hin];
      [apply quad_inj in Hin; destruct Hin as (<- & <- & <- & <-); eexists; eexists; split; [reflexivity|]; split; [unfold predef_maps; cbn [In]; tauto|]; split;
       [first [ apply pre1_good; [exact CO|reflexivity] | apply (pre2_good c CO _ 4); reflexivity
           | apply pre2_good; [exact CO|reflexivity] | (apply pair_good; cbn; tauto) ] |
        split; [reflexivity|]; split; [unfold map_size, esize, bsize; cbn [map fold_right fst basic_sizes find_size Z.eqb Pos.eqb]; lia|];
        split; [lia|];
        first [apply pre1_ext; [exact CO|reflexivity] | apply (pre2_ext c CO _ 4); reflexivity
           | apply pre2_ext; [exact CO|reflexivity] | reflexivity]] |]).
    destruct Hin. }
  destruct MAIN as (t & m & E & Hm & G & CM & SZ & LE & XX).
  exists t, m. split; [exact E|]. split; [exact Hm|]. split; [apply (g_map _ _ _ G)|]. split; [apply (g_wf _ _ _ G)|].
  split; [exact CM|]. split; [eapply size_of_good; eauto; unfold INT_MAX; lia|].
  rewrite <- XX. apply (g_ext _ _ _ G).
Qed.

Lemma ex_expr_good : let ex_expr := EStruct [(2, -8, EPre (-10)); (1, 100, EVector 2 1 3 (EPre (-1)))] in
  expr_ok default_cfg ex_expr /\ den default_cfg ex_expr = [(9, -8); (9, 0); (0, 100); (0, 103)].
Proof.
  split; [|vm_compute; reflexivity].
  split; [node|]. split; [int_nn|]. split; [split; [node|exact I]|].
  split; [int_nn|]. split; [|exact I]. split; [node|]. split; [int_nn|]. split; [int_nn|]. split; [node|exact I].
Qed.

Lemma default_ok : cfg_ok default_cfg.
Proof. unfold cfg_ok. cbn. lia. Qed.

Lemma ex_blocks_good : let ex_blocks := [mkIb 1 0 (pre1 0 12) 0; mkIb 2 (-4) (pre1 4 2) 4; mkIb 1 16 (pre1 8 9) 8] in
  Forall (struct_arg_ok default_cfg) ex_blocks /\
  struct_map (map sblock_of ex_blocks) = [(2, -4); (2, 0); (9, 16)] /\
  map_fits default_cfg (struct_map (map sblock_of ex_blocks)) /\ own_markers ex_blocks /\ lb_disps ex_blocks = [0].
Proof.
  assert (G1 := pre1_good default_cfg default_ok 2 4 eq_refl).
  assert (G2 := pre1_good default_cfg default_ok 9 8 eq_refl).
  cbv zeta. split; [|split; [vm_compute; reflexivity|split; [|split; [|reflexivity]]]].
  - constructor; [left; reflexivity|]. constructor; [|constructor; [|constructor]].
    + right. split; [cbn; unfold INT_MAX; lia|]. exact (good_data _ _ _ G1).
    + right. split; [cbn; unfold INT_MAX; lia|]. exact (good_data _ _ _ G2).
  - assert (E : struct_map (map sblock_of [mkIb 1 0 (pre1 0 12) 0; mkIb 2 (-4) (pre1 4 2) 4; mkIb 1 16 (pre1 8 9) 8])
      = [(2, -4); (2, 0); (9, 16)]) by (vm_compute; reflexivity).
    rewrite E. intros e [<-|[<-|[<-|[]]]]; split; cbn; unfold is_long, LONG_MIN, LONG_MAX; lia.
  - constructor; [left; reflexivity|]. repeat (constructor; [right; repeat split|]). constructor.
Qed.

Lemma to_u64_aint z : as_aint z (to_u64 z).
Proof.
  unfold as_aint, to_u64. split; [apply Z.mod_pos_bound; reflexivity|]. exists (- (z / TWO64)).
  rewrite Z.mod_eq by discriminate. rewrite (Z.mul_comm TWO64). rewrite Z.mul_opp_l. apply Z.add_opp_r.
Qed.
Theorem C37_reported_lemma t : as_aint (ts_lb t) (Type_lb t) /\ as_aint (ts_ub t) (Type_ub t).
Proof. split; apply to_u64_aint. Qed.
