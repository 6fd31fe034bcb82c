(** Property theorems about datatype constructors: C35 to C43 and C47. *)
From Verif Require Import Base TypeModel TypeSpec TypeProofs TypeStruct TypeCons TypeTree TypeMore TypeFinal.

(** C35: the typemap of a struct type is the concatenation, over the blocks, of displaced copies.
    Arrays may be longer than count ([r1], [r2]).  [ib_ext] is the signed value of the extent reported for the
    block's type.  The only side conditions are that the old types are well formed, the total number of
    elements fits an int, and every element fits the 64-bit address range. *)
Theorem C35_struct_typemap :
  forall (c : cfg) (jk : tjunk) (bs : list iblock) (r1 r2 : list Z),
    cfg_ok c -> Forall (struct_arg_ok c) bs ->
    Z.of_nat (length (struct_map (map sblock_of bs))) <= INT_MAX ->
    map_fits c (struct_map (map sblock_of bs)) ->
    exists t, Type_struct c jk (Z.of_nat (length bs)) (map ib_len bs ++ r1)
                (map (fun b => to_u64 (ib_disp b)) bs ++ r2) (map ib_old bs) = Ok t /\
      typemap t = struct_map (map sblock_of bs) /\ wf_ts c t /\ ts_committed t = 0.
Proof. exact C35_lemma. Qed.
Print Assumptions C35_struct_typemap.

(** C36: the other constructors. *)
Theorem C36_constructor_typemaps :
  forall (c : cfg) (jk : tjunk) (old : typestruct) (ext : Z), cfg_ok c -> data_type c old ext ->
  let m := typemap old in
  let good (mk : res typestruct) (new : list elem) :=
    Z.of_nat (length new) <= INT_MAX -> map_fits c new ->
    exists t, mk = Ok t /\ typemap t = new /\ wf_ts c t /\ ts_committed t = 0 in
  (forall n, int_nonneg n -> good (Type_contiguous c jk n old) (contiguous_map n ext m)) /\
  (forall n bl s, int_nonneg n -> int_nonneg bl -> good (Type_hvector c jk n bl (to_u64 s) old) (hvector_map n bl s ext m)) /\
  (forall n bl s, int_nonneg n -> int_nonneg bl -> good (Type_vector c jk n bl s old) (vector_map n bl s ext m)) /\
  (forall bds r1 r2, Forall (fun bd => int_nonneg (fst bd)) bds ->
     good (Type_hindexed c jk (Z.of_nat (length bds)) (map fst bds ++ r1) (map (fun bd => to_u64 (snd bd)) bds ++ r2) old)
          (hindexed_map bds ext m)) /\
  (forall bds r1 r2, Forall (fun bd => int_nonneg (fst bd)) bds ->
     good (Type_indexed c jk (Z.of_nat (length bds)) (map fst bds ++ r1) (map snd bds ++ r2) old) (indexed_map bds ext m)) /\
  (forall bl ds r2, int_nonneg bl ->
     good (Type_create_indexed_block c jk (Z.of_nat (length ds)) bl (ds ++ r2) old) (indexed_block_map bl ds ext m)).
Proof. exact C36_lemma. Qed.
Print Assumptions C36_constructor_typemaps.

(** C37, bounds.  Two forms: for one constructor step over old types without overridden bounds, whatever the
    uninitialised storage of the new type holds; and for whole nested expressions, when the uninitialised
    override words happen to be zero.
    Missing: nested types over arbitrary uninitialised override words, where the property is false
    ([C37_bounds_refuted]). *)
Theorem C37_bounds_partial :
  forall (c : cfg), cfg_ok c ->
  (forall jk bs r1 r2 t, Forall (struct_arg_ok c) bs -> Forall (fun b => no_override (ib_old b)) bs ->
     let m := struct_map (map sblock_of bs) in
     m <> [] -> Z.of_nat (length m) <= INT_MAX -> (forall e, In e m -> is_int (snd e)) ->
     Type_struct c jk (Z.of_nat (length bs)) (map ib_len bs ++ r1)
       (map (fun b => to_u64 (ib_disp b)) bs ++ r2) (map ib_old bs) = Ok t ->
     is_lb m (ts_lb t) /\ is_ub c m (ts_ub t)) /\
  (forall jk e t, (forall x, j_olb (jk x) = 0 /\ j_oub (jk x) = 0) -> expr_ok c e -> derived e ->
     build c jk e = Ok t -> is_lb (den c e) (ts_lb t) /\ is_ub c (den c e) (ts_ub t)).
Proof. exact C37_lemma. Qed.
Print Assumptions C37_bounds_partial.

(** MPI_Type_lb and MPI_Type_ub report the bounds; a negative one as the MPI_Aint, an unsigned long, congruent to it. *)
Theorem C37_reported_bounds : forall t : typestruct, as_aint (ts_lb t) (Type_lb t) /\ as_aint (ts_ub t) (Type_ub t).
Proof. exact C37_reported_lemma. Qed.
Print Assumptions C37_reported_bounds.
Example C37_reported_ex : Type_lb (mkTs 1 8 (-4) 1 0 0 [mkPair (-4) 2]) = TWO64 - 4 /\ Type_ub (mkTs 1 8 (-4) 1 0 0 [mkPair (-4) 2]) = 8.
Proof. split; vm_compute; reflexivity. Qed.

(** contiguous(1, int) placed at displacement -4: the typemap is {(int, -4)}, and for some content of
    uninitialised storage the lower bound is LONG_MAX instead of -4. *)
Theorem C37_bounds_refuted :
  exists (jk : texpr -> tjunk) (e : texpr) (t : typestruct),
    expr_ok default_cfg e /\ derived e /\ build default_cfg jk e = Ok t /\
    typemap t = den default_cfg e /\ ~ is_lb (den default_cfg e) (ts_lb t).
Proof. exact C37_refutation. Qed.
Print Assumptions C37_bounds_refuted.

(** C38: extent of nested types with clear override words, and of any object with clear override words
    whose bounds are those of its typemap. *)
Theorem C38_extent :
  forall (c : cfg), cfg_ok c ->
  (forall jk e, (forall x, j_olb (jk x) = 0 /\ j_oub (jk x) = 0) -> expr_ok c e ->
     exists t x, build c jk e = Ok t /\ typemap t = den c e /\ Type_extent c t = Ok x /\ is_extent c (den c e) x) /\
  (forall t a, wf_ts c t -> ts_olb t = 0 -> ts_oub t = 0 -> is_max a (sizes c (typemap t)) ->
     0 <= ts_ub t - ts_lb t <= LONG_MAX - 4096 ->
     exists x, Type_extent c t = Ok x /\ rounds_up (ts_ub t - ts_lb t) a x).
Proof. exact C38_lemma. Qed.
Print Assumptions C38_extent.

(** C39 is false: struct {double; char} has extent 16 or 9, depending on uninitialised storage. *)
Theorem C39_extent_determined_refuted :
  exists (jk1 jk2 : texpr -> tjunk) (e : texpr) (t1 t2 : typestruct),
    expr_ok default_cfg e /\ build default_cfg jk1 e = Ok t1 /\ build default_cfg jk2 e = Ok t2 /\
    Type_extent default_cfg t1 = Ok 16 /\ Type_extent default_cfg t2 = Ok 9.
Proof. exact C39_refutation. Qed.
Print Assumptions C39_extent_determined_refuted.

(** What does hold: one constructor step can only give one of two extents; the right one if both
    uninitialised override words are zero, the unrounded span otherwise. *)
Theorem C39_extent_determined_partial :
  forall (c : cfg) (jk : tjunk) (bs : list iblock) (r1 r2 : list Z),
    cfg_ok c -> Forall (struct_arg_ok c) bs -> Forall (fun b => no_override (ib_old b)) bs ->
    let m := struct_map (map sblock_of bs) in
    m <> [] -> Z.of_nat (length m) <= INT_MAX -> (forall e, In e m -> is_int (snd e)) ->
    exists t lb ub x, Type_struct c jk (Z.of_nat (length bs)) (map ib_len bs ++ r1)
                (map (fun b => to_u64 (ib_disp b)) bs ++ r2) (map ib_old bs) = Ok t /\
      is_lb m lb /\ is_ub c m ub /\ Type_extent c t = Ok x /\
      (j_olb jk = 0 /\ j_oub jk = 0 -> is_extent c m x) /\
      (j_olb jk <> 0 \/ j_oub jk <> 0 -> x = ub - lb).
Proof. exact C39_lemma. Qed.
Print Assumptions C39_extent_determined_partial.

(** C40 is false both for UB markers at nonnegative and for LB markers at negative displacements. *)
Theorem C40_markers_refuted :
  (exists jk t lower upper, predefined default_cfg (-14) = Ok lower /\ predefined default_cfg (-15) = Ok upper /\
     Type_struct default_cfg jk 3 [1; 1; 1] [0; 0; 16] [lower; pre1 4 2; upper] = Ok t /\
     ts_lb t = 0 /\ ts_ub t = LONG_MIN) /\
  (exists jk t lower, predefined default_cfg (-14) = Ok lower /\
     Type_struct default_cfg jk 2 [1; 1] [to_u64 (-8); 0] [lower; pre1 4 2] = Ok t /\ ts_lb t = LONG_MAX).
Proof. exact C40_refutation. Qed.
Print Assumptions C40_markers_refuted.

(** What the markers do: negative LB displacements are ignored (LONG_MAX if no other), nonnegative UB
    displacements are ignored (LONG_MIN if no other), and the extent is the difference.  So the property holds
    when all LB markers are at nonnegative and all UB markers at negative displacements. *)
Theorem C40_markers_partial :
  forall (c : cfg) (jk : tjunk) (bs : list iblock) (r1 r2 : list Z),
    cfg_ok c -> Forall (struct_arg_ok c) bs ->
    Z.of_nat (length (struct_map (map sblock_of bs))) <= INT_MAX ->
    map_fits c (struct_map (map sblock_of bs)) -> own_markers bs ->
    (forall b, In b bs -> is_long (ib_disp b)) ->
    exists t, Type_struct c jk (Z.of_nat (length bs)) (map ib_len bs ++ r1)
                (map (fun b => to_u64 (ib_disp b)) bs ++ r2) (map ib_old bs) = Ok t /\
      (lb_disps bs <> [] -> ts_lb t = fold_left Z.min (filter (fun d => 0 <=? d) (lb_disps bs)) LONG_MAX) /\
      (lb_disps bs <> [] -> (forall d, In d (lb_disps bs) -> 0 <= d) -> is_min (ts_lb t) (lb_disps bs)) /\
      (ub_disps bs <> [] -> ts_ub t = fold_left Z.max (filter (fun d => d <? 0) (ub_disps bs)) LONG_MIN) /\
      (ub_disps bs <> [] -> (forall d, In d (ub_disps bs) -> d < 0) -> is_max (ts_ub t) (ub_disps bs)) /\
      (lb_disps bs <> [] \/ ub_disps bs <> [] -> is_long (ts_ub t - ts_lb t) ->
         Type_extent c t = Ok (to_u64 (ts_ub t - ts_lb t))).
Proof. exact C40_lemma. Qed.
Print Assumptions C40_markers_partial.

(** C41: size.  For any well formed object; for a struct in terms of the old types' sizes; and for
    nested expressions. *)
Theorem C41_size :
  forall (c : cfg), cfg_ok c ->
  (forall t, wf_ts c t -> map_size c (typemap t) <= INT_MAX -> Type_size c t = Ok (map_size c (typemap t))) /\
  (forall jk bs r1 r2 (size : iblock -> Z) t, Forall (struct_arg_ok c) bs ->
     Z.of_nat (length (struct_map (map sblock_of bs))) <= INT_MAX ->
     map_fits c (struct_map (map sblock_of bs)) ->
     (forall b, In b bs -> if marker b then size b = 0 else Type_size c (ib_old b) = Ok (size b)) ->
     fold_right Z.add 0 (map (fun b => ib_len b * size b) bs) <= INT_MAX ->
     Type_struct c jk (Z.of_nat (length bs)) (map ib_len bs ++ r1)
                (map (fun b => to_u64 (ib_disp b)) bs ++ r2) (map ib_old bs) = Ok t ->
     Type_size c t = Ok (fold_right Z.add 0 (map (fun b => ib_len b * size b) bs))) /\
  (forall jk e, (forall x, j_olb (jk x) = 0 /\ j_oub (jk x) = 0) -> expr_ok c e -> map_size c (den c e) <= INT_MAX ->
     exists t, build c jk e = Ok t /\ Type_size c t = Ok (map_size c (den c e))).
Proof. exact C41_lemma. Qed.
Print Assumptions C41_size.

(** C42: the usable constants ([constants]: name, constant, size, extent).
    Missing: the five constants of [C42_constants_refuted]. *)
Theorem C42_constants_partial :
  forall (c : cfg) (name : string) (h size ext : Z), cfg_ok c ->
    In (name, h, size, ext) (constants (fsize_real c) (fsize_dprec c)) ->
    exists t m, predefined c h = Ok t /\ In (name, h, m) (predef_maps (fsize_real c) (fsize_dprec c)) /\
      typemap t = m /\ wf_ts c t /\ ts_committed t = 1 /\ Type_size c t = Ok size /\ Type_extent c t = Ok ext.
Proof. exact C42_lemma. Qed.
Print Assumptions C42_constants_partial.

(** MPI_INTEGER16 exists but its size and extent end the program; MPI_SIGNED_CHAR and MPI_WCHAR are NULL
    entries; size and extent of MPI_LB and MPI_UB end the program. *)
Theorem C42_constants_refuted :
  (exists t, predefined default_cfg (-36) = Ok t /\
     Type_size default_cfg t = Exit 1 "Invalid simple type" /\ Type_extent default_cfg t = Exit 1 "Invalid simple type") /\
  (exists m, predefined default_cfg (-46) = UB m) /\ (exists m, predefined default_cfg (-47) = UB m) /\
  (forall h, h = -14 \/ h = -15 -> exists t, predefined default_cfg h = Ok t /\
     Type_size default_cfg t = Exit 1 "Invalid simple type" /\ Type_extent default_cfg t = Exit 1 "Invalid simple type").
Proof. exact C42_refutation. Qed.
Print Assumptions C42_constants_refuted.

(** C43, empty types: the size is 0 ... *)
Theorem C43_empty_types_partial :
  forall (c : cfg) (t : typestruct), cfg_ok c -> wf_ts c t -> typemap t = [] -> Type_size c t = Ok 0.
Proof. exact C43_lemma. Qed.
Print Assumptions C43_empty_types_partial.

(** ... but bounds and extent are not 0: contiguous(0, int) has lb = 2^31-1, ub = -2^31 and extent 2^64-2^32. *)
Theorem C43_empty_types_refuted :
  exists (jk : tjunk) (t : typestruct), Type_contiguous default_cfg jk 0 (pre1 4 2) = Ok t /\
    typemap t = [] /\ ts_lb t = INT_MAX /\ ts_ub t = INT_MIN /\ Type_extent default_cfg t = Ok (TWO64 - TWO32).
Proof. exact C43_refutation. Qed.
Print Assumptions C43_empty_types_refuted.

(** C47: Type_dup overruns its 8-byte allocation for every type. *)
Theorem C47_dup_refuted :
  forall (jk_count : Z) (t : typestruct), exists m, Type_dup jk_count t = UB m.
Proof. exact C47_refutation. Qed.
Print Assumptions C47_dup_refuted.
(** What would be right: had the storage the size of the structure, everything but the count would be copied; the result is an equal
    type only if the storage happens to hold the count already. *)
Theorem C47_dup_partial :
  forall (size jk_count : Z) (t : typestruct), 0 <= ts_count t ->
    (dup_needs t <= size -> exists t', Type_dup_in size jk_count t = Ok t' /\ ts_count t' = jk_count /\
       ts_ub t' = ts_ub t /\ ts_lb t' = ts_lb t /\ ts_committed t' = ts_committed t /\ ts_olb t' = ts_olb t /\ ts_oub t' = ts_oub t /\
       ts_pairs t' = ts_pairs t /\ (t' = t <-> jk_count = ts_count t)) /\
    (size < dup_needs t -> exists m, Type_dup_in size jk_count t = UB m).
Proof. exact C47_partial_lemma. Qed.
Print Assumptions C47_dup_partial.
Example C47_ex : dup_needs (pre2 16 9 8 2) = 68 /\ Type_dup_in 68 2 (pre2 16 9 8 2) = Ok (pre2 16 9 8 2) /\
  (exists t', Type_dup_in 68 0 (pre2 16 9 8 2) = Ok t' /\ typemap t' = []) /\ exists m, Type_dup_in 67 2 (pre2 16 9 8 2) = UB m.
Proof. split; [reflexivity|]. split; [vm_compute; reflexivity|]. split; eexists; [split|]; vm_compute; reflexivity. Qed.

(** Non-vacuity. *)
(** struct { 2 double at -8; vector(2,1,3,char) at 100 }, nested two deep, meets the hypotheses, and this is its typemap. *)
Definition ex_expr : texpr := EStruct [(2, -8, EPre (-10)); (1, 100, EVector 2 1 3 (EPre (-1)))].
Example ex_expr_ok : expr_ok default_cfg ex_expr /\
  den default_cfg ex_expr = [(9, -8); (9, 0); (0, 100); (0, 103)].
Proof. exact ex_expr_good. Qed.
Example ex_expr_runs :
  match build default_cfg (fun _ => mkJunk 0 0 (fun _ => mkPair 77 77)) ex_expr with
  | Ok t => (typemap t, ts_lb t, ts_ub t, Type_extent default_cfg t, Type_size default_cfg t)
  | _ => ([], 0, 0, Ok 0, Ok 0)
  end = ([(9, -8); (9, 0); (0, 100); (0, 103)], -8, 104, Ok 112, Ok 18).
Proof. vm_compute. reflexivity. Qed.
(** Blocks for C35/C37/C39/C41: an LB marker, two ints at -4 and a double at 16. *)
Definition ex_blocks : list iblock :=
  [mkIb 1 0 (pre1 0 12) 0; mkIb 2 (-4) (pre1 4 2) 4; mkIb 1 16 (pre1 8 9) 8].
Example ex_blocks_ok : Forall (struct_arg_ok default_cfg) ex_blocks /\
  struct_map (map sblock_of ex_blocks) = [(2, -4); (2, 0); (9, 16)] /\
  map_fits default_cfg (struct_map (map sblock_of ex_blocks)) /\ own_markers ex_blocks /\ lb_disps ex_blocks = [0].
Proof. exact ex_blocks_good. Qed.
