(** Property theorems about the datatype objects of a program: C89, C90. *)
From Coq Require Import Lia.
From Verif Require Import Base TypeModel TypeSpec CopySpec SysModel CollModel SysCalls SysSpec SysReach SysEx SysFinal FormSpec FormFacts.

(** C89: every datatype a program has built is well formed: its element count is the number of pairs present, their basic types
    have a size and their displacements fit. *)
Theorem C89_types_well_formed :
  forall (c : cfg) (tj : Z -> tjunk), cfg_ok c -> forall (ks : list call) (s : sys) (a : astate),
    reach_by c tj ks s a -> Forall no_negative_block ks -> forall (h : Z) (t : typestruct), a_obj a h = Some (AType t) -> wf_ts c t.
Proof. exact C89_lemma. Qed.
Print Assumptions C89_types_well_formed.
(** So is every datatype, built or predefined, whose extent the library will compute. *)
Theorem C89_extent_implies_well_formed :
  forall (c : cfg) (tj : Z -> tjunk), cfg_ok c -> forall (ks : list call) (s : sys) (a : astate) (h : Z) (t : typestruct) (x : Z),
    reach_by c tj ks s a -> Forall no_negative_block ks -> type_at c a h = Some t -> Type_extent c t = Ok x -> typed c t x.
Proof. exact C89_typed_lemma. Qed.
Print Assumptions C89_extent_implies_well_formed.
(** A constructor call that returns has built the standard's typemap, its displacements as 64-bit numbers. *)
Theorem C89_exact_typemaps :
  forall (c : cfg) (tj : Z -> tjunk), cfg_ok c -> forall (ks : list call) (s : sys) (a : astate) (k : tcons) (o : out) (s' : sys) (a' : astate),
    reach_by c tj ks s a -> Forall no_negative_block ks -> lens_ok k -> does c tj s a (KTypeCreate k) o s' a' ->
    exists h t, o = VInt h /\ a_obj a' h = Some (AType t) /\ typemap t = wrapped (std_map (handle_map c a) (handle_ext c a) k).
Proof. exact C89_map_lemma. Qed.
Print Assumptions C89_exact_typemaps.
(** With a negative block length (an error in MPI, but not reported here) a type with a negative count comes out. *)
Definition h_negative : list call := [KInit; KTypeCreate (TStruct 1 [-1] [0] [INTT])].
Theorem C89_negative_block_length :
  exists t, reach_by default_cfg ex_tj h_negative (ex_s h_negative) (ex_a h_negative) /\
    a_obj (ex_a h_negative) 2 = Some (AType t) /\ ts_count t = -1 /\ ~ wf_ts default_cfg t.
Proof.
  eexists. split; [apply ex_by; vm_compute; reflexivity|]. split; [vm_compute; reflexivity|]. split; [reflexivity|].
  intros W. pose proof (wf_count _ _ W) as H. cbn [ts_count] in H. lia.
Qed.
Print Assumptions C89_negative_block_length.

(** C90: constructor calls that are equivalent in the standard build the same typemap. *)
Theorem C90_equivalent_constructors :
  forall (c : cfg) (tj : Z -> tjunk) (ks : list call) (s : sys) (a : astate) (k1 k2 : tcons) (o1 : out) (s1 : sys) (a1 : astate) (o2 : out) (s2 : sys) (a2 : astate),
    cfg_ok c -> reach_by c tj ks s a -> Forall no_negative_block ks -> lens_ok k1 -> lens_ok k2 -> same_type (handle_ext c a) k1 k2 ->
    does c tj s a (KTypeCreate k1) o1 s1 a1 -> does c tj s a (KTypeCreate k2) o2 s2 a2 ->
    exists h1 h2 t1 t2, o1 = VInt h1 /\ o2 = VInt h2 /\ a_obj a1 h1 = Some (AType t1) /\ a_obj a2 h2 = Some (AType t2) /\ typemap t1 = typemap t2.
Proof. exact C90_lemma. Qed.
Print Assumptions C90_equivalent_constructors.

(** Non-vacuity. *)
(** A struct of a vector of ints and a double, the double at a negative displacement. *)
Definition h_shapes : list call := [KInit; KTypeCreate (TVector 2 1 2 INTT); KTypeCommit 2].
Definition k_shape : tcons := TStruct 2 [2; 1] [32; to_u64 (-8)] [2; -10].
Example C89_ex : exists o s' a' t,
  reach_by default_cfg ex_tj h_shapes (ex_s h_shapes) (ex_a h_shapes) /\ Forall no_negative_block h_shapes /\ lens_ok k_shape /\
  does default_cfg ex_tj (ex_s h_shapes) (ex_a h_shapes) (KTypeCreate k_shape) o s' a' /\ o = VInt 3 /\ a_obj a' 3 = Some (AType t) /\
  typemap t = [(2, 32); (2, 40); (2, 44); (2, 52); (9, -8)] /\
  wrapped (std_map (handle_map default_cfg (ex_a h_shapes)) (handle_ext default_cfg (ex_a h_shapes)) k_shape) = [(2, 32); (2, 40); (2, 44); (2, 52); (9, -8)].
Proof.
  destruct (ex_does h_shapes (KTypeCreate k_shape)) as (o & s' & a' & D); [vm_compute; reflexivity|].
  assert (R : reach_by default_cfg ex_tj h_shapes (ex_s h_shapes) (ex_a h_shapes)) by (apply ex_by; vm_compute; reflexivity).
  assert (F : Forall no_negative_block h_shapes) by (repeat constructor; cbn; lia).
  assert (CO : cfg_ok default_cfg) by (unfold cfg_ok; cbn; lia).
  assert (L : lens_ok k_shape) by (cbn; intros b [H|[H|H]]; [lia|lia|destruct H]).
  assert (W : wrapped (std_map (handle_map default_cfg (ex_a h_shapes)) (handle_ext default_cfg (ex_a h_shapes)) k_shape) = [(2, 32); (2, 40); (2, 44); (2, 52); (9, -8)])
    by (vm_compute; reflexivity).
  destruct (C89_map_lemma default_cfg ex_tj CO _ _ _ _ _ _ _ R F L D) as (h & t & -> & Eo & M). rewrite W in M.
  assert (h = 3) as ->.
  { destruct D as (_ & _ & _ & Q & E & X). assert (Y : exists f, spec default_cfg ex_tj (KTypeCreate k_shape) (ex_a h_shapes) = Ret (is VInt 3) f) by (eexists; vm_compute; reflexivity).
    destruct Y as [f Y]. rewrite Y in E. injection E as <- _. unfold is in X. congruence. }
  exists (VInt 3), s', a', t. do 7 (split; [assumption || reflexivity|]). assumption.
Qed.
(** A vector of 2 blocks of 3 ints, 3 apart, and six contiguous ints. *)
Example C90_ex : exists o1 s1 a1 o2 s2 a2, let a := ex_a [KInit] in
  same_type (handle_ext default_cfg a) (TVector 2 3 3 INTT) (TContiguous 6 INTT) /\
  does default_cfg ex_tj (ex_s [KInit]) a (KTypeCreate (TVector 2 3 3 INTT)) o1 s1 a1 /\
  does default_cfg ex_tj (ex_s [KInit]) a (KTypeCreate (TContiguous 6 INTT)) o2 s2 a2 /\
  std_map (handle_map default_cfg a) (handle_ext default_cfg a) (TContiguous 6 INTT) = [(2, 0); (2, 4); (2, 8); (2, 12); (2, 16); (2, 20)].
Proof.
  destruct (ex_does [KInit] (KTypeCreate (TVector 2 3 3 INTT))) as (o1 & s1 & a1 & D1); [vm_compute; reflexivity|].
  destruct (ex_does [KInit] (KTypeCreate (TContiguous 6 INTT))) as (o2 & s2 & a2 & D2); [vm_compute; reflexivity|].
  exists o1, s1, a1, o2, s2, a2. cbv zeta. split; [apply (dense_vector_is_contiguous _ 2 3 INTT); lia|]. do 2 (split; [assumption|]). vm_compute; reflexivity.
Qed.
