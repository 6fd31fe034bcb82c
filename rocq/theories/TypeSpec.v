(** Specification of datatypes: typemaps in unbounded integers, after the MPI standard.
    A typemap is a sequence of (basic type, displacement) elements. *)
From Verif Require Import Base TypeModel.

Definition elem : Type := (Z * Z)%type.

(** Names of the basic types, in the numbering of type.h, with their sizes in bytes on LP64
    ([fr], [fd]: configured sizes of Fortran REAL and DOUBLE PRECISION).  LB and UB (12, 13) are not data. *)
Definition basic_sizes (fr fd : Z) : list (string * Z * Z) :=
  [ ("char", 0, 1); ("short", 1, 2); ("int", 2, 4); ("long", 3, 8);
    ("unsigned char", 4, 1); ("unsigned short", 5, 2); ("unsigned", 6, 4); ("unsigned long", 7, 8);
    ("float", 8, 4); ("double", 9, 8); ("long double", 10, 16); ("byte", 11, 1);
    ("INTEGER", 14, 4); ("REAL", 15, fr); ("DOUBLE PRECISION", 16, fd);
    ("COMPLEX", 17, fr + fr); ("DOUBLE COMPLEX", 18, fd + fd); ("LOGICAL", 19, 4); ("CHARACTER", 20, 1);
    ("INTEGER*1", 21, 1); ("INTEGER*2", 22, 2); ("INTEGER*4", 23, 4); ("INTEGER*8", 24, 8); ("INTEGER*16", 25, 16);
    ("REAL*4", 26, 4); ("REAL*8", 27, 8); ("REAL*16", 28, 16);
    ("COMPLEX*8", 29, 8); ("COMPLEX*16", 30, 16); ("COMPLEX*32", 31, 32);
    ("long long", 32, 8); ("unsigned long long", 33, 8); ("MPI_Offset", 34, 8) ]%string.

Fixpoint find_size (t : Z) (l : list (string * Z * Z)) : Z :=
  match l with [] => 0 | (_, k, s) :: r => if k =? t then s else find_size t r end.

(** Size of a basic type. *)
Definition bsize (c : cfg) (t : Z) : Z := find_size t (basic_sizes (fsize_real c) (fsize_dprec c)).
Definition esize (c : cfg) (e : elem) : Z := bsize c (fst e).

(** 0, 1, ..., n-1. *)
Definition upto (n : Z) : list Z := map Z.of_nat (List.seq 0 (Z.to_nat n)).

(** Displace a typemap. *)
Definition shift (d : Z) (m : list elem) : list elem := map (fun e => (fst e, snd e + d)) m.
(** [n] copies of [m], one extent [ext] apart, starting at displacement [d]. *)
Definition copies (n ext d : Z) (m : list elem) : list elem := flat_map (fun j => shift (d + j * ext) m) (upto n).

(** A block of a struct: block length, displacement, typemap and extent of its type.
    MPI_LB and MPI_UB blocks have the empty typemap. *)
Record sblock := mkSblock { sb_len : Z; sb_disp : Z; sb_map : list elem; sb_ext : Z }.
Definition struct_map (bs : list sblock) : list elem :=
  flat_map (fun b => copies (sb_len b) (sb_ext b) (sb_disp b) (sb_map b)) bs.
Definition contiguous_map (n ext : Z) (m : list elem) : list elem := copies n ext 0 m.
Definition hvector_map (n bl stride ext : Z) (m : list elem) : list elem :=
  flat_map (fun i => copies bl ext (i * stride) m) (upto n).
Definition vector_map (n bl stride ext : Z) (m : list elem) : list elem :=
  flat_map (fun i => copies bl ext (i * (stride * ext)) m) (upto n).
Definition hindexed_map (bds : list (Z * Z)) (ext : Z) (m : list elem) : list elem :=
  flat_map (fun bd => copies (fst bd) ext (snd bd) m) bds.
Definition indexed_map (bds : list (Z * Z)) (ext : Z) (m : list elem) : list elem :=
  flat_map (fun bd => copies (fst bd) ext (snd bd * ext) m) bds.
Definition indexed_block_map (bl : Z) (ds : list Z) (ext : Z) (m : list elem) : list elem :=
  flat_map (fun d => copies bl ext (d * ext) m) ds.

(** Size, bounds and extent of a typemap. *)
Definition map_size (c : cfg) (m : list elem) : Z := fold_right Z.add 0 (map (esize c) m).
Definition is_min (x : Z) (l : list Z) : Prop := In x l /\ forall y, In y l -> x <= y.
Definition is_max (x : Z) (l : list Z) : Prop := In x l /\ forall y, In y l -> y <= x.
Definition disps (m : list elem) : list Z := map snd m.
Definition ends (c : cfg) (m : list elem) : list Z := map (fun e => snd e + esize c e) m.
Definition sizes (c : cfg) (m : list elem) : list Z := map (esize c) m.
Definition is_lb (m : list elem) (x : Z) : Prop := is_min x (disps m).
Definition is_ub (c : cfg) (m : list elem) (x : Z) : Prop := is_max x (ends c m).

(** [x] is the smallest multiple of [a] that is at least [span]. *)
Definition rounds_up (span a x : Z) : Prop :=
  (exists k, x = k * a) /\ span <= x /\ forall k, span <= k * a -> x <= k * a.
Definition is_extent (c : cfg) (m : list elem) (x : Z) : Prop :=
  exists lb ub a, is_lb m lb /\ is_ub c m ub /\ is_max a (sizes c m) /\ rounds_up (ub - lb) a x.

(** The typemap an object of the implementation stands for. *)
Definition typemap (t : typestruct) : list elem :=
  map (fun p => (tp_type p, tp_disp p)) (firstn (Z.to_nat (ts_count t)) (ts_pairs t)).

(** Structural sanity of an implementation object: its count is an int, its elements exist and are
    data of known size, and displacements are long integers. *)
Record wf_ts (c : cfg) (t : typestruct) : Prop := {
  wf_count : 0 <= ts_count t <= INT_MAX;
  wf_pairs : (1 <= length (ts_pairs t))%nat /\ ts_count t <= Z.of_nat (length (ts_pairs t));
  wf_known : forall e, In e (typemap t) -> exists s, Simpletype_length c (fst e) = Ok s;
  wf_disp : forall e, In e (typemap t) -> LONG_MIN <= snd e <= LONG_MAX
}.

(** MPI_LB / MPI_UB themselves (or an object that looks like them). *)
Definition is_lower (t : typestruct) : bool :=
  match ts_pairs t with p :: _ => tp_type p =? 12 | [] => false end.
Definition is_upper (t : typestruct) : bool :=
  match ts_pairs t with p :: _ => tp_type p =? 13 | [] => false end.
Definition is_marker (t : typestruct) : bool := is_lower t || is_upper t.

(** The configured Fortran sizes are sane. *)
Definition cfg_ok (c : cfg) : Prop := 0 < fsize_real c <= 1024 /\ 0 < fsize_dprec c <= 1024.

(** Values of [long] and [MPI_Aint] type. *)
Definition is_long (z : Z) : Prop := LONG_MIN <= z <= LONG_MAX.
Definition is_int (z : Z) : Prop := INT_MIN <= z <= INT_MAX.

(** Every element of a typemap can be represented: displacement and end are [long]s. *)
Definition map_fits (c : cfg) (m : list elem) : Prop :=
  forall e, In e m -> is_long (snd e) /\ is_long (snd e + esize c e).

(** The arguments of MPI_Type_struct, block by block: block length, (signed) displacement, old type,
    and the extent MPI_Type_extent reports for the old type. *)
Record iblock := mkIb { ib_len : Z; ib_disp : Z; ib_old : typestruct; ib_ext : Z }.
Definition marker (b : iblock) : bool := is_marker (ib_old b).
(** What a block contributes, as a specification block; markers contribute nothing. *)
Definition sblock_of (b : iblock) : sblock :=
  mkSblock (ib_len b) (ib_disp b) (if marker b then [] else typemap (ib_old b)) (ib_ext b).

(** A usable data type, whose reported extent is [ext] (a signed number; MPI_Aint is unsigned). *)
Definition data_type (c : cfg) (t : typestruct) (ext : Z) : Prop :=
  wf_ts c t /\ is_marker t = false /\ Type_extent c t = Ok (to_u64 ext).
(** A legal struct argument: a marker, or a nonnegative number of copies of a data type. *)
Definition struct_arg_ok (c : cfg) (b : iblock) : Prop :=
  marker b = true \/ (0 <= ib_len b <= INT_MAX /\ data_type c (ib_old b) (ib_ext b)).

(** The type has a real typemap and carries no overridden bounds. *)
Definition no_override (t : typestruct) : Prop := is_marker t = false /\ ts_olb t = 0 /\ ts_oub t = 0.

(** Displacements given to MPI_LB (MPI_UB) blocks. *)
Definition lb_disps (bs : list iblock) : list Z := map ib_disp (filter (fun b => is_lower (ib_old b)) bs).
Definition ub_disps (bs : list iblock) : list Z := map ib_disp (filter (fun b => is_upper (ib_old b)) bs).
(** Apart from the markers themselves no block carries overridden bounds. *)
Definition own_markers (bs : list iblock) : Prop := Forall (fun b => marker b = true \/ no_override (ib_old b)) bs.

(** Extent of a nonempty typemap as a number. *)
Definition lb_of (m : list elem) : Z := match disps m with [] => 0 | x :: r => fold_left Z.min r x end.
Definition ub_of (c : cfg) (m : list elem) : Z := match ends c m with [] => 0 | x :: r => fold_left Z.max r x end.
Definition maxsize (c : cfg) (m : list elem) : Z := match sizes c m with [] => 1 | x :: r => fold_left Z.max r x end.
Definition ext_of (c : cfg) (m : list elem) : Z :=
  let a := maxsize c m in a * ((ub_of c m - lb_of m + a - 1) / a).

(** *** Type expressions: any nesting of constructors over predefined types. *)
Inductive texpr : Type :=
| EPre (h : Z)
| EStruct (bs : list (Z * Z * texpr))
| EContig (n : Z) (e : texpr)
| EHvector (n bl stride : Z) (e : texpr)
| EVector (n bl stride : Z) (e : texpr)
| EHindexed (bds : list (Z * Z)) (e : texpr)
| EIndexed (bds : list (Z * Z)) (e : texpr)
| EIblock (bl : Z) (ds : list Z) (e : texpr).

(** Running the library's constructors, bottom up.  [jk] gives the uninitialised storage each
    constructor call finds. *)
Fixpoint build (c : cfg) (jk : texpr -> tjunk) (e : texpr) {struct e} : res typestruct :=
  match e with
  | EPre h => predefined c h
  | EStruct bs =>
      do olds <- (fix go (l : list (Z * Z * texpr)) : res (list typestruct) :=
                    match l with [] => Ok [] | (_, _, x) :: r => do t <- build c jk x; do ts <- go r; Ok (t :: ts) end) bs;
      Type_struct c (jk e) (Z.of_nat (length bs)) (map (fun b => fst (fst b)) bs)
        (map (fun b => to_u64 (snd (fst b))) bs) olds
  | EContig n x => do t <- build c jk x; Type_contiguous c (jk e) n t
  | EHvector n bl s x => do t <- build c jk x; Type_hvector c (jk e) n bl (to_u64 s) t
  | EVector n bl s x => do t <- build c jk x; Type_vector c (jk e) n bl s t
  | EHindexed bds x => do t <- build c jk x;
      Type_hindexed c (jk e) (Z.of_nat (length bds)) (map fst bds) (map (fun b => to_u64 (snd b)) bds) t
  | EIndexed bds x => do t <- build c jk x;
      Type_indexed c (jk e) (Z.of_nat (length bds)) (map fst bds) (map snd bds) t
  | EIblock bl ds x => do t <- build c jk x;
      Type_create_indexed_block c (jk e) (Z.of_nat (length ds)) bl ds t
  end.

(** Typemaps of the predefined types, by constant (mpi.h): basic type numbers and displacements.
    [fr], [fd]: sizes of REAL and DOUBLE PRECISION.  Only the usable ones are listed here. *)
Definition predef_maps (fr fd : Z) : list (string * Z * list elem) :=
  [ ("MPI_CHAR", -1, [(0, 0)]); ("MPI_SHORT", -2, [(1, 0)]); ("MPI_INT", -3, [(2, 0)]); ("MPI_LONG", -4, [(3, 0)]);
    ("MPI_UNSIGNED_CHAR", -5, [(4, 0)]); ("MPI_UNSIGNED_SHORT", -6, [(5, 0)]); ("MPI_UNSIGNED", -7, [(6, 0)]);
    ("MPI_UNSIGNED_LONG", -8, [(7, 0)]); ("MPI_FLOAT", -9, [(8, 0)]); ("MPI_DOUBLE", -10, [(9, 0)]);
    ("MPI_LONG_DOUBLE", -11, [(10, 0)]); ("MPI_BYTE", -12, [(11, 0)]); ("MPI_PACKED", -13, [(11, 0)]);
    ("MPI_INTEGER", -16, [(14, 0)]); ("MPI_REAL", -17, [(15, 0)]); ("MPI_DOUBLE_PRECISION", -18, [(16, 0)]);
    ("MPI_COMPLEX", -19, [(17, 0)]); ("MPI_DOUBLE_COMPLEX", -20, [(18, 0)]); ("MPI_LOGICAL", -21, [(19, 0)]);
    ("MPI_CHARACTER", -22, [(20, 0)]); ("MPI_2REAL", -23, [(15, 0); (15, fr)]);
    ("MPI_2DOUBLE_PRECISION", -24, [(16, 0); (16, fd)]); ("MPI_2INTEGER", -25, [(14, 0); (14, 4)]);
    ("MPI_FLOAT_INT", -26, [(8, 0); (2, 4)]); ("MPI_DOUBLE_INT", -27, [(9, 0); (2, 8)]);
    ("MPI_LONG_INT", -28, [(3, 0); (2, 8)]); ("MPI_2INT", -29, [(2, 0); (2, 4)]);
    ("MPI_SHORT_INT", -30, [(1, 0); (2, 4)]); ("MPI_LONG_DOUBLE_INT", -31, [(10, 0); (2, 16)]);
    ("MPI_INTEGER1", -32, [(21, 0)]); ("MPI_INTEGER2", -33, [(22, 0)]); ("MPI_INTEGER4", -34, [(23, 0)]);
    ("MPI_INTEGER8", -35, [(24, 0)]);
    ("MPI_REAL4", -37, [(26, 0)]); ("MPI_REAL8", -38, [(27, 0)]); ("MPI_REAL16", -39, [(28, 0)]);
    ("MPI_COMPLEX8", -40, [(29, 0)]); ("MPI_COMPLEX16", -41, [(30, 0)]); ("MPI_COMPLEX32", -42, [(31, 0)]);
    ("MPI_LONG_LONG_INT", -43, [(32, 0)]); ("MPI_UNSIGNED_LONG_LONG", -44, [(33, 0)]); ("MPI_OFFSET", -45, [(34, 0)]) ]%string.

(** Sizes and extents of the usable predefined types: name, constant, size, extent; fr and fd are the configured sizes of REAL and
    DOUBLE PRECISION. *)
Definition constants (fr fd : Z) : list (string * Z * Z * Z) :=
  [ ("MPI_CHAR", -1, 1, 1); ("MPI_SHORT", -2, 2, 2); ("MPI_INT", -3, 4, 4); ("MPI_LONG", -4, 8, 8);
    ("MPI_UNSIGNED_CHAR", -5, 1, 1); ("MPI_UNSIGNED_SHORT", -6, 2, 2); ("MPI_UNSIGNED", -7, 4, 4);
    ("MPI_UNSIGNED_LONG", -8, 8, 8); ("MPI_FLOAT", -9, 4, 4); ("MPI_DOUBLE", -10, 8, 8);
    ("MPI_LONG_DOUBLE", -11, 16, 16); ("MPI_BYTE", -12, 1, 1); ("MPI_PACKED", -13, 1, 1);
    ("MPI_INTEGER", -16, 4, 4); ("MPI_REAL", -17, fr, fr); ("MPI_DOUBLE_PRECISION", -18, fd, fd);
    ("MPI_COMPLEX", -19, 2 * fr, 2 * fr); ("MPI_DOUBLE_COMPLEX", -20, 2 * fd, 2 * fd); ("MPI_LOGICAL", -21, 4, 4);
    ("MPI_CHARACTER", -22, 1, 1); ("MPI_2REAL", -23, 2 * fr, 2 * fr);
    ("MPI_2DOUBLE_PRECISION", -24, 2 * fd, 2 * fd); ("MPI_2INTEGER", -25, 8, 8);
    ("MPI_FLOAT_INT", -26, 8, 8); ("MPI_DOUBLE_INT", -27, 12, 16); ("MPI_LONG_INT", -28, 12, 16);
    ("MPI_2INT", -29, 8, 8); ("MPI_SHORT_INT", -30, 6, 8); ("MPI_LONG_DOUBLE_INT", -31, 20, 32);
    ("MPI_INTEGER1", -32, 1, 1); ("MPI_INTEGER2", -33, 2, 2); ("MPI_INTEGER4", -34, 4, 4); ("MPI_INTEGER8", -35, 8, 8);
    ("MPI_REAL4", -37, 4, 4); ("MPI_REAL8", -38, 8, 8); ("MPI_REAL16", -39, 16, 16);
    ("MPI_COMPLEX8", -40, 8, 8); ("MPI_COMPLEX16", -41, 16, 16); ("MPI_COMPLEX32", -42, 32, 32);
    ("MPI_LONG_LONG_INT", -43, 8, 8); ("MPI_UNSIGNED_LONG_LONG", -44, 8, 8); ("MPI_OFFSET", -45, 8, 8) ]%string.

Fixpoint find_map (h : Z) (l : list (string * Z * list elem)) : list elem :=
  match l with [] => [] | (_, k, m) :: r => if k =? h then m else find_map h r end.

(** Meaning of a type expression: its typemap by the rules of the MPI standard. *)
Fixpoint den (c : cfg) (e : texpr) {struct e} : list elem :=
  match e with
  | EPre h => find_map h (predef_maps (fsize_real c) (fsize_dprec c))
  | EStruct bs =>
      flat_map (fun b => let '(n, d, x) := b in copies n (ext_of c (den c x)) d (den c x)) bs
  | EContig n x => contiguous_map n (ext_of c (den c x)) (den c x)
  | EHvector n bl s x => hvector_map n bl s (ext_of c (den c x)) (den c x)
  | EVector n bl s x => vector_map n bl s (ext_of c (den c x)) (den c x)
  | EHindexed bds x => hindexed_map bds (ext_of c (den c x)) (den c x)
  | EIndexed bds x => indexed_map bds (ext_of c (den c x)) (den c x)
  | EIblock bl ds x => indexed_block_map bl ds (ext_of c (den c x)) (den c x)
  end.

Definition int_nonneg (n : Z) : Prop := 0 <= n <= INT_MAX.
(** Every type in the expression is nonempty, has at most INT_MAX elements and displacements in
    the 32-bit range; block lengths and counts are nonnegative ints. *)
Definition node_ok (c : cfg) (e : texpr) : Prop :=
  den c e <> [] /\ Z.of_nat (length (den c e)) <= INT_MAX /\ forall x, In x (den c e) -> is_int (snd x).
Fixpoint expr_ok (c : cfg) (e : texpr) {struct e} : Prop :=
  node_ok c e /\
  match e with
  | EPre h => True
  | EStruct bs => (fix go (l : list (Z * Z * texpr)) : Prop :=
                     match l with [] => True | (n, _, x) :: r => int_nonneg n /\ expr_ok c x /\ go r end) bs
  | EContig n x => int_nonneg n /\ expr_ok c x
  | EHvector n bl s x | EVector n bl s x => int_nonneg n /\ int_nonneg bl /\ expr_ok c x
  | EHindexed bds x | EIndexed bds x => Forall (fun bd => int_nonneg (fst bd)) bds /\ expr_ok c x
  | EIblock bl ds x => int_nonneg bl /\ expr_ok c x
  end.
Definition derived (e : texpr) : Prop := match e with EPre _ => False | _ => True end.

(** What a long looks like as an MPI_Aint, which is unsigned: the number of 64 bits congruent to it. *)
Definition as_aint (z a : Z) : Prop := 0 <= a < TWO64 /\ exists k, a = z + k * TWO64.
(** The bytes of a structure (type.h 23-36) up to the end of its last pair's type. *)
Definition dup_needs (t : typestruct) : Z := 36 + 16 * ts_count t.
