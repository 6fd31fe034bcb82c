(** Specification of typed copies: what bytes go where. *)
From Verif Require Import Base TypeModel TypeSpec CopyModel.

(** A run of bytes: start address and length. *)
Definition region : Type := (Z * Z)%type.
Definition inside (r : region) (a : Z) : Prop := fst r <= a < fst r + snd r.
Definition apart (r s : region) : Prop := forall a, ~ (inside r a /\ inside s a).

(** The basic elements of a message: [n] copies, one extent apart, of a typemap placed at [base]. *)
Definition elements (n ext : Z) (tm : list elem) : list elem := copies n ext 0 tm.
Definition layout (c : cfg) (base n ext : Z) (tm : list elem) : list region :=
  map (fun e => (base + snd e, esize c e)) (elements n ext tm).

(** All bytes of the regions exist. *)
Definition live (m : mem) (rs : list region) : Prop := forall r a, In r rs -> inside r a -> m a <> None.
(** Distinct regions do not share bytes. *)
Definition pairwise_apart (rs : list region) : Prop :=
  forall i j r s, nth_error rs i = Some r -> nth_error rs j = Some s -> i <> j -> apart r s.
Definition all_apart (rs ss : list region) : Prop := forall r s, In r rs -> In s ss -> apart r s.
(** Addresses are 64 bits wide. *)
Definition mem_ok (m : mem) : Prop := forall a, m a <> None -> 0 <= a < TWO64.
(** The same addresses exist. *)
Definition same_domain (m m' : mem) : Prop := forall a, m a = None <-> m' a = None.

(** The copy: the k-th destination region receives the bytes from the start of the k-th source region;
    every byte outside the destination regions keeps its value. *)
Definition copied (m m' : mem) (srcs dsts : list region) : Prop :=
  (forall k s d j, nth_error srcs k = Some s -> nth_error dsts k = Some d -> 0 <= j < snd d ->
     m' (fst d + j) = m (fst s + j)) /\
  (forall a, (forall d, In d dsts -> ~ inside d a) -> m' a = m a).

(** The bytes of a sequence of regions, in order. *)
Definition bytes (m : mem) (rs : list region) : list (option Z) :=
  flat_map (fun r => map (fun j => m (fst r + j)) (upto (snd r))) rs.
Definition total_size (rs : list region) : Z := fold_right Z.add 0 (map snd rs).

(** Consecutive regions with the lengths of [rs], from address [a]. *)
Fixpoint consecutive (a : Z) (rs : list region) : list region :=
  match rs with [] => [] | r :: rest => (a, snd r) :: consecutive (a + snd r) rest end.

(** Where the k-th transfer reads: the start of the k-th source element, the length of the k-th destination element.
    When the two type signatures agree these are just the first source elements. *)
Definition reads (srcs dsts : list region) : list region :=
  map (fun p => (fst (fst p), snd (snd p))) (combine srcs dsts).

(** The layout with element offsets truncated to 32-bit signed integers. *)
Definition layout32 (c : cfg) (base n ext : Z) (tm : list elem) : list region :=
  map (fun e => (base + to_s32 (snd e), esize c e)) (elements n ext tm).
Definition offsets_fit (n ext : Z) (tm : list elem) : Prop :=
  forall e, In e (elements n ext tm) -> is_int (snd e).

(** Everything a transfer needs of memory. *)
Definition buffers_ok (m : mem) (srcs dsts : list region) : Prop :=
  live m (reads srcs dsts) /\ live m dsts /\ all_apart (reads srcs dsts) dsts /\ pairwise_apart dsts.

Definition unchecked (c : cfg) : cfg := mkCfg (fsize_real c) (fsize_dprec c) false.

(** A data type with the given (signed) extent. *)
Definition typed (c : cfg) (t : typestruct) (ext : Z) : Prop := wf_ts c t /\ Type_extent c t = Ok (to_u64 ext).
(** The number of basic elements of a message. *)
Definition nelems (n : Z) (t : typestruct) : Z := n * Z.of_nat (length (typemap t)).
(** A legal transfer: committed types, nonnegative counts, the receiver asks for no more elements than are sent. *)
Record transfer (c : cfg) (ns : Z) (ts : typestruct) (es nd : Z) (td : typestruct) (ed : Z) : Prop := {
  tr_src : typed c ts es; tr_dst : typed c td ed;
  tr_src_committed : ts_committed ts <> 0; tr_dst_committed : ts_committed td <> 0;
  tr_ns : 0 <= ns; tr_nd : 0 <= nd;
  tr_int : nelems ns ts <= INT_MAX;
  tr_room : nelems nd td <= nelems ns ts
}.
(** The k-th transferred elements have the same basic type, for every k. *)
Definition types_agree (ns : Z) (ts : typestruct) (nd : Z) (td : typestruct) : Prop :=
  forall k a b, nth_error (elements ns 0 (typemap ts)) k = Some a ->
    nth_error (elements nd 0 (typemap td)) k = Some b -> fst a = fst b.

(** What packing needs: the user's elements exist, the packed buffer exists, and they do not overlap. *)
Record pack_ok (m : mem) (user : list region) (buf size position : Z) : Prop := {
  pk_mem : mem_ok m; pk_user : live m user; pk_buf : live m [(buf, size)];
  pk_apart : all_apart user [(buf, size)];
  pk_pos : 0 <= position <= size; pk_int : size <= INT_MAX; pk_total : position + total_size user <= INT_MAX
}.

(** A list of items to be packed one after another. *)
Record item := mkItem { it_buf : Z; it_count : Z; it_type : typestruct; it_ext : Z }.
Definition item_layout (c : cfg) (it : item) : list region := layout c (it_buf it) (it_count it) (it_ext it) (typemap (it_type it)).
Definition items_layout (c : cfg) (its : list item) : list region := flat_map (item_layout c) its.
Fixpoint pack_all (c : cfg) (its : list item) (buf size : Z) (m : mem) (position : Z) : res (mem * Z) :=
  match its with
  | [] => Ok (m, position)
  | it :: rest => do st <- Pack c m (it_buf it) (it_count it) (it_type it) buf size position;
                  pack_all c rest buf size (fst st) (snd st)
  end.
Fixpoint unpack_all (c : cfg) (its : list item) (buf size : Z) (m : mem) (position : Z) : res (mem * Z) :=
  match its with
  | [] => Ok (m, position)
  | it :: rest => do st <- Unpack c m buf size position (it_buf it) (it_count it) (it_type it);
                  unpack_all c rest buf size (fst st) (snd st)
  end.
