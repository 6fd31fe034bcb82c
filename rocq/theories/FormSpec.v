(** Programs whose datatype constructors are given no negative block length (C89). *)
From Verif Require Import Base TypeModel TypeSpec CopySpec SysModel CollModel SysCalls SysSpec.

(** None of the block lengths in use is negative. *)
Definition lens_ok (k : tcons) : Prop :=
  match k with
  | TStruct n bls _ _ | THindexed n bls _ _ | TIndexed n bls _ _ => forall b, In b (firstn (Z.to_nat n) bls) -> 0 <= b
  | THvector _ b _ _ | TVector _ b _ _ | TIndexedBlock _ b _ _ => 0 <= b
  | TContiguous _ _ => True
  end.
Definition no_negative_block (k : call) : Prop := match k with KTypeCreate k => lens_ok k | _ => True end.
(** Displacements as the 64-bit numbers they are stored as. *)
Definition wrapped (m : list elem) : list elem := map (fun e => (fst e, to_s64 (snd e))) m.
(** The standard's typemap of a constructor call, from the typemaps and extents of the types it is given. *)
Section Std.
Variables (map_at : Z -> list elem) (ext_at : Z -> Z).
Definition at_ (l : list Z) (i : Z) : Z := nth (Z.to_nat i) l 0.
Definition std_map (k : tcons) : list elem :=
  match k with
  | TStruct n bls ds hs => flat_map (fun i => copies (at_ bls i) (ext_at (at_ hs i)) (at_ ds i) (map_at (at_ hs i))) (upto n)
  | TContiguous n h => contiguous_map n (ext_at h) (map_at h)
  | THvector n b s h => hvector_map n b s (ext_at h) (map_at h)
  | TVector n b s h => vector_map n b s (ext_at h) (map_at h)
  | THindexed n bls ds h => flat_map (fun i => copies (at_ bls i) (ext_at h) (at_ ds i) (map_at h)) (upto n)
  | TIndexed n bls ds h => flat_map (fun i => copies (at_ bls i) (ext_at h) (at_ ds i * ext_at h) (map_at h)) (upto n)
  | TIndexedBlock n b ds h => flat_map (fun i => copies b (ext_at h) (at_ ds i * ext_at h) (map_at h)) (upto n)
  end.
End Std.
(** The typemap and the extent of the type a handle denotes; MPI_LB and MPI_UB stand for no data. *)
Definition data_map (t : typestruct) : list elem := if is_marker t then [] else typemap t.
Definition extent_or_0 (c : cfg) (t : typestruct) : Z := match Type_extent c t with Ok x => x | _ => 0 end.
Definition handle_map (c : cfg) (a : astate) (h : Z) : list elem := match type_at c a h with Some t => data_map t | None => [] end.
Definition handle_ext (c : cfg) (a : astate) (h : Z) : Z := match type_at c a h with Some t => extent_or_0 c t | None => 0 end.

(** Constructor calls that the standard defines in terms of each other. *)
Inductive same_type (ext_at : Z -> Z) : tcons -> tcons -> Prop :=
| contiguous_is_vector n h : same_type ext_at (TContiguous n h) (TVector n 1 1 h)
| dense_vector_is_contiguous n b h : 0 <= n -> 0 <= b -> same_type ext_at (TVector n b b h) (TContiguous (n * b) h)
| vector_is_hvector n b s h : same_type ext_at (TVector n b s h) (THvector n b (s * ext_at h) h)
| vector_is_indexed_block n b s h : same_type ext_at (TVector n b s h) (TIndexedBlock n b (map (fun i => i * s) (upto n)) h)
| indexed_block_is_indexed n b ds h : same_type ext_at (TIndexedBlock n b ds h) (TIndexed n (repeat b (Z.to_nat n)) ds h)
| indexed_is_hindexed n bls ds h : same_type ext_at (TIndexed n bls ds h) (THindexed n bls (map (fun d => d * ext_at h) ds) h)
| hindexed_is_struct n bls ds h : same_type ext_at (THindexed n bls ds h) (TStruct n bls ds (repeat h (Z.to_nat n)))
| same_sym k k' : same_type ext_at k k' -> same_type ext_at k' k
| same_trans k k' k'' : same_type ext_at k k' -> same_type ext_at k' k'' -> same_type ext_at k k''.
