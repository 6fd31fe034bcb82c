(** Specification of collectives, groups and topologies over one process. *)
From Verif Require Import Base ListModel TypeModel TypeSpec CopyModel CopySpec SysModel CollModel SysCalls SysSpec.

(** A well-formed transfer in state [a]: [n] elements of datatype [t] at [src] lie at [S], the [nd] elements of [dt] at [dst] at [D]. *)
Record message (c : cfg) (a : astate) (src n t dst nd dt : Z) (ed : Z) (S D : list region) : Prop := {
  ms_ex : exists ts es td, type_at c a t = Some ts /\ type_at c a dt = Some td /\ transfer c n ts es nd td ed /\
      (type_checking c = true -> types_agree n ts nd td) /\ offsets_fit n es (typemap ts) /\ offsets_fit nd ed (typemap td) /\
      S = layout c src n es (typemap ts) /\ D = layout c dst nd ed (typemap td);
  ms_cfg : cfg_ok c; ms_mem : mem_ok (a_mem a); ms_buf : buffers_ok (a_mem a) S D
}.
(** The signed extent of a datatype. *)
Definition extent_of (c : cfg) (a : astate) (t e : Z) : Prop := exists ts, type_at c a t = Some ts /\ typed c ts e.

(** Nothing but memory differs. *)
Definition only_memory (s s' : sys) : Prop := s' = set_mem s (s_mem s').

(** Groups: the null group is no group; the others are sets of ranks. *)
Definition valid_group (g : Z) : Prop := g = MPI_GROUP_EMPTY \/ g = MPI_GROUP_ONE.
Definition has_rank (g r : Z) : Prop := g = MPI_GROUP_ONE /\ r = 0.
(** The ranks of a range (first, last, stride), stride not 0: first, first+stride, ..., first+floor((last-first)/stride)*stride. *)
Definition in_range (x : Z * Z * Z) (r : Z) : Prop :=
  let '(f, l, st) := x in exists k, 0 <= k <= (l - f) / st /\ r = f + k * st.

(** [l'] is [l] with [v i] at the first [n] positions. *)
Definition filled (n : Z) (v : Z) (l l' : list Z) : Prop := l' = repeat v (Z.to_nat n) ++ skipn (Z.to_nat n) l.

(** The constructor calls, and when this process is in the result. *)
Inductive makes : call -> Prop -> Prop :=
| mk_dup cm : makes (KCommDup cm) True
| mk_create cm g : makes (KCommCreate cm g) (g <> MPI_GROUP_NULL /\ g <> MPI_GROUP_EMPTY)
| mk_split cm color key : makes (KCommSplit cm color key) (color <> MPI_UNDEFINED)
| mk_inter l p : makes (KIntercomm l p) (~ (l = MPI_COMM_NULL /\ p = MPI_COMM_NULL))
| mk_cart cm n dims per re : n <= Z.of_nat (length dims) -> (forall d, In d (firstn (Z.to_nat n) dims) -> d <= 1) -> makes (KCartCreate cm n dims per re) True.
