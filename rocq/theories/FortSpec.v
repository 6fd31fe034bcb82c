(** Specification of the Fortran side, independent of how mpi.c does it. *)
From Verif Require Import Base TypeModel CopyModel SysModel CollModel SysCalls FortModel.

(** What mpif.h must say: the constants compared, and the positions of the fields of a status (counted from 1). *)
Definition compared : list (string * Z) :=
  [ ("MPI_COMM_WORLD", 1); ("MPI_ANY_SOURCE", -1); ("MPI_ANY_TAG", -1); ("MPI_PROC_NULL", -2); ("MPI_ROOT", -3); ("MPI_COMM_NULL", 0);
    ("MPI_REQUEST_NULL", 0); ("MPI_GROUP_NULL", 0); ("MPI_GROUP_EMPTY", -1); ("MPI_UNDEFINED", -1); ("MPI_MAX_ERROR_STRING", 128);
    ("MPI_MAX_PROCESSOR_NAME", 128); ("MPI_STATUS_SIZE", 4); ("MPI_SOURCE", 1); ("MPI_TAG", 2); ("MPI_ERROR", 3);
    ("MPI_INTEGER", -16); ("MPI_DOUBLE_PRECISION", -18) ]%string.
(** The Fortran types measured. *)
Definition measured : list string := ["MPI_INTEGER"; "MPI_LOGICAL"; "MPI_REAL"; "MPI_DOUBLE_PRECISION"; "MPI_COMPLEX"]%string.
(** Size in bytes of the first basic element of a predefined type; fr and fd as configured for REAL and DOUBLE PRECISION. *)
Definition first_sizes (fr fd : Z) : list (Z * Z) :=
  [ (-1, 1); (-2, 2); (-3, 4); (-4, 8); (-5, 1); (-6, 2); (-7, 4); (-8, 8); (-9, 4); (-10, 8); (-11, 16); (-12, 1); (-13, 1);
    (-16, 4); (-17, fr); (-18, fd); (-19, 2 * fr); (-20, 2 * fd); (-21, 4); (-22, 1); (-23, fr); (-24, fd); (-25, 4);
    (-26, 4); (-27, 8); (-28, 8); (-29, 4); (-30, 2); (-31, 16); (-32, 1); (-33, 2); (-34, 4); (-35, 8);
    (-37, 4); (-38, 8); (-39, 16); (-40, 8); (-41, 16); (-42, 32); (-43, 8); (-44, 8); (-45, 8) ].

(** The header and the compiler agree with the library. *)
Definition agree (fr fd : Z) (fv sz : string -> Z) : Prop :=
  (forall n v, In (n, v) compared -> fv n = v) /\ (forall n, In n measured -> In (fv n, sz n) (first_sizes fr fd)).
(** The five type constants name predefined types. *)
Definition name_types (fr fd : Z) (fv : string -> Z) : Prop :=
  forall n, In n measured -> exists v, In (fv n, v) (first_sizes fr fd).

(** mpif.h: every constant of the calls above. *)
Definition shipped (n : string) : Z :=
  let fix look l := match l with [] => 0 | (k, v) :: r => if String.eqb k n then v else look r end in
  look (("MPI_REAL", -17) :: ("MPI_COMPLEX", -19) :: ("MPI_LOGICAL", -21) :: compared)%string.
(** Sizes of default INTEGER, LOGICAL, REAL, DOUBLE PRECISION and COMPLEX. *)
Definition usual_sizes (n : string) : Z :=
  let fix look l := match l with [] => 0 | (k, v) :: r => if String.eqb k n then v else look r end in
  look [ ("MPI_INTEGER", 4); ("MPI_LOGICAL", 4); ("MPI_REAL", 4); ("MPI_DOUBLE_PRECISION", 8); ("MPI_COMPLEX", 8) ]%string.

(** What a Fortran call should do: the C call, with the sentinel variables, wherever MPI allows them, replaced by the C
    sentinels.  [p] is the address of MPI_IN_PLACE. *)
Definition with_in_place (p : Z) (k : coll) : coll :=
  let t b := if b =? p then MPI_IN_PLACE else b in
  match k with
  | CBarrier | CBcast _ _ _ _ => k
  | CGather sb sn st rb rn rt root => CGather (t sb) sn st rb rn rt root
  | CGatherv sb sn st rb rns ds rt root => CGatherv (t sb) sn st rb rns ds rt root
  | CAllgather sb sn st rb rn rt => CAllgather (t sb) sn st rb rn rt
  | CAllgatherv sb sn st rb rns ds rt => CAllgatherv (t sb) sn st rb rns ds rt
  | CScatter sb sn st rb rn rt root => CScatter sb sn st (t rb) rn rt root
  | CScatterv sb sns ds st rb rn rt root => CScatterv sb sns ds st (t rb) rn rt root
  | CReduce sb rb n ty op root => CReduce (t sb) rb n ty op root
  | CAllreduce sb rb n ty op => CAllreduce (t sb) rb n ty op
  | CReduceScatter sb rb rns ty op => CReduceScatter (t sb) rb rns ty op
  | CScan sb rb n ty op => CScan (t sb) rb n ty op
  | CAlltoall sb sn st rb rn rt => CAlltoall (t sb) sn st rb rn rt
  | CAlltoallv sb sns sds st rb rns rds rt => CAlltoallv (t sb) sns sds st rb rns rds rt
  | CAlltoallw sb sns sds sts rb rns rds rts => CAlltoallw (t sb) sns sds sts rb rns rds rts
  end.
Definition wanted (f : fort) (k : fcall) : call :=
  let one (s : fstatus) := if fst s =? f_status f then SIgnore else SAt (snd s) in
  let all (s : fstatuses) := if fst s =? f_statuses f then SSIgnore else SSAt (snd s) in
  match k with
  | FPlain k => k
  | FRecv b n t so g cm st => KRecv b n t so g cm (one st)
  | FSendrecv sb sn sty d sg rb rn rt so rg cm st => KSendrecv sb sn sty d sg rb rn rt so rg cm (one st)
  | FTest r st => KTest r (one st)
  | FWait r st => KWait r (one st)
  | FTestany n rs i st => KTestany n rs i (one st)
  | FWaitany n rs i st => KWaitany n rs i (one st)
  | FTestall n rs sts => KTestall n rs (all sts)
  | FWaitall n rs sts => KWaitall n rs (all sts)
  | FTestsome n rs ix sts => KTestsome n rs ix (all sts)
  | FWaitsome n rs ix sts => KWaitsome n rs ix (all sts)
  | FIprobe so g cm st => KIprobe so g cm (one st)
  | FProbe so g cm st => KProbe so g cm (one st)
  | FColl k => KColl (with_in_place (f_in_place f) k)
  end.
(** The collectives whose bindings do not look for MPI_IN_PLACE; the send buffer of such a call. *)
Definition untranslated (k : fcall) : option Z :=
  match k with
  | FColl (CReduce sb _ _ _ _ _) | FColl (CAllreduce sb _ _ _ _) | FColl (CReduceScatter sb _ _ _ _) | FColl (CScan sb _ _ _ _)
  | FColl (CAlltoall sb _ _ _ _ _) | FColl (CAlltoallv sb _ _ _ _ _ _ _) | FColl (CAlltoallw sb _ _ _ _ _ _ _) => Some sb
  | _ => None
  end.

(** A Fortran INTEGER variable at address [a] with value [v]: four bytes, two's complement, least significant first. *)
Definition integer_at (m : mem) (a v : Z) : Prop :=
  - 2 ^ 31 <= v < 2 ^ 31 /\ forall k, 0 <= k < 4 -> m (a + k) = Some (v / 256 ^ k mod 256).
