(** Specification of argument passing from Fortran to C. *)
From Coq Require Import Ascii.
From Verif Require Import Base CopyModel CollModel FortModel FortSpec BindModel.

(** The parameters (counted from 0) for which a Fortran sentinel is understood: a status that may be ignored, an array of such, a
    buffer that may be MPI_IN_PLACE. *)
Inductive sentinel := Plain | OneStatus | Statuses | Place.
Definition sentinels : list (string * (nat * sentinel)) := [
  ("mpi_probe", (3, OneStatus)); ("mpi_iprobe", (4, OneStatus)); ("mpi_recv", (6, OneStatus)); ("mpi_sendrecv", (11, OneStatus));
  ("mpi_test", (2, OneStatus)); ("mpi_wait", (1, OneStatus)); ("mpi_testany", (4, OneStatus)); ("mpi_waitany", (3, OneStatus));
  ("mpi_testall", (3, Statuses)); ("mpi_waitall", (2, Statuses)); ("mpi_testsome", (4, Statuses)); ("mpi_waitsome", (4, Statuses));
  ("mpi_gather", (0, Place)); ("mpi_gatherv", (0, Place)); ("mpi_allgather", (0, Place)); ("mpi_allgatherv", (0, Place));
  ("mpi_scatter", (3, Place)); ("mpi_scatterv", (4, Place)) ]%nat%string.
Definition sentinel_at (b : string) (i : nat) : sentinel :=
  match lookup b sentinels with Some (j, x) => if Nat.eqb i j then x else Plain | None => Plain end.
(** What C must get for a parameter when Fortran passes the address [a]: the INTEGER there, or the address, or the C sentinel if
    [a] is the address of the Fortran one. *)
Definition right_arg (f : fort) (m : mem) (fo : prm) (x : sentinel) (a v : Z) : Prop :=
  match fo with
  | Val Kint => integer_at m a v
  | Val _ => False
  | Ptr _ =>
      match x with
      | Plain => v = a
      | OneStatus => v = if a =? f_status f then 0 else a
      | Statuses => v = if a =? f_statuses f then 0 else a
      | Place => v = if a =? f_in_place f then MPI_IN_PLACE else a
      end
  end.
Fixpoint all_right (f : fort) (m : mem) (b : string) (i : nat) (fos : list prm) (addrs vs : list Z) : Prop :=
  match fos, addrs, vs with
  | [], [], [] => True
  | fo :: fos, a :: addrs, v :: vs => right_arg f m fo (sentinel_at b i) a v /\ all_right f m b (S i) fos addrs vs
  | _, _, _ => False
  end.
(** There are INTEGERs wherever C wants a value. *)
Fixpoint has_integers (m : mem) (fos : list prm) (addrs : list Z) : Prop :=
  match fos, addrs with
  | [], [] => True
  | fo :: fos, a :: addrs => match fo with Val _ => exists v, integer_at m a v | Ptr _ => True end /\ has_integers m fos addrs
  | _, _ => False
  end.
(** Capitals to small letters. *)
Definition small (ch : ascii) : ascii :=
  let n := nat_of_ascii ch in if (65 <=? n)%nat && (n <=? 90)%nat then ascii_of_nat (n + 32) else ch.
Fixpoint lower (s : string) : string := match s with EmptyString => EmptyString | String ch r => String (small ch) (lower r) end.
(** Bindings that read an INTEGER as a long (C79). *)
Definition wide_reads : list string := ["mpi_type_hvector"; "mpi_type_create_hvector"]%string.
