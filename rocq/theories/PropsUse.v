(** Theorems about who calls what, and what a routine of MPI can do (C107). *)
From Verif Require Import Base LinkModel LinkSpec LinkFacts UseSpec UseFacts.
From Coq Require Import Relations.
#[local] Open Scope nat_scope.
#[local] Open Scope string_scope.
#[local] Open Scope list_scope.

(** C107: which routines of MPI can make a handle (the same ones that can allocate storage), end one, release storage, copy data, write to the terminal: these, whatever way
    Fortran names are made, and no others. *)
Theorem C107_can : forall m f s, In f library -> fn_name f = C s -> String.prefix "MPI_" s = true ->
  (may_use m library f "mpi_alloc_handle" <-> In s making) /\
  (may_use m library f "malloc" <-> In s making) /\
  (may_use m library f "mpi_free_handle" <-> In s ending) /\
  (may_use m library f "free" <-> In s releasing) /\
  (may_use m library f "memcpy" <-> In s copying) /\
  (may_use m library f "printf" \/ may_use m library f "fprintf" \/ may_use m library f "perror" <-> In s writing).
Proof. exact C107_can_lemma. Qed.
Print Assumptions C107_can.

(** MPI_Test ends handles and does nothing else of the first five; MPI_Comm_rank does nothing of this. *)
Example C107_can_ex :
  map (fun l => listed "MPI_Test" l) [making; ending; releasing; copying; writing] = [false; true; false; false; true] /\
  map (fun l => listed "MPI_Isend" l) [making; ending; releasing; copying; writing] = [true; false; true; true; true] /\
  map (fun l => listed "MPI_Comm_rank" l) [making; ending; releasing; copying; writing] = [false; false; false; false; false] /\
  map (fun s => length (filter (called (C s)) library)) ["MPI_Test"; "MPI_Isend"; "MPI_Comm_rank"] = [1; 1; 1].
Proof. do 3 (split; [vm_compute; reflexivity|]). vm_compute. reflexivity. Qed.

(** C107: every call in the library is in the list of callers, and the other way round. *)
Theorem C107_direct :
  (forall n l, In (n, l) callers -> forall f, In f library -> In n (fn_calls f) <-> In (text_of (fn_name f)) l) /\
  (forall f n, In f library -> In n (fn_calls f) -> exists l, In (n, l) callers) /\
  NoDup (map fst callers).
Proof. exact C107_direct_lemma. Qed.
Print Assumptions C107_direct.

(** Storage is allocated in five places and released in four. *)
Example C107_direct_ex :
  filter (fun p => nmb (fst p) (C "malloc") || nmb (fst p) (C "free"))%bool callers =
    [(C "free", ["mpi_free"; "AP_listitem_free"; "AP_list_free"; "MPI_Type_free"]);
     (C "malloc", ["mpi_malloc"; "AP_listitem_malloc"; "AP_list_new"; "Type_struct"; "Type_dup"])] /\
  length callers = 149 /\ length (concat (map snd callers)) = 379.
Proof. do 2 (split; [vm_compute; reflexivity|]). vm_compute. reflexivity. Qed.
