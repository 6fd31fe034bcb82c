(** What it means that the library links, that what it declares is there, and that no routine calls itself (C105, C106).  Says nothing about how that
    is checked. *)
From Verif Require Import Base LinkModel BindModel RetModel.
From Coq Require Import Relations Ascii.
#[local] Open Scope nat_scope.
#[local] Open Scope string_scope.

(** What a name used in a file stands for: a static routine only in its own file, the others everywhere (C11 6.2.2; e.g. recv.c 75 and recv.c 19). *)
Record meant (m : mangling) (lib : list fn) (file : string) (n : nm) (g : fn) : Prop := {
  me_in : In g lib;
  me_name : symbol m (fn_name g) = symbol m n;
  me_seen : fn_static g = true -> fn_file g = file
}.
(** The name is one of the C library (e.g. handles.c 83). *)
Definition from_C (n : nm) : Prop := exists s, n = C s /\ In s standard.
(** A name used in a file stands for exactly one routine: one of the library, or one of the C library (e.g. recv.c 75, handles.c 83). *)
Definition linked (m : mangling) (lib : list fn) (file : string) (n : nm) : Prop :=
  (exists g, meant m lib file n g /\ forall h, meant m lib file n h -> h = g) \/ (from_C n /\ forall g, ~ meant m lib file n g).
(** Nothing has the name (e.g. mpi.h 431). *)
Definition missing (m : mangling) (lib : list fn) (file : string) (n : nm) : Prop := (forall g, ~ meant m lib file n g) /\ ~ from_C n.
(** Two routines whose names clash: both are seen from outside, or both are in one file (e.g. type.c 767 and 779). *)
Definition clash (m : mangling) (f g : fn) : Prop :=
  f <> g /\ symbol m (fn_name f) = symbol m (fn_name g) /\ (fn_static f = false /\ fn_static g = false \/ fn_file f = fn_file g).

(** Types with the typedefs replaced (mpi.h 6-243). *)
Definition plain (t : cty) : cty :=
  match find (fun d => String.eqb (fst d) (fst t)) typedefs with Some d => (snd d, snd t) | None => t end.
(** A declaration and a routine agree (e.g. mpi.h 255 and mpi.c 305). *)
Record agrees (d : decl) (f : fn) : Prop := {
  ag_name : fn_name f = d_name d;
  ag_outside : fn_static f = false;
  ag_ret : plain (fn_ret f) = plain (d_ret d);
  ag_params : map plain (fn_params f) = map plain (d_params d)
}.

(** One letter, and a name, in lower case; e.g. the binding of MPI_Abort is mpi_abort (mpi.c 224). *)
Definition low (c : ascii) : ascii := let k := nat_of_ascii c in if (Nat.leb 65 k && Nat.leb k 90)%bool then ascii_of_nat (k + 32) else c.
(** A name in lower case (mpi.c 224). *)
Fixpoint lower (s : string) : string := match s with EmptyString => EmptyString | String c s => String (low c) (lower s) end.
(** The Fortran routine of a routine of C: the same name in lower case, the same number of parameters and the error code (e.g. mpi.c 224 and 231). *)
Definition binding_of (c f : fn) : Prop :=
  exists s up, fn_name c = C s /\ fn_name f = F (lower s) up /\ fn_static f = false /\ length (fn_params f) = S (length (fn_params c)).

(** A call from Fortran: the routine is there, and has that number of parameters (e.g. fort.F90 6). *)
Definition called_right (m : mangling) (lib : list fn) (file : string) (x : nm * nat) : Prop :=
  exists g, meant m lib file (fst x) g /\ (forall h, meant m lib file (fst x) h -> h = g) /\ length (fn_params g) = snd x.

(** One routine calls another: by name, or as a routine passed to it by anybody (e.g. recv.c 75 and list.c 456). *)
Inductive calls (m : mangling) (lib : list fn) : fn -> fn -> Prop :=
| by_name f n g : In f lib -> In n (fn_calls f) -> meant m lib (fn_file f) n g -> calls m lib f g
| by_pointer f h n g : In f lib -> fn_indirect f = true -> In h lib -> In n (fn_passes h) -> meant m lib (fn_file h) n g -> calls m lib f g.
(** Routines each of which calls the next (e.g. send.c 93 and send.c 57). *)
Fixpoint chain (m : mangling) (lib : list fn) (f : fn) (l : list fn) : Prop :=
  match l with [] => True | g :: l => calls m lib f g /\ chain m lib g l end.
(** A call of the routine can end the program: it, or one it leads to, calls abort() or exit() (e.g. handles.c 88, mpi.c 235). *)
Definition may_stop (m : mangling) (lib : list fn) (f : fn) : Prop :=
  exists g, clos_refl_trans fn (calls m lib) f g /\ (In (C "abort") (fn_calls g) \/ In (C "exit") (fn_calls g)).

(** Routines that mpi.h does not declare though they are there (info.c 44, mpi.c 158 and 336, type.c 773 and 786). *)
Definition not_in_mpi_h : list string := ["MPI_Info_free"; "MPI_Init_thread"; "MPI_Get_Version"; "MPI_Get_address"; "MPI_Address"].
(** Routines of C without a Fortran routine of one more parameter (comm.c 252, group.c 267, collective.c 519, req.c 307, error.c 10, ic_merge.c 11, mpi.c 158, time.c 20). *)
Definition C_only : list string := ["MPI_Comm_c2f"; "MPI_Comm_f2c"; "MPI_Group_c2f"; "MPI_Group_f2c"; "MPI_Op_c2f"; "MPI_Op_f2c"; "MPI_Request_c2f"; "MPI_Request_f2c";
  "MPI_Errhandler_set"; "MPI_Intercomm_merge"; "MPI_Init"; "MPI_Init_thread"; "MPI_Wtime"].
(** The routines from which no call leads to abort() or exit() (e.g. collective.c 18-21, mpi.c 263). *)
Definition returning : list string := ["MPI_Cart_get"; "MPI_Barrier"; "MPI_Op_f2c"; "MPI_Op_c2f"; "MPI_Comm_size"; "MPI_Comm_rank"; "MPI_Comm_group"; "MPI_Comm_f2c"; "MPI_Comm_c2f"; "MPI_Errhandler_set"; "MPI_Get_count"; "MPI_Get_elements"; "MPI_Group_free"; "MPI_Group_f2c"; "MPI_Group_c2f"; "MPI_Intercomm_merge"; "MPI_Info_create"; "MPI_Info_set"; "MPI_Info_free"; "MPI_Finalize"; "MPI_Error_string"; "MPI_Get_processor_name"; "MPI_Initialized"; "MPI_Get_library_version"; "MPI_Get_Version"; "MPI_Op_create"; "MPI_Op_free"; "MPI_Request_f2c"; "MPI_Request_c2f"; "MPI_Type_lb"; "MPI_Type_ub"; "MPI_Get_address"; "MPI_Address"; "MPI_Type_commit"].
(** The type of a parameter as BindModel writes it; an array of triples of ints counts as a pointer to int (group.c 51). *)
Definition as_prm (t : cty) : option prm :=
  match plain t with
  | ("int", 0) => Some (Val Kint) | ("unsigned long", 0) => Some (Val Kaint)
  | ("int", 1) | ("int", 2) => Some (Ptr Kint) | ("long", 1) => Some (Ptr Klong) | ("unsigned long", 1) => Some (Ptr Kaint)
  | ("void", 1) => Some (Ptr Kvoid) | ("char", 1) => Some (Ptr Kchar) | ("MPI_Status", 1) => Some (Ptr Kstatus) | ("MPI_User_function", 1) => Some (Ptr Kfun)
  | _ => None
  end.
(** The name of a routine as RetModel writes it (e.g. mpi.c 224 and 232). *)
Definition text_of (n : nm) : string := match n with C s => s | F s _ => s end.
(** Routines that return an int which is not an error code (list.c 73 to type.c 68). *)
Definition no_code : list string :=
  ["AP_listitem_verify"; "AP_list_size"; "AP_list_delete"; "AP_list_head"; "AP_list_tail"; "AP_list_next"; "AP_list_apply"; "mpi_match_send"; "mpi_match_recv";
   "calc_padding"; "Simpletype_length"].
