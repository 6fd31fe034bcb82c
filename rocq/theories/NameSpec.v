(** Specification for C116 and C117: names defined before they are used, and names that a program may not have. *)
From Verif Require Import Base LinkModel BuildModel NameModel.
#[local] Open Scope string_scope.
#[local] Open Scope Z_scope.
#[local] Open Scope list_scope.

(** The name can be used after [t] has been read: it is a macro that was given, or it has been defined, and so have the names in its body (e.g. type.h 100-113, type.c 103). *)
Inductive ready (on : string -> bool) (t : list ev) : string -> Prop :=
| ry_given n : on n = true -> ready on t n
| ry_defined f l n b : In (EDef f l n b) t -> (forall x, In x b -> ready on t x) -> ready on t n.
(** Every use comes after the definition (e.g. mpiP.h 84 and listops.h 18). *)
Definition defined_before (on : string -> bool) (t : list ev) : Prop := forall t1 f l n t2, t = t1 ++ EUse f l n :: t2 -> ready on t1 n.
(** The macros, types and variables that the files of the library define, in order; not the members, and not what is only repeated: FC_FUNC in config.h and simpletypes, which is declared first
    (type.h 118, type_const.c 171). *)
Definition defined_names (t : list ev) : list string :=
  flat_map (fun e => match e with
                     | EDef f _ n _ => if String.eqb f "config.h" || inb f (map fst c_names) || String.eqb n "simpletypes" || String.prefix "." n then [] else [n]
                     | _ => []
                     end) t.
(** The ways to say how Fortran makes its names (mpiP.h 56-62). *)
Definition fortran_macros : list string := ["FORTRAN_UNDERSCORE_"; "FORTRANUNDERSCORE"; "FORTRAN_GNUF2C"; "FORTRAN_SAME"; "FORTRAN_CAPS_"].

(** A name of MPI's; a program may not define one by the rules of MPI (e.g. mpi.h 255-439). *)
Definition of_mpi (s : string) : Prop := String.prefix "MPI_" s = true \/ String.prefix "mpi_" s = true.
(** The program and the library both define the name: the linker reports it (e.g. type.c 188). *)
Definition clash (m : mangling) (p : program) (s : string) : Prop := In s (own p) /\ exists f, taken m p f /\ In s (gives m f).
(** The library's own routine or variable is left out, and its other files use the program's instead (e.g. recv.c 81). *)
Definition replaced (m : mangling) (p : program) (s : string) : Prop :=
  In s (own p) /\ (exists f, In f sources /\ In s (gives m f)) /\ (exists g, taken m p g /\ In s (wants m g)) /\ ~ clash m p s.
(** The names of routines and variables that are not MPI's (copy.c 30 to type.c 843, type_const.c 7-171). *)
Definition others : list string :=
  ["copy_data2"; "simpletypes"; "Pack"; "Pack_size"; "Unpack";
   "Pcopy_data2"; "AP_listitem_verify"; "AP_listitem_prev"; "AP_listitem_next"; "AP_listitem_data"; "AP_list_new"; "AP_list_free"; "AP_list_size";
   "AP_list_prepend"; "AP_list_append"; "AP_list_delete"; "AP_list_delete_item"; "AP_list_head_item"; "AP_list_head"; "AP_list_tail"; "AP_list_print";
   "AP_list_revprint"; "AP_list_search"; "AP_list_search_func"; "AP_list_next"; "AP_list_braindead_next"; "AP_list_duplicate"; "AP_list_apply"; "calc_padding";
   "Simpletype_length"; "calc_lb"; "calc_ub"; "Type_extent"; "Type_get_true_extent"; "Copy_type"; "Type_struct"; "Type_contiguous"; "Type_hvector"; "Type_vector";
   "Type_hindexed"; "Type_indexed"; "Type_create_indexed_block"; "Type_dup"; "Type_size"; "Type_lb"; "Type_ub"; "FGet_address";
   "TSchar"; "TSshort"; "TSint"; "TSlong"; "TSuchar"; "TSushort"; "TSuint"; "TSulong"; "TSfloat"; "TSdouble"; "TSldouble"; "TSbyte"; "TSpacked"; "TSlower";
   "TSupper"; "TSinteger"; "TSreal"; "TSdprecision"; "TScomplex"; "TSdcomplex"; "TSlogical"; "TScharacter"; "TSfloat_int"; "TSdouble_int"; "TSlong_int"; "TS2int";
   "TSshort_int"; "TSldouble_int"; "TS2real"; "TS2dprecision"; "TS2integer"; "TSinteger1"; "TSinteger2"; "TSinteger4"; "TSinteger8"; "TSinteger16"; "TSreal4";
   "TSreal8"; "TSreal16"; "TScomplex8"; "TScomplex16"; "TScomplex32"; "TSlonglong"; "TSulonglong"; "TSoffset"].
