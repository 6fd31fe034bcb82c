(** What the printing routines should show. *)
From Verif Require Import Base TypeModel SysModel CollModel SysCalls SysSpec PrintModel.

(** A head line with the number of items and the data in the given order; a pointer is shown as an int. *)
Definition list_text (str : string) (ds : list Z) : list shown :=
  [Text str; Text " ("; Num (Z.of_nat (length ds)); Text " items): "] ++ flat_map (fun d => [Num (to_s32 d); Text " "]) ds ++ [Text "\n"].
(** The data before the first NULL. *)
Fixpoint before_null (ds : list Z) : list Z := match ds with [] => [] | d :: r => if d =? 0 then [] else d :: before_null r end.
(** The tags of a queue. *)
Definition queue_text (msg : string) (num : Z) (q : list pend) : list shown :=
  [Text msg; Text " "; Num num; Text ": "] ++ flat_map (fun p => [Num (p_tag p); Text "  "]) q ++ [Text "\n"].
(** The entries of a typemap: simple type, its length, displacement. *)
Fixpoint map_text (es : list (Z * Z * Z)) : list shown :=
  match es with
  | [] => []
  | (t, len, d) :: r => [Text "(t"; Num t; Text ":"; Num len; Text ", o"; Num (to_s32 d); Text ")"] ++ (match r with [] => [] | _ => [Text ", "] end) ++ map_text r
  end.
Definition type_text (count lb ub extent padding : Z) (es : list (Z * Z * Z)) : list shown :=
  [Text "Type with "; Num count; Text " type pairs.\n>> lb is "; Num (to_s32 lb); Text "\n>> ub is "; Num (to_s32 ub); Text "\n>>Extent is ";
   Num (to_s32 extent); Text "\n>>Epsilon based on "; Num padding; Text "\nTypemap: \n{"] ++ map_text es ++ [Text "}\n"].
