(** C123 and C124: routines run from the text of the C files, beside the model.

    [runs] and [runs_with] give a meaning to the text of SourceModel itself, read with no macro defined; [alike] says that the outcome is of the same kind as the model's.  The number of nested
    calls is bounded by [d] and the turns of a loop by [n]: the theorems ask for enough of both, and where they give [n] as [lfuel h] both sides diverge together. *)
From Verif Require Import Base ListModel CollModel StubModel LinkModel TextModel TextSpec SourceModel SourceSpec RunSpec RunFacts RunCalls RunList.
From Coq Require Import Ascii.
#[local] Open Scope string_scope.
#[local] Open Scope list_scope.
#[local] Open Scope Z_scope.

(** C123.  The group routines (group.c). *)
(** MPI_Group_union does, for all groups, what the model says. *)
Theorem C123_union : forall d n s g1 g2 po pi old, s_cell s po pi "" = Some old -> (2 <= d)%nat ->
  alike (fun m r => r = (VI 0, set_cell s po pi "" (Some (VI m)))) (MPI_Group_union g1 g2) (runs s_group_c [] d n "MPI_Group_union" [VI g1; VI g2; VP po pi] s).
Proof. exact union_lemma. Qed.
Print Assumptions C123_union.
(** MPI_Group_intersection. *)
Theorem C123_intersection : forall d n s g1 g2 po pi old, s_cell s po pi "" = Some old -> (2 <= d)%nat ->
  alike (fun m r => r = (VI 0, set_cell s po pi "" (Some (VI m)))) (MPI_Group_intersection g1 g2) (runs s_group_c [] d n "MPI_Group_intersection" [VI g1; VI g2; VP po pi] s).
Proof. exact intersection_lemma. Qed.
Print Assumptions C123_intersection.
(** MPI_Group_difference. *)
Theorem C123_difference : forall d n s g1 g2 po pi old, s_cell s po pi "" = Some old -> (2 <= d)%nat ->
  alike (fun m r => r = (VI 0, set_cell s po pi "" (Some (VI m)))) (MPI_Group_difference g1 g2) (runs s_group_c [] d n "MPI_Group_difference" [VI g1; VI g2; VP po pi] s).
Proof. exact difference_lemma. Qed.
Print Assumptions C123_difference.
(** MPI_Group_free. *)
Theorem C123_free : forall d n s g po pi, s_cell s po pi "" = Some (VI g) -> (2 <= d)%nat ->
  runs s_group_c [] d n "MPI_Group_free" [VP po pi] s = Ok (VI 0, set_cell s po pi "" (Some (VI (MPI_Group_free g)))).
Proof. exact free_lemma. Qed.
Print Assumptions C123_free.
(** MPI_Group_incl, for all arrays of ranks. *)
Theorem C123_incl : forall d n s g k o ranks po pi old, array s o ranks -> s_cell s po pi "" = Some old -> (2 <= d)%nat ->
  alike (fun m r => r = (VI 0, set_cell s po pi "" (Some (VI m)))) (MPI_Group_incl g k ranks) (runs s_group_c [] d n "MPI_Group_incl" [VI g; VI k; VP o 0; VP po pi] s).
Proof. exact incl_lemma. Qed.
Print Assumptions C123_incl.
(** MPI_Group_range_incl: of the ranges it reads the first. *)
Theorem C123_range_incl : forall d n s g k o row ranges po pi old, s_cell s o 0 "" = (match ranges with [] => None | _ => Some (VP row 0) end) ->
  (forall a b c r, ranges = (a, b, c) :: r -> array s row [a; b; c]) -> s_cell s po pi "" = Some old -> (2 <= d)%nat ->
  alike (fun m r => r = (VI 0, set_cell s po pi "" (Some (VI m)))) (MPI_Group_range_incl g k ranges) (runs s_group_c [] d n "MPI_Group_range_incl" [VI g; VI k; VP o 0; VP po pi] s).
Proof. exact range_incl_lemma. Qed.
Print Assumptions C123_range_incl.
(** MPI_Group_translate_ranks, for arrays of any length that do not overlap. *)
Theorem C123_translate : forall d n s g1 k o1 ranks1 g2 o2 ranks2, array s o1 ranks1 -> array s o2 ranks2 -> o1 <> o2 -> k <= INT_MAX -> (2 <= d)%nat -> (Z.to_nat k < n)%nat ->
  alike (fun l r => fst r = VI 0 /\ array (snd r) o2 l /\ except [o2] s (snd r))
    (MPI_Group_translate_ranks g1 k ranks1 g2 ranks2) (runs s_group_c [] d n "MPI_Group_translate_ranks" [VI g1; VI k; VP o1 0; VI g2; VP o2 0] s).
Proof. exact translate_lemma. Qed.
Print Assumptions C123_translate.
(** cart.c: MPI_Cart_coords, for any number of dimensions. *)
Theorem C123_coords : forall d n s comm rank k o coords, array s o coords -> k <= INT_MAX -> (2 <= d)%nat -> (Z.to_nat k < n)%nat ->
  alike (fun l r => fst r = VI 0 /\ array (snd r) o l /\ except [o] s (snd r)) (MPI_Cart_coords comm rank k coords) (runs s_cart_c [] d n "MPI_Cart_coords" [VI comm; VI rank; VI k; VP o 0] s).
Proof. exact coords_lemma. Qed.
Print Assumptions C123_coords.
(** MPI_Dims_create. *)
Theorem C123_dims : forall d n s nnodes k o dims, array s o dims -> k <= INT_MAX -> (2 <= d)%nat -> (Z.to_nat k < n)%nat ->
  alike (fun l r => fst r = VI 0 /\ array (snd r) o l /\ except [o] s (snd r)) (MPI_Dims_create nnodes k dims) (runs s_cart_c [] d n "MPI_Dims_create" [VI nnodes; VI k; VP o 0] s).
Proof. exact dims_lemma. Qed.
Print Assumptions C123_dims.
(** MPI_Cart_get: the periods are not written. *)
Theorem C123_cart_get : forall d n s comm k o1 dims po pi periods o2 coords, array s o1 dims -> array s o2 coords -> o1 <> o2 -> k <= INT_MAX -> (2 <= d)%nat -> (Z.to_nat k < n)%nat ->
  alike (fun l r => fst r = VI 0 /\ array (snd r) o1 (fst (fst l)) /\ snd (fst l) = periods /\ array (snd r) o2 (snd l) /\ except [o1; o2] s (snd r))
    (MPI_Cart_get comm k dims periods coords) (runs s_cart_c [] d n "MPI_Cart_get" [VI comm; VI k; VP o1 0; VP po pi; VP o2 0] s).
Proof. exact get_lemma. Qed.
Print Assumptions C123_cart_get.
(** op.c. *)
Theorem C123_op_create : forall d n s f commute po pi old, f <> VU -> s_cell s po pi "" = Some (VI old) -> (2 <= d)%nat ->
  runs s_op_c [] d n "MPI_Op_create" [f; VI commute; VP po pi] s = Ok (VI (fst (StubModel.MPI_Op_create commute old)), set_cell s po pi "" (Some (VI (snd (StubModel.MPI_Op_create commute old))))).
Proof. exact op_create_lemma. Qed.
Print Assumptions C123_op_create.
(** MPI_Op_free does nothing. *)
Theorem C123_op_free : forall d n s v, (2 <= d)%nat -> runs s_op_c [] d n "MPI_Op_free" [v] s = Ok (VI 0, s).
Proof. exact op_free_lemma. Qed.
Print Assumptions C123_op_free.
(** info.c. *)
Theorem C123_info_create : forall d n s po pi old, s_cell s po pi "" = Some (VI old) -> (2 <= d)%nat ->
  runs s_info_c [] d n "MPI_Info_create" [VP po pi] s = Ok (VI (fst (StubModel.MPI_Info_create old)), set_cell s po pi "" (Some (VI (snd (StubModel.MPI_Info_create old))))).
Proof. exact info_create_lemma. Qed.
Print Assumptions C123_info_create.
(** MPI_Info_free. *)
Theorem C123_info_free : forall d n s po pi old, s_cell s po pi "" = Some (VI old) -> (2 <= d)%nat ->
  runs s_info_c [] d n "MPI_Info_free" [VP po pi] s = Ok (VI (fst (StubModel.MPI_Info_free old)), set_cell s po pi "" (Some (VI (snd (StubModel.MPI_Info_free old))))).
Proof. exact info_free_lemma. Qed.
Print Assumptions C123_info_free.
(** MPI_Info_set does nothing. *)
Theorem C123_info_set : forall d n s info key value, (2 <= d)%nat -> runs s_info_c [] d n "MPI_Info_set" [info; key; value] s = Ok (VI 0, s).
Proof. exact info_set_lemma. Qed.
Print Assumptions C123_info_set.
(** error.c: MPI_Errhandler_set does nothing. *)
Theorem C123_errhandler : forall d n s comm handle, (2 <= d)%nat -> runs s_error_c [] d n "MPI_Errhandler_set" [comm; handle] s = Ok (VI 0, s).
Proof. exact errhandler_lemma. Qed.
Print Assumptions C123_errhandler.
(** ic_merge.c: MPI_Intercomm_merge does nothing. *)
Theorem C123_merge : forall d n s comm high v, (2 <= d)%nat -> runs s_ic_merge_c [] d n "MPI_Intercomm_merge" [comm; high; v] s = Ok (VI 0, s).
Proof. exact merge_lemma. Qed.
Print Assumptions C123_merge.
(** The conversions of handles give the handle back. *)
Theorem C123_handles : forall d n s h t f, (2 <= d)%nat ->
  In (t, f) [(s_group_c, "MPI_Group_f2c"); (s_group_c, "MPI_Group_c2f"); (s_comm_c, "MPI_Comm_f2c"); (s_comm_c, "MPI_Comm_c2f"); (s_req_c, "MPI_Request_f2c"); (s_req_c, "MPI_Request_c2f"); (s_collective_c, "MPI_Op_f2c"); (s_collective_c, "MPI_Op_c2f")] ->
  runs t [] d n f [VI h] s = Ok (VI h, s).
Proof. exact handles_lemma. Qed.
Print Assumptions C123_handles.
(** MPI_Get_count (getcount.c) gives the member of the status. *)
Theorem C123_count : forall d n s so z dt po pi old, s_cell s so 0 "get_count" = Some (VI z) -> s_cell s po pi "" = Some old -> (2 <= d)%nat ->
  runs s_getcount_c [] d n "MPI_Get_count" [VP so 0; dt; VP po pi] s = Ok (VI 0, set_cell s po pi "" (Some (VI z))).
Proof. exact count_lemma. Qed.
Print Assumptions C123_count.
(** An example: a union of the two groups there are and one with the empty one; ranks past the end are undefined; two dimensions. *)
Definition ex_memory : cstate := mkS (fun o i f => if (Z.eqb o 7 && String.eqb f "")%bool then (if Z.eqb i 0 then Some (VI 5) else if Z.eqb i 1 then Some (VI 6) else None) else None) (fun _ => VU) 8 (fun _ _ => VU).
Definition ex_cell (r : res (val * cstate)) (i : Z) : option (val * option val) := match r with Ok (v, t) => Some (v, s_cell t 7 i "") | _ => None end.
Example C123_ex :
  ex_cell (runs s_group_c [] 2 0 "MPI_Group_union" [VI (-1); VI 1; VP 7 0] ex_memory) 0 = Some (VI 0, Some (VI 1)) /\
  ex_cell (runs s_group_c [] 2 0 "MPI_Group_union" [VI (-1); VI (-1); VP 7 0] ex_memory) 0 = Some (VI 0, Some (VI (-1))) /\
  ex_cell (runs s_cart_c [] 2 3 "MPI_Dims_create" [VI 1; VI 2; VP 7 0] ex_memory) 0 = Some (VI 0, Some (VI 1)) /\
  ex_cell (runs s_cart_c [] 2 3 "MPI_Dims_create" [VI 1; VI 2; VP 7 0] ex_memory) 1 = Some (VI 0, Some (VI 1)) /\
  runs s_cart_c [] 2 9 "MPI_Dims_create" [VI 1; VI 3; VP 7 0] ex_memory = UB "no cell" /\
  runs s_group_c [] 2 0 "MPI_Group_union" [VI 0; VI 1; VP 7 0] ex_memory = Abort "abort".
Proof. unfold runs, runs_with. rewrite numbers_ok, p_group_ok, p_cart_ok. do 5 (split; [vm_compute; reflexivity|]). vm_compute. reflexivity. Qed.
(** The hypotheses can be met. *)
Example C123_ex_hyp : array ex_memory 7 [5; 6] /\ s_cell ex_memory 7 0 "" = Some (VI 5).
Proof.
  split; [|reflexivity]. intros i. unfold ex_memory. cbn [s_cell]. change (Z.eqb 7 7 && String.eqb "" "")%bool with true. cbv iota.
  destruct (Z.ltb_spec i 0). { rewrite (proj2 (Z.eqb_neq i 0)), (proj2 (Z.eqb_neq i 1)) by lia. reflexivity. }
  destruct (Z.eqb_spec i 0) as [->|]; [reflexivity|]. destruct (Z.eqb_spec i 1) as [->|]; [reflexivity|].
  replace (nth_error [5; 6] (Z.to_nat i)) with (@None Z); [reflexivity|]. symmetry. apply nth_error_None. cbn [length]. lia.
Qed.

(** C124.  list.c: in a memory that represents a heap of the model, every routine does what the model says and leaves a memory that represents the heap the model leaves. *)
(** AP_listitem_malloc: the item is the one that the model takes next. *)
Theorem C124_malloc : forall outer d n h s, rep h s -> (4 <= d)%nat ->
  alike (fun a r => fst r = VP (fst a) 0 /\ rep (snd a) (snd r)) (listitem_malloc h) (runs_with outer s_list_c counters d n "AP_listitem_malloc" [] s).
Proof. exact C124_malloc_lemma. Qed.
Print Assumptions C124_malloc.
(** AP_listitem_free. *)
Theorem C124_item_free : forall outer d n h s i it, rep h s -> lh_items h i = Some it -> (4 <= d)%nat ->
  alike (fun a r => rep a (snd r)) (listitem_free h (Some i)) (runs_with outer s_list_c counters d n "AP_listitem_free" [VP i 0] s).
Proof. exact C124_item_free_lemma. Qed.
Print Assumptions C124_item_free.
(** AP_listitem_verify. *)
Theorem C124_verify : forall outer d n h s, rep h s -> (4 <= d)%nat ->
  runs_with outer s_list_c counters d n "AP_listitem_verify" [] s = Ok (VI (if listitem_verify h then 1 else 0), s).
Proof. exact C124_verify_lemma. Qed.
Print Assumptions C124_verify.
(** AP_listitem_prev, AP_listitem_next, AP_listitem_data, with NULL too. *)
Theorem C124_item : forall outer d n h s p, rep h s -> (4 <= d)%nat ->
  alike (fun a r => r = (ptr a, s)) (listitem_prev h p) (runs_with outer s_list_c counters d n "AP_listitem_prev" [ptr p] s) /\
  alike (fun a r => r = (ptr a, s)) (listitem_next h p) (runs_with outer s_list_c counters d n "AP_listitem_next" [ptr p] s) /\
  alike (fun a r => r = (a, s)) (listitem_data h p) (runs_with outer s_list_c counters d n "AP_listitem_data" [ptr p] s).
Proof. exact C124_item_lemma. Qed.
Print Assumptions C124_item.
(** AP_list_new. *)
Theorem C124_new : forall outer d n h s, rep h s -> (4 <= d)%nat ->
  alike (fun a r => fst r = VP (fst a) 0 /\ rep (snd a) (snd r)) (list_new h) (runs_with outer s_list_c counters d n "AP_list_new" [] s).
Proof. exact C124_new_lemma. Qed.
Print Assumptions C124_new.
(** AP_list_free, the abort for a wrong count included. *)
Theorem C124_free : forall outer d h s l, rep h s -> (4 <= d)%nat ->
  alike (fun a r => rep a (snd r)) (list_free l h) (runs_with outer s_list_c counters d (lfuel h) "AP_list_free" [VP l 0] s).
Proof. exact C124_free_lemma. Qed.
Print Assumptions C124_free.
(** AP_list_size, AP_list_head_item. *)
Theorem C124_read : forall outer d n h s l, rep h s -> (4 <= d)%nat ->
  alike (fun a r => r = (VI a, s)) (list_size l h) (runs_with outer s_list_c counters d n "AP_list_size" [VP l 0] s) /\
  alike (fun a r => r = (ptr a, s)) (list_head_item l h) (runs_with outer s_list_c counters d n "AP_list_head_item" [VP l 0] s).
Proof. exact C124_read_lemma. Qed.
Print Assumptions C124_read.
(** AP_list_head, AP_list_tail. *)
Theorem C124_ends : forall outer d n h s l po pi old, rep h s -> s_cell s po pi "" = Some old -> (4 <= d)%nat ->
  alike (fun a r => match a with Some v => r = (VI 1, set_cell s po pi "" (Some v)) | None => r = (VI 0, s) end) (list_head l h) (runs_with outer s_list_c counters d n "AP_list_head" [VP l 0; VP po pi] s) /\
  alike (fun a r => match a with Some v => r = (VI 1, set_cell s po pi "" (Some v)) | None => r = (VI 0, s) end) (list_tail l h) (runs_with outer s_list_c counters d n "AP_list_tail" [VP l 0; VP po pi] s).
Proof. exact C124_ends_lemma. Qed.
Print Assumptions C124_ends.
(** AP_list_append, AP_list_prepend. *)
Theorem C124_add : forall outer d n h s l v, rep h s -> v <> VU -> (4 <= d)%nat ->
  alike (fun a r => fst r = VP (fst a) 0 /\ rep (snd a) (snd r)) (list_append l v h) (runs_with outer s_list_c counters d n "AP_list_append" [VP l 0; v] s) /\
  alike (fun a r => fst r = VP (fst a) 0 /\ rep (snd a) (snd r)) (list_prepend l v h) (runs_with outer s_list_c counters d n "AP_list_prepend" [VP l 0; v] s).
Proof. exact C124_add_lemma. Qed.
Print Assumptions C124_add.
(** AP_list_delete_item, with NULL too. *)
Theorem C124_delete_item : forall outer d n h s l p, rep h s -> (4 <= d)%nat ->
  alike (fun a r => rep a (snd r)) (list_delete_item l p h) (runs_with outer s_list_c counters d n "AP_list_delete_item" [VP l 0; ptr p] s).
Proof. exact C124_delete_item_lemma. Qed.
Print Assumptions C124_delete_item.
(** AP_list_search. *)
Theorem C124_search : forall outer d h s l v, rep h s -> v <> VU -> (4 <= d)%nat ->
  alike (fun a r => r = (ptr a, s)) (list_search val_eqb l v h) (runs_with outer s_list_c counters d (lfuel h) "AP_list_search" [VP l 0; v] s).
Proof. exact C124_search_lemma. Qed.
Print Assumptions C124_search.
(** AP_list_delete. *)
Theorem C124_delete : forall outer d h s l v, rep h s -> v <> VU -> (4 <= d)%nat ->
  alike (fun a r => fst r = VI (fst a) /\ rep (snd a) (snd r)) (list_delete val_eqb l v h) (runs_with outer s_list_c counters d (lfuel h) "AP_list_delete" [VP l 0; v] s).
Proof. exact C124_delete_lemma. Qed.
Print Assumptions C124_delete.
(** AP_list_next. *)
Theorem C124_next : forall outer d n h s l t tpo tpi dpo dpi old, rep h s -> s_cell s tpo tpi "" = Some (ptr t) -> s_cell s dpo dpi "" = Some old -> (4 <= d)%nat ->
  alike (fun a r => match a with Some (v, c) => r = (VI 1, set_cell (set_cell s tpo tpi "" (Some (ptr c))) dpo dpi "" (Some v)) | None => r = (VI 0, s) end)
    (list_next l t h) (runs_with outer s_list_c counters d n "AP_list_next" [VP l 0; VP dpo dpi; VP tpo tpi] s).
Proof. exact C124_next_lemma. Qed.
Print Assumptions C124_next.
(** AP_list_duplicate. *)
Theorem C124_duplicate : forall outer d n h s l, rep h s -> (forall q, list_new h = Ok q -> n = lfuel (snd q)) -> (4 <= d)%nat ->
  alike (fun a r => fst r = VP (fst a) 0 /\ rep (snd a) (snd r)) (list_duplicate l h) (runs_with outer s_list_c counters d n "AP_list_duplicate" [VP l 0] s).
Proof. exact C124_duplicate_lemma. Qed.
Print Assumptions C124_duplicate.
(** AP_list_search_func, with any routine that changes nothing. *)
Theorem C124_search_func : forall outer d h s l g fx (func : val -> res bool), rep h s -> fx <> VU ->
  ~ In g ["abort"; "fprintf"; "printf"; "perror"; "malloc"; "free"] -> ~ In g (map fst (prog s_list_c)) ->
  (forall v, alike (fun b r => truth (fst r) = Ok b /\ snd r = s) (func v) (outer g [v; fx] s)) -> (4 <= d)%nat ->
  alike (fun a r => r = (ptr a, s)) (list_search_func l func h) (runs_with outer s_list_c counters d (lfuel h) "AP_list_search_func" [VP l 0; VF g; fx] s).
Proof. exact C124_search_func_lemma. Qed.
Print Assumptions C124_search_func.
(** AP_list_apply. *)
Theorem C124_apply : forall outer d h s l g fx (func : val -> res Z), rep h s -> fx <> VU ->
  ~ In g ["abort"; "fprintf"; "printf"; "perror"; "malloc"; "free"] -> ~ In g (map fst (prog s_list_c)) ->
  (forall v, alike (fun b r => r = (VI b, s)) (func v) (outer g [v; fx] s)) -> (4 <= d)%nat ->
  alike (fun a r => r = (VI a, s)) (list_apply l func h) (runs_with outer s_list_c counters d (lfuel h) "AP_list_apply" [VP l 0; VF g; fx] s).
Proof. exact C124_apply_lemma. Qed.
Print Assumptions C124_apply.
(** The memory before anything was called represents the heap of the model then. *)
Definition ex_start : cstate := mkS (fun _ _ _ => None) (fun _ => VI 0) 1 (fun _ f => if String.eqb f "data" then VU else VN).
Example C124_ex_start : rep (lheap_init (fun _ => mkItem VU None None)) ex_start.
Proof. constructor; auto. Qed.
(** A list with two items, 6 and 5, from the text; then without the 6. *)
Definition ex_then (f : string) (args : val -> list val) (x : res (val * cstate)) : res (val * cstate) :=
  bind x (fun r => bind (runs s_list_c counters 4 9 f (args (VP 1 0)) (snd r)) Ok).
Definition ex_two := ex_then "AP_list_prepend" (fun l => [l; VI 6]) (ex_then "AP_list_append" (fun l => [l; VI 5]) (runs s_list_c counters 4 9 "AP_list_new" [] ex_start)).
Definition ex_value (x : res (val * cstate)) : option val := match x with Ok (v, _) => Some v | _ => None end.
Example C124_ex_run :
  ex_value (ex_then "AP_list_size" (fun l => [l]) ex_two) = Some (VI 2) /\ ex_value (ex_then "AP_list_head_item" (fun l => [l]) ex_two) = Some (VP 3 0) /\
  ex_value (ex_then "AP_list_search" (fun l => [l; VI 5]) ex_two) = Some (VP 2 0) /\
  ex_value (ex_then "AP_list_head_item" (fun l => [l]) (ex_then "AP_list_delete" (fun l => [l; VI 6]) ex_two)) = Some (VP 2 0) /\
  ex_then "AP_list_size" (fun l => [l]) (ex_then "AP_list_free" (fun l => [l]) ex_two) = UB "no cell".
Proof. unfold ex_two, ex_then, runs, runs_with. rewrite numbers_ok, p_list_ok. do 4 (split; [vm_compute; reflexivity|]). vm_compute. reflexivity. Qed.
