(** Property theorems about the consistency tests compiled in by CHECKS: C97. *)
From Verif Require Import Base ListModel ListSpec HandleModel HandleSpec CheckModel CheckSpec CheckFacts.

(** C97: full statement: compiling the tests in changes nothing for correct programs and turns every use of a dead handle and
    every deletion of a foreign item into an abort.

    Handles: the tests never fire in a correct program. *)
Theorem C97_handle_checks_silent :
  forall (D : Type) (junk : Z -> Z -> hitem D) (ops : list (hop D)),
    hafter D ops (htab_init junk) (mkHstate D [] 0) (fun t a => forall op, hlegal D a op -> ck_hexec op t = hexec op t).
Proof. exact C97_silent_lemma. Qed.
Print Assumptions C97_handle_checks_silent.
(** They catch exactly the handles outside the table (whose use is undefined otherwise), and any second free except
    possibly of one handle. *)
Theorem C97_handle_checks_catch_partial :
  forall (D : Type) (junk : Z -> Z -> hitem D) (ops : list (hop D)),
    hafter D ops (htab_init junk) (mkHstate D [] 0) (fun t a => ht_need_init t = false -> forall h, h <> 0 ->
      let inside := 1 <= h < 256 * ht_nblocks t in
      (inside -> ck_hexec (HLoad D h) t = hexec (HLoad D h) t /\ forall d, ck_hexec (HStore h d) t = hexec (HStore h d) t) /\
      (~ inside -> (forall out t', hexec (HLoad D h) t <> Ok (out, t')) /\
         ck_hexec (HLoad D h) t = Abort "mpi_verify_handle: bad handle" /\
         ck_hexec (HFree D h) t = Abort "mpi_verify_handle: bad handle" /\
         forall d, ck_hexec (HStore h d) t = Abort "mpi_verify_handle: bad handle") /\
      (hlook D h (hs_live D a) = None -> forall k, k <> 0 -> k <> h -> hlook D k (hs_live D a) = None ->
         (exists m, ck_hexec (HFree D h) t = Abort m) \/ (exists m, ck_hexec (HFree D k) t = Abort m))).
Proof. exact C97_caught_lemma. Qed.
Print Assumptions C97_handle_checks_catch_partial.

(** The test itself, for any handle, block and index. *)
Theorem C97_verify : forall (D : Type) (t : htab D) (handle block index : Z),
  (0 <= block < ht_nblocks t /\ 0 <= index < 256 -> hi_handle (ht_item t block index) = handle -> verify_handle t handle block index = Ok tt) /\
  (0 <= block < ht_nblocks t /\ 0 <= index < 256 -> hi_handle (ht_item t block index) <> handle -> verify_handle t handle block index = Abort "mpi_verify_handle: handle mismatch") /\
  (~ (0 <= block < ht_nblocks t /\ 0 <= index < 256) -> verify_handle t handle block index = Abort "mpi_verify_handle: bad handle").
Proof. exact C97_verify_lemma. Qed.
Print Assumptions C97_verify.

Fixpoint ck_run (ops : list (hop Z)) (t : htab Z) : res (list (hout Z) * htab Z) :=
  match ops with
  | [] => Ok ([], t)
  | op :: r => do (o, t) <- ck_hexec op t; do (os, t) <- ck_run r t; Ok (o :: os, t)
  end.
Definition ck_start : htab Z := htab_init (fun b i => mkHitem 99 None (b * 1000 + i)).
(** A freed handle can still be used; and when all 255 handles of the first block are taken, the first one freed can be freed
    twice: the next two objects then share it. *)
Theorem C97_handle_checks_refuted :
  (do (os, _) <- ck_run [HAlloc Z; HStore 1 11; HFree Z 1; HLoad Z 1] ck_start; Ok os) =
    Ok [HHandle Z 1; HUnit Z; HUnit Z; HData 11] /\
  (do (os, _) <- ck_run (repeat (HAlloc Z) 255 ++ [HFree Z 5; HFree Z 5; HAlloc Z; HAlloc Z]) ck_start; Ok (skipn 255 os)) =
    Ok [HUnit Z; HUnit Z; HHandle Z 5; HHandle Z 5].
Proof. split; vm_compute; reflexivity. Qed.
Print Assumptions C97_handle_checks_refuted.
(** A correct program, and two mistakes that are caught. *)
Example C97_handle_ex :
  (do (os, _) <- ck_run [HAlloc Z; HAlloc Z; HStore 2 7; HLoad Z 2; HFree Z 2] ck_start; Ok os) =
    Ok [HHandle Z 1; HHandle Z 2; HUnit Z; HData 7; HUnit Z] /\
  (do (os, _) <- ck_run [HAlloc Z; HAlloc Z; HFree Z 2; HFree Z 2] ck_start; Ok os) = Abort "mpi_free_handle: handle still in use" /\
  (do (os, _) <- ck_run [HAlloc Z; HLoad Z 256] ck_start; Ok os) = Abort "mpi_verify_handle: bad handle" /\
  (do (os, _) <- ck_run [HAlloc Z; HFree Z (-3)] ck_start; Ok os) = Abort "mpi_verify_handle: bad handle" /\
  (do (_, t) <- ck_run [HAlloc Z; HAlloc Z] ck_start; Ok (ht_need_init t, ht_nblocks t)) = Ok (false, 1).
Proof. do 4 (split; [vm_compute; reflexivity|]). vm_compute. reflexivity. Qed.

(** Lists: in every history of legal calls that deletes nothing from lists made by AP_list_duplicate the tests never fire, and
    an item deleted through another list than its own is caught. *)
Theorem C97_list_checks_partial :
  forall (D : Type) (deq : D -> D -> bool) (junk : Z -> item D) (w : Z -> Z) (ops : list (lop D)),
    ck_after D deq ops (lheap_init junk) w [] [] (fun h w a dups =>
      forall l xs i d l', look D l a = Some xs -> In (i, d) xs -> ~ In l dups -> l' <> l ->
        ck_lexec deq (ODeleteItem D l' i) (h, w) = Abort "AP_list_delete_item: item is not in list").
Proof. exact C97_lists_lemma. Qed.
Print Assumptions C97_list_checks_partial.

Fixpoint ckl_run (ops : list (lop Z)) (x : ckheap Z) : res (list (lout Z) * ckheap Z) :=
  match ops with
  | [] => Ok ([], x)
  | op :: r => do (o, x) <- ck_lexec Z.eqb op x; do (os, x) <- ckl_run r x; Ok (o :: os, x)
  end.
Fixpoint l_run (ops : list (lop Z)) (x : lheap Z) : res (list (lout Z) * lheap Z) :=
  match ops with
  | [] => Ok ([], x)
  | op :: r => do (o, x) <- lexec Z.eqb op x; do (os, x) <- l_run r x; Ok (o :: os, x)
  end.
Definition l_start : lheap Z := lheap_init (fun _ => mkItem 77 (Some 5) (Some 9)).
(** The items of a duplicate do not know their list (fresh storage holds 0, say): a legal deletion aborts. *)
Theorem C97_list_checks_refuted :
  let prog := [ONew Z; OAppend 1 7; ODup Z 1; ODelete 3 7] in
  (do (os, _) <- l_run prog l_start; Ok os) = Ok [RPtr Z (Some 1); RPtr Z (Some 2); RPtr Z (Some 3); RInt Z 1] /\
  (do (os, _) <- ckl_run prog (l_start, fun _ => 0); Ok os) = Abort "AP_list_delete_item: item is not in list".
Proof. split; vm_compute; reflexivity. Qed.
Print Assumptions C97_list_checks_refuted.
Example C97_list_ex :
  (do (os, _) <- ckl_run [ONew Z; ONew Z; OAppend 1 7; OPrepend 1 8; ODup Z 1; ODelete 1 7; ODeleteItem Z 1 4; OSize Z 1] (l_start, fun _ => 0); Ok os) =
    Ok [RPtr Z (Some 1); RPtr Z (Some 2); RPtr Z (Some 3); RPtr Z (Some 4); RPtr Z (Some 5); RInt Z 1; RUnit Z; RInt Z 0] /\
  (do (os, _) <- ckl_run [ONew Z; ONew Z; OAppend 1 7; ODeleteItem Z 2 3] (l_start, fun _ => 0); Ok os) =
    Abort "AP_list_delete_item: item is not in list".
Proof. split; vm_compute; reflexivity. Qed.
