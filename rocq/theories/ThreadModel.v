(** Model of two threads inside mpi_alloc_handle (handles.c 178-225), one statement at a time.  There is no lock anywhere in
    the library.  Simplifications: each statement is one atomic step, initialising the table and adding a block are done
    together with the test before them, and only this function is split up.  All three leave out interleavings the code
    has; they add none. *)
From Verif Require Import Base HandleModel.
Set Implicit Arguments.

Section ThreadModel.
Variable D : Type.

(** handles.c 182-194: where a thread is, and its local variable new: before line 182, 187, 188, 189, 191, and after the return. *)
Inductive at_line :=
| L182 | L187 | L188 (new : option (Z * Z)) | L189 (new : option (Z * Z)) | L191 (new : option (Z * Z))
| Returned (handle : Z) (data : Z * Z).

(** Using the pointers nextfree (handles.c 188) and new (189, 191): NULL is undefined. *)
Definition deref (p : option (Z * Z)) : res (Z * Z) := match p with Some p => Ok p | None => UB "NULL" end.

(** handles.c 182-192, and 201-217 in one step. *)
Definition step (l : at_line) (t : htab D) : res (at_line * htab D) :=
  match l with
  | L182 =>
      do t <- (if ht_need_init t then init_handles t else Ok t);
      match ht_nextfree t with
      | Some _ => Ok (L187, t)
      | None => do (h, p, t) <- alloc_handle t; Ok (Returned h p, t)
      end
  | L187 => Ok (L188 (ht_nextfree t), t)
  | L188 new => do p <- deref (ht_nextfree t); do it <- h_get t p; Ok (L189 new, set_nextfree t (hi_next it))
  | L189 new => do p <- deref new; do it <- h_get t p; do t <- h_put t p (mkHitem (hi_handle it) None (hi_data it)); Ok (L191 new, t)
  | L191 new => do p <- deref new; do it <- h_get t p; Ok (Returned (hi_handle it) p, t)
  | Returned h p => Ok (Returned h p, t)
  end.

(** handles.c 182-194 run by two threads; the schedule says which one takes the next step. *)
Fixpoint threads (sch : list bool) (a b : at_line) (t : htab D) : res (at_line * at_line * htab D) :=
  match sch with
  | [] => Ok (a, b, t)
  | false :: r => do (a, t) <- step a t; threads r a b t
  | true :: r => do (b, t) <- step b t; threads r a b t
  end.
End ThreadModel.
