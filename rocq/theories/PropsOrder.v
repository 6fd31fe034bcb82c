(** Property theorem about the order of handles: C75. *)
From Verif Require Import Base HandleModel HandleSpec HandleExact PropsHandle.

(** C75: from program start, whatever the uninitialised storage, every history of calls on live handles hands out exactly the
    handles [next_handle] says: the most recently freed one that has not been handed out again, or else the smallest one not yet
    used (since the last MPI_Finalize); it aborts exactly when all 262143 are in use. *)
Theorem C75_handle_order :
  forall (D : Type) (junk : Z -> Z -> hitem D) (ops : list (hop D)), in_order D ops (htab_init junk) [] [] 0.
Proof. exact in_order_init. Qed.
Print Assumptions C75_handle_order.
(** The order in a concrete history: 1, 2, 3, free 1, free 3, then 3, 1, 4. *)
Example C75_ex : next_handle [] 2 = Some (3, [], 3) /\ next_handle [3; 1] 3 = Some (3, [1], 3) /\ next_handle [1] 3 = Some (1, [], 3) /\ next_handle [] 3 = Some (4, [], 4) /\
  next_handle [] CAPACITY = None /\
  (do (os, t) <- hexec_all [HAlloc Z; HAlloc Z; HAlloc Z; HFree Z 1; HFree Z 3; HAlloc Z; HAlloc Z; HAlloc Z] (htab_init exh_junk); Ok os) =
  Ok [HHandle Z 1; HHandle Z 2; HHandle Z 3; HUnit Z; HUnit Z; HHandle Z 3; HHandle Z 1; HHandle Z 4].
Proof. repeat split. Qed.
