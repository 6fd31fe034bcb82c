(** C73: the thread level. *)
From Verif Require Import Base HandleModel ThreadModel ThreadSpec ThreadFacts SysModel CollModel SysCalls SysEx.

(** The level asked for is the level reported, in every state in which MPI_Init works. *)
Theorem C73_reports_what_is_asked : forall r s, MPI_Init_thread r s = (do (_, s) <- MPI_Init s; Ok (r, s)).
Proof. exact C73_level_lemma. Qed.
Print Assumptions C73_reports_what_is_asked.

(** Up to MPI_THREAD_SERIALIZED calls do not overlap.  A thread on its own does what the function does, and two threads one
    after the other what two calls do, for every table. *)
Theorem C73_serialized_partial : forall (D : Type) (t : htab D),
  (forall b, threads [false; false; false; false; false] L182 b t = (do (h, p, t) <- alloc_handle t; Ok (Returned h p, b, t))) /\
  threads ([false; false; false; false; false] ++ [true; true; true; true; true]) L182 L182 t =
    (do (h1, p1, t) <- alloc_handle t; do (h2, p2, t) <- alloc_handle t; Ok (Returned h1 p1, Returned h2 p2, t)).
Proof. exact (fun D t => conj (step5 t) (C73_serial_lemma t)). Qed.
Print Assumptions C73_serialized_partial.

(** Full statement: for every schedule there is an order of the two calls with the same results.  With two free entries the
    outcome of every schedule is this: if both threads read nextfree before either moves it, both get the same handle;
    otherwise the schedule acts as the two calls in the order in which the threads moved it. *)
Theorem C73_all_schedules : forall (D : Type) (t : htab D) p q ip iq sch,
  two_free t p q ip iq -> five_each sch ->
  let hp := Returned (hi_handle ip) p in let hq := Returned (hi_handle iq) q in
  exists a b t', threads sch L182 L182 t = Ok (a, b, t') /\
    if both_read_first sch then a = hp /\ b = hp
    else (a, b) = (if false_first sch then (hp, hq) else (hq, hp)) /\
         exists t1 t2, alloc_handle t = Ok (hi_handle ip, p, t1) /\ alloc_handle t1 = Ok (hi_handle iq, q, t2) /\ same_tab t' t2.
Proof. exact (@C73_schedules_lemma). Qed.
Print Assumptions C73_all_schedules.

(** MPI_Init_thread reports MPI_THREAD_MULTIPLE (3); then two threads creating a handle at the same time both get handle 2.
    One after the other they get 2 and 3. *)
Definition race : list bool := [false; true; false; true; false; true; false; true; false; true].
Definition got (x : res (at_line * at_line * htab obj)) : option (Z * Z) :=
  match x with Ok (Returned a _, Returned b _, _) => Some (a, b) | _ => None end.
Theorem C73_thread_multiple_refuted :
  (do (r, s) <- MPI_Init_thread 3 ex_start;
   Ok (r, got (threads race L182 L182 (s_tab s)),
       got (threads ([false; false; false; false; false] ++ [true; true; true; true; true]) L182 L182 (s_tab s)),
       got (threads ([true; true; true; true; true] ++ [false; false; false; false; false]) L182 L182 (s_tab s))))
  = Ok (3, Some (2, 2), Some (2, 3), Some (3, 2)).
Proof. vm_compute. reflexivity. Qed.
Print Assumptions C73_thread_multiple_refuted.

(** The hypotheses of [C73_all_schedules] are met by the table after MPI_Init and both kinds of schedule. *)
Example C73_ex :
  (do (_, s) <- MPI_Init ex_start;
   let t := s_tab s in
   do ip <- h_get t (0, 2); do iq <- h_get t (0, 3);
   Ok (ht_need_init t, ht_nextfree t, hi_next ip, hi_handle ip, hi_handle iq)) = Ok (false, Some (0, 2), Some (0, 3), 2, 3) /\
  five_each race /\ both_read_first race = true /\
  five_each (false :: false :: false :: true :: true :: true :: true :: false :: true :: [false]) /\
  both_read_first (false :: false :: false :: true :: true :: true :: true :: false :: true :: [false]) = false.
Proof. vm_compute. repeat split. Qed.
