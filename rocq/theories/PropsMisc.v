(** Property theorems about strings and time: C68, C69, C72, C77 and C85. *)
From Coq Require Import Floats.SpecFloat.
From Verif Require Import Base MiscModel MiscSpec MiscFacts WtimeModel WtimeSpec WtimeFacts.

(** C68: for every code the buffer holds "MPI Error: code <number in decimal>\n", of the reported length, within the limit. *)
Theorem C68_error_string :
  forall code buf, INT_MIN <= code <= INT_MAX -> (Z.to_nat MPI_MAX_ERROR_STRING <= length buf)%nat ->
    exists buf' num, let s := text "MPI Error: code " ++ num ++ [10] in
      MPI_Error_string code buf = Ok (buf', Z.of_nat (length s)) /\ denotes num code /\ holds buf' s /\
      Z.of_nat (length s) < MPI_MAX_ERROR_STRING /\ same_after (length s + 1) buf buf'.
Proof. exact C68_lemma. Qed.
Print Assumptions C68_error_string.
Theorem C68_distinct :
  forall x y b1 b2, INT_MIN <= x <= INT_MAX -> INT_MIN <= y <= INT_MAX ->
    (Z.to_nat MPI_MAX_ERROR_STRING <= length b1)%nat -> (Z.to_nat MPI_MAX_ERROR_STRING <= length b2)%nat -> x <> y ->
    exists b1' n1 b2' n2, MPI_Error_string x b1 = Ok (b1', n1) /\ MPI_Error_string y b2 = Ok (b2', n2) /\
      forall s1 s2, holds b1' s1 -> holds b2' s2 -> s1 <> s2.
Proof. exact C68_distinct_lemma. Qed.
Print Assumptions C68_distinct.
Example C68_ex : exists buf', MPI_Error_string (-2147483648) (repeat 7 128) = Ok (buf', 28) /\ firstn 29 buf' = text "MPI Error: code -2147483648" ++ [10; 0].
Proof. eexists. split; vm_compute; reflexivity. Qed.

(** C69: whatever gethostname returns and stores, the buffer holds a string shorter than the limit, of the reported length:
    "unknown host name" if it failed, the host name if it fits, and its first 127 characters if it does not. *)
Theorem C69_processor_name :
  forall gh buf, Z.of_nat (length (gh_bytes gh)) <= MPI_MAX_PROCESSOR_NAME <= Z.of_nat (length buf) ->
    exists buf' s, MPI_Get_processor_name gh buf = Ok (buf', Z.of_nat (length s)) /\ holds buf' s /\ Z.of_nat (length s) < MPI_MAX_PROCESSOR_NAME /\
      same_after (Z.to_nat MPI_MAX_PROCESSOR_NAME) buf buf' /\
      (gh_ret gh <> 0 -> s = text "unknown host name") /\
      (forall h, gh_ret gh = 0 -> ~ In 0 h -> Z.of_nat (length h) < MPI_MAX_PROCESSOR_NAME -> gh_bytes gh = h ++ [0] -> s = h) /\
      (forall h, gh_ret gh = 0 -> ~ In 0 h -> MPI_MAX_PROCESSOR_NAME <= Z.of_nat (length h) -> gh_bytes gh = firstn (Z.to_nat MPI_MAX_PROCESSOR_NAME) h ->
         s = firstn (Z.to_nat (MPI_MAX_PROCESSOR_NAME - 1)) h).
Proof. exact C69_name_lemma. Qed.
Print Assumptions C69_processor_name.
Theorem C69_library_version :
  forall buf, MPI_MAX_LIBRARY_VERSION_STRING <= Z.of_nat (length buf) ->
    exists buf', MPI_Get_library_version buf = Ok (buf', Z.of_nat (length mpi_version_string)) /\ holds buf' mpi_version_string /\
      Z.of_nat (length mpi_version_string) < MPI_MAX_LIBRARY_VERSION_STRING /\ same_after (Z.to_nat MPI_MAX_LIBRARY_VERSION_STRING) buf buf'.
Proof. exact C69_version_lemma. Qed.
Print Assumptions C69_library_version.
Theorem C69_fortran_version :
  forall buf, MPI_MAX_LIBRARY_VERSION_STRING <= Z.of_nat (length buf) ->
    exists buf', mpi_get_library_version buf = Ok (buf', Z.of_nat (length mpi_version_string)) /\
      padded (Z.to_nat MPI_MAX_LIBRARY_VERSION_STRING) buf' mpi_version_string /\ same_after (Z.to_nat MPI_MAX_LIBRARY_VERSION_STRING) buf buf'.
Proof. exact C69_fortran_lemma. Qed.
Print Assumptions C69_fortran_version.
(** A host name of 200 characters, cut; one that fails. *)
Example C69_ex : exists b1 b2, MPI_Get_processor_name (mkHost 0 (repeat 97 128)) (repeat 7 128) = Ok (b1, 127) /\
  MPI_Get_processor_name (mkHost (-1) [97; 98]) (repeat 7 130) = Ok (b2, 17) /\ firstn 18 b2 = text "unknown host name" ++ [0].
Proof. eexists _, _. split; [vm_compute; reflexivity|]. split; vm_compute; reflexivity. Qed.

(** C77: string results in Fortran.  Full statement: padded with blanks, for mpi_error_string and mpi_get_processor_name too.  What
    holds: mpi_get_library_version ([C69_fortran_version]).  False for the two others: a NUL is left in the variable. *)
Theorem C77_fortran_strings_refuted :
  (exists b n, mpi_error_string 5 (repeat 32 128) = Ok (b, n) /\ n < 128 /\ In 0 (firstn 128 b)) /\
  (exists b n, mpi_get_processor_name (mkHost 0 (text "node7" ++ [0])) (repeat 32 128) = Ok (b, n) /\ n < 128 /\ In 0 (firstn 128 b)).
Proof.
  split; eexists _, _; (split; [vm_compute; reflexivity|]; split; [lia|]); vm_compute; repeat ((left; reflexivity) || right).
Qed.
Print Assumptions C77_fortran_strings_refuted.

(** C72: if the clock reading (s2, u2) is not before (s1, u1), the result is not smaller.  [SFleb]: the comparison <= of doubles. *)
Theorem C72_wtime_monotone :
  forall s1 u1 s2 u2, - 2 ^ 53 <= s1 < 2 ^ 63 -> - 2 ^ 53 <= s2 < 2 ^ 63 -> 0 <= u1 < 1000000 -> 0 <= u2 < 1000000 ->
    s1 < s2 \/ s1 = s2 /\ u1 <= u2 ->
    exists t1 t2, MPI_Wtime (Some (s1, u1)) = Ok t1 /\ MPI_Wtime (Some (s2, u2)) = Ok t2 /\ SFleb t1 t2 = true.
Proof. exact C72_lemma. Qed.
Print Assumptions C72_wtime_monotone.
Example C72_ex : MPI_Wtime (Some (1700000000, 250000)) = Ok (S754_finite false 7130316801048576 (-22)).
Proof. vm_compute. reflexivity. Qed.
(** The bound is sharp: one second further back than -2^53 seconds the result can decrease. *)
Theorem C72_bound_is_sharp :
  (do t1 <- MPI_Wtime (Some (- 2 ^ 53 - 1, 900000)); do t2 <- MPI_Wtime (Some (- 2 ^ 53, 0)); Ok (SFltb t2 t1)) = Ok true.
Proof. vm_compute. reflexivity. Qed.
Print Assumptions C72_bound_is_sharp.

(** C85: at a clock of less than 2^33 seconds (the year 2242) either way the result is less than half a microsecond off, *)
Theorem C85_accuracy :
  forall s u, - 2 ^ 33 < s < 2 ^ 33 -> 0 <= u < 1000000 ->
    exists t, MPI_Wtime (Some (s, u)) = Ok t /\ nearest_microsecond t (1000000 * s + u).
Proof. exact C85_accuracy_lemma. Qed.
Print Assumptions C85_accuracy.
(** so that a later reading of the clock gives a larger result. *)
Theorem C85_resolution :
  forall s1 u1 s2 u2, - 2 ^ 33 < s1 < 2 ^ 33 -> - 2 ^ 33 < s2 < 2 ^ 33 -> 0 <= u1 < 1000000 -> 0 <= u2 < 1000000 ->
    s1 < s2 \/ s1 = s2 /\ u1 < u2 ->
    exists t1 t2, MPI_Wtime (Some (s1, u1)) = Ok t1 /\ MPI_Wtime (Some (s2, u2)) = Ok t2 /\ SFltb t1 t2 = true.
Proof. exact C85_resolution_lemma. Qed.
Print Assumptions C85_resolution.
(** At 2^33 seconds two readings a microsecond apart give one result, which is not within half a microsecond of both. *)
Theorem C85_bound_is_sharp :
  MPI_Wtime (Some (2 ^ 33, 1)) = MPI_Wtime (Some (2 ^ 33, 2)).
Proof. vm_compute. reflexivity. Qed.
Print Assumptions C85_bound_is_sharp.
(** The bounds are on the clock, not on the result: the example of C72, and the last microsecond before the bound. *)
Example C85_ex : nearest_microsecond (S754_finite false 7130316801048576 (-22)) 1700000000250000 /\
  (do t1 <- MPI_Wtime (Some (2 ^ 33 - 1, 999998)); do t2 <- MPI_Wtime (Some (2 ^ 33 - 1, 999999)); Ok (SFltb t1 t2)) = Ok true.
Proof. split; [cbn; lia|]. vm_compute. reflexivity. Qed.
