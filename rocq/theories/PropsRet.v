(** C74: return codes.  The tables [returns_of] and [ierror_of] are in RetModel. *)
From Verif Require Import Base RetModel RetFacts.

(** A routine that returns a code returns MPI_SUCCESS. *)
Theorem C74_every_return_is_success : forall f v, returns f v -> v = 0.
Proof. exact C74_lemma. Qed.
Print Assumptions C74_every_return_is_success.

(** So does what a Fortran entry point stores in its error argument. *)
Theorem C74_every_ierror_is_success : forall f v, stores f v -> v = 0.
Proof. exact C74_fortran_lemma. Qed.
Print Assumptions C74_every_ierror_is_success.

(** The two statements are not empty: every routine in the tables but MPI_Abort has a way to return. *)
Theorem C74_every_routine_can_return :
  (forall f rs, In (f, rs) returns_of -> f <> "MPI_Abort"%string -> returns f 0) /\
  (forall f r, In (f, r) ierror_of -> f <> "mpi_abort"%string -> stores f 0).
Proof. exact (conj C74_returns_lemma C74_stores_lemma). Qed.
Print Assumptions C74_every_routine_can_return.

Example C74_ex : returns "MPI_Recv" 0 /\ stores "mpi_recv" 0 /\ length returns_of = 198%nat /\ length ierror_of = 88%nat.
Proof.
  split; [|split; [|split; reflexivity]].
  - eapply C74_returns_lemma with (rs := [Success]); [|discriminate]. repeat ((left; reflexivity) || right).
  - eapply C74_stores_lemma with (r := Of "MPI_Recv"); [|discriminate]. repeat ((left; reflexivity) || right).
Qed.
