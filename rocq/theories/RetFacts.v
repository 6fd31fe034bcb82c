From Verif Require Import Base RetModel.

Definition fine (r : rexpr) : bool := match r with Value n => n =? 0 | _ => true end.
Lemma all_fine : forallb (fun x => forallb fine (snd x)) returns_of = true.
Proof. vm_compute. reflexivity. Qed.
Lemma all_stored_fine : forallb (fun x => fine (snd x)) ierror_of = true.
Proof. vm_compute. reflexivity. Qed.
Theorem C74_lemma f v : returns f v -> v = MPI_SUCCESS.
Proof.
  induction 1 as [f rs I S|f rs n I V|f rs g v I C R IH]; [reflexivity| |exact IH].
  assert (A := all_fine). rewrite forallb_forall in A. specialize (A _ I). cbn [snd] in A. rewrite forallb_forall in A. specialize (A _ V).
  apply Z.eqb_eq in A. exact A.
Qed.
Theorem C74_fortran_lemma f v : stores f v -> v = MPI_SUCCESS.
Proof.
  destruct 1 as [f I|f n I|f g v I R]; [reflexivity| |exact (C74_lemma _ _ R)].
  assert (A := all_stored_fine). rewrite forallb_forall in A. specialize (A _ I). apply Z.eqb_eq in A. exact A.
Qed.

(** Conversely every routine but MPI_Abort does return. *)
Fixpoint ends (fuel : nat) (f : string) : bool :=
  match fuel with
  | O => false
  | S k => existsb (fun x => if String.eqb (fst x) f then existsb (fun r => match r with Success => true | Value n => n =? 0 | Of g => ends k g end) (snd x) else false) returns_of
  end.
Lemma ends_ok : forall k f, ends k f = true -> returns f MPI_SUCCESS.
Proof.
  induction k as [|k IH]; intros f H; [discriminate|]. cbn [ends] in H. apply existsb_exists in H. destruct H as ([f' rs] & I & H).
  cbn [fst snd] in H. destruct (String.eqb_spec f' f) as [->|]; [|discriminate]. apply existsb_exists in H.
  destruct H as (r & Ir & H). destruct r as [|g|n].
  - eapply ret_success; eauto.
  - eapply ret_call; eauto.
  - apply Z.eqb_eq in H. subst n. eapply ret_value; eauto.
Qed.
Lemma all_end : forallb (fun x => String.eqb (fst x) "MPI_Abort" || ends 8 (fst x)) returns_of = true.
Proof. vm_compute. reflexivity. Qed.
Theorem C74_returns_lemma f rs : In (f, rs) returns_of -> f <> "MPI_Abort"%string -> returns f MPI_SUCCESS.
Proof.
  intros I N. assert (A := all_end). rewrite forallb_forall in A. specialize (A _ I). apply orb_true_iff in A. cbn [fst] in A.
  destruct A as [A|A]; [apply String.eqb_eq in A; congruence|]. exact (ends_ok _ _ A).
Qed.
Lemma all_store : forallb (fun x => String.eqb (fst x) "mpi_abort" || match snd x with Success => true | Value n => n =? 0 | Of g => ends 8 g end) ierror_of = true.
Proof. vm_compute. reflexivity. Qed.
Theorem C74_stores_lemma f r : In (f, r) ierror_of -> f <> "mpi_abort"%string -> stores f MPI_SUCCESS.
Proof.
  intros I N. assert (A := all_store). rewrite forallb_forall in A. specialize (A _ I). apply orb_true_iff in A. cbn [fst snd] in A.
  destruct A as [A|A]; [apply String.eqb_eq in A; congruence|]. destruct r as [|g|n].
  - apply st_success. exact I.
  - eapply st_call; [exact I|]. exact (ends_ok _ _ A).
  - apply Z.eqb_eq in A. subst n. apply st_value. exact I.
Qed.
