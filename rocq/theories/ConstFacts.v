(** Proofs about the constants: finite checks. *)
From Verif Require Import Base HeaderModel ConstSpec.
Local Open Scope string_scope.

Definition synb (n m : string) : bool :=
  if String.eqb n m then true else
  if String.eqb n "MPI_LONG_LONG_INT" then String.eqb m "MPI_LONG_LONG" else
  if String.eqb n "MPI_LONG_LONG" then String.eqb m "MPI_LONG_LONG_INT" else false.
Lemma synb_ok n m : synb n m = true -> synonyms n m.
Proof.
  unfold synb, synonyms. destruct (String.eqb n m) eqn:E; [apply String.eqb_eq in E; auto|].
  destruct (String.eqb n "MPI_LONG_LONG_INT") eqn:E1; [apply String.eqb_eq in E1; intros H; apply String.eqb_eq in H; auto|].
  destruct (String.eqb n "MPI_LONG_LONG") eqn:E2; [apply String.eqb_eq in E2; intros H; apply String.eqb_eq in H; auto|discriminate].
Qed.
Definition memb (n : string) (l : list string) : bool := existsb (String.eqb n) l.
Lemma memb_ok n l : memb n l = true <-> In n l.
Proof.
  unfold memb. rewrite existsb_exists. split; [intros (x & I & E); apply String.eqb_eq in E; subst; exact I|].
  intros I. exists n. split; [exact I|apply String.eqb_refl].
Qed.
Definition part (h : list (string * Z)) (k : list string) := filter (fun p => memb (fst p) k) h.
Definition apartb (h : list (string * Z)) (k : list string) : bool :=
  forallb (fun p => forallb (fun q => if Z.eqb (snd p) (snd q) then synb (fst p) (fst q) else true) (part h k)) (part h k).
Lemma apartb_ok h k : apartb h k = true -> told_apart h k.
Proof.
  intros A n m v w In_ Im Hn Hm E. unfold apartb in A. rewrite forallb_forall in A.
  assert (Pn : In (n, v) (part h k)) by (unfold part; rewrite filter_In; split; [exact Hn|apply memb_ok; exact In_]).
  assert (Pm : In (m, w) (part h k)) by (unfold part; rewrite filter_In; split; [exact Hm|apply memb_ok; exact Im]).
  specialize (A _ Pn). rewrite forallb_forall in A. specialize (A _ Pm). cbn [fst snd] in A.
  subst w. rewrite Z.eqb_refl in A. apply synb_ok, A.
Qed.
Lemma C83_lemma h k : h = mpi_h \/ h = mpif_h -> In k kept_apart -> told_apart h k.
Proof.
  intros H I. apply apartb_ok.
  assert (forallb (apartb mpi_h) kept_apart = true) as A1 by (vm_compute; reflexivity).
  assert (forallb (apartb mpif_h) kept_apart = true) as A2 by (vm_compute; reflexivity).
  rewrite forallb_forall in A1, A2. destruct H; subst h; auto.
Qed.
Definition valb (p : string * Z) : bool :=
  if (if memb (fst p) error_names then Z.ltb (snd p) 0 else true) then
  if (if String.eqb (fst p) "MPI_SUCCESS" then Z.eqb (snd p) 0 else true) then
  if (if memb (fst p) rank_names then Z.ltb (snd p) 0 else true) then
  if (if String.eqb (fst p) "MPI_ANY_TAG" then Z.ltb (snd p) 0 else true) then
  if memb (fst p) type_names then if String.eqb (fst p) "MPI_DATATYPE_NULL" then true else Z.ltb (snd p) 0 else
  forallb (fun i => match nth_error level_names i with Some m => if String.eqb m (fst p) then Z.eqb (snd p) (Z.of_nat i) else true | None => true end) (seq 0 4)
  else false else false else false else false.
Lemma C83_values_lemma h n v : h = mpi_h \/ h = mpif_h -> In (n, v) h ->
  (In n error_names -> (v < 0)%Z) /\ (n = "MPI_SUCCESS" -> v = 0%Z) /\ (In n rank_names -> (v < 0)%Z) /\ (n = "MPI_ANY_TAG" -> (v < 0)%Z) /\
  (In n type_names -> n = "MPI_DATATYPE_NULL" \/ (v < 0)%Z) /\
  (forall i, nth_error level_names i = Some n -> v = Z.of_nat i).
Proof.
  intros H I. assert (A : valb (n, v) = true).
  { assert (forallb valb mpi_h = true) as A1 by (vm_compute; reflexivity). assert (forallb valb mpif_h = true) as A2 by (vm_compute; reflexivity).
    rewrite forallb_forall in A1, A2. destruct H; subst h; auto. }
  unfold valb in A. cbn [fst snd] in A.
  destruct (if memb n error_names then Z.ltb v 0 else true) eqn:A1; [|discriminate].
  destruct (if String.eqb n "MPI_SUCCESS" then Z.eqb v 0 else true) eqn:A2; [|discriminate].
  destruct (if memb n rank_names then Z.ltb v 0 else true) eqn:A3; [|discriminate].
  destruct (if String.eqb n "MPI_ANY_TAG" then Z.ltb v 0 else true) eqn:A4; [|discriminate].
  split; [intros J; apply memb_ok in J; rewrite J in A1; apply Z.ltb_lt; exact A1|].
  split; [intros J; rewrite J, String.eqb_refl in A2; apply Z.eqb_eq; exact A2|].
  split; [intros J; apply memb_ok in J; rewrite J in A3; apply Z.ltb_lt; exact A3|].
  split; [intros J; rewrite J, String.eqb_refl in A4; apply Z.ltb_lt; exact A4|].
  split.
  - intros J. apply memb_ok in J. rewrite J in A. destruct (String.eqb n "MPI_DATATYPE_NULL") eqn:E; [left; apply String.eqb_eq; exact E|right; apply Z.ltb_lt; exact A].
  - intros i J. destruct (memb n type_names) eqn:E.
    + exfalso. assert (forallb (fun m => negb (memb m type_names)) level_names = true) as D by (vm_compute; reflexivity).
      rewrite forallb_forall in D. specialize (D _ (nth_error_In _ _ J)). rewrite E in D. discriminate.
    + rewrite forallb_forall in A. assert (Hi : (i < 4)%nat) by (change 4%nat with (length level_names); apply nth_error_Some; rewrite J; discriminate).
      specialize (A i (proj2 (in_seq _ _ _) (conj (Nat.le_0_l _) Hi))). cbv beta in A. rewrite J, String.eqb_refl in A. apply Z.eqb_eq, A.
Qed.
Lemma C83_cover_lemma n : In n (map fst mpi_h ++ map fst mpif_h) -> In n (concat (kept_apart ++ lumped) ++ other_names).
Proof.
  assert (forallb (fun n => memb n (concat (kept_apart ++ lumped) ++ other_names)) (map fst mpi_h ++ map fst mpif_h) = true) as A by (vm_compute; reflexivity).
  rewrite forallb_forall in A. intros I. apply memb_ok, A, I.
Qed.
Lemma declared_once (h : list (string * Z)) n v : existsb (fun x => String.eqb (fst x) n && Z.eqb (snd x) v) h = true ->
  forallb (fun x => negb (String.eqb (fst x) n) || Z.eqb (snd x) v) h = true -> In (n, v) h /\ forall w, In (n, w) h -> w = v.
Proof.
  intros E A. split.
  - apply existsb_exists in E. destruct E as ([a b] & I & E). apply andb_true_iff in E. cbn [fst snd] in E. destruct E as [E1 E2].
    apply String.eqb_eq in E1. apply Z.eqb_eq in E2. subst. exact I.
  - intros w I. rewrite forallb_forall in A. specialize (A _ I). cbn [fst snd] in A. rewrite String.eqb_refl in A. apply Z.eqb_eq. exact A.
Qed.
