(** Property theorems about list.c: C06, C07, C08. *)
From Verif Require Import Base ListModel ListSpec ListRefine.

(** C06: every history of legal list calls, on any number of lists, behaves as sequences do:
    every call returns, and its result and effect are those of the sequence specification
    (in particular forward and backward traversals give the sequence and its reverse). *)
Theorem C06_lists_are_sequences :
  forall (D : Type) (deq : D -> D -> bool) (junk : Z -> item D) (ops : list (lop D)),
    after D deq ops (lheap_init junk) []
      (fun h a => forall l xs, look D l a = Some xs ->
         list_traverse l h = Ok (map snd xs) /\ list_rev_traverse l h = Ok (rev (map snd xs))).
Proof.
  exact (fun D deq junk ops =>
    after_init D deq junk ops _
      (fun h a A l xs L => proj2 (abs_size_traverse D h a l xs A L))).
Qed.
Print Assumptions C06_lists_are_sequences.

(** C07: after every history, the reported size is the number of elements, freeing any live
    list succeeds, and the leak check reports "nothing outstanding" exactly when all lists are freed. *)
Theorem C07_accounting :
  forall (D : Type) (deq : D -> D -> bool) (junk : Z -> item D) (ops : list (lop D)),
    after D deq ops (lheap_init junk) []
      (fun h a =>
         (forall l xs, look D l a = Some xs ->
            list_size l h = Ok (Z.of_nat (length xs)) /\
            exists h', list_free l h = Ok h') /\
         (listitem_verify h = false <-> a = [])).
Proof.
  exact (fun D deq junk ops =>
    after_init D deq junk ops _
      (fun h a A => conj
        (fun l xs L => conj (proj1 (abs_size_traverse D h a l xs A L))
                            (match abs_free_ok D deq h a l xs A L with
                             | ex_intro _ h' (conj E _) => ex_intro _ h' E end))
        (abs_verify D h a A))).
Qed.
Print Assumptions C07_accounting.

(** C08: after every history, every legal next call returns: it neither loops forever,
    nor dereferences NULL or freed storage, nor aborts. *)
Theorem C08_total_and_safe :
  forall (D : Type) (deq : D -> D -> bool) (junk : Z -> item D) (ops : list (lop D)),
    after D deq ops (lheap_init junk) []
      (fun h a => forall op, legal D a op -> fits D a op ->
         exists out h', lexec deq op h = Ok (out, h')).
Proof.
  exact (fun D deq junk ops =>
    after_init D deq junk ops _
      (fun h a A op L F => match step_refines D deq h a op A L F with
        | ex_intro _ out (ex_intro _ h' (ex_intro _ _ (conj E _))) => ex_intro _ out (ex_intro _ h' E) end)).
Qed.
Print Assumptions C08_total_and_safe.

(** Non-vacuity: a concrete history on two lists that meets the hypotheses, and its outputs. *)
Definition ex_junk : Z -> item Z := fun _ => mkItem 77 (Some 5) (Some 9).
Definition ex_ops : list (lop Z) :=
  [ONew Z; ONew Z; OAppend 1 10; OAppend 1 20; OPrepend 1 5; OAppend 2 7; ODeleteItem Z 1 3; ODup Z 1; OFree Z 1].
Fixpoint lexec_all (ops : list (lop Z)) (h : lheap Z) : res (list (lout Z) * lheap Z) :=
  match ops with
  | [] => Ok ([], h)
  | op :: r => do (o, h) <- lexec Z.eqb op h; do (os, h) <- lexec_all r h; Ok (o :: os, h)
  end.
Example ex_outputs :
  (do (os, h) <- lexec_all ex_ops (lheap_init ex_junk);
   do s <- list_traverse 7 h; do n <- list_size 7 h; Ok (os, s, n, listitem_verify h)) =
  Ok ([RPtr Z (Some 1); RPtr Z (Some 2); RPtr Z (Some 3); RPtr Z (Some 4); RPtr Z (Some 5);
       RPtr Z (Some 6); RUnit Z; RPtr Z (Some 7); RUnit Z], [5; 20], 2, true).
Proof. vm_compute. reflexivity. Qed.
(** the sixth call of the history is legal in the specification state reached there *)
Example ex_legal :
  let a := [(2, [(6, 7)]); (1, [(5, 5); (3, 10); (4, 20)])] in
  legal Z a (ODeleteItem Z 1 3) /\ fits Z a (ODeleteItem Z 1 3) /\ fits Z a (ODup Z 1).
Proof.
  simpl. repeat split; try (unfold INT_MAX; lia).
  - exists [(5, 5); (3, 10); (4, 20)], 10. simpl. auto.
  - intros xs H. inversion H; subst. simpl. unfold INT_MAX. lia.
Qed.
