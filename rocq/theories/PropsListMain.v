(** C101: deleting items while walking over a list, and the test program of list.c. *)
From Verif Require Import Base ListModel ListSpec ListRefine PrintModel PrintSpec PrintFacts ListMainModel ListMainSpec ListMainFacts PropsList.
Local Open Scope string_scope.

(** After any history, a walk over any live list that deletes whatever items it chooses, by position and datum, shows every datum
    once and in order and leaves exactly the others; every further history behaves as the specification says. *)
Theorem C101_delete_while_walking :
  forall (junk : Z -> item Z) (ops : list (lop Z)) (strict : bool) (sel : Z -> Z -> bool),
    ListSpec.after Z Z.eqb ops (lheap_init junk) [] (fun h a => forall l xs, look Z l a = Some xs ->
      exists h', weed strict sel l h = Ok (weed_text sel 0 (map snd xs), h') /\
        forall more, ListSpec.after Z Z.eqb more h' (replace Z l (kept sel 0 xs) a) (fun h2 a2 => forall k ys, look Z k a2 = Some ys ->
          list_size k h2 = Ok (Z.of_nat (length ys)) /\ list_traverse k h2 = Ok (map snd ys) /\ list_rev_traverse k h2 = Ok (rev (map snd ys)))).
Proof. exact (fun junk ops strict sel => after_init Z Z.eqb junk ops _ (fun h a A l xs L => C101_weed_lemma strict sel h a l xs A L)). Qed.
Print Assumptions C101_delete_while_walking.
Definition weed_junk (i : Z) : item Z := mkItem (i * 7) (Some i) (Some (i + 3)).
(** Three items, the data above 15 deleted; the first of them is the head. *)
Example C101_ex :
  (do (os, h) <- lexec_all [ONew Z; OAppend 1 20; OAppend 1 10; OAppend 1 30] (lheap_init weed_junk);
   do (o, h) <- weed true (fun _ d => (15 <? d)%Z) 1 h; do f <- list_traverse 1 h; do b <- list_rev_traverse 1 h; do n <- list_size 1 h; Ok (o, f, b, n)) =
  Ok ([Text "  Got item "; Num 20; Text " - deleted\n"; Text "  Got item "; Num 10; Text "\n"; Text "  Got item "; Num 30; Text " - deleted\n"], [10], [10], 1).
Proof. vm_compute; reflexivity. Qed.

(** The test program runs to its end, prints what sequences say, and nothing is left allocated.  By the letter of C it is undefined
    at its first AP_list_print, which shows a pointer with %d. *)
Theorem C101_test_program :
  forall junk : Z -> item Z, listmain false junk = Ok (listmain_text, false) /\ listmain true junk = UB "printf: %d with a long".
Proof. exact C101_main_lemma. Qed.
Print Assumptions C101_test_program.
