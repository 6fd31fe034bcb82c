(** C125: programs that use lists, with the routines run from the text of list.c. *)
From Verif Require Import Base ListModel ListSpec SourceModel RunSpec RunList RunListSpec RunHist.
From Coq Require Import Ascii.
#[local] Open Scope string_scope.
#[local] Open Scope list_scope.
#[local] Open Scope Z_scope.

(** C125.  From a memory as it is when a program starts, every history of legal calls, on any number of lists, run from the text of list.c: each call returns, and what the caller sees is what
    the sequences of ListSpec (C06) allow. *)
Theorem C125_history : forall ops s, fresh s -> text_after ops s [].
Proof. exact C125_history_lemma. Qed.
Print Assumptions C125_history.
(** Each call, in any memory that represents a heap of the model, legal or not: the outcome is of the same kind as the model's. *)
Theorem C125_call : forall op h s, rep h s -> is_call op ->
  alike (fun a r => shows (fst a) (fst r) (snd r) /\ rep (snd a) (snd r)) (lexec val_eqb op h) (text_call op s).
Proof. exact text_step. Qed.
Print Assumptions C125_call.
(** A history on one list: what the calls return. *)
Definition ex_fresh : cstate := mkS (fun _ _ _ => None) (fun _ => VI 0) 1 (fun o f => if String.eqb f "data" then VI 77 else if String.eqb f "prev" then VP o 0 else VN).
Fixpoint ex_values (ops : list (lop val)) (s : cstate) : list val :=
  match ops with [] => [] | op :: r => match text_call op s with Ok (v, s') => v :: ex_values r s' | _ => [] end end.
Definition ex_history : list (lop val) :=
  [ONew val; OAppend 1 (VI 10); OAppend 1 (VI 20); OPrepend 1 (VI 5); OSize val 1; ODelete 1 (VI 10); ODelete 1 (VI 10); OSearch 1 (VI 20); OHead val 1; ONext val 1 (Some 4);
   OApply 1 (fun v => match v with VI z => z | _ => 0 end); ODup val 1; OSize val 5; OFree val 1; OVerify val; OFree val 5; OVerify val].
Example C125_ex : fresh ex_fresh /\ Forall is_call ex_history /\
  ex_values ex_history ex_fresh = [VP 1 0; VP 2 0; VP 3 0; VP 4 0; VI 3; VI 1; VI 0; VP 3 0; VI 1; VI 1; VI 25; VP 5 0; VI 2; VU; VI 1; VU; VI 0].
Proof.
  split; [|split].
  - constructor; try reflexivity; intros o; [exists (Some o)|exists None]; reflexivity.
  - repeat constructor; discriminate.
  - unfold ex_values, text_call, runs_with. rewrite numbers_ok, p_list_ok. vm_compute. reflexivity.
Qed.
(** The calls of this history are legal: the first of them, and a call that is not. *)
Example C125_ex_legal : legal val [] (ONew val) /\ fits val [] (ONew val) /\ legal val [(1, [])] (OAppend 1 (VI 10)) /\ ~ legal val [] (OSize val 1) /\
  text_call (OSize val 1) ex_fresh = UB "no cell".
Proof. split; [exact I|]. split; [reflexivity|]. split; [discriminate|]. split; [intros H; apply H; reflexivity|]. unfold text_call, runs_with. rewrite numbers_ok, p_list_ok. vm_compute. reflexivity. Qed.
