(** Specification vocabulary for C97: histories of a list library with consistency tests. *)
From Verif Require Import Base ListModel ListSpec CheckModel.

Section CheckSpec.
Variable D : Type.
Variable deq : D -> D -> bool.

(** The lists made by AP_list_duplicate, after a call. *)
Definition duplicates (dups : list Z) (op : lop D) (out : lout D) : list Z :=
  match op, out with
  | ODup _ _, RPtr _ (Some n) => n :: dups
  | ONew _, RPtr _ (Some n) => filter (fun k => negb (k =? n)) dups
  | _, _ => dups
  end.
(** Nothing is deleted from a duplicate. *)
Definition keeps (dups : list Z) (op : lop D) : Prop :=
  match op with ODelete l _ | ODeleteItem _ l _ => ~ In l dups | _ => True end.

(** In every history of legal calls that delete nothing from duplicates, the library with tests does what the library
    without does, and what the specification says; [P] holds at the end. *)
Fixpoint ck_after (ops : list (lop D)) (h : lheap D) (w : Z -> Z) (a : lstate D) (dups : list Z)
    (P : lheap D -> (Z -> Z) -> lstate D -> list Z -> Prop) : Prop :=
  match ops with
  | [] => P h w a dups
  | op :: r => legal D a op -> fits D a op -> keeps dups op ->
      exists out h' w' a', lexec deq op h = Ok (out, h') /\ ck_lexec deq op (h, w) = Ok (out, (h', w')) /\
        lstep D deq a op out a' /\ ck_after r h' w' a' (duplicates dups op out) P
  end.
End CheckSpec.
