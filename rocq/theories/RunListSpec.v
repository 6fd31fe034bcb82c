(** Programs that use lists, with the routines run from the text of list.c (C125). *)
From Verif Require Import Base ListModel ListSpec SourceModel RunSpec.
From Coq Require Import Ascii.
#[local] Open Scope string_scope.
#[local] Open Scope list_scope.
#[local] Open Scope Z_scope.

(** The operations that are one call of a routine; data are values, not what a variable holds before it is set. *)
Definition is_call (op : lop val) : Prop :=
  match op with
  | OTraverse _ _ | ORev _ _ => False
  | OPrepend _ v | OAppend _ v | ODelete _ v | OSearch _ v => v <> VU
  | _ => True
  end.
(** The variables of the caller, cells of an object of its own: where data goes, and the place reached so far. *)
Definition vars_for (op : lop val) (s : cstate) : cstate :=
  match op with
  | OHead _ _ | OTail _ _ => set_cell s 0 0 "" (Some VU)
  | ONext _ _ t => set_cell (set_cell s 0 0 "" (Some VU)) 0 1 "" (Some (ptr t))
  | _ => s
  end.
(** The routine that the caller gives. *)
Definition handed (op : lop val) (g : string) (args : list val) (s : cstate) : res (val * cstate) :=
  match op, args with
  | OSearchFunc _ f, [v; _] => Ok (of_bool (f v), s)
  | OApply _ f, [v; _] => Ok (VI (f v), s)
  | _, _ => UB "call"
  end.
Definition call_of (op : lop val) : string * list val :=
  match op with
  | ONew _ => ("AP_list_new", []) | OFree _ l => ("AP_list_free", [VP l 0]) | OSize _ l => ("AP_list_size", [VP l 0])
  | OPrepend l v => ("AP_list_prepend", [VP l 0; v]) | OAppend l v => ("AP_list_append", [VP l 0; v])
  | ODelete l v => ("AP_list_delete", [VP l 0; v]) | ODeleteItem _ l i => ("AP_list_delete_item", [VP l 0; VP i 0])
  | OHeadItem _ l => ("AP_list_head_item", [VP l 0]) | OHead _ l => ("AP_list_head", [VP l 0; VP 0 0]) | OTail _ l => ("AP_list_tail", [VP l 0; VP 0 0])
  | OSearch l v => ("AP_list_search", [VP l 0; v]) | OSearchFunc l _ => ("AP_list_search_func", [VP l 0; VF "given"; VN])
  | ONext _ l _ => ("AP_list_next", [VP l 0; VP 0 0; VP 0 1]) | ODup _ l => ("AP_list_duplicate", [VP l 0]) | OApply l _ => ("AP_list_apply", [VP l 0; VF "given"; VN])
  | OVerify _ => ("AP_listitem_verify", []) | OTraverse _ _ | ORev _ _ => ("", [])
  end.
(** Loops may turn once for every object there ever was, and once more. *)
Definition enough (op : lop val) (s : cstate) : nat := Datatypes.S (Z.to_nat (match op with ODup _ _ => s_fresh s + 1 | _ => s_fresh s end)).
Definition text_call (op : lop val) (s : cstate) : res (val * cstate) :=
  runs_with (handed op) s_list_c counters 4 (enough op s) (fst (call_of op)) (snd (call_of op)) (vars_for op s).
(** What the caller sees after the call: the value, and what is in its variables. *)
Definition shows (out : lout val) (v : val) (s : cstate) : Prop :=
  match out with
  | RUnit _ => True
  | RPtr _ p => v = ptr p
  | RInt _ n => v = VI n
  | RData (Some d) => v = VI 1 /\ s_cell s 0 0 "" = Some d
  | RData None => v = VI 0
  | RNext (Some (d, t)) => v = VI 1 /\ s_cell s 0 0 "" = Some d /\ s_cell s 0 1 "" = Some (ptr t)
  | RNext None => v = VI 0
  | RSeq _ => False
  end.
(** Every call of a history returns and shows an output that the sequences of ListSpec allow. *)
Fixpoint text_after (ops : list (lop val)) (s : cstate) (a : lstate val) : Prop :=
  match ops with
  | [] => True
  | op :: r => is_call op -> legal val a op -> fits val a op ->
      exists v s' out a', text_call op s = Ok (v, s') /\ shows out v s' /\ lstep val val_eqb a op out a' /\ text_after r s' a'
  end.
(** The memory when a program starts: no object yet, the counters zero, and anything at all in what malloc gives. *)
Record fresh (s : cstate) : Prop := mkFresh {
  fr_cell : forall o i f, s_cell s o i f = None;
  fr_items : s_glob s "itemcount" = VI 0;
  fr_heads : s_glob s "headcount" = VI 0;
  fr_next : s_fresh s = 1;
  fr_prev : forall o, exists p, s_junk s o "prev" = ptr p;
  fr_nexts : forall o, exists p, s_junk s o "next" = ptr p
}.
