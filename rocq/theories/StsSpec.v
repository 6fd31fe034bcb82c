(** Status arguments: how many statuses they provide (C25, C26, C28), and what a call leaves in them (C34). *)
From Verif Require Import Base SysModel CollModel SysCalls.

(** MPI_STATUSES_IGNORE is a null pointer, good for one. *)
Definition slots (sts : sargs) : nat := match sts with SSIgnore => 1%nat | SSAt l => length l end.

(** The statuses a program passes to a call, and those it finds there afterwards (C34). *)
Definition one_status (st : sarg) : list status := match st with SAt x => [x] | _ => [] end.
Definition all_statuses (sts : sargs) : list status := match sts with SSAt l => l | _ => [] end.
Definition passed (k : call) : list status :=
  match k with
  | KRecv _ _ _ _ _ _ st | KSendrecv _ _ _ _ _ _ _ _ _ _ _ st | KTest _ st | KWait _ st | KTestany _ _ _ st | KWaitany _ _ _ st
  | KIprobe _ _ _ st | KProbe _ _ _ st => one_status st
  | KTestall _ _ sts | KWaitall _ _ sts | KTestsome _ _ _ sts | KWaitsome _ _ _ sts => all_statuses sts
  | _ => []
  end.
Definition found (o : out) : list status :=
  match o with
  | VStatus st | VTest _ _ st | VWait _ st | VProbe _ st | VAny _ _ _ st => one_status st
  | VAll _ _ sts | VSome _ _ _ sts => all_statuses sts
  | _ => []
  end.
Definition is_recv (k : call) : bool := match k with KRecv _ _ _ _ _ _ _ => true | _ => false end.
