(** What a program run by the library can depend on: not on the contents of messages (C86), not on what uninitialised
    storage holds (C87). *)
From Verif Require Import Base HandleModel ListModel TypeModel CopyModel SysModel CollModel SysCalls SysSpec.

(** A whole program: the outputs of its calls as far as it got, and how it ended. *)
Definition stopped {A B} (r : res A) : res B :=
  match r with Ok _ => Diverge | Abort w => Abort w | Exit n w => Exit n w | UB w => UB w | Diverge => Diverge end.
Fixpoint run (c : cfg) (ks : list call) (s : sys) : list out * res sys :=
  match ks with
  | [] => ([], Ok s)
  | k :: r => match exec c k s with
              | Ok (o, s) => let (os, e) := run c r s in (o :: os, e)
              | e => ([], stopped e)
              end
  end.

(** Two memories with the same addresses, whose bytes are related by [R]. *)
Definition cells (R : Z -> Z -> Prop) (x y : option Z) : Prop :=
  match x, y with Some b, Some b' => R b b' | None, None => True | _, _ => False end.
Definition mems (R : Z -> Z -> Prop) (m m' : mem) : Prop := forall a, cells R (m a) (m' a).
(** The same library state, with memories so related. *)
Definition states (R : Z -> Z -> Prop) (s s' : sys) : Prop := mems R (s_mem s) (s_mem s') /\ s' = set_mem s (s_mem s').
(** The same call; where the program itself writes memory, what it writes is so related. *)
Definition calls (R : Z -> Z -> Prop) (k k' : call) : Prop :=
  match k, k' with KUser m, KUser m' => mems R m m' | _, _ => k = k' end.
(** The same end (same diagnostic, if there is one), with related results. *)
Definition ends {A B} (Q : A -> B -> Prop) (r : res A) (r' : res B) : Prop :=
  match r, r' with
  | Ok x, Ok y => Q x y
  | Abort w, Abort w' => w = w'
  | Exit n w, Exit n' w' => n = n' /\ w = w'
  | UB w, UB w' => w = w'
  | Diverge, Diverge => True
  | _, _ => False
  end.
(** The same addresses exist. *)
Definition same_layout (m m' : mem) : Prop := forall a, m a = None <-> m' a = None.
(** Memory with every byte replaced. *)
Definition recoded (f : Z -> Z) (m : mem) : mem := fun a => option_map f (m a).
Definition recoded_call (f : Z -> Z) (k : call) : call := match k with KUser m => KUser (recoded f m) | _ => k end.
(** The program itself never writes memory. *)
Definition no_store (k : call) : Prop := match k with KUser _ => False | _ => True end.

(** Every call of the program satisfies [P] where it is made. *)
Fixpoint all_along (c : cfg) (tj : Z -> tjunk) (P : call -> astate -> Prop) (ks : list call) (a : astate) : Prop :=
  match ks with
  | [] => True
  | k :: r => P k a /\ match spec c tj k a with Ret _ a => all_along c tj P r a | _ => True end
  end.
(** The outputs without the source and the tag in statuses. *)
Definition bare (st : status) : status := mkStatus 0 0 (st_error st) (st_count st).
Definition bare_arg (st : sarg) : sarg := match st with SAt x => SAt (bare x) | _ => st end.
Definition bare_args (sts : sargs) : sargs := match sts with SSAt l => SSAt (map bare l) | _ => sts end.
Definition bare_out (o : out) : out :=
  match o with
  | VStatus st => VStatus (bare_arg st)
  | VTest r f st => VTest r f (bare_arg st)
  | VWait r st => VWait r (bare_arg st)
  | VProbe f st => VProbe f (bare_arg st)
  | VAny rs i f st => VAny rs i f (bare_arg st)
  | VAll rs f sts => VAll rs f (bare_args sts)
  | VSome rs n ix sts => VSome rs n ix (bare_args sts)
  | _ => o
  end.
(** The request of a completed send: MPI does not say what its status holds. *)
Definition send_done (a : astate) (r : Z) : Prop :=
  match req_at a r with Some (QSent _) | Some QNullSend => True | _ => False end.
(** The call does not report on a completed send. *)
Definition no_send_reported (k : call) (a : astate) : Prop :=
  match k with
  | KTest r _ | KWait r _ => ~ send_done a r
  | KTestany n rs _ _ | KWaitany n rs _ _ | KTestall n rs _ | KWaitall n rs _ | KTestsome n rs _ _ | KWaitsome n rs _ _ =>
      forall r, In r (firstn (Z.to_nat n) rs) -> ~ send_done a r
  | _ => True
  end.
Definition no_new_type (k : call) : Prop := match k with KTypeCreate _ => False | _ => True end.
