(** Which send meets which receive when no receive has a wildcard tag, stated on the log alone. *)
From Verif Require Import Base SysModel CollModel SysCalls SysSpec SysLog.

(** The operations of one side posted with tag [g] on communicator [uid], oldest first. *)
Definition posts (l : list event) (sd : side) (uid g : Z) : list Z :=
  flat_map (fun e => match e with
    | EPost id sd' uid' g' => if same_side sd sd' && (uid =? uid') && (g =? g') then [id] else []
    | EMatch _ _ => []
    end) l.

(** The pairs (send, receive) in the order of matching whose send is one of [ss]. *)
Definition meets (l : list event) (ss : list Z) : list (Z * Z) :=
  flat_map (fun e => match e with EMatch s r => if existsb (Z.eqb s) ss then [(s, r)] else [] | EPost _ _ _ _ => [] end) l.

(** No receive has been posted with MPI_ANY_TAG on communicator [uid]. *)
Definition no_wild (l : list event) (uid : Z) : Prop := forall id, ~ In (EPost id Rcv uid MPI_ANY_TAG) l.
Definition no_wildb (l : list event) (uid : Z) : bool := match posts l Rcv uid MPI_ANY_TAG with [] => true | _ => false end.

(** The operations with tag [g] waiting in a queue. *)
Definition left_over (q : list pend) (g : Z) : list Z := map p_id (filter (fun p => p_tag p =? g) q).
