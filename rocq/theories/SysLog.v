(** What the history of posts and matches must look like, stated on the log alone. *)
From Verif Require Import Base SysModel CollModel SysCalls SysSpec.

(** Operation [id] has been matched. *)
Definition matched (l : list event) (id : Z) : Prop := exists s r, In (EMatch s r) l /\ (s = id \/ r = id).
Definition matchedb (l : list event) (id : Z) : bool :=
  existsb (fun e => match e with EMatch s r => (s =? id) || (r =? id) | EPost _ _ _ _ => false end) l.
Definition same_side (x y : side) : bool := match x, y with Snd, Snd | Rcv, Rcv => true | _, _ => false end.

(** One of the two queues; the other side; an operation of side [sd] with tag [t] goes with one of the other side with tag [t']. *)
Definition line (sd : side) (k : acomm) : list pend := match sd with Snd => k_sends k | Rcv => k_recvs k end.
Definition other (sd : side) : side := match sd with Snd => Rcv | Rcv => Snd end.
Definition goes_with (sd : side) (t t' : Z) : bool := match sd with Snd => accepts t' t | Rcv => accepts t t' end.

(** The operations of one side of communicator [uid] that are posted but not matched: number and tag, oldest first. *)
Definition waiting (l : list event) (sd : side) (uid : Z) : list (Z * Z) :=
  flat_map (fun e => match e with
    | EPost id sd' uid' tag => if same_side sd sd' && (uid =? uid') && negb (matchedb l id) then [(id, tag)] else []
    | EMatch _ _ => []
    end) l.

(** The numbers of all posted operations, oldest first. *)
Definition post_ids (l : list event) : list Z := flat_map (fun e => match e with EPost id _ _ _ => [id] | _ => [] end) l.

(** A legal match of send [s] and receive [r] after history [l]: both posted on the same communicator and not matched before,
    the receive accepts the tag, and no earlier unmatched operation on either side would do. *)
Definition match_ok (l : list event) (s r : Z) : Prop :=
  exists uid tag want,
    In (EPost s Snd uid tag) l /\ In (EPost r Rcv uid want) l /\ accepts want tag = true /\ ~ matched l s /\ ~ matched l r /\
    (forall s' tag', In (EPost s' Snd uid tag') l -> s' < s -> accepts want tag' = true -> matched l s') /\
    (forall r' want', In (EPost r' Rcv uid want') l -> r' < r -> accepts want' tag = true -> matched l r').

(** The log of [n] operations: they are numbered in the order of posting, and every match is legal at its time. *)
Definition log_ok (l : list event) (n : Z) : Prop :=
  post_ids l = map Z.of_nat (List.seq 0 (Z.to_nat n)) /\ 0 <= n /\
  forall l1 s r l2, l = l1 ++ EMatch s r :: l2 -> match_ok l1 s r.

(** What a request knows agrees with the history. *)
Definition req_known (l : list event) (q : areq) : Prop :=
  match q with
  | QPending sd uid id => (exists tag, In (EPost id sd uid tag) l) /\ ~ matched l id
  | QSent id => exists uid tag rid, In (EPost id Snd uid tag) l /\ In (EMatch id rid) l
  | QReceived id tag => exists uid want sid, In (EPost id Rcv uid want) l /\ In (EMatch sid id) l /\ In (EPost sid Snd uid tag) l
  | QNullSend | QNullRecv => True
  end.
Definition op_id (q : areq) : option Z :=
  match q with QPending _ _ id | QSent id | QReceived id _ => Some id | QNullSend | QNullRecv => None end.

(** Everything the history determines. *)
Record history_ok (a : astate) : Prop := {
  hy_log : log_ok (a_log a) (a_clock a);
  hy_sends : forall h k, comm_at a h = Some k -> map (fun p => (p_id p, p_tag p)) (k_sends k) = waiting (a_log a) Snd (k_uid k);
  hy_recvs : forall h k, comm_at a h = Some k -> map (fun p => (p_id p, p_tag p)) (k_recvs k) = waiting (a_log a) Rcv (k_uid k);
  hy_req : forall h q, req_at a h = Some q -> req_known (a_log a) q;
  hy_once : forall h h' q q' id, req_at a h = Some q -> req_at a h' = Some q' -> op_id q = Some id -> op_id q' = Some id -> h = h';
  hy_uid : forall h h' k k', comm_at a h = Some k -> comm_at a h' = Some k' -> k_uid k = k_uid k' -> h = h'
}.
