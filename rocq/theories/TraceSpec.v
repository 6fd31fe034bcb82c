(** What a traced call should do and print (C103). *)
From Verif Require Import Base HandleModel TypeModel CopyModel SysModel CollModel SysCalls SysSpec SysLog SysReach PrintModel PrintSpec.

(** The traced outcome is the plain one with some text [P] added. *)
Definition traced {A} (P : A -> sys -> list shown -> Prop) (t : res (A * list shown * sys)) (r : res (A * sys)) : Prop :=
  match r with
  | Ok (x, s) => exists o, t = Ok (x, o, s) /\ P x s o
  | Abort w => t = Abort w
  | Exit n w => t = Exit n w
  | UB w => t = UB w
  | Diverge => t = Diverge
  end.
(** The int whose bytes are at [b] is [v]. *)
Definition int_at (m : mem) (b v : Z) : Prop :=
  exists b0 b1 b2 b3, m b = Some b0 /\ m (b + 1) = Some b1 /\ m (b + 2) = Some b2 /\ m (b + 3) = Some b3 /\
    v = to_s32 (b0 + 256 * b1 + 65536 * b2 + 16777216 * b3).
(** An int can be read at [b]. *)
Definition readable (strict : bool) (m : mem) (b : Z) : Prop :=
  (forall i, 0 <= i < 4 -> m (b + i) <> None) /\ (strict = true -> b mod 4 = 0).

(** The first line. *)
Definition call_text (name : string) (uid tag count ty : Z) : list shown :=
  [Text name; Text ": Comm="; Num uid; Text "  tag="; Num tag; Text "  count="; Num count; Text " type="; Num ty; Text "\n"].
(** The line of a completed message. *)
Definition done_text (what : string) (v tag : Z) : list shown :=
  [Text "Completion("; Text what; Text ") value="; Num v; Text " tag="; Num tag; Text "\n"].

Definition name_of (sd : side) : string := match sd with Snd => "MPI_Isend" | Rcv => "MPI_Irecv" end.
Definition what_of (sd : side) : string := match sd with Snd => "send" | Rcv => "recv" end.
Definition list_of (sd : side) : string := match sd with Snd => "sendlist for comm " | Rcv => "recvlist for comm " end.

(** What a send or receive prints: with INFO the call, and if it has to wait also the tags waiting now, its own last; with DEBUG,
    if it meets its partner, the first int of its buffer afterwards and the tag of the message. *)
Definition post_text (sd : side) (info debug : bool) (k : acomm) (b n ty peer g : Z) (s' : sys) (o : list shown) : Prop :=
  exists o', o = (if info then call_text (name_of sd) (k_uid k) g n ty else []) ++ o' /\
  (peer = MPI_PROC_NULL -> o' = []) /\
  (peer <> MPI_PROC_NULL -> none_goes sd g k ->
     o' = if info then [Text (list_of sd); Text " "; Num (k_uid k); Text ": "] ++ flat_map (fun p => [Num (p_tag p); Text "  "]) (line sd k) ++ [Num g; Text "  "; Text "\n"] else []) /\
  (peer <> MPI_PROC_NULL -> forall bf p e, earliest sd g k bf p e ->
     if debug then exists v, int_at (s_mem s') b v /\ o' = done_text (what_of sd) v (msg_tag sd g (p_tag p)) else o' = []).
(** What MPI_Send and MPI_Recv print first. *)
Definition pre_text (info : bool) (name : string) : list shown := if info then [Text name] else [].
