(** Which bytes a call may write, and where it may take them from (C88). *)
From Verif Require Import Base TypeModel CopyModel SysModel CollModel SysCalls SysSpec SysLog SysReach FlowSpec.

Section MoveSpec.
Variable c : cfg.

(** [x] is a byte of element [i] of a message of type [t] at [buf], the element being as long as element [i] of type [lt].
    [cut] is what becomes of byte offsets: nothing in pack and unpack, a reduction to 32 bits elsewhere (C50). *)
Definition element (cut : Z -> Z) (t lt : typestruct) (buf i x : Z) : Prop :=
  exists p q e len j,
    nth_error (ts_pairs t) (Z.to_nat (Z.rem i (ts_count t))) = Some p /\
    nth_error (ts_pairs lt) (Z.to_nat (Z.rem i (ts_count lt))) = Some q /\
    Type_extent c t = Ok e /\ Simpletype_length c (tp_type q) = Ok len /\ 0 <= j < len /\
    to_u64 x = to_u64 (buf + cut (tp_disp p + Z.quot i (ts_count t) * e) + j).
(** [x] is a byte of the message of [n] items of type [t] at [buf]. *)
Definition in_message (cut : Z -> Z) (t : typestruct) (buf n x : Z) : Prop :=
  exists i, 0 <= i < ts_count t * n /\ element cut t t buf i x.
(** [x] is a byte of the part of the message of type [t] at [buf] that fills [n] items of type [dt]. *)
Definition in_source (cut : Z -> Z) (t : typestruct) (buf : Z) (dt : typestruct) (n x : Z) : Prop :=
  exists i, 0 <= i < ts_count dt * n /\ element cut t dt buf i x.
(** [x] is a byte of a packed buffer, at or after [position]. *)
Definition in_packed (buf size position x : Z) : Prop := exists q, position <= q < size /\ to_u64 x = to_u64 (buf + q).

(** The typed copy may take a byte from [y] to [x]. *)
Definition carries (a : astate) (src sty dst n dty x y : Z) : Prop :=
  exists st dt, type_at c a sty = Some st /\ type_at c a dty = Some dt /\ in_message to_s32 dt dst n x /\ in_source to_s32 st src dt n y.
(** A send fills the buffer of the earliest receive waiting for it; a receive takes, as it describes it, the buffer of the
    earliest send waiting for it. *)
Definition send_moves (a : astate) (k : acomm) (b ty g x y : Z) : Prop :=
  exists bf p e, earliest Snd g k bf p e /\ carries a b ty (p_buf p) (p_count p) (p_type p) x y.
Definition recv_moves (a : astate) (k : acomm) (b n ty g x y : Z) : Prop :=
  exists bf p e, earliest Rcv g k bf p e /\ carries a (p_buf p) ty b n ty x y.

(** Call [k] may take a byte from [y] to [x]. *)
Definition moves (a : astate) (k : call) (x y : Z) : Prop :=
  match k with
  | KIsend b n ty d g cm | KIrsend b n ty d g cm | KSend b n ty d g cm | KSsend b n ty d g cm | KRsend b n ty d g cm =>
      d = 0 /\ exists kk, comm_at a cm = Some kk /\ send_moves a kk b ty g x y
  | KIrecv b n ty so g cm | KRecv b n ty so g cm _ =>
      (so = 0 \/ so = MPI_ANY_SOURCE) /\ exists kk, comm_at a cm = Some kk /\ recv_moves a kk b n ty g x y
  | KSendrecv sb sn sty d sg rb rn rt so rg cm _ =>
      exists kk, comm_at a cm = Some kk /\
      let recv := fun x y => (so = 0 \/ so = MPI_ANY_SOURCE) /\ recv_moves a kk rb rn rt rg x y in
      let send := fun x y => d = 0 /\ (send_moves a kk sb sty sg x y \/
        exists own, p_buf own = rb /\ p_count own = rn /\ p_type own = rt /\ p_tag own = rg /\
          send_moves a (set_line Rcv kk (k_recvs kk ++ [own])) sb sty sg x y) in
      recv x y \/ send x y \/ exists z, send x z /\ recv z y
  | KPack ib n ty ob sz p _ => exists t, type_at c a ty = Some t /\ in_packed ob sz p x /\ in_message id t ib n y
  | KUnpack ib sz p ob n ty _ => exists t, type_at c a ty = Some t /\ in_message id t ob n x /\ in_packed ib sz p y
  | KColl k => exists src n st dst m dt, coll_plan c a k = Some (Move src n st dst m dt) /\ carries a src st dst m dt x y
  | KUser _ => True
  | _ => False
  end.
(** Calls that never move data. *)
Definition silent (k : call) : Prop :=
  match k with
  | KIsend _ _ _ _ _ _ | KIrsend _ _ _ _ _ _ | KSend _ _ _ _ _ _ | KSsend _ _ _ _ _ _ | KRsend _ _ _ _ _ _ | KIrecv _ _ _ _ _ _ | KRecv _ _ _ _ _ _ _
  | KSendrecv _ _ _ _ _ _ _ _ _ _ _ _ | KPack _ _ _ _ _ _ _ | KUnpack _ _ _ _ _ _ _ | KColl _ | KUser _ => False
  | _ => True
  end.
(** Call [k] may write address [x]. *)
Definition may_write (a : astate) (k : call) (x : Z) : Prop := exists y, moves a k x y.
End MoveSpec.
