(** What an exchange of messages is, and what it should bring about (C99). *)
From Verif Require Import Base HandleSpec HandleExact TypeModel TypeSpec CopyModel CopySpec SysModel CollModel SysCalls SysSpec SysLog SysReach.

(** A message: both buffers, the count, the datatype and the tag. *)
Record msg := mkMsg { m_src : Z; m_dst : Z; m_count : Z; m_type : Z; m_ts : typestruct; m_ext : Z; m_tag : Z }.
Definition src_of (c : cfg) (m : msg) : list region := layout c (m_src m) (m_count m) (m_ext m) (typemap (m_ts m)).
Definition dst_of (c : cfg) (m : msg) : list region := layout c (m_dst m) (m_count m) (m_ext m) (typemap (m_ts m)).
(** The call that sends or receives it. *)
Definition post (cm so : Z) (x : side * msg) : call :=
  match x with
  | (Snd, m) => KIsend (m_src m) (m_count m) (m_type m) 0 (m_tag m) cm
  | (Rcv, m) => KIrecv (m_dst m) (m_count m) (m_type m) so (m_tag m) cm
  end.
(** Both calls for every message. *)
Definition both (ms : list msg) : list (side * msg) := map (pair Snd) ms ++ map (pair Rcv) ms.

(** The calls return these outputs, one after another. *)
Inductive gives (c : cfg) (tj : Z -> tjunk) : list call -> sys -> astate -> list out -> sys -> astate -> Prop :=
| gives_nil s a : gives c tj [] s a [] s a
| gives_cons k ks s a o s1 a1 os s' a' :
    does c tj s a k o s1 a1 -> gives c tj ks s1 a1 os s' a' -> gives c tj (k :: ks) s a (o :: os) s' a'.

(** A message that can be transferred from its source to its destination. *)
Record msg_ok (c : cfg) (a : astate) (m0 : mem) (m : msg) : Prop := {
  mo_type : type_at c a (m_type m) = Some (m_ts m);
  mo_xfer : transfer c (m_count m) (m_ts m) (m_ext m) (m_count m) (m_ts m) (m_ext m);
  mo_fits : offsets_fit (m_count m) (m_ext m) (typemap (m_ts m));
  mo_src : CopySpec.live m0 (src_of c m);
  mo_dst : CopySpec.live m0 (dst_of c m);
  mo_apart : pairwise_apart (dst_of c m)
}.
(** Messages that can be exchanged: different tags, none of them waited for already, and no buffer in the way of another. *)
Record msgs_ok (c : cfg) (a : astate) (m0 : mem) (k : acomm) (ms : list msg) : Prop := {
  ms_each : forall m, In m ms -> msg_ok c a m0 m;
  ms_tags : NoDup (map m_tag ms);
  ms_any : forall m, In m ms -> m_tag m <> MPI_ANY_TAG;
  ms_alone : forall sd m p, In m ms -> In p (line (other sd) k) -> goes_with sd (m_tag m) (p_tag p) = false;
  ms_sources : forall m m', In m ms -> In m' ms -> all_apart (src_of c m) (dst_of c m');
  ms_dests : forall m m', In m ms -> In m' ms -> m_tag m <> m_tag m' -> all_apart (dst_of c m) (dst_of c m')
}.
(** Every destination holds what its source held, and nothing else has changed. *)
Definition delivered (c : cfg) (ms : list msg) (m0 m1 : mem) : Prop :=
  (forall m, In m ms -> bytes m1 (dst_of c m) = bytes m0 (src_of c m)) /\
  (forall x, (forall m r, In m ms -> In r (dst_of c m) -> ~ inside r x) -> m1 x = m0 x).
(** The number of handles that can still be handed out. *)
Definition handles_left (a : astate) : Z := Z.of_nat (length (a_freed a)) + (CAPACITY - a_top a).

(** The messages with tag [t] that a list of calls sends (or receives), in order. *)
Definition posted (sd : side) (t : Z) (l : list (side * msg)) : list msg :=
  map snd (filter (fun x => same_side (fst x) sd && (m_tag (snd x) =? t)) l).
Definition tagged (t : Z) (ms : list msg) : list msg := filter (fun m => m_tag m =? t) ms.
(** Every message is sent and received once; those with equal tags are sent in the order of [ms], and received in that order. *)
Definition in_order (ms : list msg) (prog : list (side * msg)) : Prop := forall sd t, posted sd t prog = tagged t ms.
(** As [msgs_ok], but tags may be equal. *)
Record msgs_fit (c : cfg) (a : astate) (m0 : mem) (k : acomm) (ms : list msg) : Prop := {
  mf_each : forall m, In m ms -> msg_ok c a m0 m;
  mf_once : NoDup ms;
  mf_any : forall m, In m ms -> m_tag m <> MPI_ANY_TAG;
  mf_alone : forall sd m p, In m ms -> In p (line (other sd) k) -> goes_with sd (m_tag m) (p_tag p) = false;
  mf_sources : forall m m', In m ms -> In m' ms -> all_apart (src_of c m) (dst_of c m');
  mf_dests : forall m m', In m ms -> In m' ms -> m <> m' -> all_apart (dst_of c m) (dst_of c m')
}.
