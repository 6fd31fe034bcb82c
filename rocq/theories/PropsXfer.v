(** Property theorems about what messages deliver and about datatypes in use: C31 to C34 and C44 to C46. *)
From Verif Require Import Base HandleExact TypeModel TypeSpec TypeProofs CopyModel CopySpec CopyEx SysModel CollModel SysCalls SysSpec SysLog SysReach SysFacts SysFacts2 SysFacts3 SysFacts6 SysFinal SysEx.

(** A receive of four ints is pending; type 2 is a committed vector of two ints with a gap. *)
Definition h_vec : list call := [KInit; KTypeCreate (TVector 2 1 2 INTT); KTypeCommit 2].
Definition h_first : list call := h_vec ++ [KIrecv 500 4 INTT 0 5 1].
Definition p_first : pend := mkPend 0 3 500 4 INTT 5.
Definition k_first : acomm := mkAcomm 0 [] [p_first].
Definition int_t : typestruct := pre1 4 2.
Lemma int_typed : typed default_cfg int_t 4.
Proof. split; [apply wfb_ok|]; vm_compute; reflexivity. Qed.
Lemma bufs_ok n f S D : forallb (inb n) (reads S D) = true -> forallb (inb n) D = true ->
  forallb (fun r => forallb (apartb r) D) (reads S D) = true -> pairb D = true -> buffers_ok (flat n f) S D.
Proof. intros H1 H2 H3 H4. split; [apply flat_live; auto|]. split; [apply flat_live; auto|]. split; [apply all_apart_ok; auto|apply pairwise_ok; auto]. Qed.

(** C31: a send that meets a posted receive moves its elements (layout S) to the elements of the receive (layout D), in order,
    and changes no other byte; nothing else happens but the match ([paired], [absorbed]). *)
Theorem C31_payload_when_receive_is_first :
  forall (c : cfg) (tj : Z -> tjunk) (s : sys) (a : astate) (b n t : Z) (ts : typestruct) (es g cm : Z) (k : acomm) bf (p : pend) e (td : typestruct) (ed : Z),
    reach c tj s a -> has_handle a -> room a -> comm_at a cm = Some k -> earliest Snd g k bf p e ->
    cfg_ok c -> mem_ok (s_mem s) -> type_at c a t = Some ts -> type_at c a (p_type p) = Some td ->
    transfer c n ts es (p_count p) td ed -> (type_checking c = true -> types_agree n ts (p_count p) td) ->
    offsets_fit n es (typemap ts) -> offsets_fit (p_count p) ed (typemap td) ->
    let S := layout c b n es (typemap ts) in let D := layout c (p_buf p) (p_count p) ed (typemap td) in
    buffers_ok (s_mem s) S D ->
    exists m', same_domain (s_mem s) m' /\ copied (s_mem s) m' S D /\
      (exists h s' a', does c tj s a (KIsend b n t 0 g cm) (VInt h) s' a' /\ s_mem s' = m' /\ paired Snd a cm k (a_clock a) h g bf p e m' a') /\
      (forall K, is_send K -> exists s' a', does c tj s a (K b n t 0 g cm) VUnit s' a' /\ s_mem s' = m' /\ absorbed Snd a cm k (a_clock a) g bf p e m' a').
Proof. exact (@C31_lemma). Qed.
Print Assumptions C31_payload_when_receive_is_first.
Example C31_ex : let s := ex_s h_first in let a := ex_a h_first in
  reach default_cfg ex_tj s a /\ has_handle a /\ room a /\ comm_at a 1 = Some k_first /\ earliest Snd 5 k_first [] p_first [] /\
  cfg_ok default_cfg /\ s_mem s = ex_mem /\ mem_ok ex_mem /\ type_at default_cfg a 2 = Some ex_vec /\ type_at default_cfg a INTT = Some int_t /\
  transfer default_cfg 2 ex_vec 12 4 int_t 4 /\ offsets_fit 2 12 (typemap ex_vec) /\ offsets_fit 4 4 (typemap int_t) /\
  let S := layout default_cfg 100 2 12 (typemap ex_vec) in let D := layout default_cfg 500 4 4 (typemap int_t) in
  S = [(100, 4); (108, 4); (112, 4); (120, 4)] /\ D = [(500, 4); (504, 4); (508, 4); (512, 4)] /\ buffers_ok ex_mem S D.
Proof.
  cbv zeta. split; [apply ex_reach; vm_compute; reflexivity|]. split; [vm_compute; discriminate|]. split; [vm_compute; reflexivity|].
  split; [vm_compute; reflexivity|]. split; [split; [reflexivity|split; [reflexivity|intros q []]]|].
  split; [unfold cfg_ok; cbn; lia|]. split; [vm_compute; reflexivity|]. split; [apply flat_ok; unfold TWO64; lia|].
  split; [vm_compute; reflexivity|]. split; [vm_compute; reflexivity|].
  split; [assert (V := proj1 ex_vec_typed); assert (C := int_typed); constructor; try exact V; try exact C; vm_compute; congruence|].
  split; [apply fits_ok; vm_compute; reflexivity|]. split; [apply fits_ok; vm_compute; reflexivity|].
  split; [vm_compute; reflexivity|]. split; [vm_compute; reflexivity|]. apply bufs_ok; vm_compute; reflexivity.
Qed.

(** C32: is delivery the same whichever side is posted first?  Full statement: as the partial theorem below, for any two datatypes.
    It is false: a vector sent to a receive of two ints arrives as the two ints at the start of the send buffer when the send is
    posted first (and correctly when the receive is). *)
Theorem C32_order_refuted :
  exists s1 s2 os1 os2,
    ex_run (h_vec ++ [KIsend 100 1 2 0 5 1; KIrecv 500 2 INTT 0 5 1]) = Ok (os1, s1) /\
    ex_run (h_vec ++ [KIrecv 500 2 INTT 0 5 1; KIsend 100 1 2 0 5 1]) = Ok (os2, s2) /\
    layout default_cfg 100 1 12 (typemap ex_vec) = [(100, 4); (108, 4)] /\
    s_mem s2 504 = ex_mem 108 /\ s_mem s1 504 = ex_mem 104 /\ ex_mem 104 <> ex_mem 108.
Proof. do 4 eexists. split; [vm_compute; reflexivity|]. split; [vm_compute; reflexivity|]. split; [vm_compute; reflexivity|]. split; [reflexivity|]. split; [reflexivity|]. vm_compute. discriminate. Qed.
Print Assumptions C32_order_refuted.
(** What holds: when both sides use the same datatype and the receive asks for no more than was sent.  Missing: different
    datatypes. *)
Theorem C32_order_partial :
  forall (c : cfg) (tj : Z -> tjunk) (s1 : sys) (a1 : astate) (s2 : sys) (a2 : astate) (src sn dst n so sg rg cm ty : Z) (t : typestruct) (es : Z) k1 bf1 p1 e1 k2 bf2 p2 e2,
    (* the send is pending in the first state, the receive in the second *)
    reach c tj s1 a1 -> reach c tj s2 a2 -> (forall x, s_mem s2 x = s_mem s1 x) -> has_handle a1 -> has_handle a2 -> room a1 -> room a2 ->
    comm_at a1 cm = Some k1 -> earliest Rcv rg k1 bf1 p1 e1 -> p_buf p1 = src -> p_count p1 = sn -> p_type p1 = ty -> p_tag p1 = sg ->
    comm_at a2 cm = Some k2 -> earliest Snd sg k2 bf2 p2 e2 -> p_buf p2 = dst -> p_count p2 = n -> p_type p2 = ty -> p_tag p2 = rg ->
    so = 0 \/ so = MPI_ANY_SOURCE -> type_at c a1 ty = Some t -> type_at c a2 ty = Some t ->
    cfg_ok c -> mem_ok (s_mem s1) -> transfer c sn t es n t es -> n <= sn -> offsets_fit sn es (typemap t) ->
    let S := layout c src sn es (typemap t) in let D := layout c dst n es (typemap t) in
    buffers_ok (s_mem s1) S D ->
    exists h1 s1' a1' h2 s2' a2', does c tj s1 a1 (KIrecv dst n ty so rg cm) (VInt h1) s1' a1' /\ does c tj s2 a2 (KIsend src sn ty 0 sg cm) (VInt h2) s2' a2' /\
      (forall x, s_mem s1' x = s_mem s2' x) /\ copied (s_mem s2) (s_mem s2') S D.
Proof. exact (@C32_lemma). Qed.
Print Assumptions C32_order_partial.
Example C32_ex : let h1 := h_vec ++ [KIsend 100 3 2 0 5 1] in let h2 := h_vec ++ [KIrecv 500 2 2 0 (-1) 1] in
  let p1 := mkPend 0 3 100 3 2 5 in let p2 := mkPend 0 3 500 2 2 (-1) in
  let k1 := mkAcomm 0 [p1] [] in let k2 := mkAcomm 0 [] [p2] in
  reach default_cfg ex_tj (ex_s h1) (ex_a h1) /\ reach default_cfg ex_tj (ex_s h2) (ex_a h2) /\ s_mem (ex_s h1) = ex_mem /\ s_mem (ex_s h2) = ex_mem /\
  has_handle (ex_a h1) /\ has_handle (ex_a h2) /\ room (ex_a h1) /\ room (ex_a h2) /\
  comm_at (ex_a h1) 1 = Some k1 /\ earliest Rcv (-1) k1 [] p1 [] /\ comm_at (ex_a h2) 1 = Some k2 /\ earliest Snd 5 k2 [] p2 [] /\
  type_at default_cfg (ex_a h1) 2 = Some ex_vec /\ type_at default_cfg (ex_a h2) 2 = Some ex_vec /\
  cfg_ok default_cfg /\ mem_ok ex_mem /\ transfer default_cfg 3 ex_vec 12 2 ex_vec 12 /\ offsets_fit 3 12 (typemap ex_vec) /\
  buffers_ok ex_mem (layout default_cfg 100 3 12 (typemap ex_vec)) (layout default_cfg 500 2 12 (typemap ex_vec)).
Proof.
  cbv zeta. split; [apply ex_reach; vm_compute; reflexivity|]. split; [apply ex_reach; vm_compute; reflexivity|].
  split; [vm_compute; reflexivity|]. split; [vm_compute; reflexivity|]. split; [vm_compute; discriminate|]. split; [vm_compute; discriminate|].
  split; [vm_compute; reflexivity|]. split; [vm_compute; reflexivity|].
  split; [vm_compute; reflexivity|]. split; [split; [reflexivity|split; [reflexivity|intros q []]]|].
  split; [vm_compute; reflexivity|]. split; [split; [reflexivity|split; [reflexivity|intros q []]]|].
  split; [vm_compute; reflexivity|]. split; [vm_compute; reflexivity|].
  split; [unfold cfg_ok; cbn; lia|]. split; [apply flat_ok; unfold TWO64; lia|].
  split; [assert (V := proj1 ex_vec_typed); constructor; try exact V; vm_compute; congruence|].
  split; [apply fits_ok; vm_compute; reflexivity|]. apply bufs_ok; vm_compute; reflexivity.
Qed.

(** C33: receiving more than was sent.  Undetected when the send is posted first: two ints are received from a send of one, the
    second read from behind the sender's data. *)
Theorem C33_send_first_refuted :
  exists s, ex_run [KInit; KIsend 100 1 INTT 0 5 1; KIrecv 500 2 INTT 0 5 1] = Ok ([VUnit; VInt 2; VInt 3], s) /\
    layout default_cfg 100 1 4 (typemap int_t) = [(100, 4)] /\ s_mem s 504 = ex_mem 104 /\ ex_mem 504 <> ex_mem 104.
Proof. eexists. split; [vm_compute; reflexivity|]. split; [vm_compute; reflexivity|]. split; [reflexivity|]. vm_compute. discriminate. Qed.
Print Assumptions C33_send_first_refuted.
(** What holds: it is detected when the receive is posted first.  Missing: the other order. *)
Theorem C33_over_receive_partial :
  forall (c : cfg) (tj : Z -> tjunk) (s : sys) (a : astate) (b n t : Z) (ts : typestruct) (es g cm : Z) (k : acomm) bf (p : pend) e (td : typestruct) (ed : Z),
    reach c tj s a -> has_handle a -> room a -> comm_at a cm = Some k -> earliest Snd g k bf p e ->
    type_at c a t = Some ts -> type_at c a (p_type p) = Some td -> typed c ts es -> typed c td ed -> ts_committed ts <> 0 -> ts_committed td <> 0 ->
    is_int (nelems n ts) -> is_int (nelems (p_count p) td) -> nelems n ts < nelems (p_count p) td ->
    exec c (KIsend b n t 0 g cm) s = Exit 1 "copy_data: Trying to over-receive" /\
    (forall K, is_send K -> exec c (K b n t 0 g cm) s = Exit 1 "copy_data: Trying to over-receive").
Proof. exact (@C33_lemma). Qed.
Print Assumptions C33_over_receive_partial.
(** As C31_ex, but only one vector (two ints) is sent. *)
Example C33_ex : ts_committed ex_vec <> 0 /\ ts_committed int_t <> 0 /\ typed default_cfg ex_vec 12 /\ typed default_cfg int_t 4 /\
  nelems 1 ex_vec = 2 /\ nelems (p_count p_first) int_t = 4.
Proof. split; [vm_compute; discriminate|]. split; [vm_compute; discriminate|]. split; [apply ex_vec_typed|]. split; [exact int_typed|]. split; reflexivity. Qed.

(** C34: the count in the status.  Irecv with Wait leaves whatever was there (here 14, though 2 ints were received), and
    Recv reports the count asked for (2) when 1 was sent. *)
Theorem C34_count_refuted :
  (exists s, ex_run [KInit; KIrecv 500 2 INTT 0 5 1; KIsend 100 2 INTT 0 5 1; KWait 2 (SAt st0)] = Ok ([VUnit; VInt 2; VInt 3; VWait 0 (SAt (mkStatus 0 5 13 14))], s)) /\
  MPI_Get_count (mkStatus 0 5 13 14) INTT = 14 /\
  (exists s, ex_run [KInit; KIsend 100 1 INTT 0 5 1; KRecv 500 2 INTT 0 5 1 (SAt st0)] = Ok ([VUnit; VInt 2; VStatus (SAt (mkStatus 0 5 13 2))], s)) /\
  MPI_Get_count (mkStatus 0 5 13 2) INTT = 2.
Proof. split; [eexists; vm_compute; reflexivity|]. split; [reflexivity|]. split; [eexists; vm_compute; reflexivity|reflexivity]. Qed.
Print Assumptions C34_count_refuted.
(** What holds: after Recv, Get_count gives the count asked for and Get_elements that times the elements per item.  Missing:
    receives of less than was asked for, and the other ways of receiving. *)
Theorem C34_recv_count_partial :
  forall (c : cfg) (tj : Z -> tjunk) (s : sys) (a : astate) (b n t so g cm : Z) (x : status) (o : out) (s' : sys) (a' : astate),
    reach c tj s a -> does c tj s a (KRecv b n t so g cm (SAt x)) o s' a' ->
    exists y, o = VStatus (SAt y) /\ MPI_Get_count y t = n /\
      forall ty, type_at c a' t = Some ty -> is_int (n * ts_count ty) -> exists s2, does c tj s' a' (KGetElements y t) (VInt (n * ts_count ty)) s2 a'.
Proof. exact (@C34_lemma). Qed.
Print Assumptions C34_recv_count_partial.
Example C34_ex : exists o s' a', reach default_cfg ex_tj (ex_s (h_vec ++ [KIsend 100 3 2 0 5 1])) (ex_a (h_vec ++ [KIsend 100 3 2 0 5 1])) /\
  does default_cfg ex_tj (ex_s (h_vec ++ [KIsend 100 3 2 0 5 1])) (ex_a (h_vec ++ [KIsend 100 3 2 0 5 1])) (KRecv 500 3 2 0 5 1 (SAt st0)) o s' a'.
Proof.
  destruct (ex_does (h_vec ++ [KIsend 100 3 2 0 5 1]) (KRecv 500 3 2 0 5 1 (SAt st0))) as (o & s' & a' & D); [vm_compute; reflexivity|].
  exists o, s', a'. split; [apply ex_reach; vm_compute; reflexivity|exact D].
Qed.

(** C44: an uncommitted datatype.  Undetected on the sending side when the send is posted first. *)
Theorem C44_send_first_refuted :
  exists s, ex_run [KInit; KTypeCreate (TVector 2 1 2 INTT); KIsend 100 1 2 0 5 1; KIrecv 500 2 INTT 0 5 1] = Ok ([VUnit; VInt 2; VInt 3; VInt 4], s) /\
    s_mem s 500 = ex_mem 100 /\ ex_mem 500 <> ex_mem 100.
Proof. eexists. split; [vm_compute; reflexivity|]. split; [reflexivity|]. vm_compute. discriminate. Qed.
Print Assumptions C44_send_first_refuted.
(** What holds: detected on both sides when the receive is first, on the receiving side when the send is.  Missing: the sender's
    type when the send is posted first. *)
Theorem C44_uncommitted_send_partial :
  forall (c : cfg) (tj : Z -> tjunk) (s : sys) (a : astate) (b n t : Z) (ts : typestruct) (g cm : Z) (k : acomm) bf (p : pend) e (td : typestruct),
    reach c tj s a -> has_handle a -> room a -> comm_at a cm = Some k -> earliest Snd g k bf p e ->
    type_at c a t = Some ts -> type_at c a (p_type p) = Some td -> ts_committed ts = 0 \/ ts_committed td = 0 ->
    exec c (KIsend b n t 0 g cm) s = Exit (-1) "Type not committed" /\ (forall K, is_send K -> exec c (K b n t 0 g cm) s = Exit (-1) "Type not committed").
Proof. exact (@C44_send_lemma). Qed.
Print Assumptions C44_uncommitted_send_partial.
Theorem C44_uncommitted_receive_partial :
  forall (c : cfg) (tj : Z -> tjunk) (s : sys) (a : astate) (b n t so : Z) (ty : typestruct) (g cm : Z) (k : acomm) bf (p : pend) e,
    reach c tj s a -> has_handle a -> room a -> comm_at a cm = Some k -> so = 0 \/ so = MPI_ANY_SOURCE -> earliest Rcv g k bf p e ->
    type_at c a t = Some ty -> ts_committed ty = 0 ->
    exec c (KIrecv b n t so g cm) s = Exit (-1) "Type not committed" /\ (forall st, st <> SBad -> exec c (KRecv b n t so g cm st) s = Exit (-1) "Type not committed").
Proof. exact (@C44_recv_lemma). Qed.
Print Assumptions C44_uncommitted_receive_partial.
(** Commit sets the mark of exactly that type, and only that. *)
Theorem C44_commit :
  forall (c : cfg) (tj : Z -> tjunk) (s : sys) (a : astate) (h : Z) (t : typestruct), reach c tj s a -> a_obj a h = Some (AType t) ->
    exists s' a' t', does c tj s a (KTypeCommit h) VUnit s' a' /\ a_obj a' h = Some (AType t') /\
      ts_committed t' = 1 /\ ts_count t' = ts_count t /\ ts_ub t' = ts_ub t /\ ts_lb t' = ts_lb t /\ ts_olb t' = ts_olb t /\ ts_oub t' = ts_oub t /\ ts_pairs t' = ts_pairs t /\
      (forall x, x <> h -> a_obj a' x = a_obj a x) /\ a_mem a' = a_mem a /\ a_log a' = a_log a /\
      (ts_committed t = 1 -> forall x, a_obj a' x = a_obj a x).
Proof. exact (@C44_commit_lemma). Qed.
Print Assumptions C44_commit.
Theorem C44_predefined :
  forall (c : cfg) (tj : Z -> tjunk) (s : sys) (a : astate) (h : Z) (t : typestruct), reach c tj s a -> h < 0 -> type_at c a h = Some t ->
    ts_committed t <> 0 /\ exists s', does c tj s a (KTypeCommit h) VUnit s' a.
Proof. exact (@C44_predefined_lemma). Qed.
Print Assumptions C44_predefined.
(** An uncommitted type next to a pending receive and a pending send. *)
Definition h_unc : list call := [KInit; KTypeCreate (TVector 2 1 2 INTT); KIrecv 500 2 INTT 0 5 1; KIsend 100 2 INTT 0 6 1].
Example C44_ex : exists k t ti, reach default_cfg ex_tj (ex_s h_unc) (ex_a h_unc) /\ has_handle (ex_a h_unc) /\ room (ex_a h_unc) /\ comm_at (ex_a h_unc) 1 = Some k /\
  earliest Snd 5 k [] (mkPend 0 3 500 2 INTT 5) [] /\ earliest Rcv (-1) k [] (mkPend 1 4 100 2 INTT 6) [] /\
  a_obj (ex_a h_unc) 2 = Some (AType t) /\ type_at default_cfg (ex_a h_unc) 2 = Some t /\ ts_committed t = 0 /\ type_at default_cfg (ex_a h_unc) INTT = Some ti.
Proof.
  do 3 eexists. split; [apply ex_reach; vm_compute; reflexivity|]. split; [vm_compute; discriminate|]. split; [vm_compute; reflexivity|].
  split; [vm_compute; reflexivity|]. split; [split; [reflexivity|split; [reflexivity|intros q []]]|]. split; [split; [reflexivity|split; [reflexivity|intros q []]]|].
  split; [vm_compute; reflexivity|]. split; [vm_compute; reflexivity|]. split; vm_compute; reflexivity.
Qed.

(** C45: a datatype is changed only by calls that name it (commit or free), whatever it was built from. *)
Theorem C45_types_are_independent :
  forall (c : cfg) (tj : Z -> tjunk) (s : sys) (a : astate) (k : call) (o : out) (s' : sys) (a' : astate) (h : Z) (t : typestruct),
    reach c tj s a -> does c tj s a k o s' a' -> k <> KFinalize -> ~ In h (types_of k) -> type_at c a h = Some t -> type_at c a' h = Some t.
Proof. exact (@C45_lemma). Qed.
Print Assumptions C45_types_are_independent.
(** Type 3 is built from type 2, which is then freed. *)
Definition h_built : list call := [KInit; KTypeCreate (TVector 2 1 2 INTT); KTypeCreate (TContiguous 2 2)].
Example C45_ex : exists t o s' a', reach default_cfg ex_tj (ex_s h_built) (ex_a h_built) /\ type_at default_cfg (ex_a h_built) 3 = Some t /\ typemap t = [(2, 0); (2, 8); (2, 12); (2, 20)] /\
  does default_cfg ex_tj (ex_s h_built) (ex_a h_built) (KTypeFree 2) o s' a' /\ ~ In 3 (types_of (KTypeFree 2)).
Proof.
  destruct (ex_does h_built (KTypeFree 2)) as (o & s' & a' & D); [vm_compute; reflexivity|].
  eexists; exists o, s', a'. split; [apply ex_reach; vm_compute; reflexivity|]. split; [vm_compute; reflexivity|]. split; [vm_compute; reflexivity|].
  split; [exact D|]. intros [H|[]]. discriminate.
Qed.

(** C46: MPI_Type_free.  The variable is not set to MPI_DATATYPE_NULL, and a pending receive that uses the type is left with a
    freed type: the matching send is then undefined. *)
Theorem C46_type_free_refuted :
  (exists s, ex_run (h_vec ++ [KTypeFree 2]) = Ok ([VUnit; VInt 2; VUnit; VInt 2], s)) /\ 2 <> MPI_DATATYPE_NULL /\
  ex_run (h_vec ++ [KIrecv 500 1 2 0 5 1; KTypeFree 2; KIsend 100 2 INTT 0 5 1]) = UB "not a datatype" /\
  exists os s, ex_run (h_vec ++ [KIrecv 500 1 2 0 5 1; KIsend 100 2 INTT 0 5 1]) = Ok (os, s).
Proof. split; [eexists; vm_compute; reflexivity|]. split; [discriminate|]. split; [vm_compute; reflexivity|]. do 2 eexists. vm_compute. reflexivity. Qed.
Print Assumptions C46_type_free_refuted.
(** What holds: exactly the handle is released.  Missing: the variable, and pending receives. *)
Theorem C46_type_free_partial :
  forall (c : cfg) (tj : Z -> tjunk) (s : sys) (a : astate) (h : Z) (t : typestruct), reach c tj s a -> a_obj a h = Some (AType t) ->
    exists s' a', does c tj s a (KTypeFree h) (VInt h) s' a' /\ released h a a'.
Proof. exact (@C46_lemma). Qed.
Print Assumptions C46_type_free_partial.
(** The hypotheses are those of C44_ex. *)
