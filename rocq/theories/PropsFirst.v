(** The other posting order, for all messages (C32, C33, C44): what a receive delivers when the send came first, and when the two orders agree. *)
From Coq Require Import Lia.
From Verif Require Import Base HandleExact TypeModel TypeSpec TypeProofs CopyModel CopySpec CopyEx SysModel CollModel SysCalls SysSpec SysLog SysReach SysFacts SysFacts2 SysFacts3 SysFacts6 SysFinal SysEx FirstFacts PropsXfer.

(** The pending send [p] is any send at all: its count and datatype, committed or not, long enough or not, have no influence.  The
    receive copies from the sender's buffer the elements that its own count and datatype describe. *)
Theorem C33_send_first_exact :
  forall (c : cfg) (tj : Z -> tjunk) (s : sys) (a : astate) (b n t : Z) (td : typestruct) (ed so g cm : Z) (k : acomm) bf (p : pend) e,
    reach c tj s a -> has_handle a -> room a -> comm_at a cm = Some k -> so = 0 \/ so = MPI_ANY_SOURCE ->
    earliest Rcv g k bf p e -> cfg_ok c -> mem_ok (s_mem s) -> type_at c a t = Some td ->
    transfer c n td ed n td ed -> offsets_fit n ed (typemap td) ->
    let S := layout c (p_buf p) n ed (typemap td) in let D := layout c b n ed (typemap td) in
    buffers_ok (s_mem s) S D ->
    exists m', same_domain (s_mem s) m' /\ copied (s_mem s) m' S D /\
      (exists h s' a', does c tj s a (KIrecv b n t so g cm) (VInt h) s' a' /\ s_mem s' = m' /\ paired Rcv a cm k (a_clock a) h g bf p e m' a') /\
      (forall st, st <> SBad -> exists s' a' st', does c tj s a (KRecv b n t so g cm st) (VStatus (with_count st' n)) s' a' /\ s_mem s' = m' /\
         wrote st (Write (Some 0) (Some (p_tag p))) st' /\ absorbed Rcv a cm k (a_clock a) g bf p e m' a').
Proof. exact (@C32_first_lemma). Qed.
Print Assumptions C33_send_first_exact.
(** One uncommitted vector (two ints with a gap) was sent, three ints are received: more than was sent, from an uncommitted type. *)
Definition h_sent : list call := [KInit; KTypeCreate (TVector 2 1 2 INTT); KIsend 100 1 2 0 5 1].
Definition p_sent : pend := mkPend 0 3 100 1 2 5.
Definition k_sent : acomm := mkAcomm 0 [p_sent] [].
Example C33_send_first_ex : let s := ex_s h_sent in let a := ex_a h_sent in
  reach default_cfg ex_tj s a /\ has_handle a /\ room a /\ comm_at a 1 = Some k_sent /\ earliest Rcv 5 k_sent [] p_sent [] /\
  cfg_ok default_cfg /\ s_mem s = ex_mem /\ mem_ok ex_mem /\ type_at default_cfg a INTT = Some int_t /\
  transfer default_cfg 3 int_t 4 3 int_t 4 /\ offsets_fit 3 4 (typemap int_t) /\
  (exists ts, type_at default_cfg a (p_type p_sent) = Some ts /\ ts_committed ts = 0 /\ nelems (p_count p_sent) ts < nelems 3 int_t) /\
  buffers_ok ex_mem (layout default_cfg 100 3 4 (typemap int_t)) (layout default_cfg 500 3 4 (typemap int_t)).
Proof.
  cbv zeta. split; [apply ex_reach; vm_compute; reflexivity|]. split; [vm_compute; discriminate|]. split; [vm_compute; reflexivity|].
  split; [vm_compute; reflexivity|]. split; [split; [reflexivity|split; [reflexivity|intros q []]]|].
  split; [unfold cfg_ok; cbn; lia|]. split; [vm_compute; reflexivity|]. split; [apply flat_ok; unfold TWO64; lia|]. split; [vm_compute; reflexivity|].
  split; [assert (V := int_typed); constructor; try exact V; vm_compute; congruence|]. split; [apply fits_ok; vm_compute; reflexivity|].
  split; [eexists; split; [vm_compute; reflexivity|]; split; [reflexivity|vm_compute; reflexivity]|]. apply bufs_ok; vm_compute; reflexivity.
Qed.

(** C32: the two orders deliver the same for any two datatypes, when the layout of what was sent begins with the layout that the
    receive describes.  (C32_order_partial is the case of one datatype.) *)
Theorem C32_orders_agree_partial :
  forall (c : cfg) (tj : Z -> tjunk) (s1 : sys) (a1 : astate) (s2 : sys) (a2 : astate) (src sn : Z) (ts : typestruct) (es sty dst n : Z) (td : typestruct) (ed ty so sg rg cm : Z)
    k1 bf1 p1 e1 k2 bf2 p2 e2 (r : list region),
    (* the send is pending in the first state, the receive in the second *)
    reach c tj s1 a1 -> reach c tj s2 a2 -> (forall x, s_mem s2 x = s_mem s1 x) -> has_handle a1 -> has_handle a2 -> room a1 -> room a2 ->
    comm_at a1 cm = Some k1 -> earliest Rcv rg k1 bf1 p1 e1 -> p_buf p1 = src -> p_count p1 = sn -> p_type p1 = sty -> p_tag p1 = sg ->
    comm_at a2 cm = Some k2 -> earliest Snd sg k2 bf2 p2 e2 -> p_buf p2 = dst -> p_count p2 = n -> p_type p2 = ty -> p_tag p2 = rg ->
    so = 0 \/ so = MPI_ANY_SOURCE -> type_at c a1 ty = Some td -> type_at c a2 ty = Some td -> type_at c a2 sty = Some ts ->
    cfg_ok c -> mem_ok (s_mem s1) -> transfer c sn ts es n td ed -> (type_checking c = true -> types_agree sn ts n td) ->
    offsets_fit sn es (typemap ts) -> offsets_fit n ed (typemap td) ->
    let S := layout c src sn es (typemap ts) in let D := layout c dst n ed (typemap td) in
    buffers_ok (s_mem s1) S D ->
    S = layout c src n ed (typemap td) ++ r ->
    exists h1 s1' a1' h2 s2' a2', does c tj s1 a1 (KIrecv dst n ty so rg cm) (VInt h1) s1' a1' /\ does c tj s2 a2 (KIsend src sn sty 0 sg cm) (VInt h2) s2' a2' /\
      (forall x, s_mem s1' x = s_mem s2' x) /\ copied (s_mem s1) (s_mem s1') S D /\ copied (s_mem s2) (s_mem s2') S D.
Proof. exact (@C32_layouts_lemma). Qed.
Print Assumptions C32_orders_agree_partial.
(** Two triples of ints are sent and five single ints are received. *)
Definition h_tri : list call := [KInit; KTypeCreate (TContiguous 3 INTT); KTypeCommit 2].
Definition tri_t : typestruct := match type_at default_cfg (ex_a h_tri) 2 with Some t => t | None => int_t end.
Lemma tri_typed : typed default_cfg tri_t 12.
Proof. split; [apply wfb_ok|]; vm_compute; reflexivity. Qed.
Example C32_orders_ex : let h1 := h_tri ++ [KIsend 100 2 2 0 5 1] in let h2 := h_tri ++ [KIrecv 500 5 INTT 0 (-1) 1] in
  let p1 := mkPend 0 3 100 2 2 5 in let p2 := mkPend 0 3 500 5 INTT (-1) in
  let k1 := mkAcomm 0 [p1] [] in let k2 := mkAcomm 0 [] [p2] in
  reach default_cfg ex_tj (ex_s h1) (ex_a h1) /\ reach default_cfg ex_tj (ex_s h2) (ex_a h2) /\ s_mem (ex_s h1) = ex_mem /\ s_mem (ex_s h2) = ex_mem /\
  has_handle (ex_a h1) /\ has_handle (ex_a h2) /\ room (ex_a h1) /\ room (ex_a h2) /\
  comm_at (ex_a h1) 1 = Some k1 /\ earliest Rcv (-1) k1 [] p1 [] /\ comm_at (ex_a h2) 1 = Some k2 /\ earliest Snd 5 k2 [] p2 [] /\
  type_at default_cfg (ex_a h1) INTT = Some int_t /\ type_at default_cfg (ex_a h2) INTT = Some int_t /\ type_at default_cfg (ex_a h2) 2 = Some tri_t /\
  transfer default_cfg 2 tri_t 12 5 int_t 4 /\ offsets_fit 2 12 (typemap tri_t) /\ offsets_fit 5 4 (typemap int_t) /\
  buffers_ok ex_mem (layout default_cfg 100 2 12 (typemap tri_t)) (layout default_cfg 500 5 4 (typemap int_t)) /\
  layout default_cfg 100 2 12 (typemap tri_t) = layout default_cfg 100 5 4 (typemap int_t) ++ [(120, 4)].
Proof.
  cbv zeta. split; [apply ex_reach; vm_compute; reflexivity|]. split; [apply ex_reach; vm_compute; reflexivity|].
  split; [vm_compute; reflexivity|]. split; [vm_compute; reflexivity|]. split; [vm_compute; discriminate|]. split; [vm_compute; discriminate|].
  split; [vm_compute; reflexivity|]. split; [vm_compute; reflexivity|].
  split; [vm_compute; reflexivity|]. split; [split; [reflexivity|split; [reflexivity|intros q []]]|].
  split; [vm_compute; reflexivity|]. split; [split; [reflexivity|split; [reflexivity|intros q []]]|].
  split; [vm_compute; reflexivity|]. split; [vm_compute; reflexivity|]. split; [vm_compute; reflexivity|].
  split; [assert (V := tri_typed); assert (C := int_typed); constructor; try exact V; try exact C; vm_compute; congruence|].
  split; [apply fits_ok; vm_compute; reflexivity|]. split; [apply fits_ok; vm_compute; reflexivity|].
  split; [apply bufs_ok; vm_compute; reflexivity|]. vm_compute. reflexivity.
Qed.
