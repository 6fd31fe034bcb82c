(** The copy and pack lemmas behind the property theorems. *)
From Verif Require Import Base TypeModel TypeSpec TypeProofs TypeStruct TypeCons TypeTree TypeFinal
  CopyModel CopySpec CopyProofs PackProofs.

Lemma bytes_first m m' S : forall D, map snd S = map snd D ->
  (forall k s d j, nth_error S k = Some s -> nth_error D k = Some d -> 0 <= j < snd d -> m' (fst d + j) = m (fst s + j)) ->
  bytes m' D = bytes m S.
Proof.
  induction S as [|s S IH]; intros [|d D] H C; cbn in *; try discriminate; auto.
  injection H as H1 H2. unfold bytes in *. cbn [flat_map]. rewrite (IH D H2).
  - apply (f_equal (fun x => x ++ _)). rewrite H1. apply map_ext_in. intros j Hj. apply upto_in in Hj.
    apply (C O s d j eq_refl eq_refl). lia.
  - intros k x y j Hx Hy Hj. apply (C (Datatypes.S k) x y j); auto.
Qed.
Lemma bytes_copied m m' S D : map snd S = map snd D -> copied m m' S D -> bytes m' D = bytes m S.
Proof. intros H C. apply bytes_first; [exact H|apply C]. Qed.

Lemma bytes_app m r1 r2 : bytes m (r1 ++ r2) = bytes m r1 ++ bytes m r2.
Proof. unfold bytes. apply flat_map_app. Qed.


Lemma seq_shift_n a n : forall s, List.seq (s + a) n = map (fun x => (x + a)%nat) (List.seq s n).
Proof. induction n as [|n IH]; intros s; cbn; auto. f_equal. rewrite <- (IH (Datatypes.S s)). reflexivity. Qed.
Lemma upto_app a b : 0 <= a -> 0 <= b -> upto (a + b) = upto a ++ map (fun j => a + j) (upto b).
Proof.
  intros Ha Hb. unfold upto. rewrite Z2Nat.inj_add by lia. rewrite seq_app, map_app. f_equal.
  rewrite seq_shift_n, !map_map. apply map_ext. intros x. rewrite Nat2Z.inj_add, Z2Nat.id by lia. lia.
Qed.

Lemma total_size_nonneg rs : (forall r, In r rs -> 0 <= snd r) -> 0 <= total_size rs.
Proof.
  induction rs as [|y rs IH]; intros H; unfold total_size; cbn [map fold_right]; [lia|].
  assert (0 <= snd y) by (apply H; left; auto). assert (0 <= total_size rs) by (apply IH; intros; apply H; right; auto).
  unfold total_size in *. lia.
Qed.

Lemma bytes_consecutive m rs : (forall r, In r rs -> 0 <= snd r) -> forall a,
  bytes m (consecutive a rs) = bytes m [(a, total_size rs)].
Proof.
  induction rs as [|r rs IH]; intros H a; [reflexivity|].
  assert (N := total_size_nonneg rs (fun r Hr => H r (or_intror Hr))). assert (0 <= snd r) by (apply H; left; auto).
  cbn [consecutive]. change ((a, snd r) :: consecutive (a + snd r) rs) with ([(a, snd r)] ++ consecutive (a + snd r) rs).
  rewrite bytes_app, (IH (fun r Hr => H r (or_intror Hr))).
  replace (total_size (r :: rs)) with (snd r + total_size rs) by reflexivity.
  unfold bytes. cbn [flat_map fst snd]. rewrite !app_nil_r. rewrite upto_app, map_app, map_map by lia.
  f_equal. apply map_ext. intros j. f_equal. lia.
Qed.

Lemma nelems_count c n t ext : typed c t ext -> ts_count t * n = nelems n t.
Proof.
  intros [W _]. unfold nelems. rewrite typemap_length; [ring|]. assert (C := wf_count _ _ W). assert (P := wf_pairs _ _ W). lia.
Qed.

Section Final.
Variable c : cfg.
Hypothesis CO : cfg_ok c.

Lemma map_fst_nth {A B} (l1 l2 : list (A * B)) k a : map fst l1 = map fst l2 -> nth_error l1 k = Some a ->
  exists a', nth_error l2 k = Some a' /\ fst a' = fst a.
Proof.
  revert l2 k. induction l1 as [|x l1 IH]; intros [|y l2] [|k] H Ha; cbn in *; try discriminate; injection H as H1 H2.
  - injection Ha as <-. eauto.
  - eauto.
Qed.
Lemma elements_types n ext ext' tm : map fst (elements n ext tm) = map fst (elements n ext' tm).
Proof.
  unfold elements, copies. induction (upto n) as [|x l IH]; [reflexivity|]. cbn [flat_map]. rewrite !map_app.
  apply f_equal2; [unfold shift; rewrite !map_map; reflexivity|exact IH].
Qed.
Lemma elements_type_at n ext ext' tm k a : nth_error (elements n ext tm) k = Some a ->
  exists a', nth_error (elements n ext' tm) k = Some a' /\ fst a' = fst a.
Proof. apply map_fst_nth. apply elements_types. Qed.

Lemma types_agree_ext ns ts es nd td ed : types_agree ns ts nd td ->
  forall k a b, nth_error (elements ns es (typemap ts)) k = Some a ->
     nth_error (elements nd ed (typemap td)) k = Some b -> fst a = fst b.
Proof.
  intros H k a b Ha Hb. destruct (elements_type_at _ _ 0 _ _ _ Ha) as (a' & A1 & A2).
  destruct (elements_type_at _ _ 0 _ _ _ Hb) as (b' & B1 & B2). specialize (H k a' b' A1 B1). congruence.
Qed.

(** C50, general form: the transfer with offsets truncated to 32 bits. *)
Lemma C50_lemma m source ns ts es dest nd td ed : mem_ok m -> transfer c ns ts es nd td ed ->
  (type_checking c = true -> types_agree ns ts nd td) ->
  let S := layout32 c source ns es (typemap ts) in let D := layout32 c dest nd ed (typemap td) in
  buffers_ok m S D ->
  exists m', Pcopy_data2 c m source ns ts dest nd td = Ok m' /\ same_domain m m' /\ copied m m' S D.
Proof.
  intros MO [TS TD CS CD HS HD HI HR] TC S D B. destruct TS as [Ws Es]. destruct TD as [Wd Ed].
  rewrite <- (nelems_count c ns ts es (conj Ws Es)) in HI, HR. rewrite <- (nelems_count c nd td ed (conj Wd Ed)) in HR.
  apply Pcopy_ok; auto. intros T. apply (types_agree_ext ns ts es nd td ed (TC T)).
Qed.

Lemma C48_lemma m source ns ts es dest nd td ed : mem_ok m -> transfer c ns ts es nd td ed ->
  (type_checking c = true -> types_agree ns ts nd td) ->
  offsets_fit ns es (typemap ts) -> offsets_fit nd ed (typemap td) ->
  let S := layout c source ns es (typemap ts) in let D := layout c dest nd ed (typemap td) in
  buffers_ok m S D ->
  exists m', Pcopy_data2 c m source ns ts dest nd td = Ok m' /\ same_domain m m' /\ copied m m' S D.
Proof.
  intros MO T TC FS FD S D B. subst S D. rewrite <- !layout32_fits in * by auto. apply C50_lemma; auto.
Qed.

Lemma C44_copy_lemma m source ns ts dest nd td : ts_committed ts = 0 \/ ts_committed td = 0 ->
  Pcopy_data2 c m source ns ts dest nd td = Exit (-1) "Type not committed".
Proof. apply Pcopy_uncommitted. Qed.

Lemma C33_copy_lemma m source ns ts es dest nd td ed : typed c ts es -> typed c td ed ->
  ts_committed ts <> 0 -> ts_committed td <> 0 -> is_int (nelems ns ts) -> is_int (nelems nd td) ->
  nelems ns ts < nelems nd td ->
  Pcopy_data2 c m source ns ts dest nd td = Exit 1 "copy_data: Trying to over-receive".
Proof.
  intros TS TD CS CD IS ID H. rewrite <- (nelems_count c ns ts es TS) in IS, H. rewrite <- (nelems_count c nd td ed TD) in ID, H.
  apply Pcopy_over; auto.
Qed.

(** C49 *)
Lemma layout_sizes_reads S D : map snd S = map snd D -> reads S D = S.
Proof. apply reads_same. Qed.

Lemma mem_ok_domain m m' : same_domain m m' -> mem_ok m -> mem_ok m'.
Proof. intros D MO a Ha. apply MO. intros N. apply Ha. apply D. exact N. Qed.

Lemma C49_lemma m a na ta ea b nb tb eb m1 : mem_ok m ->
  transfer c na ta ea nb tb eb -> transfer c nb tb eb na ta ea ->
  (type_checking c = true -> types_agree na ta nb tb) ->
  offsets_fit na ea (typemap ta) -> offsets_fit nb eb (typemap tb) ->
  let A := layout c a na ea (typemap ta) in let B := layout c b nb eb (typemap tb) in
  map snd A = map snd B -> live m A -> live m B -> all_apart A B -> pairwise_apart A -> pairwise_apart B ->
  Pcopy_data2 c m a na ta b nb tb = Ok m1 ->
  forall m2, same_domain m1 m2 -> bytes m2 B = bytes m1 B ->
  exists m3, Pcopy_data2 c m2 b nb tb a na ta = Ok m3 /\ bytes m3 A = bytes m A /\
    (forall x, (forall r, In r A -> ~ inside r x) -> m3 x = m2 x).
Proof.
  intros MO T1 T2 TC FA FB A B SZ LA LB AB PA PB E1 m2 D2 B2.
  destruct (C48_lemma m a na ta ea b nb tb eb MO T1 TC FA FB) as (m1' & E & D1 & C1).
  { split; [rewrite reads_same by exact SZ; exact LA|]. split; [exact LB|]. split; [rewrite reads_same by exact SZ; exact AB|exact PB]. }
  rewrite E1 in E. apply Ok_inj in E. subst m1'.
  assert (BA : all_apart B A) by (intros r s Hr Hs x [X Y]; exact (AB s r Hs Hr x (conj Y X))).
  assert (D02 : same_domain m m2) by (intros x; rewrite (D1 x); apply D2).
  destruct (C48_lemma m2 b nb tb eb a na ta ea (mem_ok_domain _ _ D02 MO) T2) as (m3 & E3 & D3 & C3); auto.
  { intros T k x y Hx Hy. symmetry. apply (TC T k y x Hy Hx). }
  { split; [rewrite reads_same by (symmetry; exact SZ); exact (live_domain _ _ _ D02 LB)|].
    split; [exact (live_domain _ _ _ D02 LA)|]. split; [rewrite reads_same by (symmetry; exact SZ); exact BA|exact PA]. }
  exists m3. split; [exact E3|]. split; [|apply C3].
  etransitivity; [apply (bytes_copied m2 m3 B A (eq_sym SZ) C3)|]. fold B. rewrite B2. apply (bytes_copied m m1 A B SZ C1).
Qed.

(** C51 *)
Lemma length_unchecked ty : Simpletype_length (unchecked c) ty = Simpletype_length c ty.
Proof. reflexivity. Qed.
Lemma extent_unchecked t : Type_extent (unchecked c) t = Type_extent c t.
Proof. reflexivity. Qed.

Lemma C51_accept m source ns ts es dest nd td ed : transfer c ns ts es nd td ed -> types_agree ns ts nd td ->
  Pcopy_data2 c m source ns ts dest nd td = Pcopy_data2 (unchecked c) m source ns ts dest nd td.
Proof.
  intros [TS TD CS CD HS HD HI HR] TA. destruct TS as [Ws Es]. destruct TD as [Wd Ed].
  rewrite <- (nelems_count c ns ts es (conj Ws Es)) in HI, HR. rewrite <- (nelems_count c nd td ed (conj Wd Ed)) in HR.
  rewrite (Pcopy_foldM c m source ns ts es dest nd td ed) by auto.
  rewrite (Pcopy_foldM (unchecked c) m source ns ts es dest nd td ed); auto.
  - apply foldM_in_ext. intros [a b] s Hin. unfold copy_body. cbn [fst snd unchecked type_checking andb].
    apply In_nth_error in Hin. destruct Hin as (k & Hk). destruct (nth_combine _ _ _ _ Hk) as [H1 H2]. cbn [fst snd] in H1, H2.
    rewrite (types_agree_ext _ _ es _ _ ed TA k a b H1 H2), Z.eqb_refl, andb_false_r. reflexivity.
  - destruct Ws; constructor; auto.
  - destruct Wd; constructor; auto.
Qed.

Lemma mismatch_exit source dest : type_checking c = true -> forall l m,
  mem_ok m -> (forall x, In x l -> elem_ok c (snd x)) ->
  ops_ok m (map (fun x => (source + to_s32 (snd (fst x)), (dest + to_s32 (snd (snd x)), esize c (snd x)))) l) ->
  (exists x, In x l /\ fst (fst x) <> fst (snd x)) ->
  foldM (copy_body c source dest) l m = Exit 1 "copy_data: Types don't match.".
Proof.
  intros TC. induction l as [|[a b] l IH]; intros m MO K OO (x & Hx & NE); [destruct Hx|].
  cbn [foldM]. unfold copy_body at 1. rewrite TC. cbn [andb fst snd].
  destruct (Z.eqb_spec (fst a) (fst b)) as [EQ|]; [|reflexivity]. cbn [negb].
  destruct (K (a, b) (or_introl eq_refl)) as [KL KP]. cbn [snd] in KL, KP. rewrite KL. cbn [bind].
  cbn [map fst snd] in OO. destruct (ops_cons _ _ _ OO) as (P & LS & LD & AP & _ & _ & OT).
  unfold op_src, op_dst in *. cbn [fst snd] in *.
  assert (RS := live_first m _ _ MO LS (or_introl eq_refl) P). assert (RD := live_first m _ _ MO LD (or_introl eq_refl) P).
  cbn [fst snd] in RS, RD. unfold padd. rewrite !to_u64_id by assumption.
  destruct (run_ops [(source + to_s32 (snd a), (dest + to_s32 (snd b), esize c b))] m) as (m1 & E & D & _).
  { constructor; cbn; auto.
    - intros o [<-|[]]; cbn; auto.
    - intros r s [<-|[]] [<-|[]]. exact AP.
    - intros [|i] [|j] r s Hi Hj N; try congruence; cbn in *; destruct i || destruct j; discriminate. }
  unfold do_op in E. cbn [foldM fst snd] in E.
  destruct (memcpy m (dest + to_s32 (snd b)) (source + to_s32 (snd a)) (esize c b)) as [m2| | | |]; cbn [bind] in E; try discriminate.
  apply Ok_inj in E. subst m2. cbn [bind]. apply IH.
  - exact (mem_ok_domain _ _ D MO).
  - intros y Hy. apply K. right. exact Hy.
  - destruct OT. constructor; auto; eapply live_domain; eauto.
  - destruct Hx as [<-|Hx]; [exfalso; apply NE; exact EQ|]. exists x. auto.
Qed.

Lemma ops_of_ok m S D : (length D <= length S)%nat -> (forall d, In d D -> 0 < snd d) -> buffers_ok m S D -> ops_ok m (ops_of S D).
Proof.
  intros HL HP (L1 & L2 & A & P). constructor.
  - intros o Ho. apply HP. rewrite <- (ops_writes S D HL). apply (in_map op_dst _ _ Ho).
  - rewrite ops_reads. exact L1.
  - rewrite ops_writes by exact HL. exact L2.
  - rewrite ops_reads, ops_writes by exact HL. exact A.
  - rewrite ops_writes by exact HL. exact P.
Qed.

Lemma C51_reject m source ns ts es dest nd td ed : type_checking c = true -> mem_ok m -> transfer c ns ts es nd td ed ->
  ~ types_agree ns ts nd td ->
  buffers_ok m (layout32 c source ns es (typemap ts)) (layout32 c dest nd ed (typemap td)) ->
  Pcopy_data2 c m source ns ts dest nd td = Exit 1 "copy_data: Types don't match.".
Proof.
  intros TC MO [TS TD CS CD HS HD HI HR] TA B. destruct TS as [Ws Es]. destruct TD as [Wd Ed].
  assert (LS := elements_length ns es (typemap ts) HS). assert (LD := elements_length nd ed (typemap td) HD).
  assert (LEN : (length (layout32 c dest nd ed (typemap td)) <= length (layout32 c source ns es (typemap ts)))%nat).
  { rewrite !layout32_length. unfold nelems in HR. lia. }
  rewrite <- (nelems_count c ns ts es (conj Ws Es)) in HI, HR. rewrite <- (nelems_count c nd td ed (conj Wd Ed)) in HR.
  rewrite (Pcopy_foldM c m source ns ts es dest nd td ed) by auto.
  set (l := combine (elements ns es (typemap ts)) (elements nd ed (typemap td))).
  apply mismatch_exit; auto.
  - intros [a b] Hx. apply in_combine_r in Hx. exact (known_pos c CO _ _ _ _ (wf_known _ _ Wd) Hx).
  - assert (OO := ops_of_ok _ _ _ LEN ltac:(
      intros d H; unfold layout32 in H; apply in_map_iff in H; destruct H as (e & <- & He); cbn [snd];
      apply (known_pos c CO _ _ _ _ (wf_known _ _ Wd) He)) B).
    unfold ops_of, layout32 in OO. rewrite combine_map, map_map in OO. exact OO.
  - (* a mismatch exists, by decidability on the finite list *)
    destruct (forallb (fun x => fst (fst x) =? fst (snd x)) l) eqn:F.
    + exfalso. apply TA. rewrite forallb_forall in F. intros k a b Ha Hb.
      assert (KA := elements_type_at _ _ es _ _ _ Ha). assert (KB := elements_type_at _ _ ed _ _ _ Hb).
      destruct KA as (a' & A1 & A2). destruct KB as (b' & B1 & B2).
      assert (IN : In (a', b') l).
      { unfold l. clear - A1 B1. revert k A1 B1. generalize (elements ns es (typemap ts)), (elements nd ed (typemap td)).
        induction l as [|x l IH]; intros [|y l2] [|k] A1 B1; cbn in *; try discriminate; [left; congruence|right; eauto]. }
      apply F in IN. apply Z.eqb_eq in IN. cbn [fst snd] in IN. exact (eq_trans (eq_sym A2) (eq_trans IN B2)).
    + clear - F. induction l as [|x l IH]; cbn in F; [discriminate|]. apply andb_false_iff in F. destruct F as [F|F].
      * exists x. split; [left; auto|]. apply Z.eqb_neq. exact F.
      * destruct (IH F) as (y & Hy & NE). exists y. split; [right; auto|exact NE].
Qed.

(** C52-C55 *)
Lemma layout_nonneg user n ext t : wf_ts c t -> forall r, In r (layout c user n ext (typemap t)) -> 0 <= snd r.
Proof.
  intros W r Hr. apply in_map_iff in Hr. destruct Hr as (e & <- & He). cbn [snd].
  destruct (layout_known c CO n ext t W e He). lia.
Qed.

Lemma C53_pack_lemma m inbuf n t ext outbuf outsize position : typed c t ext ->
  let U := layout c inbuf n ext (typemap t) in
  pack_ok m U outbuf outsize position ->
  let run := Pack c m inbuf n t outbuf outsize position in
  if position + total_size U <=? outsize then
    exists m', run = Ok (m', position + total_size U) /\ same_domain m m' /\
      bytes m' [(outbuf + position, total_size U)] = bytes m U /\
      (forall a, ~ inside (outbuf + position, total_size U) a -> m' a = m a)
  else run = Exit 1 "MPI_Pack: data exceeds buffer size".
Proof.
  intros [W E] U [MO LU LB AP HP HS HT] run. unfold run. rewrite (pack_foldM c m inbuf n t ext) by auto.
  assert (N := layout_nonneg inbuf n ext t W).
  assert (M := pk_main c true "MPI_Pack: data exceeds buffer size" m inbuf (elements n ext (typemap t)) outbuf outsize position MO
    (layout_known c CO n ext t W)). rewrite regs_layout in M. fold U in M, N.
  specialize (M LU LB AP ltac:(discriminate) HP HS HT). cbv zeta in M.
  destruct (position + total_size U <=? outsize); [|exact M].
  destruct M as (m' & R & D & C). exists m'. split; [exact R|]. split; [exact D|]. split.
  - rewrite <- bytes_consecutive by exact N. apply bytes_copied; [symmetry; apply consecutive_snd|exact C].
  - intros a Ha. apply (proj2 C). intros r Hr Hin. apply Ha. destruct (consecutive_inside U N _ _ Hr).
    unfold inside in *. cbn [fst snd] in *. lia.
Qed.

Lemma C53_unpack_lemma m inbuf insize position outbuf n t ext : typed c t ext ->
  let U := layout c outbuf n ext (typemap t) in
  pack_ok m U inbuf insize position -> pairwise_apart U ->
  let run := Unpack c m inbuf insize position outbuf n t in
  if position + total_size U <=? insize then
    exists m', run = Ok (m', position + total_size U) /\ same_domain m m' /\
      bytes m' U = bytes m [(inbuf + position, total_size U)] /\
      (forall a, (forall r, In r U -> ~ inside r a) -> m' a = m a)
  else run = Exit 1 "MPI_Unpack: Data exceeds buffer size".
Proof.
  intros [W E] U [MO LU LB AP HP HS HT] PA run. unfold run. rewrite (unpack_foldM c m inbuf insize position outbuf n t ext) by auto.
  assert (N := layout_nonneg outbuf n ext t W).
  assert (M := pk_main c false "MPI_Unpack: Data exceeds buffer size" m outbuf (elements n ext (typemap t)) inbuf insize position MO
    (layout_known c CO n ext t W)). rewrite regs_layout in M. fold U in M, N.
  specialize (M LU LB AP (fun _ => PA) HP HS HT). cbv zeta in M.
  destruct (position + total_size U <=? insize); [|exact M].
  destruct M as (m' & R & D & C). exists m'. split; [exact R|]. split; [exact D|]. split; [|apply C].
  rewrite <- bytes_consecutive by exact N. apply bytes_copied; [apply consecutive_snd|exact C].
Qed.

(** Sequences of items. *)
Lemma padd_shift u d : padd u d = padd 0 (u + d).
Proof. reflexivity. Qed.

Definition item_elems (it : item) : list elem := shift (it_buf it) (elements (it_count it) (it_ext it) (typemap (it_type it))).

Lemma pk_body_shift dir msg user buf size l : forall st,
  foldM (pk_body c dir msg user buf size) l st = foldM (pk_body c dir msg 0 buf size) (shift user l) st.
Proof.
  intros st. unfold shift. rewrite foldM_map. apply foldM_in_ext. intros e [m p] _. unfold pk_body. cbn [fst snd].
  rewrite (padd_shift user (snd e)), (Z.add_comm user). reflexivity.
Qed.

Lemma pack_all_foldM its buf size : Forall (fun it => typed c (it_type it) (it_ext it)) its -> forall m p,
  pack_all c its buf size m p =
  foldM (pk_body c true "MPI_Pack: data exceeds buffer size" 0 buf size) (flat_map item_elems its) (m, p).
Proof.
  induction its as [|it its IH]; intros F m p; [reflexivity|]. inversion F as [|? ? [W E] F']; subst.
  cbn [pack_all flat_map]. rewrite foldM_app, (pack_foldM c _ _ _ _ (it_ext it)) by auto. rewrite pk_body_shift. fold (item_elems it).
  destruct (foldM _ (item_elems it) (m, p)) as [[m1 p1]| | | |]; cbn [bind]; auto.
Qed.
Lemma unpack_all_foldM its buf size : Forall (fun it => typed c (it_type it) (it_ext it)) its -> forall m p,
  unpack_all c its buf size m p =
  foldM (pk_body c false "MPI_Unpack: Data exceeds buffer size" 0 buf size) (flat_map item_elems its) (m, p).
Proof.
  induction its as [|it its IH]; intros F m p; [reflexivity|]. inversion F as [|? ? [W E] F']; subst.
  cbn [unpack_all flat_map]. rewrite foldM_app, (unpack_foldM c _ _ _ _ _ _ _ (it_ext it)) by auto. rewrite pk_body_shift. fold (item_elems it).
  destruct (foldM _ (item_elems it) (m, p)) as [[m1 p1]| | | |]; cbn [bind]; auto.
Qed.

Lemma regs_items its : regs c 0 (flat_map item_elems its) = items_layout c its.
Proof.
  unfold regs, items_layout. rewrite flat_map_concat_map, flat_map_concat_map, concat_map, map_map. apply (f_equal (@concat _)). apply map_ext. intros it.
  unfold item_elems, item_layout, layout, shift. rewrite map_map. apply map_ext. intros e. cbn [fst snd]. f_equal. lia.
Qed.
Lemma items_known its : Forall (fun it => typed c (it_type it) (it_ext it)) its ->
  forall e, In e (flat_map item_elems its) -> elem_ok c e.
Proof.
  intros F e He. apply in_flat_map in He. destruct He as (it & Hit & He). unfold item_elems, shift in He. apply in_map_iff in He.
  destruct He as (e0 & <- & He). rewrite Forall_forall in F. destruct (F it Hit) as [W _].
  exact (layout_known c CO _ _ _ W e0 He).
Qed.
Lemma items_nonneg its : Forall (fun it => typed c (it_type it) (it_ext it)) its -> forall r, In r (items_layout c its) -> 0 <= snd r.
Proof.
  intros F r Hr. apply in_flat_map in Hr. destruct Hr as (it & Hit & Hr). rewrite Forall_forall in F. destruct (F it Hit) as [W _].
  eapply layout_nonneg; eauto.
Qed.

Lemma C55_lemma its its' m buf size position :
  Forall (fun it => typed c (it_type it) (it_ext it)) its -> Forall (fun it => typed c (it_type it) (it_ext it)) its' ->
  let A := items_layout c its in let B := items_layout c its' in
  map (fun it => (it_count it, it_type it, it_ext it)) its = map (fun it => (it_count it, it_type it, it_ext it)) its' ->
  pack_ok m A buf size position -> position + total_size A <= size ->
  exists m1, pack_all c its buf size m position = Ok (m1, position + total_size A) /\ same_domain m m1 /\
    bytes m1 [(buf + position, total_size A)] = flat_map (fun it => bytes m (item_layout c it)) its /\
    (forall a, ~ inside (buf + position, total_size A) a -> m1 a = m a) /\
    forall m2, same_domain m1 m2 -> bytes m2 [(buf + position, total_size A)] = bytes m1 [(buf + position, total_size A)] ->
      pack_ok m2 B buf size position -> pairwise_apart B ->
      exists m3, unpack_all c its' buf size m2 position = Ok (m3, position + total_size A) /\
        Forall2 (fun it it' => bytes m3 (item_layout c it') = bytes m (item_layout c it)) its its' /\
        (forall a, (forall r, In r B -> ~ inside r a) -> m3 a = m2 a).
Proof.
  intros F F' A B EQ PK FIT. destruct PK as [MO LU LB AP HP HS HT].
  assert (NA := items_nonneg its F). assert (NB := items_nonneg its' F'). fold A in NA. fold B in NB.
  assert (SAB : map snd A = map snd B).
  { unfold A, B, items_layout. clear - EQ. revert its' EQ. induction its as [|it its IH]; intros [|it' its'] EQ; try discriminate EQ; [reflexivity|].
    cbn [map] in EQ. injection EQ as E1 E2 E3 EQ. cbn [flat_map]. rewrite !map_app. apply f_equal2; [|exact (IH _ EQ)].
    unfold item_layout, layout. rewrite E1, E2, E3, !map_map. reflexivity. }
  assert (TAB : total_size A = total_size B) by (unfold total_size; rewrite SAB; reflexivity).
  assert (M := pk_main c true "MPI_Pack: data exceeds buffer size" m 0 (flat_map item_elems its) buf size position MO (items_known its F)).
  rewrite regs_items in M. fold A in M. specialize (M LU LB AP ltac:(discriminate) HP HS HT). cbv zeta in M.
  destruct (Z.leb_spec (position + total_size A) size); [|lia]. destruct M as (m1 & R & D & C).
  exists m1. rewrite pack_all_foldM by exact F. split; [exact R|]. split; [exact D|].
  assert (BY : bytes m1 [(buf + position, total_size A)] = bytes m A).
  { rewrite <- bytes_consecutive by exact NA. apply bytes_copied; [symmetry; apply consecutive_snd|exact C]. }
  split.
  { rewrite BY. unfold A, items_layout, bytes. clear. induction its as [|it its IH]; [reflexivity|].
    cbn [flat_map]. etransitivity; [apply flat_map_app|]. apply f_equal2; [reflexivity|exact IH]. }
  split.
  { intros a Ha. apply (proj2 C). intros r Hr Hin. apply Ha. destruct (consecutive_inside A NA _ _ Hr).
    unfold inside in *. cbn [fst snd] in *. lia. }
  intros m2 D2 B2 [MO2 LU2 LB2 AP2 HP2 HS2 HT2] PB.
  assert (M := pk_main c false "MPI_Unpack: Data exceeds buffer size" m2 0 (flat_map item_elems its') buf size position MO2 (items_known its' F')).
  rewrite regs_items in M. fold B in M. specialize (M LU2 LB2 AP2 (fun _ => PB) HP2 HS2 HT2). cbv zeta in M.
  rewrite <- TAB in M.
  destruct (Z.leb_spec (position + total_size A) size); [|lia]. destruct M as (m3 & R3 & D3 & C3).
  exists m3. rewrite unpack_all_foldM by exact F'. split; [exact R3|]. split; [|apply C3].
  assert (BB : bytes m3 B = bytes m A).
  { rewrite <- BY, <- B2, TAB. rewrite <- bytes_consecutive by exact NB. apply bytes_copied; [apply consecutive_snd|exact C3]. }
  unfold A, B, items_layout in BB. clear - BB EQ. revert its' EQ BB.
  induction its as [|it its IH]; intros [|it' its'] EQ BB; try discriminate EQ; [constructor|].
  cbn [map] in EQ. injection EQ as E1 E2 E3 EQ. cbn [flat_map] in BB. rewrite !bytes_app in BB.
  assert (L : length (bytes m3 (item_layout c it')) = length (bytes m (item_layout c it))).
  { assert (G : forall m rs, length (bytes m rs) = fold_right Nat.add O (map (fun r => Z.to_nat (snd r)) rs)).
    { clear. intros m rs. induction rs as [|r rs IH]; [reflexivity|]. unfold bytes in *. cbn [flat_map map fold_right].
      rewrite app_length, IH, map_length, upto_length. reflexivity. }
    rewrite !G. unfold item_layout, layout. rewrite E1, E2, E3, !map_map. reflexivity. }
  assert (SPLIT : forall (x y x' y' : list (option Z)), length x = length x' -> x ++ y = x' ++ y' -> x = x' /\ y = y').
  { clear. induction x as [|a x IH]; intros y [|a' x'] y' HL HE; try discriminate; auto. cbn in *. injection HE as -> HE.
    destruct (IH y x' y' ltac:(lia) HE) as [-> ->]. auto. }
  destruct (SPLIT _ _ _ _ L BB) as [H1 H2]. constructor; [exact H1|]. apply IH; auto.
Qed.

(** C52: one item. *)
Lemma C52_lemma m inbuf n t ext buf size position outbuf : typed c t ext ->
  let A := layout c inbuf n ext (typemap t) in let B := layout c outbuf n ext (typemap t) in
  pack_ok m A buf size position -> position + total_size A <= size ->
  exists m1 p1, Pack c m inbuf n t buf size position = Ok (m1, p1) /\
    forall m2, same_domain m1 m2 -> bytes m2 [(buf + position, total_size A)] = bytes m1 [(buf + position, total_size A)] ->
      pack_ok m2 B buf size position -> pairwise_apart B ->
      exists m3, Unpack c m2 buf size position outbuf n t = Ok (m3, p1) /\ bytes m3 B = bytes m A.
Proof.
  intros T A B PK FIT.
  assert (M := C53_pack_lemma m inbuf n t ext buf size position T PK). cbv zeta in M. fold A in M.
  destruct (Z.leb_spec (position + total_size A) size); [|lia]. destruct M as (m1 & R & D & BY & _).
  exists m1, (position + total_size A). split; [exact R|]. intros m2 D2 B2 PK2 PB.
  assert (TAB : total_size A = total_size B) by (unfold total_size, A, B, layout; rewrite !map_map; reflexivity).
  assert (M := C53_unpack_lemma m2 buf size position outbuf n t ext T PK2 PB). cbv zeta in M. fold B in M. rewrite <- TAB in M.
  destruct (Z.leb_spec (position + total_size A) size); [|lia]. destruct M as (m3 & R3 & D3 & BY3 & _).
  exists m3. split; [exact R3|]. congruence.
Qed.

Lemma C54_lemma n t ext : typed c t ext -> 0 <= n -> n * map_size c (typemap t) < TWO64 ->
  Pack_size c n t = Ok (n * map_size c (typemap t)) /\
  forall m inbuf outbuf outsize position,
    pack_ok m (layout c inbuf n ext (typemap t)) outbuf outsize position ->
    ((exists st, Pack c m inbuf n t outbuf outsize position = Ok st) <-> n * map_size c (typemap t) <= outsize - position) /\
    ((exists st, Pack c m inbuf n t outbuf outsize position = Ok st) \/
     Pack c m inbuf n t outbuf outsize position = Exit 1 "MPI_Pack: data exceeds buffer size").
Proof.
  intros T Hn HB. split.
  - rewrite (Pack_size_ok c CO n t (proj1 T)). f_equal. apply to_u64_id.
    assert (0 <= map_size c (typemap t)).
    { apply map_size_nonneg; auto. exact (wf_known _ _ (proj1 T)). }
    nia.
  - intros m inbuf outbuf outsize position PK. assert (M := C53_pack_lemma m inbuf n t ext outbuf outsize position T PK).
    cbv zeta in M. rewrite total_layout in M by auto.
    destruct (Z.leb_spec (position + n * map_size c (typemap t)) outsize) as [F|F].
    + destruct M as (m' & R & _). split; [split; [lia|eauto]|left; eauto].
    + split; [|right; exact M]. split; [|lia]. intros (st & R). rewrite M in R. discriminate.
Qed.
End Final.

Lemma C43_data_lemma c m source ns ts es dest nd td ed : typed c ts es -> typed c td ed ->
  ts_committed ts <> 0 -> ts_committed td <> 0 -> 0 <= ns -> 0 <= nd -> nelems ns ts <= INT_MAX ->
  typemap td = [] -> Pcopy_data2 c m source ns ts dest nd td = Ok m.
Proof.
  intros TS TD CS CD HS HD HI E.
  rewrite (Pcopy_foldM c m source ns ts es dest nd td ed); try apply TS; try apply TD; auto.
  - rewrite E. assert (EE : elements nd ed ([] : list elem) = []) by (unfold elements, copies; induction (upto nd); cbn; auto).
    rewrite EE, combine_nil. reflexivity.
  - rewrite (nelems_count c ns ts es TS). exact HI.
  - rewrite (nelems_count c ns ts es TS), (nelems_count c nd td ed TD). unfold nelems. rewrite E. cbn [length]. nia.
Qed.
Lemma total_layout_lemma c base n ext tm : 0 <= n -> total_size (layout c base n ext tm) = n * map_size c tm.
Proof. apply total_layout. Qed.
