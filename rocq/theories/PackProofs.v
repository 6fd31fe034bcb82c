(** Lemmas about pack.c. *)
From Verif Require Import Base TypeModel TypeSpec TypeProofs TypeStruct TypeCons TypeTree CopyModel CopySpec CopyProofs.

Lemma foldM_app {A S} (f : A -> S -> res S) l1 l2 : forall s,
  foldM f (l1 ++ l2) s = do s1 <- foldM f l1 s; foldM f l2 s1.
Proof. induction l1 as [|a l1 IH]; intros s; cbn [app foldM bind]; auto. destruct (f a s); cbn [bind]; auto. Qed.

Lemma foldM_flat_map {A B S} (f : B -> S -> res S) (h : A -> list B) l : forall s,
  foldM f (flat_map h l) s = foldM (fun a => foldM f (h a)) l s.
Proof.
  induction l as [|a l IH]; intros s; cbn [flat_map foldM]; auto.
  rewrite foldM_app. destruct (foldM f (h a) s); cbn [bind]; auto.
Qed.

Section Pack.
Variable c : cfg.
Hypothesis CO : cfg_ok c.

(** One element of [Pack] ([dir = true]) or [Unpack]. *)
Definition pk_body (dir : bool) (msg : string) (user buf size : Z) (e : elem) (st : mem * Z) : res (mem * Z) :=
  let '(m, position) := st in
  do len <- Simpletype_length c (fst e);
  do p <- chk_int (position + len);
  if p >? size then Exit 1 msg else
  do m <- (if dir then memcpy m (padd buf position) (padd user (snd e)) len
           else memcpy m (padd user (snd e)) (padd buf position) len);
  Ok (m, p).

Lemma padd_ext u d i e : padd u (d + to_u64 e * i) = padd u (d + i * e).
Proof.
  unfold padd. destruct (to_u64_ex e) as (k & ->). apply (to_u64_cong _ _ (k * i)). ring.
Qed.

Lemma pack_foldM m inbuf n t ext outbuf outsize position : wf_ts c t -> Type_extent c t = Ok (to_u64 ext) ->
  Pack c m inbuf n t outbuf outsize position =
  foldM (pk_body true "MPI_Pack: data exceeds buffer size" inbuf outbuf outsize) (elements n ext (typemap t)) (m, position).
Proof.
  intros W E. unfold Pack. rewrite E. cbn [bind]. rewrite for_loop_upto. unfold elements, copies. rewrite foldM_flat_map.
  apply foldM_in_ext. intros i st _. unfold shift. rewrite foldM_map.
  assert (C := wf_count _ _ W). assert (P := wf_pairs _ _ W).
  rewrite <- (typemap_length t) by lia. apply for_loop_foldM. intros k x [m0 p0] Hk.
  destruct (pair_at t k x ltac:(lia) Hk) as (p & P1 & P2 & P3). rewrite P1. cbn [bind]. unfold pk_body. cbn [fst snd].
  rewrite P2, P3, padd_ext. reflexivity.
Qed.

Lemma unpack_foldM m inbuf insize position outbuf n t ext : wf_ts c t -> Type_extent c t = Ok (to_u64 ext) ->
  Unpack c m inbuf insize position outbuf n t =
  foldM (pk_body false "MPI_Unpack: Data exceeds buffer size" outbuf inbuf insize) (elements n ext (typemap t)) (m, position).
Proof.
  intros W E. unfold Unpack. rewrite E. cbn [bind]. rewrite for_loop_upto. unfold elements, copies. rewrite foldM_flat_map.
  apply foldM_in_ext. intros i st _. unfold shift. rewrite foldM_map.
  assert (C := wf_count _ _ W). assert (P := wf_pairs _ _ W).
  rewrite <- (typemap_length t) by lia. apply for_loop_foldM. intros k x [m0 p0] Hk.
  destruct (pair_at t k x ltac:(lia) Hk) as (p & P1 & P2 & P3). rewrite P1. cbn [bind]. unfold pk_body. cbn [fst snd].
  rewrite P2, P3, padd_ext. reflexivity.
Qed.

Definition regs (user : Z) (l : list elem) : list region := map (fun e => (user + snd e, esize c e)) l.
Definition pk_ops (dir : bool) (user buf position : Z) (l : list elem) : list op :=
  let U := regs user l in let K := consecutive (buf + position) U in
  if dir then ops_of U K else ops_of K U.

Definition elem_ok (e : elem) : Prop := Simpletype_length c (fst e) = Ok (esize c e) /\ 0 < esize c e.

Lemma total_nonneg user l : (forall e, In e l -> elem_ok e) -> 0 <= total_size (regs user l).
Proof.
  induction l as [|e l IH]; intros H; [unfold total_size; cbn; lia|].
  unfold total_size in *. cbn [regs map fold_right snd]. destruct (H e (or_introl eq_refl)).
  assert (0 <= fold_right Z.add 0 (map snd (regs user l))) by (apply IH; intros; apply H; right; auto).
  unfold regs in *. lia.
Qed.

Lemma total_cons user e l : total_size (regs user (e :: l)) = esize c e + total_size (regs user l).
Proof. reflexivity. Qed.

(** Everything fits. *)
Lemma pk_fits dir msg user buf size : forall l m position,
  (forall e, In e l -> elem_ok e) -> (forall e, In e l -> 0 <= user + snd e < TWO64) ->
  0 <= buf -> buf + size <= TWO64 -> size <= INT_MAX -> 0 <= position ->
  position + total_size (regs user l) <= size ->
  foldM (pk_body dir msg user buf size) l (m, position) =
  do m' <- foldM do_op (pk_ops dir user buf position l) m; Ok (m', position + total_size (regs user l)).
Proof.
  induction l as [|e l IH]; intros m position K A B1 B2 SZ P F.
  - cbn [foldM]. destruct dir; cbn; rewrite Z.add_0_r; reflexivity.
  - assert (T := total_nonneg user l (fun e H => K e (or_intror H))). rewrite total_cons in *.
    destruct (K e (or_introl eq_refl)) as [LE PE].
    assert (AE := A e (or_introl eq_refl)).
    cbn [foldM]. unfold pk_body at 1. rewrite LE. cbn [bind].
    rewrite chk_int_ok by (unfold INT_MIN; lia). cbn [bind].
    destruct (Z.gtb_spec (position + esize c e) size); [lia|].
    unfold padd. rewrite (to_u64_id (user + snd e)) by exact AE. rewrite (to_u64_id (buf + position)) by lia.
    assert (EQ : foldM do_op (pk_ops dir user buf position (e :: l)) m =
      do m1 <- (if dir then memcpy m (buf + position) (user + snd e) (esize c e)
           else memcpy m (user + snd e) (buf + position) (esize c e));
      foldM do_op (pk_ops dir user buf (position + esize c e) l) m1).
    { unfold pk_ops. rewrite Z.add_assoc. destruct dir; reflexivity. }
    rewrite EQ.
    destruct (if dir then memcpy m (buf + position) (user + snd e) (esize c e)
           else memcpy m (user + snd e) (buf + position) (esize c e)); cbn [bind]; try reflexivity.
    rewrite IH; auto; try lia; try (intros; auto; apply K; right; assumption); try (intros; apply A; right; assumption).
    rewrite Z.add_assoc. reflexivity.
Qed.

(** Not everything fits. *)
Lemma pk_overflow dir msg user buf size : forall l m position,
  (forall e, In e l -> elem_ok e) -> mem_ok m -> live m (regs user l) -> live m [(buf, size)] ->
  all_apart (regs user l) [(buf, size)] -> 0 <= position <= size ->
  size < position + total_size (regs user l) <= INT_MAX ->
  foldM (pk_body dir msg user buf size) l (m, position) = Exit 1 msg.
Proof.
  induction l as [|e l IH]; intros m position K MO LU LB AP P F.
  - unfold total_size in F. cbn in F. lia.
  - assert (T := total_nonneg user l (fun e H => K e (or_intror H))). rewrite total_cons in *.
    destruct (K e (or_introl eq_refl)) as [LE PE].
    apply (proj1 (live_cons m _ (regs user l))) in LU. destruct LU as [LU1 LU].
    assert (AE := live_first m _ _ MO LU1 (or_introl eq_refl) PE). cbn [fst snd] in AE.
    cbn [foldM]. unfold pk_body at 1. rewrite LE. cbn [bind].
    rewrite chk_int_ok by (unfold INT_MIN; lia). cbn [bind].
    destruct (Z.gtb_spec (position + esize c e) size); [reflexivity|].
    assert (B0 : 0 <= buf + position < TWO64).
    { apply MO. apply (LB (buf, size)); [left; auto|unfold inside; cbn [fst snd]; lia]. }
    unfold padd. rewrite (to_u64_id (user + snd e)) by exact AE. rewrite (to_u64_id (buf + position)) by exact B0.
    assert (LP : live m [(buf + position, esize c e)]).
    { intros r a [<-|[]] Ha. apply (LB (buf, size)); [left; auto|]. unfold inside in *. cbn [fst snd] in *. lia. }
    assert (A1 : apart (user + snd e, esize c e) (buf + position, esize c e)).
    { intros a [Ha Hb]. apply (AP (user + snd e, esize c e) (buf, size) (or_introl eq_refl) (or_introl eq_refl) a).
      split; [exact Ha|]. unfold inside in *. cbn [fst snd] in *. lia. }
    assert (A2 : apart (buf + position, esize c e) (user + snd e, esize c e)) by (intros a [X Y]; exact (A1 a (conj Y X))).
    assert (M : exists m1, (if dir then memcpy m (buf + position) (user + snd e) (esize c e)
           else memcpy m (user + snd e) (buf + position) (esize c e)) = Ok m1 /\ same_domain m m1).
    { destruct dir.
      - destruct (run_ops [(user + snd e, (buf + position, esize c e))] m) as (m1 & E & D & _).
        { constructor; cbn; auto.
          - intros o [<-|[]]; cbn; auto.
          - intros r s [<-|[]] [<-|[]]. exact A1.
          - intros [|i] [|j] r s Hi Hj N; try congruence; cbn in *; destruct i || destruct j; discriminate. }
        exists m1. split; [|exact D]. cbn [foldM do_op fst snd] in E. unfold do_op in E. cbn [fst snd] in E.
        destruct (memcpy m (buf + position) (user + snd e) (esize c e)); cbn [bind] in E; try discriminate. exact E.
      - destruct (run_ops [(buf + position, (user + snd e, esize c e))] m) as (m1 & E & D & _).
        { constructor; cbn; auto.
          - intros o [<-|[]]; cbn; auto.
          - intros r s [<-|[]] [<-|[]]. exact A2.
          - intros [|i] [|j] r s Hi Hj N; try congruence; cbn in *; destruct i || destruct j; discriminate. }
        exists m1. split; [|exact D]. unfold do_op in E. cbn [foldM fst snd] in E.
        destruct (memcpy m (user + snd e) (buf + position) (esize c e)); cbn [bind] in E; try discriminate. exact E. }
    destruct M as (m1 & E1 & D1). rewrite E1. cbn [bind]. apply IH.
    + intros; apply K; right; auto.
    + intros a Ha. apply MO. intros N. apply Ha. apply D1. exact N.
    + eapply live_domain; eauto.
    + eapply live_domain; eauto.
    + intros r s Hr Hs. apply AP; [right; auto|auto].
    + lia.
    + lia.
Qed.

Lemma regs_layout user n ext tm : regs user (elements n ext tm) = layout c user n ext tm.
Proof. reflexivity. Qed.

Lemma consecutive_length a rs : length (consecutive a rs) = length rs.
Proof. revert a. induction rs as [|r rs IH]; intros a; cbn; auto. Qed.

Lemma consecutive_inside rs : (forall r, In r rs -> 0 <= snd r) -> forall a r, In r (consecutive a rs) ->
  a <= fst r /\ fst r + snd r <= a + total_size rs.
Proof.
  induction rs as [|x rs IH]; intros H a r []; unfold total_size; cbn [map fold_right].
  - subst r. cbn [fst snd]. assert (0 <= total_size rs).
    { clear - H. induction rs as [|y rs IH]; unfold total_size; cbn; [lia|].
      assert (0 <= snd y) by (apply H; right; left; auto).
      assert (0 <= total_size rs) by (apply IH; intros r [<-|Hr]; [apply H; left; auto|apply H; right; right; auto]).
      unfold total_size in *. lia. }
    unfold total_size in *. assert (0 <= snd x) by (apply H; left; auto). lia.
  - assert (0 <= snd x) by (apply H; left; auto).
    destruct (IH (fun r Hr => H r (or_intror Hr)) _ _ H0). unfold total_size in *. lia.
Qed.

Lemma consecutive_apart rs : (forall r, In r rs -> 0 <= snd r) -> forall a, pairwise_apart (consecutive a rs).
Proof.
  induction rs as [|x rs IH]; intros H a i j r s Hi Hj N.
  - destruct i; discriminate.
  - assert (H' := fun r Hr => H r (or_intror Hr)). assert (PX : 0 <= snd x) by (apply H; left; auto).
    destruct i as [|i], j as [|j]; cbn [consecutive nth_error] in *; try congruence.
    + injection Hi as <-. apply nth_error_In in Hj. destruct (consecutive_inside rs H' _ _ Hj).
      intros b [B1 B2]. unfold inside in *. cbn [fst snd] in *. lia.
    + injection Hj as <-. apply nth_error_In in Hi. destruct (consecutive_inside rs H' _ _ Hi).
      intros b [B1 B2]. unfold inside in *. cbn [fst snd] in *. lia.
    + eapply (IH H'); eauto.
Qed.

Lemma reads_same S : forall D, map snd S = map snd D -> reads S D = S.
Proof.
  induction S as [|s S IH]; intros [|d D] H; cbn in *; try discriminate; auto.
  injection H as H1 H2. unfold reads in *. cbn [combine map fst snd]. rewrite IH by exact H2. rewrite <- H1. destruct s. reflexivity.
Qed.
Lemma consecutive_snd rs : forall a, map snd (consecutive a rs) = map snd rs.
Proof. induction rs as [|r rs IH]; intros a; cbn; auto. f_equal. apply IH. Qed.

Lemma layout_known n ext t : wf_ts c t -> forall e, In e (elements n ext (typemap t)) -> elem_ok e.
Proof. intros W e H. exact (known_pos c CO n ext (typemap t) e (wf_known _ _ W) H). Qed.

(** Facts shared by packing and unpacking: [dir = true] packs. *)
Lemma pk_main dir msg m user L buf size position :
  mem_ok m -> (forall e, In e L -> elem_ok e) ->
  let U := regs user L in
  live m U -> live m [(buf, size)] -> all_apart U [(buf, size)] -> (dir = false -> pairwise_apart U) ->
  0 <= position <= size -> size <= INT_MAX -> position + total_size U <= INT_MAX ->
  let run := foldM (pk_body dir msg user buf size) (L) (m, position) in
  if position + total_size U <=? size then
    exists m', run = Ok (m', position + total_size U) /\ same_domain m m' /\
      (if dir then copied m m' U (consecutive (buf + position) U) else copied m m' (consecutive (buf + position) U) U)
  else run = Exit 1 msg.
Proof.
  intros MO K U LU LB AP PD HP HS HT run.
  assert (KU : forall r, In r U -> 0 < snd r).
  { intros r Hr. apply in_map_iff in Hr. destruct Hr as (e & <- & He). apply (K e He). }
  destruct (Z.leb_spec (position + total_size U) size) as [F|F].
  2:{ apply pk_overflow; auto. }
  assert (EN : L = [] \/ L <> []) by (destruct L; [left|right]; congruence).
  destruct EN as [EN|EN].
  { unfold run. subst U. rewrite EN. cbn [foldM map total_size fold_right consecutive]. rewrite Z.add_0_r.
    exists m. split; [reflexivity|]. split; [intros a; tauto|]. destruct dir; split; auto; intros k s d j Hs; destruct k; discriminate. }
  assert (TP : 0 < total_size U).
  { unfold U. revert K EN. clear. destruct L as [|e l]; [congruence|]. intros K _.
    rewrite total_cons. assert (T := total_nonneg user l (fun e H => K e (or_intror H))). destruct (K e (or_introl eq_refl)). lia. }
  assert (B0 : 0 <= buf < TWO64) by (apply (live_first m _ (buf, size) MO LB (or_introl eq_refl)); cbn; lia).
  assert (B1 : 0 <= buf + size - 1 < TWO64).
  { apply MO. apply (LB (buf, size)); [left; auto|unfold inside; cbn [fst snd]; lia]. }
  unfold run. rewrite (pk_fits dir msg user buf size); auto; try lia.
  2:{ intros e He. apply (live_first m U (user + snd e, esize c e) MO LU).
      - apply in_map_iff. exists e. auto.
      - cbn [snd]. apply (K e He). }
  unfold pk_ops. fold U.
  assert (KN : forall r, In r U -> 0 <= snd r) by (intros r Hr; specialize (KU r Hr); lia).
  set (C := consecutive (buf + position) U).
  assert (CI : forall r, In r C -> buf <= fst r /\ fst r + snd r <= buf + size).
  { intros r Hr. destruct (consecutive_inside U KN _ _ Hr). lia. }
  assert (LC : live m C).
  { intros r a Hr Ha. apply (LB (buf, size)); [left; auto|]. destruct (CI r Hr). unfold inside in *. cbn [fst snd] in *. lia. }
  assert (AC : all_apart U C).
  { intros r s Hr Hs a [H1 H2]. apply (AP r (buf, size) Hr (or_introl eq_refl) a). split; [exact H1|].
    destruct (CI s Hs). unfold inside in *. cbn [fst snd] in *. lia. }
  assert (SC : map snd C = map snd U) by apply consecutive_snd.
  assert (LEN : length C = length U) by apply consecutive_length.
  destruct dir.
  - destruct (ops_copied m U C) as (m' & E & D & CP); [apply Nat.eq_le_incl; exact LEN| | |].
    + intros d Hd. apply (in_map snd) in Hd. rewrite SC in Hd. apply in_map_iff in Hd. destruct Hd as (x & <- & Hx). auto.
    + split; [|split; [exact LC|split]].
      * rewrite reads_same by (symmetry; exact SC). exact LU.
      * rewrite reads_same by (symmetry; exact SC). exact AC.
      * apply consecutive_apart. exact KN.
    + exists m'. rewrite E. cbn [bind]. auto.
  - destruct (ops_copied m C U) as (m' & E & D & CP); [apply Nat.eq_le_incl; symmetry; exact LEN| | |].
    + exact KU.
    + split; [|split; [exact LU|split]].
      * rewrite reads_same by exact SC. exact LC.
      * rewrite reads_same by exact SC. intros r s Hr Hs a [X Y]. exact (AC s r Hs Hr a (conj Y X)).
      * apply PD. reflexivity.
    + exists m'. rewrite E. cbn [bind]. auto.
Qed.

Lemma u64_add_l a b : to_u64 (to_u64 a + b) = to_u64 (a + b).
Proof. destruct (to_u64_ex a) as (k & ->). apply (to_u64_cong _ _ k). ring. Qed.

Lemma foldM_size64 l : forall a, (forall e, In e l -> known c e) ->
  foldM (fun (e : elem) (s : Z) => do len <- Simpletype_length c (fst e); Ok (to_u64 (s + len))) l (to_u64 a)
  = Ok (to_u64 (a + map_size c l)).
Proof.
  induction l as [|e l IH]; intros a H; cbn [foldM].
  - unfold map_size. cbn [map fold_right]. rewrite Z.add_0_r. reflexivity.
  - destruct (known_size c CO e (H e (or_introl eq_refl))) as [E R]. rewrite E. cbn [bind]. rewrite u64_add_l, IH.
    + unfold map_size. cbn [map fold_right]. rewrite Z.add_assoc. reflexivity.
    + intros; apply H; right; auto.
Qed.

Lemma Pack_size_ok n t : wf_ts c t -> Pack_size c n t = Ok (to_u64 (n * map_size c (typemap t))).
Proof.
  intros W. unfold Pack_size. assert (C := wf_count _ _ W). assert (P := wf_pairs _ _ W).
  rewrite (for_loop_pairs t (fun p s => do len <- Simpletype_length c (tp_type p); Ok (to_u64 (s + len)))) by lia.
  rewrite (foldM_typemap t (fun e s => do len <- Simpletype_length c (fst e); Ok (to_u64 (s + len)))) by reflexivity.
  change 0 with (to_u64 0). rewrite foldM_size64 by apply (wf_known _ _ W). cbn [bind]. rewrite u64_mul. do 2 f_equal. ring.
Qed.

(** The bytes of an element list. *)
Lemma map_size_app l1 l2 : map_size c (l1 ++ l2) = map_size c l1 + map_size c l2.
Proof. unfold map_size. rewrite map_app, fold_right_app. induction (map (esize c) l1); cbn [fold_right]; lia. Qed.
Lemma total_regs user l : total_size (regs user l) = map_size c l.
Proof. unfold total_size, regs, map_size. rewrite map_map. reflexivity. Qed.
Lemma map_size_shift d l : map_size c (shift d l) = map_size c l.
Proof. unfold map_size, shift. rewrite map_map. reflexivity. Qed.
Lemma total_layout user n ext tm : 0 <= n -> total_size (layout c user n ext tm) = n * map_size c tm.
Proof.
  intros H. rewrite <- regs_layout, total_regs. unfold elements, copies.
  assert (L : forall l, map_size c (flat_map (fun j => shift (0 + j * ext) tm) l) = Z.of_nat (length l) * map_size c tm).
  { induction l as [|x l IH]; [reflexivity|]. cbn [flat_map length]. rewrite map_size_app, map_size_shift, IH, Nat2Z.inj_succ. ring. }
  rewrite L, upto_length. rewrite Z2Nat.id by lia. reflexivity.
Qed.
End Pack.
