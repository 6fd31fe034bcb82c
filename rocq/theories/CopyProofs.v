(** Lemmas about typed copies. *)
From Verif Require Import Base TypeModel TypeSpec TypeProofs TypeStruct TypeCons TypeTree CopyModel CopySpec.

(** *** memcpy *)
Lemma allocated_ok m a n : (forall j, 0 <= j < n -> m (a + j) <> None) -> allocated m a n = true.
Proof.
  intros H. unfold allocated. apply forallb_forall. intros k Hk. apply in_seq in Hk.
  specialize (H (Z.of_nat k) ltac:(lia)). destruct (m (a + Z.of_nat k)); [reflexivity|congruence].
Qed.

Lemma apart_ranges a n b k : 0 < n -> 0 < k -> apart (a, n) (b, k) -> b + k <= a \/ a + n <= b.
Proof.
  intros Hn Hk H. unfold apart, inside in H. cbn [fst snd] in H. specialize (H (Z.max a b)). lia.
Qed.

Lemma memcpy_ok m d s n : 0 < n -> live m [(s, n)] -> live m [(d, n)] -> apart (s, n) (d, n) ->
  memcpy m d s n = Ok (fun a => if (d <=? a) && (a <? d + n) then m (s + (a - d)) else m a).
Proof.
  intros Hn Ls Ld A. unfold memcpy.
  rewrite (allocated_ok m s n) by (intros j Hj; apply (Ls (s, n)); [left; reflexivity|unfold inside; cbn [fst snd]; lia]).
  rewrite (allocated_ok m d n) by (intros j Hj; apply (Ld (d, n)); [left; reflexivity|unfold inside; cbn [fst snd]; lia]).
  destruct (Z.leb_spec 0 n); [|lia].
  assert (R := apart_ranges s n d n Hn Hn A).
  replace ((d + n <=? s) || (s + n <=? d)) with true; [reflexivity|].
  symmetry. apply orb_true_iff. rewrite !Z.leb_le. exact R.
Qed.

(** *** A sequence of memcpys: (source address, destination region). *)
Definition op : Type := (Z * region)%type.
Definition op_src (o : op) : region := (fst o, snd (snd o)).
Definition op_dst (o : op) : region := snd o.
Definition do_op (o : op) (m : mem) : res mem := memcpy m (fst (snd o)) (fst o) (snd (snd o)).

Record ops_ok (m : mem) (ops : list op) : Prop := {
  oo_pos : forall o, In o ops -> 0 < snd (snd o);
  oo_src : live m (map op_src ops);
  oo_dst : live m (map op_dst ops);
  oo_sep : all_apart (map op_src ops) (map op_dst ops);
  oo_dis : pairwise_apart (map op_dst ops)
}.

Lemma live_domain m m' rs : same_domain m m' -> live m rs -> live m' rs.
Proof. intros D L r a Hr Ha E. apply (L r a Hr Ha). apply D. exact E. Qed.

Lemma live_cons m r rs : live m (r :: rs) <-> live m [r] /\ live m rs.
Proof.
  unfold live. split.
  - intros H. split; intros r' a Hr; apply H; [destruct Hr as [<-|[]]; left; auto|right; auto].
  - intros [H1 H2] r' a [<-|Hr]; [apply H1; left; auto|apply H2; auto].
Qed.

Lemma ops_cons m o ops : ops_ok m (o :: ops) ->
  0 < snd (snd o) /\ live m [op_src o] /\ live m [op_dst o] /\ apart (op_src o) (op_dst o) /\
  (forall o', In o' ops -> apart (op_src o') (op_dst o)) /\ (forall o', In o' ops -> apart (op_dst o') (op_dst o)) /\
  ops_ok m ops.
Proof.
  intros [P S D SEP DIS]. cbn [map] in *.
  split; [apply P; left; auto|]. split; [apply (proj1 (live_cons m (op_src o) _)) in S; apply S|].
  split; [apply (proj1 (live_cons m (op_dst o) _)) in D; apply D|].
  split; [apply SEP; left; auto|].
  split; [intros o' Ho; apply SEP; [right; apply in_map; auto|left; auto]|]. split.
  - intros o' Ho. apply In_nth_error in Ho. destruct Ho as (k & Hk).
    apply (DIS (Datatypes.S k) O); [cbn; apply map_nth_error; exact Hk|reflexivity|discriminate].
  - constructor.
    + intros; apply P; right; auto.
    + apply (proj1 (live_cons m (op_src o) _)) in S; apply S.
    + apply (proj1 (live_cons m (op_dst o) _)) in D; apply D.
    + intros r s Hr Hs. apply SEP; right; auto.
    + intros i j r s Hi Hj N. apply (DIS (Datatypes.S i) (Datatypes.S j)); auto.
Qed.

Lemma run_ops : forall ops m, ops_ok m ops ->
  exists m', foldM do_op ops m = Ok m' /\ same_domain m m' /\
    (forall o j, In o ops -> 0 <= j < snd (op_dst o) -> m' (fst (op_dst o) + j) = m (fst (op_src o) + j)) /\
    (forall a, (forall o, In o ops -> ~ inside (op_dst o) a) -> m' a = m a).
Proof.
  induction ops as [|o ops IH]; intros m H.
  - exists m. cbn [foldM]. split; [reflexivity|]. split; [intros a; tauto|]. split; [intros o j []|auto].
  - destruct (ops_cons m o ops H) as (P & LS & LD & AP & SEP & DIS & H').
    destruct o as [s [d n]]. unfold op_src, op_dst in *. cbn [fst snd] in *.
    cbn [foldM]. unfold do_op at 1. cbn [fst snd]. rewrite (memcpy_ok m d s n P LS LD AP). cbn [bind].
    set (m1 := fun a => if (d <=? a) && (a <? d + n) then m (s + (a - d)) else m a).
    assert (IN : forall a, d <= a < d + n -> m1 a = m (s + (a - d))).
    { intros a Ha. unfold m1. destruct (Z.leb_spec d a); [|lia]. destruct (Z.ltb_spec a (d + n)); [reflexivity|lia]. }
    assert (OUT : forall a, ~ inside (d, n) a -> m1 a = m a).
    { intros a Ha. unfold inside in Ha. cbn [fst snd] in Ha. unfold m1.
      destruct (Z.leb_spec d a); [|reflexivity]. destruct (Z.ltb_spec a (d + n)); [exfalso; apply Ha; lia|reflexivity]. }
    assert (DOM : same_domain m m1).
    { intros a. destruct (Z_lt_dec a d) as [L|L]; [rewrite OUT by (unfold inside; cbn [fst snd]; lia); tauto|].
      destruct (Z_lt_dec a (d + n)) as [L2|L2]; [|rewrite OUT by (unfold inside; cbn [fst snd]; lia); tauto].
      rewrite IN by lia. split; intros E; exfalso.
      - apply (LD (d, n) a); [left; auto|unfold inside; cbn [fst snd]; lia|exact E].
      - apply (LS (s, n) (s + (a - d))); [left; auto|unfold inside; cbn [fst snd]; lia|exact E]. }
    destruct (IH m1) as (m' & E & D' & C & F).
    { destruct H'. constructor; auto; eapply live_domain; eauto. }
    exists m'. split; [exact E|]. split; [intros a; rewrite (DOM a); apply D'|]. split.
    + intros o j [<-|Ho] Hj; cbn [fst snd] in *.
      * rewrite F.
        -- rewrite IN by lia. f_equal. lia.
        -- intros o Ho Hin. apply (DIS o Ho (d + j)). split; [exact Hin|unfold inside; cbn [fst snd]; lia].
      * rewrite C by auto. apply OUT. intros Hin. apply (SEP o Ho (fst o + j)).
        split; [unfold inside; cbn [fst snd]; lia|exact Hin].
    + intros a Ha. rewrite F by (intros o Ho; apply Ha; right; auto). apply OUT. apply (Ha (s, (d, n))). left; auto.
Qed.

(** *** Position arithmetic on uniform flat_maps *)
Lemma nth_flat_uniform {A B} (f : A -> list B) w : (0 < w)%nat -> forall l,
  (forall x, In x l -> length (f x) = w) -> forall k,
  nth_error (flat_map f l) k =
  match nth_error l (k / w) with Some x => nth_error (f x) (k mod w) | None => None end.
Proof.
  intros Hw. induction l as [|x l IH]; intros H k.
  - cbn [flat_map]. destruct k, (_ / w)%nat; reflexivity.
  - cbn [flat_map]. assert (L := H x (or_introl eq_refl)).
    destruct (Nat.lt_ge_cases k w) as [Hk|Hk].
    + rewrite nth_error_app1 by lia. rewrite Nat.div_small, Nat.mod_small by lia. reflexivity.
    + rewrite nth_error_app2 by lia. rewrite L. rewrite IH by (intros; apply H; right; auto).
      replace (k / w)%nat with (S ((k - w) / w)).
      2:{ replace k with ((k - w) + 1 * w)%nat at 2 by lia. rewrite Nat.div_add by lia. lia. }
      replace (k mod w)%nat with ((k - w) mod w)%nat.
      2:{ replace k with ((k - w) + 1 * w)%nat at 2 by lia. rewrite Nat.mod_add by lia. reflexivity. }
      reflexivity.
Qed.

Lemma nth_elements n ext tm k : (0 < length tm)%nat -> 0 <= n -> (k < Z.to_nat n * length tm)%nat ->
  exists e, nth_error tm (k mod length tm) = Some e /\
    nth_error (elements n ext tm) k = Some (fst e, snd e + Z.of_nat (k / length tm) * ext).
Proof.
  intros Hw Hn Hk.
  assert (K1 : (k / length tm < Z.to_nat n)%nat) by (apply Nat.div_lt_upper_bound; lia).
  assert (K2 : (k mod length tm < length tm)%nat) by (apply Nat.mod_upper_bound; lia).
  destruct (nth_error tm (k mod length tm)) as [e|] eqn:E; [|apply nth_error_None in E; lia].
  exists e. split; [reflexivity|]. unfold elements, copies.
  rewrite (nth_flat_uniform _ (length tm) Hw).
  - rewrite upto_nth_ok by lia. unfold shift. rewrite (map_nth_error _ _ _ E). reflexivity.
  - intros x _. unfold shift. apply map_length.
Qed.

Lemma elements_length n ext tm : 0 <= n -> Z.of_nat (length (elements n ext tm)) = n * Z.of_nat (length tm).
Proof. intros H. unfold elements. rewrite copies_length. rewrite Z.max_r by lia. reflexivity. Qed.

Lemma elements_in n ext tm e : In e (elements n ext tm) -> exists e0, In e0 tm /\ fst e0 = fst e.
Proof.
  unfold elements, copies. intros H. apply in_flat_map in H. destruct H as (j & _ & H).
  apply in_map_iff in H. destruct H as (e0 & <- & H). exists e0. auto.
Qed.

Lemma quot_rem_nat k w : (0 < w)%nat ->
  Z.quot (Z.of_nat k) (Z.of_nat w) = Z.of_nat (k / w) /\ Z.rem (Z.of_nat k) (Z.of_nat w) = Z.of_nat (k mod w).
Proof.
  intros H. rewrite Z.quot_div_nonneg, Z.rem_mod_nonneg by lia. rewrite Nat2Z.inj_div, Nat2Z.inj_mod. auto.
Qed.

Lemma s32_ext d q e : to_s32 (to_u64 (d + q * to_u64 e)) = to_s32 (d + q * e).
Proof.
  rewrite to_s32_u64. destruct (to_u64_ex e) as (k & ->).
  rewrite <- (to_s32_u64 (d + q * (e + k * TWO64))). rewrite <- (to_s32_u64 (d + q * e)). f_equal.
  apply (to_u64_cong _ _ (q * k)). ring.
Qed.

Lemma nth_combine {A B} (l1 : list A) : forall (l2 : list B) k x, nth_error (combine l1 l2) k = Some x ->
  nth_error l1 k = Some (fst x) /\ nth_error l2 k = Some (snd x).
Proof.
  induction l1 as [|a l1 IH]; intros [|b l2] [|k] x H; cbn in *; try discriminate; [|eauto].
  injection H as <-. auto.
Qed.

(** *** Pcopy_data2 *)
Section Copy.
Variable c : cfg.
Hypothesis CO : cfg_ok c.

Lemma pair_at t i e : 0 <= ts_count t <= Z.of_nat (length (ts_pairs t)) ->
  nth_error (typemap t) i = Some e ->
  exists p, arr_get (ts_pairs t) (Z.of_nat i) = Ok p /\ tp_type p = fst e /\ tp_disp p = snd e.
Proof.
  intros H E. unfold typemap in E. rewrite nth_error_map in E.
  destruct (nth_error (firstn (Z.to_nat (ts_count t)) (ts_pairs t)) i) as [p|] eqn:EP; [|discriminate E].
  cbn in E. injection E as <-. exists p. split; [|split; reflexivity].
  apply arr_get_nth; [lia|]. rewrite Nat2Z.id.
  assert (i < length (firstn (Z.to_nat (ts_count t)) (ts_pairs t)))%nat by (apply nth_error_Some; congruence).
  rewrite <- (firstn_skipn (Z.to_nat (ts_count t)) (ts_pairs t)). rewrite nth_error_app1 by auto. exact EP.
Qed.

Definition copy_body (source dest : Z) (e : elem * elem) (m : mem) : res mem :=
  if type_checking c && negb (fst (fst e) =? fst (snd e)) then Exit 1 "copy_data: Types don't match." else
  do len <- Simpletype_length c (fst (snd e));
  memcpy m (padd dest (to_s32 (snd (snd e)))) (padd source (to_s32 (snd (fst e)))) len.

Lemma Pcopy_foldM m source ns ts es dest nd td ed :
  wf_ts c ts -> wf_ts c td -> Type_extent c ts = Ok (to_u64 es) -> Type_extent c td = Ok (to_u64 ed) ->
  ts_committed ts <> 0 -> ts_committed td <> 0 -> 0 <= ns -> 0 <= nd ->
  ts_count ts * ns <= INT_MAX -> ts_count td * nd <= ts_count ts * ns ->
  Pcopy_data2 c m source ns ts dest nd td =
  foldM (copy_body source dest) (combine (elements ns es (typemap ts)) (elements nd ed (typemap td))) m.
Proof.
  intros Ws Wd Es Ed Cs Cd Hs Hd Os Od. unfold Pcopy_data2.
  destruct (Z.eqb_spec (ts_committed ts) 0); [contradiction|]. destruct (Z.eqb_spec (ts_committed td) 0); [contradiction|].
  cbn [orb].
  assert (CS := wf_count _ _ Ws). assert (CD := wf_count _ _ Wd). assert (PS := wf_pairs _ _ Ws). assert (PD := wf_pairs _ _ Wd).
  assert (NS : 0 <= ts_count ts * ns) by nia. assert (ND : 0 <= ts_count td * nd) by nia.
  rewrite chk_int_ok by (unfold INT_MIN; lia). cbn [bind].
  rewrite chk_int_ok by (unfold INT_MIN; lia). cbn [bind].
  destruct (Z.ltb_spec (ts_count ts * ns) (ts_count td * nd)); [lia|].
  rewrite Es, Ed. cbn [bind].
  assert (LS := typemap_length ts ltac:(lia)). assert (LD := typemap_length td ltac:(lia)).
  assert (ES := elements_length ns es (typemap ts) Hs). assert (ED := elements_length nd ed (typemap td) Hd).
  set (l := combine (elements ns es (typemap ts)) (elements nd ed (typemap td))).
  assert (LL : ts_count td * nd = Z.of_nat (length l)).
  { unfold l. rewrite combine_length. rewrite Nat.min_r by nia. rewrite ED, LD. ring. }
  rewrite LL. apply (for_loop_foldM _ (copy_body source dest) l m).
  intros k x st Hk.
  assert (KL : (k < length l)%nat) by (apply nth_error_Some; congruence).
  assert (TD : (0 < length (typemap td))%nat) by nia.
  assert (TS : (0 < length (typemap ts))%nat) by nia.
  destruct (nth_elements ns es (typemap ts) k TS Hs) as (a & A1 & A2); [nia|].
  destruct (nth_elements nd ed (typemap td) k TD Hd) as (b & B1 & B2); [nia|].
  assert (X : x = ((fst a, snd a + Z.of_nat (k / length (typemap ts)) * es), (fst b, snd b + Z.of_nat (k / length (typemap td)) * ed))).
  { destruct (nth_combine _ _ _ _ Hk) as [H1 H2]. apply injective_projections; cbn [fst snd]; [change (elements ns es (typemap ts)) with (elements ns es (typemap ts)) in H1; rewrite A2 in H1; injection H1 as H1; symmetry; exact H1|rewrite B2 in H2; injection H2 as H2; symmetry; exact H2]. }
  subst x. clear Hk.
  rewrite <- LS, <- LD. unfold crem, cdiv.
  destruct (Z.eqb_spec (Z.of_nat (length (typemap ts))) 0); [lia|]. destruct (Z.eqb_spec (Z.of_nat (length (typemap td))) 0); [lia|].
  destruct (quot_rem_nat k (length (typemap ts)) TS) as [QS RS]. destruct (quot_rem_nat k (length (typemap td)) TD) as [QD RD].
  rewrite QS, RS, QD, RD. cbn [bind].
  destruct (pair_at ts _ a ltac:(lia) A1) as (p & P1 & P2 & P3). destruct (pair_at td _ b ltac:(lia) B1) as (q & Q1 & Q2 & Q3).
  rewrite P1. cbn [bind]. rewrite Q1. cbn [bind]. unfold copy_body. cbn [fst snd]. rewrite P2, P3, Q2, Q3.
  destruct (type_checking c && negb (fst a =? fst b)); [reflexivity|].
  destruct (Simpletype_length c (fst b)); cbn [bind]; try reflexivity.
  rewrite !s32_ext. reflexivity.
Qed.

(** The memcpys of a transfer. *)
Definition ops_of (srcs dsts : list region) : list op := map (fun p => (fst (fst p), snd p)) (combine srcs dsts).

Lemma combine_map {A B A' B'} (f : A -> A') (g : B -> B') l1 : forall l2,
  combine (map f l1) (map g l2) = map (fun p => (f (fst p), g (snd p))) (combine l1 l2).
Proof. induction l1 as [|x l1 IH]; intros [|y l2]; cbn; auto. f_equal. apply IH. Qed.

Lemma combine_snd {A B} (l1 : list A) : forall (l2 : list B), (length l2 <= length l1)%nat -> map snd (combine l1 l2) = l2.
Proof.
  induction l1 as [|x l1 IH]; intros [|y l2] H; cbn in *; auto; try lia. f_equal. apply IH. lia.
Qed.

Lemma ops_reads srcs dsts : map op_src (ops_of srcs dsts) = reads srcs dsts.
Proof. unfold ops_of, reads. rewrite map_map. reflexivity. Qed.
Lemma ops_writes srcs dsts : (length dsts <= length srcs)%nat -> map op_dst (ops_of srcs dsts) = dsts.
Proof. intros H. unfold ops_of. rewrite map_map. cbn [op_dst snd]. apply combine_snd. exact H. Qed.

Lemma foldM_in_ext {A S} (f g : A -> S -> res S) l : forall s,
  (forall a s, In a l -> f a s = g a s) -> foldM f l s = foldM g l s.
Proof.
  induction l as [|a l IH]; intros s H; cbn [foldM]; auto. rewrite H by (left; auto).
  destruct (g a s); cbn [bind]; auto. apply IH. intros; apply H; right; auto.
Qed.

Lemma ops_copied m srcs dsts : (length dsts <= length srcs)%nat -> (forall d, In d dsts -> 0 < snd d) ->
  buffers_ok m srcs dsts ->
  exists m', foldM do_op (ops_of srcs dsts) m = Ok m' /\ same_domain m m' /\ copied m m' srcs dsts.
Proof.
  intros HL HP (L1 & L2 & A & P).
  destruct (run_ops (ops_of srcs dsts) m) as (m' & E & D & C & F).
  { constructor.
    - intros o Ho. apply HP. rewrite <- (ops_writes srcs dsts HL). apply (in_map op_dst _ _ Ho).
    - rewrite ops_reads. exact L1.
    - rewrite ops_writes by exact HL. exact L2.
    - rewrite ops_reads, ops_writes by exact HL. exact A.
    - rewrite ops_writes by exact HL. exact P. }
  exists m'. split; [exact E|]. split; [exact D|]. split.
  - intros k s d j Hs Hd Hj. apply (C (fst s, d) j); [|exact Hj].
    unfold ops_of. apply in_map_iff. exists (s, d). split; [reflexivity|].
    clear - Hs Hd. revert k dsts Hs Hd. induction srcs as [|x srcs IH]; intros [|k] [|y dsts] Hs Hd; cbn in *; try discriminate.
    + left. congruence.
    + right. eapply IH; eauto.
  - intros a Ha. apply F. intros o Ho. apply Ha. rewrite <- (ops_writes srcs dsts HL). apply (in_map op_dst _ _ Ho).
Qed.

Lemma layout32_length base n ext tm : length (layout32 c base n ext tm) = length (elements n ext tm).
Proof. unfold layout32. apply map_length. Qed.

Lemma known_pos n ext tm e : (forall x, In x tm -> known c x) -> In e (elements n ext tm) ->
  Simpletype_length c (fst e) = Ok (esize c e) /\ 0 < esize c e.
Proof.
  intros K H. destruct (elements_in _ _ _ _ H) as (e0 & H0 & E). assert (KE : known c e).
  { unfold known. rewrite <- E. apply K. exact H0. }
  destruct (known_size c CO e KE). split; [auto|lia].
Qed.

Lemma live_first m rs r : mem_ok m -> live m rs -> In r rs -> 0 < snd r -> 0 <= fst r < TWO64.
Proof. intros MO L H P. apply MO. apply (L r (fst r) H). unfold inside. lia. Qed.

(** The main fact about Pcopy_data2, with offsets as the code computes them. *)
Lemma Pcopy_ok m source ns ts es dest nd td ed :
  mem_ok m -> wf_ts c ts -> wf_ts c td -> Type_extent c ts = Ok (to_u64 es) -> Type_extent c td = Ok (to_u64 ed) ->
  ts_committed ts <> 0 -> ts_committed td <> 0 -> 0 <= ns -> 0 <= nd ->
  ts_count ts * ns <= INT_MAX -> ts_count td * nd <= ts_count ts * ns ->
  (type_checking c = true -> forall k a b, nth_error (elements ns es (typemap ts)) k = Some a ->
     nth_error (elements nd ed (typemap td)) k = Some b -> fst a = fst b) ->
  buffers_ok m (layout32 c source ns es (typemap ts)) (layout32 c dest nd ed (typemap td)) ->
  exists m', Pcopy_data2 c m source ns ts dest nd td = Ok m' /\ same_domain m m' /\
    copied m m' (layout32 c source ns es (typemap ts)) (layout32 c dest nd ed (typemap td)).
Proof.
  intros MO Ws Wd Es Ed Cs Cd Hs Hd Os Od TC B.
  rewrite (Pcopy_foldM m source ns ts es dest nd td ed) by auto.
  assert (CS := wf_count _ _ Ws). assert (CD := wf_count _ _ Wd). assert (PS := wf_pairs _ _ Ws). assert (PD := wf_pairs _ _ Wd).
  assert (LS := typemap_length ts ltac:(lia)). assert (LD := typemap_length td ltac:(lia)).
  assert (ES := elements_length ns es (typemap ts) Hs). assert (ED := elements_length nd ed (typemap td) Hd).
  set (S := layout32 c source ns es (typemap ts)) in *. set (D := layout32 c dest nd ed (typemap td)) in *.
  assert (LEN : (length D <= length S)%nat) by (unfold S, D; rewrite !layout32_length; nia).
  assert (DP : forall d, In d D -> 0 < snd d).
  { intros d H. unfold D, layout32 in H. apply in_map_iff in H. destruct H as (e & <- & He). cbn [snd].
    apply (known_pos _ _ _ _ (wf_known _ _ Wd) He). }
  destruct (ops_copied m S D LEN DP B) as (m' & E & SD & CP).
  exists m'. split; [|auto]. rewrite <- E.
  unfold ops_of, S, D, layout32. rewrite combine_map, map_map, foldM_map.
  apply foldM_in_ext. intros [a b] s Hin. unfold copy_body, do_op. cbn [fst snd].
  assert (Ha := in_combine_l _ _ _ _ Hin). assert (Hb := in_combine_r _ _ _ _ Hin).
  destruct (known_pos _ _ _ _ (wf_known _ _ Wd) Hb) as [LB PB]. rewrite LB. cbn [bind].
  assert (NTC : type_checking c && negb (fst a =? fst b) = false).
  { destruct (type_checking c); [|reflexivity]. cbn [andb]. apply negb_false_iff. apply Z.eqb_eq.
    apply In_nth_error in Hin. destruct Hin as (k & Hk).
    assert (H2 : nth_error (elements ns es (typemap ts)) k = Some a /\ nth_error (elements nd ed (typemap td)) k = Some b).
    { exact (nth_combine _ _ _ _ Hk). }
    apply (TC eq_refl k a b); apply H2. }
  rewrite NTC.
  destruct B as (B1 & B2 & _).
  assert (RS : 0 <= source + to_s32 (snd a) < TWO64).
  { apply (live_first m (reads S D) (source + to_s32 (snd a), esize c b) MO B1); [|exact PB].
    unfold reads, S, D, layout32. rewrite combine_map, map_map. apply in_map_iff. exists (a, b). split; [reflexivity|exact Hin]. }
  assert (RD : 0 <= dest + to_s32 (snd b) < TWO64).
  { apply (live_first m D (dest + to_s32 (snd b), esize c b) MO B2); [|exact PB].
    unfold D, layout32. apply in_map_iff. exists b. split; [reflexivity|exact Hb]. }
  unfold padd. rewrite !to_u64_id by assumption. reflexivity.
Qed.

Lemma layout32_fits base n ext tm : offsets_fit n ext tm -> layout32 c base n ext tm = layout c base n ext tm.
Proof.
  intros H. unfold layout32, layout. apply map_ext_in. intros e He. rewrite to_s32_id by (apply H; exact He). reflexivity.
Qed.

(** Failing transfers. *)
Lemma Pcopy_uncommitted m source ns ts dest nd td : ts_committed ts = 0 \/ ts_committed td = 0 ->
  Pcopy_data2 c m source ns ts dest nd td = Exit (-1) "Type not committed".
Proof.
  intros H. unfold Pcopy_data2. destruct H as [-> | ->]; [reflexivity|]. cbn [Z.eqb]. rewrite orb_true_r. reflexivity.
Qed.

Lemma Pcopy_over m source ns ts dest nd td : ts_committed ts <> 0 -> ts_committed td <> 0 ->
  is_int (ts_count ts * ns) -> is_int (ts_count td * nd) -> ts_count ts * ns < ts_count td * nd ->
  Pcopy_data2 c m source ns ts dest nd td = Exit 1 "copy_data: Trying to over-receive".
Proof.
  intros Cs Cd Is Id H. unfold Pcopy_data2.
  destruct (Z.eqb_spec (ts_committed ts) 0); [contradiction|]. destruct (Z.eqb_spec (ts_committed td) 0); [contradiction|].
  cbn [orb]. rewrite chk_int_ok by exact Is. cbn [bind]. rewrite chk_int_ok by exact Id. cbn [bind].
  destruct (Z.ltb_spec (ts_count ts * ns) (ts_count td * nd)); [reflexivity|lia].
Qed.
End Copy.
