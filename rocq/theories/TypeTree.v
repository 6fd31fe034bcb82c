(** Lemmas: types built by any nesting of constructors. *)
From Verif Require Import Base TypeModel TypeSpec TypeProofs TypeStruct TypeCons.

Section Ind.
Variable P : texpr -> Prop.
Hypothesis HPre : forall h, P (EPre h).
Hypothesis HStruct : forall bs, Forall (fun b => P (snd b)) bs -> P (EStruct bs).
Hypothesis HContig : forall n e, P e -> P (EContig n e).
Hypothesis HHvector : forall n bl s e, P e -> P (EHvector n bl s e).
Hypothesis HVector : forall n bl s e, P e -> P (EVector n bl s e).
Hypothesis HHindexed : forall bds e, P e -> P (EHindexed bds e).
Hypothesis HIndexed : forall bds e, P e -> P (EIndexed bds e).
Hypothesis HIblock : forall bl ds e, P e -> P (EIblock bl ds e).
Fixpoint texpr_ind' (e : texpr) : P e :=
  match e with
  | EPre h => HPre h
  | EStruct bs => HStruct bs ((fix go (l : list (Z * Z * texpr)) : Forall (fun b => P (snd b)) l :=
       match l with [] => Forall_nil _ | b :: r => Forall_cons b (texpr_ind' (snd b)) (go r) end) bs)
  | EContig n e => HContig n e (texpr_ind' e)
  | EHvector n bl s e => HHvector n bl s e (texpr_ind' e)
  | EVector n bl s e => HVector n bl s e (texpr_ind' e)
  | EHindexed bds e => HHindexed bds e (texpr_ind' e)
  | EIndexed bds e => HIndexed bds e (texpr_ind' e)
  | EIblock bl ds e => HIblock bl ds e (texpr_ind' e)
  end.
End Ind.

Section Tree.
Variable c : cfg.
Hypothesis CO : cfg_ok c.

(** *** The extent function agrees with the specification *)
Lemma fold_min_hd x r : is_min (fold_left Z.min r x) (x :: r).
Proof.
  destruct (fold_min_spec r x) as (A & B & C). split.
  - destruct A as [->|A]; [left; reflexivity|right; exact A].
  - intros y [<-|Hy]; auto.
Qed.
Lemma fold_max_hd x r : is_max (fold_left Z.max r x) (x :: r).
Proof.
  destruct (fold_max_spec r x) as (A & B & C). split.
  - destruct A as [->|A]; [left; reflexivity|right; exact A].
  - intros y [<-|Hy]; auto.
Qed.
Lemma lb_of_ok m : m <> [] -> is_lb m (lb_of m).
Proof. intros H. unfold is_lb, lb_of. destruct m as [|e m]; [congruence|]. apply fold_min_hd. Qed.
Lemma ub_of_ok m : m <> [] -> is_ub c m (ub_of c m).
Proof. intros H. unfold is_ub, ub_of. destruct m as [|e m]; [congruence|]. apply fold_max_hd. Qed.
Lemma maxsize_ok m : m <> [] -> is_max (maxsize c m) (sizes c m).
Proof. intros H. unfold maxsize. destruct m as [|e m]; [congruence|]. apply fold_max_hd. Qed.

Lemma rounds_up_fun d a : 0 < a -> rounds_up d a (a * ((d + a - 1) / a)).
Proof.
  intros Ha. pose proof (Z.div_mod (d + a - 1) a ltac:(lia)) as DM.
  pose proof (Z.mod_pos_bound (d + a - 1) a Ha) as MB. split; [|split].
  - exists ((d + a - 1) / a). ring.
  - lia.
  - intros k Hk. assert ((d + a - 1) / a < k + 1); nia.
Qed.

Lemma maxsize_pos m : m <> [] -> (forall e, In e m -> known c e) -> 1 <= maxsize c m <= 2048.
Proof.
  intros NE K. destruct (maxsize_ok m NE) as [Hin _]. apply in_map_iff in Hin. destruct Hin as (e & <- & He).
  apply known_size; auto.
Qed.

Lemma ext_of_ok m : m <> [] -> (forall e, In e m -> known c e) -> is_extent c m (ext_of c m).
Proof.
  intros NE K. exists (lb_of m), (ub_of c m), (maxsize c m).
  repeat (split; [first [apply lb_of_ok | apply ub_of_ok | apply maxsize_ok]; assumption|]).
  apply rounds_up_fun. destruct (maxsize_pos m NE K). lia.
Qed.

Lemma is_extent_unique m x y : is_extent c m x -> is_extent c m y -> x = y.
Proof.
  intros (l & u & a & Hl & Hu & Ha & Hx) (l' & u' & a' & Hl' & Hu' & Ha' & Hy).
  assert (l = l') by (eapply is_min_unique; eauto). assert (u = u') by (eapply is_max_unique; eauto).
  assert (a = a') by (eapply is_max_unique; eauto). subst. eapply rounds_up_unique; eauto.
Qed.

Lemma span_range m lb ub : (forall e, In e m -> known c e) -> (forall e, In e m -> is_int (snd e)) ->
  is_lb m lb -> is_ub c m ub -> 0 <= ub - lb <= 4294967296 + 4096.
Proof.
  intros K I [Hl Hl'] [Hu Hu']. apply in_map_iff in Hl. destruct Hl as (e & <- & He).
  apply in_map_iff in Hu. destruct Hu as (e' & <- & He').
  assert (A := Hu' (snd e + esize c e) (in_map (fun e => snd e + esize c e) _ _ He)).
  destruct (known_size c CO e (K e He)) as [_ R]. destruct (known_size c CO e' (K e' He')) as [_ R'].
  specialize (I e He) as I1. specialize (I e' He') as I2. unfold is_int, INT_MIN, INT_MAX in *. lia.
Qed.

(** *** What every subexpression yields *)
Record good (m : list elem) (t : typestruct) : Prop := {
  g_map : typemap t = m;
  g_wf : wf_ts c t;
  g_no : no_override t;
  g_ext : Type_extent c t = Ok (ext_of c m);
  g_pos : 0 <= ext_of c m <= LONG_MAX
}.

Lemma good_data m t : good m t -> data_type c t (ext_of c m).
Proof.
  intros G. split; [apply (g_wf _ _ G)|]. split; [apply (g_no _ _ G)|].
  rewrite (g_ext _ _ G). f_equal. symmetry. apply to_u64_id. destruct (g_pos _ _ G). unfold TWO64, LONG_MAX in *. lia.
Qed.

Lemma plain_extent jk m t : struct_result c jk m t -> plain_result c jk m t -> j_olb jk = 0 -> j_oub jk = 0 ->
  m <> [] -> (forall e, In e m -> is_int (snd e)) ->
  exists x, Type_extent c t = Ok x /\ is_extent c m x /\ 0 <= x <= LONG_MAX.
Proof.
  intros S P J1 J2 NE HI. destruct S as [M W _ _ _], P as [O1 O2 L U].
  assert (K : forall e, In e m -> known c e) by (rewrite <- M; apply (wf_known _ _ W)).
  specialize (L NE HI). specialize (U NE HI). assert (SR := span_range m _ _ K HI L U).
  assert (MS := maxsize_ok m NE).
  assert (WC := wf_count _ _ W). assert (WP := wf_pairs _ _ W).
  destruct (extent_plain c CO t (maxsize c m)) as (x & E & R & X).
  - lia.
  - rewrite M. exact K.
  - congruence.
  - congruence.
  - rewrite M. exact MS.
  - unfold LONG_MAX. lia.
  - exists x. split; [exact E|]. split; [|exact X]. exists (ts_lb t), (ts_ub t), (maxsize c m). auto.
Qed.

Lemma result_good jk m t : struct_result c jk m t -> plain_result c jk m t -> j_olb jk = 0 -> j_oub jk = 0 ->
  m <> [] -> (forall e, In e m -> is_int (snd e)) -> good m t.
Proof.
  intros S P J1 J2 NE HI. destruct (plain_extent jk m t S P J1 J2 NE HI) as (x & E & R & X).
  destruct S as [M W _ _ _], P as [O1 O2 _ _].
  assert (K : forall e, In e m -> known c e) by (rewrite <- M; apply (wf_known _ _ W)).
  assert (x = ext_of c m) by (eapply is_extent_unique; [exact R|]; apply ext_of_ok; auto). subst x.
  constructor; auto. repeat split; try congruence. apply (known_not_marker c); rewrite M; auto.
Qed.

(** *** Predefined types *)
Lemma pre1_ext ty s : Simpletype_length c ty = Ok s -> ext_of c [(ty, 0)] = s.
Proof.
  intros E. assert (B := length_bsize _ _ _ E). assert (R := length_range _ _ _ CO E).
  unfold ext_of, maxsize, ub_of, lb_of. cbn [sizes ends disps map fold_left snd]. unfold esize. cbn [fst]. rewrite B.
    replace (0 + s - 0 + s - 1) with (1 * s + (s - 1)) by ring. rewrite Z.div_add_l by lia.
    rewrite Z.div_small by lia. ring.
Qed.

Lemma pre2_ext ty s : Simpletype_length c ty = Ok s -> ext_of c [(ty, 0); (ty, s)] = 2 * s.
Proof.
  intros E. assert (B := length_bsize _ _ _ E). assert (R := length_range _ _ _ CO E).
  unfold ext_of, maxsize, ub_of, lb_of. cbn [sizes ends disps map fold_left snd]. unfold esize. cbn [fst]. rewrite B.
    rewrite Z.max_id. rewrite (Z.max_r (0 + s)) by lia. rewrite Z.min_l by lia.
    replace (s + s - 0 + s - 1) with (2 * s + (s - 1)) by ring. rewrite Z.div_add_l by lia.
    rewrite Z.div_small by lia. ring.
Qed.

Lemma pre1_good ty s : Simpletype_length c ty = Ok s -> good [(ty, 0)] (pre1 s ty).
Proof.
  intros E. assert (B := length_bsize _ _ _ E). assert (R := length_range _ _ _ CO E).
  assert (X := pre1_ext ty s E).
  assert (K : forall e, In e [(ty, 0)] -> known c e) by (intros e [<-|[]]; exists s; exact E).
  constructor.
  - reflexivity.
  - constructor.
    + cbn. unfold INT_MAX. lia.
    + cbn. lia.
    + exact K.
    + intros e [<-|[]]. cbn. unfold LONG_MIN, LONG_MAX. lia.
  - repeat split; try reflexivity. apply (known_not_marker c); [discriminate|exact K].
  - rewrite X. destruct (extent_plain c CO (pre1 s ty) s) as (x & EX & RX & _).
    + cbn. lia.
    + exact K.
    + reflexivity.
    + reflexivity.
    + split; [left; exact B|]. intros y [<-|[]]. apply Z.eq_le_incl. exact B.
    + cbn. unfold LONG_MAX. lia.
    + rewrite EX. f_equal. eapply rounds_up_unique; [exact RX|]. cbn [ts_ub ts_lb pre1].
      split; [exists 1; ring|]. split; [lia|]. intros k Hk. lia.
  - rewrite X. unfold LONG_MAX. lia.
Qed.

Lemma pre2_good ty s : Simpletype_length c ty = Ok s -> good [(ty, 0); (ty, s)] (pre2 (2 * s) ty s ty).
Proof.
  intros E. assert (B := length_bsize _ _ _ E). assert (R := length_range _ _ _ CO E).
  assert (X := pre2_ext ty s E).
  assert (K : forall e, In e [(ty, 0); (ty, s)] -> known c e) by (intros e [<-|[<-|[]]]; exists s; exact E).
  constructor.
  - reflexivity.
  - constructor.
    + cbn. unfold INT_MAX. lia.
    + cbn. lia.
    + exact K.
    + intros e [<-|[<-|[]]]; cbn; unfold LONG_MIN, LONG_MAX; lia.
  - repeat split; try reflexivity. apply (known_not_marker c); [discriminate|exact K].
  - rewrite X. destruct (extent_plain c CO (pre2 (2 * s) ty s ty) s) as (x & EX & RX & _).
    + cbn. lia.
    + exact K.
    + reflexivity.
    + reflexivity.
    + split; [left; exact B|]. intros y [<-|[<-|[]]]; apply Z.eq_le_incl; exact B.
    + cbn [pre2 ts_ub ts_lb]. unfold LONG_MAX. lia.
    + rewrite EX. f_equal. eapply rounds_up_unique; [exact RX|]. cbn [ts_ub ts_lb pre2].
      split; [exists 2; ring|]. split; [lia|]. intros k Hk. lia.
  - rewrite X. unfold LONG_MAX. lia.
Qed.

(** The pair types with concrete sizes. *)
Definition pair_types : list (Z * Z * Z * Z) :=
  [(8, 8, 4, 2); (16, 9, 8, 2); (16, 3, 8, 2); (8, 1, 4, 2); (32, 10, 16, 2)].
Lemma pair_good u a d b : In (u, a, d, b) pair_types -> good [(a, 0); (b, d)] (pre2 u a d b).
Proof.
  intros H. assert (KK : exists s1 s2, Simpletype_length c a = Ok s1 /\ Simpletype_length c b = Ok s2).
  { repeat (destruct H as [H|H]; [injection H as <- <- <- <-; eexists; eexists; split; reflexivity|]). destruct H. }
  assert (RR : Type_extent c (pre2 u a d b) = Ok u /\ ext_of c [(a, 0); (b, d)] = u /\ 0 <= d <= 16 /\ 0 <= u <= 32).
  { repeat (destruct H as [H|H]; [injection H as <- <- <- <-; repeat split; first [reflexivity | lia]|]). destruct H. }
  clear H. destruct KK as (s1 & s2 & E1 & E2). destruct RR as (X1 & X2 & R1 & R2).
  assert (K : forall e, In e [(a, 0); (b, d)] -> known c e).
  { intros e [<-|[<-|[]]]; [exists s1; exact E1|exists s2; exact E2]. }
  constructor.
  - reflexivity.
  - constructor.
    + cbn. unfold INT_MAX. lia.
    + cbn. lia.
    + exact K.
    + intros e [<-|[<-|[]]]; cbn; unfold LONG_MIN, LONG_MAX; lia.
  - repeat split; try reflexivity. apply (known_not_marker c); [discriminate|exact K].
  - congruence.
  - rewrite X2. unfold LONG_MAX. lia.
Qed.

Lemma find_map_in h l : find_map h l <> [] -> exists s m, In (s, h, m) l /\ find_map h l = m.
Proof.
  induction l as [|[[s k] m] l IH]; intros H; [exfalso; apply H; reflexivity|]. cbn [find_map] in *.
  destruct (Z.eqb_spec k h) as [->|NE].
  - exists s, m. split; [left; reflexivity|reflexivity].
  - destruct (IH H) as (s' & m' & Hin & E). exists s', m'. split; [right; exact Hin|exact E].
Qed.

Lemma predefined_good h : den c (EPre h) <> [] -> exists t, predefined c h = Ok t /\ good (den c (EPre h)) t.
Proof.
  intros H. cbn [den] in *. destruct (find_map_in _ _ H) as (s & m & Hin & Em). rewrite Em. clear Em H.
  unfold predef_maps in Hin. cbn [In] in Hin.
  repeat (destruct Hin as [Hin|Hin];
    [injection Hin as <- <- <-; eexists; split; [reflexivity|];
     first [ apply pre1_good; reflexivity | apply (pre2_good _ 4); reflexivity
           | apply pre2_good; reflexivity | apply pair_good; cbn; tauto ] |]).
  destruct Hin.
Qed.

(** *** The tree theorem *)
Variable jk : texpr -> tjunk.
Hypothesis JK : forall e, j_olb (jk e) = 0 /\ j_oub (jk e) = 0.

Definition tree_result (e : texpr) (t : typestruct) : Prop :=
  good (den c e) t /\ (derived e -> is_lb (den c e) (ts_lb t) /\ is_ub c (den c e) (ts_ub t) /\ ts_committed t = 0).

Lemma finish e t : node_ok c e -> struct_result c (jk e) (den c e) t -> plain_result c (jk e) (den c e) t -> tree_result e t.
Proof.
  intros (NE & HL & HI) S P. destruct (JK e) as [J1 J2]. split.
  - eapply result_good; eauto.
  - intros _. split; [apply (pr_lb _ _ _ _ P)|split; [apply (pr_ub _ _ _ _ P)|apply (sr_comm _ _ _ _ S)]]; auto.
Qed.

Lemma copies_known n ext d m : (forall e, In e m -> known c e) -> forall e, In e (copies n ext d m) -> known c e.
Proof.
  intros K e He. unfold copies in He. apply in_flat_map in He. destruct He as (j & _ & He).
  apply in_map_iff in He. destruct He as (e0 & <- & He). destruct (K e0 He) as (s & E). exists s. exact E.
Qed.

Lemma flat_known {A} (f : A -> list elem) l : (forall a e, In a l -> In e (f a) -> known c e) ->
  forall e, In e (flat_map f l) -> known c e.
Proof. intros H e He. apply in_flat_map in He. destruct He as (a & Ha & He). eauto. Qed.

Lemma good_known m t : good m t -> forall e, In e m -> known c e.
Proof. intros G e He. rewrite <- (g_map _ _ G) in He. apply (wf_known _ _ (g_wf _ _ G)). exact He. Qed.

Definition go_build (jk : texpr -> tjunk) := fix go (l : list (Z * Z * texpr)) : res (list typestruct) :=
  match l with [] => Ok [] | (_, _, x) :: r => do t <- build c jk x; do ts <- go r; Ok (t :: ts) end.
Definition go_ok := fix go (l : list (Z * Z * texpr)) : Prop :=
  match l with [] => True | (n, _, x) :: r => int_nonneg n /\ expr_ok c x /\ go r end.

Lemma struct_blocks bs : Forall (fun b => expr_ok c (snd b) -> exists t, build c jk (snd b) = Ok t /\ tree_result (snd b) t) bs ->
  go_ok bs ->
  exists bl, go_build jk bs = Ok (map ib_old bl) /\
    map (fun b => fst (fst b)) bs = map ib_len bl /\
    map (fun b => to_u64 (snd (fst b))) bs = map (fun b => to_u64 (ib_disp b)) bl /\
    length bs = length bl /\
    Forall (struct_arg_ok c) bl /\ Forall (fun b => no_override (ib_old b)) bl /\
    struct_map (map sblock_of bl) = den c (EStruct bs) /\
    (forall e, In e (den c (EStruct bs)) -> known c e).
Proof.
  induction 1 as [|[[n d] x] bs Hb HF IH]; intros HG.
  - exists []. repeat split; auto. intros e [].
  - cbn [go_ok] in HG. destruct HG as (Hn & Hx & HG). destruct (IH HG) as (bl & E & E1 & E2 & E3 & FA & FN & SM & KN).
    cbn [snd] in Hb. destruct (Hb Hx) as (t & Et & G & _).
    exists (mkIb n d t (ext_of c (den c x)) :: bl).
    split; [|split; [|split; [|split; [|split; [|split; [|split]]]]]].
    + cbn [go_build]. rewrite Et. cbn [bind]. fold (go_build jk). rewrite E. reflexivity.
    + cbn [map fst snd ib_len]. f_equal. exact E1.
    + cbn [map fst snd ib_disp]. f_equal. exact E2.
    + cbn [length]. f_equal. exact E3.
    + constructor; [|exact FA]. right. split; [exact Hn|]. apply good_data. exact G.
    + constructor; [|exact FN]. apply (g_no _ _ G).
    + cbn [map struct_map flat_map den]. cbn [den] in SM. rewrite <- SM. unfold struct_map.
      apply (f_equal (fun x => x ++ _)). unfold sblock_of, marker. cbn [ib_old ib_len ib_disp ib_ext sb_len sb_ext sb_disp sb_map].
      destruct (g_no _ _ G) as (-> & _). rewrite (g_map _ _ G). reflexivity.
    + cbn [den flat_map]. intros e He. apply in_app_or in He. destruct He as [He|He].
      * eapply copies_known; [|exact He]. eapply good_known; eauto.
      * apply KN. exact He.
Qed.

Lemma tree_ok e : expr_ok c e -> exists t, build c jk e = Ok t /\ tree_result e t.
Proof.
  induction e as [h|bs IH|n e IH|n bl s e IH|n bl s e IH|bds e IH|bds e IH|bl ds e IH] using texpr_ind'; intros H.
  - destruct H as ((NE & _) & _). destruct (predefined_good h NE) as (t & E & G).
    exists t. split; [exact E|]. split; [exact G|intros []].
  - assert (NO : node_ok c (EStruct bs)) by apply H. assert (GO : go_ok bs) by apply H.
    destruct (struct_blocks bs IH GO) as (bl & E & E1 & E2 & E3 & FA & FN & SM & KN).
    destruct NO as (NE & HL & HI).
    destruct (struct_ok c CO (jk (EStruct bs)) bl [] [] FA) as (t & ET & S & P).
    + rewrite SM. exact HL.
    + rewrite SM. apply is_int_fits; auto.
    + rewrite SM in *. rewrite !app_nil_r in ET. exists t. split; [|apply finish; [exact (conj NE (conj HL HI))|exact S|exact (P FN)]].
      cbn [build]. fold (go_build jk). rewrite E. cbn [bind]. rewrite E1, E2, E3. exact ET.
  - destruct H as (NO & Hn & He). destruct (IH He) as (t0 & E0 & G & _). assert (NO' := NO). destruct NO' as (NE & HL & HI).
    assert (KN : forall e0, In e0 (den c (EContig n e)) -> known c e0).
    { apply copies_known. eapply good_known; eauto. }
    destruct (contiguous_ok c CO (jk (EContig n e)) t0 _ n (good_data _ _ G) Hn) as (t & ET & S & P).
    + rewrite (g_map _ _ G). exact HL.
    + rewrite (g_map _ _ G). apply is_int_fits; auto.
    + rewrite (g_map _ _ G) in *. exists t. split; [|apply finish; [exact NO|exact S|exact (P (g_no _ _ G))]].
      cbn [build]. rewrite E0. exact ET.
  - destruct H as (NO & Hn & Hb & He). destruct (IH He) as (t0 & E0 & G & _). assert (NO' := NO). destruct NO' as (NE & HL & HI).
    assert (KN : forall e0, In e0 (den c (EHvector n bl s e)) -> known c e0).
    { apply flat_known. intros a e0 _. apply copies_known. eapply good_known; eauto. }
    destruct (hvector_ok c CO (jk (EHvector n bl s e)) t0 _ n bl s (to_u64 s) (good_data _ _ G) Hn Hb (u64_idem s)) as (t & ET & S & P).
    + rewrite (g_map _ _ G). exact HL.
    + rewrite (g_map _ _ G). apply is_int_fits; auto.
    + rewrite (g_map _ _ G) in *. exists t. split; [|apply finish; [exact NO|exact S|exact (P (g_no _ _ G))]].
      cbn [build]. rewrite E0. exact ET.
  - destruct H as (NO & Hn & Hb & He). destruct (IH He) as (t0 & E0 & G & _). assert (NO' := NO). destruct NO' as (NE & HL & HI).
    assert (KN : forall e0, In e0 (den c (EVector n bl s e)) -> known c e0).
    { apply flat_known. intros a e0 _. apply copies_known. eapply good_known; eauto. }
    destruct (vector_ok c CO (jk (EVector n bl s e)) t0 _ n bl s (good_data _ _ G) Hn Hb) as (t & ET & S & P).
    + rewrite (g_map _ _ G). exact HL.
    + rewrite (g_map _ _ G). apply is_int_fits; auto.
    + rewrite (g_map _ _ G) in *. exists t. split; [|apply finish; [exact NO|exact S|exact (P (g_no _ _ G))]].
      cbn [build]. rewrite E0. exact ET.
  - destruct H as (NO & Hb & He). destruct (IH He) as (t0 & E0 & G & _). assert (NO' := NO). destruct NO' as (NE & HL & HI).
    assert (KN : forall e0, In e0 (den c (EHindexed bds e)) -> known c e0).
    { apply flat_known. intros a e0 _. apply copies_known. eapply good_known; eauto. }
    destruct (hindexed_ok c CO (jk (EHindexed bds e)) t0 _ bds [] [] (good_data _ _ G) Hb) as (t & ET & S & P).
    + rewrite (g_map _ _ G). exact HL.
    + rewrite (g_map _ _ G). apply is_int_fits; auto.
    + rewrite (g_map _ _ G) in *. rewrite !app_nil_r in ET. exists t. split; [|apply finish; [exact NO|exact S|exact (P (g_no _ _ G))]].
      cbn [build]. rewrite E0. exact ET.
  - destruct H as (NO & Hb & He). destruct (IH He) as (t0 & E0 & G & _). assert (NO' := NO). destruct NO' as (NE & HL & HI).
    assert (KN : forall e0, In e0 (den c (EIndexed bds e)) -> known c e0).
    { apply flat_known. intros a e0 _. apply copies_known. eapply good_known; eauto. }
    destruct (indexed_ok c CO (jk (EIndexed bds e)) t0 _ bds [] [] (good_data _ _ G) Hb) as (t & ET & S & P).
    + rewrite (g_map _ _ G). exact HL.
    + rewrite (g_map _ _ G). apply is_int_fits; auto.
    + rewrite (g_map _ _ G) in *. rewrite !app_nil_r in ET. exists t. split; [|apply finish; [exact NO|exact S|exact (P (g_no _ _ G))]].
      cbn [build]. rewrite E0. exact ET.
  - destruct H as (NO & Hb & He). destruct (IH He) as (t0 & E0 & G & _). assert (NO' := NO). destruct NO' as (NE & HL & HI).
    assert (KN : forall e0, In e0 (den c (EIblock bl ds e)) -> known c e0).
    { apply flat_known. intros a e0 _. apply copies_known. eapply good_known; eauto. }
    destruct (indexed_block_ok c CO (jk (EIblock bl ds e)) t0 _ bl ds [] (good_data _ _ G) Hb) as (t & ET & S & P).
    + rewrite (g_map _ _ G). exact HL.
    + rewrite (g_map _ _ G). apply is_int_fits; auto.
    + rewrite (g_map _ _ G) in *. rewrite !app_nil_r in ET. exists t. split; [|apply finish; [exact NO|exact S|exact (P (g_no _ _ G))]].
      cbn [build]. rewrite E0. exact ET.
Qed.
End Tree.
