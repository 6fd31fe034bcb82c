(** Lemmas about datatypes. *)
From Verif Require Import Base TypeModel TypeSpec.

(** *** Monadic folds *)
Fixpoint foldM {A S} (f : A -> S -> res S) (l : list A) (s : S) : res S :=
  match l with [] => Ok s | x :: r => do s' <- f x s; foldM f r s' end.

Lemma for_from_foldM {A S} (body : Z -> S -> res S) (g : A -> S -> res S) : forall l i s,
  (forall k x s0, nth_error l k = Some x -> body (i + Z.of_nat k) s0 = g x s0) ->
  for_from (length l) i body s = foldM g l s.
Proof.
  induction l as [|x l IH]; intros i s H; simpl; auto.
  rewrite <- (H O x s eq_refl), Z.add_0_r. destruct (body i s); simpl; auto.
  apply IH. intros k y s0 Hk. rewrite <- (H (Datatypes.S k) y s0 Hk). f_equal. lia.
Qed.

Lemma for_loop_foldM {A S} (body : Z -> S -> res S) (g : A -> S -> res S) l s :
  (forall k x s0, nth_error l k = Some x -> body (Z.of_nat k) s0 = g x s0) ->
  for_loop 0 (Z.of_nat (length l)) body s = foldM g l s.
Proof.
  intros H. unfold for_loop. rewrite Z.sub_0_r, Nat2Z.id. apply for_from_foldM. exact H.
Qed.

Lemma foldM_ext {A S} (f g : A -> S -> res S) l : forall s,
  (forall x s0, In x l -> f x s0 = g x s0) -> foldM f l s = foldM g l s.
Proof.
  induction l as [|x l IH]; intros s H; simpl; auto.
  rewrite H by (simpl; auto). destruct (g x s); simpl; auto. apply IH. intros; apply H; simpl; auto.
Qed.

Lemma foldM_map {A B S} (f : B -> S -> res S) (h : A -> B) l : forall s,
  foldM f (map h l) s = foldM (fun a => f (h a)) l s.
Proof. induction l as [|x l IH]; intros s; simpl; auto. destruct (f (h x) s); simpl; auto. Qed.

Lemma foldM_pure {A S} (f : A -> S -> S) l : forall s,
  foldM (fun a s => Ok (f a s)) l s = Ok (fold_left (fun s a => f a s) l s).
Proof. induction l as [|x l IH]; intros s; simpl; auto. Qed.

Lemma foldM_inv {A S} (P : S -> Prop) (f : A -> S -> res S) l : forall s,
  P s -> (forall x s0, In x l -> P s0 -> exists s1, f x s0 = Ok s1 /\ P s1) ->
  exists s', foldM f l s = Ok s' /\ P s'.
Proof.
  induction l as [|x l IH]; intros s Hs H; simpl; [eauto|].
  destruct (H x s) as (s1 & E & H1); simpl; auto. rewrite E. simpl. apply IH; auto.
  intros; apply H; simpl; auto.
Qed.

Lemma upto_length n : length (upto n) = Z.to_nat n.
Proof. unfold upto. rewrite map_length, seq_length. reflexivity. Qed.
Lemma upto_nth n k x : nth_error (upto n) k = Some x -> x = Z.of_nat k /\ Z.of_nat k < n.
Proof.
  intros H. assert (L : (k < length (upto n))%nat) by (apply nth_error_Some; congruence).
  rewrite upto_length in L. unfold upto in H. rewrite nth_error_map in H.
  rewrite (nth_error_nth' _ O) in H by (rewrite seq_length; exact L).
  rewrite seq_nth in H by exact L. simpl in H. inversion H; subst. split; lia.
Qed.
Lemma upto_in n x : In x (upto n) <-> 0 <= x < n.
Proof.
  unfold upto. rewrite in_map_iff. split.
  - intros (k & <- & Hk). apply in_seq in Hk. lia.
  - intros H. exists (Z.to_nat x). split; [lia|]. apply in_seq. lia.
Qed.
Lemma upto_nth_ok n k : Z.of_nat k < n -> nth_error (upto n) k = Some (Z.of_nat k).
Proof.
  intros H. unfold upto. rewrite nth_error_map.
  rewrite (nth_error_nth' _ O) by (rewrite seq_length; lia). rewrite seq_nth by lia. reflexivity.
Qed.

Lemma for_loop_upto {S} n (body : Z -> S -> res S) s :
  for_loop 0 n body s = foldM body (upto n) s.
Proof.
  destruct (Z_le_gt_dec 0 n).
  - replace n with (Z.of_nat (length (upto n))) at 1 by (rewrite upto_length; lia).
    apply for_loop_foldM. intros k x s0 H. apply upto_nth in H. destruct H as [-> _]. reflexivity.
  - rewrite for_loop_empty by lia. unfold upto. replace (Z.to_nat n) with O by lia. reflexivity.
Qed.

(** Looping over the first [count] pairs. *)
Lemma for_loop_pairs {S} (t : typestruct) (f : typepair -> S -> res S) s :
  0 <= ts_count t <= Z.of_nat (length (ts_pairs t)) ->
  for_loop 0 (ts_count t) (fun i s => do p <- arr_get (ts_pairs t) i; f p s) s =
  foldM f (firstn (Z.to_nat (ts_count t)) (ts_pairs t)) s.
Proof.
  intros H.
  assert (L : length (firstn (Z.to_nat (ts_count t)) (ts_pairs t)) = Z.to_nat (ts_count t)).
  { rewrite firstn_length. lia. }
  replace (ts_count t) with (Z.of_nat (length (firstn (Z.to_nat (ts_count t)) (ts_pairs t)))) at 1 by lia.
  apply for_loop_foldM. intros k p s0 E.
  rewrite (arr_get_nth _ _ p); [reflexivity|lia|]. rewrite Nat2Z.id.
  rewrite <- (firstn_skipn (Z.to_nat (ts_count t)) (ts_pairs t)).
  rewrite nth_error_app1; auto. apply nth_error_Some. congruence.
Qed.

Lemma foldM_typemap {S} (t : typestruct) (g : elem -> S -> res S) (f : typepair -> S -> res S) s :
  (forall p s0, f p s0 = g (tp_type p, tp_disp p) s0) ->
  foldM f (firstn (Z.to_nat (ts_count t)) (ts_pairs t)) s = foldM g (typemap t) s.
Proof. intros H. unfold typemap. rewrite foldM_map. apply foldM_ext. intros; apply H. Qed.

(** *** Sizes *)
Ltac zcase t :=
  destruct t as [|p|p]; try discriminate;
  repeat (destruct p as [p|p|]; try discriminate; try reflexivity).

Lemma length_bsize c t s : Simpletype_length c t = Ok s -> bsize c t = s.
Proof.
  unfold bsize, Simpletype_length.
  destruct t as [|p|p]; try discriminate; [intros E; inversion E; reflexivity|].
  do 6 (try (destruct p as [p|p|]); try discriminate);
    intros E; apply Ok_inj in E; subst s; cbn [find_size basic_sizes Z.eqb Pos.eqb]; lia.
Qed.

Lemma length_range c t s : cfg_ok c -> Simpletype_length c t = Ok s -> 1 <= s <= 2048.
Proof.
  intros [H1 H2]. unfold Simpletype_length.
  destruct t as [|p|p]; try discriminate; [intros E; inversion E; lia|].
  do 6 (try (destruct p as [p|p|]); try discriminate);
    intros E; apply Ok_inj in E; subst s; lia.
Qed.

(** *** Minimum, maximum *)
Lemma fold_min_spec l : forall a, let m := fold_left Z.min l a in
  (m = a \/ In m l) /\ m <= a /\ forall x, In x l -> m <= x.
Proof.
  induction l as [|x l IH]; intros a; simpl.
  - split; auto. split; [lia|tauto].
  - destruct (IH (Z.min a x)) as (H1 & H2 & H3). split; [|split].
    + destruct H1 as [H1|H1]; auto. rewrite H1. destruct (Z.min_spec a x) as [[_ E]|[_ E]]; rewrite E; auto.
    + lia.
    + intros y [->|Hy]; [lia|auto].
Qed.

Lemma fold_max_spec l : forall a, let m := fold_left Z.max l a in
  (m = a \/ In m l) /\ a <= m /\ forall x, In x l -> x <= m.
Proof.
  induction l as [|x l IH]; intros a; simpl.
  - split; auto. split; [lia|tauto].
  - destruct (IH (Z.max a x)) as (H1 & H2 & H3). split; [|split].
    + destruct H1 as [H1|H1]; auto. rewrite H1. destruct (Z.max_spec a x) as [[_ E]|[_ E]]; rewrite E; auto.
    + lia.
    + intros y [->|Hy]; [lia|auto].
Qed.

Lemma fold_min_is_min l a : l <> [] -> (forall x, In x l -> x <= a) -> is_min (fold_left Z.min l a) l.
Proof.
  intros Hl Ha. destruct (fold_min_spec l a) as (H1 & H2 & H3). split; [|exact H3].
  destruct H1 as [E|]; auto. destruct l as [|x r]; [congruence|].
  assert (x <= a) by (apply Ha; simpl; auto). assert (fold_left Z.min (x :: r) a <= x) by (apply H3; simpl; auto).
  replace (fold_left Z.min (x :: r) a) with x by lia. simpl; auto.
Qed.
Lemma fold_max_is_max l a : l <> [] -> (forall x, In x l -> a <= x) -> is_max (fold_left Z.max l a) l.
Proof.
  intros Hl Ha. destruct (fold_max_spec l a) as (H1 & H2 & H3). split; [|exact H3].
  destruct H1 as [E|]; auto. destruct l as [|x r]; [congruence|].
  assert (a <= x) by (apply Ha; simpl; auto). assert (x <= fold_left Z.max (x :: r) a) by (apply H3; simpl; auto).
  replace (fold_left Z.max (x :: r) a) with x by lia. simpl; auto.
Qed.
Lemma is_min_unique l x y : is_min x l -> is_min y l -> x = y.
Proof. intros [A B] [C D]. specialize (B y C). specialize (D x A). lia. Qed.
Lemma is_max_unique l x y : is_max x l -> is_max y l -> x = y.
Proof. intros [A B] [C D]. specialize (B y C). specialize (D x A). lia. Qed.
Lemma rounds_up_unique s a x y : rounds_up s a x -> rounds_up s a y -> x = y.
Proof.
  intros ((k & ->) & A & B) ((j & ->) & C & D). specialize (B j C). specialize (D k A). lia.
Qed.

Lemma foldM_min l : forall a, INT_MIN <= a <= INT_MAX -> (forall e, In e l -> is_int (snd e)) ->
  foldM (fun (e : elem) (m : Z) => Ok (to_s32 (if snd e <? m then snd e else m))) l a
  = Ok (fold_left Z.min (disps l) a).
Proof.
  induction l as [|e l IH]; intros a Ha H; simpl; auto.
  assert (He : is_int (snd e)) by (apply H; simpl; auto). unfold is_int in He.
  rewrite to_s32_id by (destruct (Z.ltb_spec (snd e) a); lia).
  replace (if snd e <? a then snd e else a) with (Z.min a (snd e)) by (destruct (Z.ltb_spec (snd e) a); lia).
  apply IH; [lia|]. intros; apply H; simpl; auto.
Qed.

Section Bounds.
Variable c : cfg.
Hypothesis CO : cfg_ok c.

Lemma calc_lb_ok t : 0 <= ts_count t <= Z.of_nat (length (ts_pairs t)) ->
  (forall e, In e (typemap t) -> is_int (snd e)) ->
  calc_lb t = Ok (fold_left Z.min (disps (typemap t)) INT_MAX).
Proof.
  intros Hc H. unfold calc_lb.
  rewrite (for_loop_pairs t (fun p m => Ok (to_s32 (if tp_disp p <? m then tp_disp p else m)))) by auto.
  rewrite (foldM_typemap t (fun e m => Ok (to_s32 (if snd e <? m then snd e else m)))) by reflexivity.
  apply foldM_min; auto. unfold INT_MIN, INT_MAX; lia.
Qed.

Lemma calc_lb_runs t : 0 <= ts_count t <= Z.of_nat (length (ts_pairs t)) ->
  exists l, calc_lb t = Ok l /\ is_int l.
Proof.
  intros Hc. unfold calc_lb.
  rewrite (for_loop_pairs t (fun p m => Ok (to_s32 (if tp_disp p <? m then tp_disp p else m)))) by auto.
  apply foldM_inv; [unfold is_int, INT_MIN, INT_MAX; lia|].
  intros x s0 _ _. eexists. split; [reflexivity|]. apply to_s32_range.
Qed.

Definition known (e : elem) : Prop := exists s, Simpletype_length c (fst e) = Ok s.

Lemma known_size e : known e -> Simpletype_length c (fst e) = Ok (esize c e) /\ 1 <= esize c e <= 2048.
Proof.
  intros (s & E). assert (B := length_bsize _ _ _ E). assert (R := length_range _ _ _ CO E).
  unfold esize. rewrite B. auto.
Qed.

Lemma foldM_ub l : forall a, (forall e, In e l -> known e /\ is_long (snd e + esize c e)) ->
  foldM (fun (e : elem) (m : Z) => do len <- Simpletype_length c (fst e); do z <- chk_long (snd e + len);
           Ok (if z >? m then z else m)) l a
  = Ok (fold_left Z.max (ends c l) a).
Proof.
  induction l as [|e l IH]; intros a H; simpl; auto.
  destruct (H e (or_introl eq_refl)) as [K L]. destruct (known_size e K) as [E _]. rewrite E. cbn [bind].
  rewrite chk_long_ok by exact L. cbn [bind].
  replace (if snd e + esize c e >? a then snd e + esize c e else a) with (Z.max a (snd e + esize c e)).
  - apply IH. intros; apply H; simpl; auto.
  - rewrite Z.gtb_ltb. destruct (Z.ltb_spec a (snd e + esize c e)); lia.
Qed.

Lemma calc_ub_ok t : 0 <= ts_count t <= Z.of_nat (length (ts_pairs t)) ->
  (forall e, In e (typemap t) -> known e /\ is_long (snd e + esize c e)) ->
  calc_ub c t = Ok (fold_left Z.max (ends c (typemap t)) INT_MIN).
Proof.
  intros Hc H. unfold calc_ub.
  rewrite (for_loop_pairs t (fun p m => do len <- Simpletype_length c (tp_type p); do z <- chk_long (tp_disp p + len);
     Ok (if z >? m then z else m))) by auto.
  rewrite (foldM_typemap t (fun e m => do len <- Simpletype_length c (fst e); do z <- chk_long (snd e + len);
     Ok (if z >? m then z else m))) by reflexivity.
  apply foldM_ub; auto.
Qed.

Lemma foldM_pad l : forall a, (forall e, In e l -> known e) ->
  foldM (fun (e : elem) (m : Z) => do len <- Simpletype_length c (fst e); Ok (if len >? m then len else m)) l a
  = Ok (fold_left Z.max (sizes c l) a).
Proof.
  induction l as [|e l IH]; intros a H; simpl; auto.
  destruct (known_size e (H e (or_introl eq_refl))) as [E _]. rewrite E. cbn [bind].
  replace (if esize c e >? a then esize c e else a) with (Z.max a (esize c e)).
  - apply IH. intros; apply H; simpl; auto.
  - rewrite Z.gtb_ltb. destruct (Z.ltb_spec a (esize c e)); lia.
Qed.

Lemma fold_sizes_range l a : INT_MIN <= a <= 2048 -> (forall e, In e l -> known e) ->
  INT_MIN <= fold_left Z.max (sizes c l) a <= 2048.
Proof.
  intros Ha H. destruct (fold_max_spec (sizes c l) a) as (H1 & H2 & _). split; [lia|].
  destruct H1 as [->|H1]; [lia|]. unfold sizes in H1. apply in_map_iff in H1. destruct H1 as (e & E & He).
  destruct (known_size e (H e He)) as [_ R]. unfold sizes. rewrite <- E. lia.
Qed.

Lemma calc_padding_ok t : 0 <= ts_count t <= Z.of_nat (length (ts_pairs t)) ->
  (forall e, In e (typemap t) -> known e) ->
  calc_padding c t = Ok (fold_left Z.max (sizes c (typemap t)) INT_MIN).
Proof.
  intros Hc H. unfold calc_padding.
  rewrite (for_loop_pairs t (fun p m => do len <- Simpletype_length c (tp_type p); Ok (if len >? m then len else m))) by auto.
  rewrite (foldM_typemap t (fun e m => do len <- Simpletype_length c (fst e); Ok (if len >? m then len else m))) by reflexivity.
  rewrite foldM_pad by auto. cbn [bind].
  assert (R := fold_sizes_range (typemap t) INT_MIN ltac:(unfold INT_MIN; lia) H).
  rewrite to_s32_id; [reflexivity|]. unfold INT_MAX; lia.
Qed.

(** *** Extent *)
Lemma rounds_up_calc d a : 0 <= d -> 0 < a ->
  rounds_up d a (d + (if Z.rem d a =? 0 then 0 else a - Z.rem d a)).
Proof.
  intros Hd Ha. rewrite Z.rem_mod_nonneg by lia.
  pose proof (Z.div_mod d a ltac:(lia)) as DM. pose proof (Z.mod_pos_bound d a Ha) as MB.
  destruct (Z.eqb_spec (d mod a) 0) as [E|NE].
  - split; [|split]; [exists (d / a); lia|lia|]. intros k Hk. lia.
  - split; [|split]; [exists (d / a + 1); lia|lia|].
    intros k Hk. assert (d / a < k); nia.
Qed.

(** Extent without overridden bounds. *)
Lemma extent_plain t a : 0 <= ts_count t <= Z.of_nat (length (ts_pairs t)) ->
  (forall e, In e (typemap t) -> known e) -> ts_olb t = 0 -> ts_oub t = 0 ->
  is_max a (sizes c (typemap t)) -> 0 <= ts_ub t - ts_lb t <= LONG_MAX - 4096 ->
  exists x, Type_extent c t = Ok x /\ rounds_up (ts_ub t - ts_lb t) a x /\ 0 <= x <= LONG_MAX.
Proof.
  intros Hc K Hl Hu Ha Hd.
  assert (NE : sizes c (typemap t) <> []). { destruct Ha as [Hin _]. intros E. rewrite E in Hin. destruct Hin. }
  assert (Ra : 1 <= a <= 2048).
  { destruct Ha as [Hin _]. unfold sizes in Hin. apply in_map_iff in Hin. destruct Hin as (e & <- & He).
    apply known_size; auto. }
  assert (EA : fold_left Z.max (sizes c (typemap t)) INT_MIN = a).
  { eapply is_max_unique; [|exact Ha]. apply fold_max_is_max; auto. intros x Hx.
    unfold sizes in Hx. apply in_map_iff in Hx. destruct Hx as (e & <- & He).
    destruct (known_size e (K e He)). unfold INT_MIN. lia. }
  unfold Type_extent. rewrite Hl, Hu. cbn [Z.eqb andb].
  rewrite calc_padding_ok by auto. rewrite EA. cbn [bind].
  rewrite chk_long_ok by (unfold LONG_MIN, LONG_MAX in *; lia). cbn [bind].
  unfold crem. destruct (Z.eqb_spec a 0); [lia|]. cbn [bind].
  set (d := ts_ub t - ts_lb t) in *.
  assert (RB : 0 <= Z.rem d a < a) by (apply Z.rem_bound_pos; lia).
  rewrite to_s32_id by (unfold INT_MIN, INT_MAX; lia).
  assert (RU := rounds_up_calc d a ltac:(lia) ltac:(lia)).
  set (eps := if Z.rem d a =? 0 then 0 else a - Z.rem d a) in *.
  assert (E1 : (if Z.rem d a =? 0 then Ok 0 else chk_int (a - Z.rem d a)) = Ok eps).
  { unfold eps. destruct (Z.rem d a =? 0); [reflexivity|]. apply chk_int_ok. unfold INT_MIN, INT_MAX; lia. }
  rewrite E1. cbn [bind].
  assert (0 <= eps <= 2048) by (unfold eps; destruct (Z.rem d a =? 0); lia).
  rewrite chk_long_ok by (unfold LONG_MIN, LONG_MAX in *; lia). cbn [bind].
  exists (d + eps). split; [|split; [exact RU|unfold LONG_MAX in *; lia]].
  rewrite to_u64_id; [reflexivity|]. unfold TWO64, LONG_MAX in *; lia.
Qed.

(** Extent with overridden bounds. *)
Lemma extent_overridden t : ts_olb t <> 0 \/ ts_oub t <> 0 -> is_long (ts_ub t - ts_lb t) ->
  Type_extent c t = Ok (to_u64 (ts_ub t - ts_lb t)).
Proof.
  intros H L. unfold Type_extent.
  replace ((ts_olb t =? 0) && (ts_oub t =? 0)) with false.
  - rewrite chk_long_ok by exact L. reflexivity.
  - symmetry. apply andb_false_iff. destruct H as [H|H]; [left|right]; apply Z.eqb_neq; exact H.
Qed.

(** *** Size *)
Lemma map_size_nonneg l : (forall e, In e l -> known e) -> 0 <= map_size c l.
Proof.
  induction l as [|e l IH]; intros H; unfold map_size in *; simpl; [lia|].
  destruct (known_size e (H e (or_introl eq_refl))). assert (0 <= fold_right Z.add 0 (map (esize c) l)) by (apply IH; intros; apply H; simpl; auto). lia.
Qed.

Lemma foldM_size l : forall a, (forall e, In e l -> known e) -> 0 <= a -> a + map_size c l <= INT_MAX ->
  foldM (fun (e : elem) (s : Z) => do len <- Simpletype_length c (fst e); chk_int (s + len)) l a
  = Ok (a + map_size c l).
Proof.
  induction l as [|e l IH]; intros a H Ha HM; simpl.
  - unfold map_size. simpl. f_equal; lia.
  - destruct (known_size e (H e (or_introl eq_refl))) as [E R]. rewrite E. cbn [bind].
    assert (0 <= map_size c l) by (apply map_size_nonneg; intros; apply H; simpl; auto).
    unfold map_size in *. simpl in HM |- *. fold (map_size c l) in *.
    rewrite chk_int_ok by (unfold INT_MIN; lia). cbn [bind].
    rewrite IH; try lia; [f_equal; lia|]. intros; apply H; simpl; auto.
Qed.

Lemma Type_size_ok t : 0 <= ts_count t <= Z.of_nat (length (ts_pairs t)) ->
  (forall e, In e (typemap t) -> known e) -> map_size c (typemap t) <= INT_MAX ->
  Type_size c t = Ok (map_size c (typemap t)).
Proof.
  intros Hc K H. unfold Type_size.
  rewrite (for_loop_pairs t (fun p s => do len <- Simpletype_length c (tp_type p); chk_int (s + len))) by auto.
  rewrite (foldM_typemap t (fun e s => do len <- Simpletype_length c (fst e); chk_int (s + len))) by reflexivity.
  rewrite foldM_size by (auto; lia). f_equal; lia.
Qed.
End Bounds.
