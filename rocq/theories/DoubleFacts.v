(** Rounding to binary64 as defined by Coq's SpecFloat, in integers: values are counted in units of 2^-1074. *)
From Coq Require Import Floats.SpecFloat Zpower.
From Verif Require Import Base WtimeModel.

Definition P (e : Z) : Z := 2 ^ (e + 1074).
#[local] Notation fx := (SpecFloat.fexp 53 1024).
Lemma fx_eq e : fx e = Z.max (e - 53) (-1074).
Proof. reflexivity. Qed.
Lemma P_pos e : -1074 <= e -> 0 < P e.
Proof. intros H. unfold P. apply Z.pow_pos_nonneg; lia. Qed.
Lemma P_add e k : -1074 <= e -> 0 <= k -> P (e + k) = 2 ^ k * P e.
Proof. intros H K. unfold P. replace (e + k + 1074) with (k + (e + 1074)) by lia. apply Z.pow_add_r; lia. Qed.
Lemma P_succ e : -1074 <= e -> P (e + 1) = 2 * P e.
Proof. intros H. rewrite P_add by lia. reflexivity. Qed.
Lemma P_le e f : -1074 <= e -> e <= f -> P e <= P f.
Proof. intros H L. unfold P. apply Z.pow_le_mono_r; lia. Qed.
Lemma P_lt_inv e f : -1074 <= f -> P e < P f -> e < f.
Proof. intros H L. destruct (Z_lt_le_dec e f) as [|C]; [assumption|]. apply (P_le f e H) in C. lia. Qed.

(** Number of binary digits *)
Lemma digits_bounds p : 2 ^ (Zpos (digits2_pos p) - 1) <= Zpos p < 2 ^ Zpos (digits2_pos p).
Proof.
  induction p as [p IH|p IH|].
  - cbn [digits2_pos]. rewrite Pos2Z.inj_succ, (Pos2Z.inj_xI p). replace (Z.succ (Zpos (digits2_pos p)) - 1) with ((Zpos (digits2_pos p) - 1) + 1) by lia.
    rewrite Z.pow_add_r by lia. rewrite Z.pow_succ_r by lia. change (2 ^ 1) with 2. lia.
  - cbn [digits2_pos]. rewrite Pos2Z.inj_succ, (Pos2Z.inj_xO p). replace (Z.succ (Zpos (digits2_pos p)) - 1) with ((Zpos (digits2_pos p) - 1) + 1) by lia.
    rewrite Z.pow_add_r by lia. rewrite Z.pow_succ_r by lia. change (2 ^ 1) with 2. lia.
  - cbn. lia.
Qed.
Lemma digits_unique m k : 0 < m -> 2 ^ (k - 1) <= m < 2 ^ k -> Zdigits2 m = k.
Proof.
  intros H [A B]. destruct m as [|p|p]; try lia. cbn [Zdigits2]. destruct (digits_bounds p) as [C D].
  assert (2 ^ (k - 1) < 2 ^ Zpos (digits2_pos p)) as X by lia. apply Z.pow_lt_mono_r_iff in X; [|lia|lia].
  assert (2 ^ (Zpos (digits2_pos p) - 1) < 2 ^ k) as Y by lia.
  assert (0 <= k) by (destruct (Z_lt_le_dec k 0) as [N|]; [rewrite (Z.pow_neg_r 2 k N) in Y; assert (0 < 2 ^ (Zpos (digits2_pos p) - 1)) by (apply Z.pow_pos_nonneg; lia); lia|lia]).
  apply Z.pow_lt_mono_r_iff in Y; lia.
Qed.
Lemma Zdigits_bounds m : 0 < m -> 2 ^ (Zdigits2 m - 1) <= m < 2 ^ Zdigits2 m.
Proof. destruct m as [|p|p]; try lia. intros _. apply digits_bounds. Qed.
Lemma Zdigits_pos m : 0 < m -> 0 < Zdigits2 m.
Proof. destruct m; cbn; lia. Qed.

Section Round.
Variable d : Z.
Hypothesis Hd : 0 < d.

(** [n / d] lies where [l] says between [m * 2^e] and the next multiple of [2^e]. *)
Definition inb (n m e : Z) (l : location) : Prop :=
  match l with
  | loc_Exact => n = m * (P e * d)
  | loc_Inexact c => m * (P e * d) < n < (m + 1) * (P e * d) /\ (2 * n ?= (2 * m + 1) * (P e * d)) = c
  end.
Definition inr (n : Z) (r : shr_record) (e : Z) : Prop := inb n (shr_m r) e (loc_of_shr_record r).
Lemma inr_of_loc n m e l : inb n m e l -> inr n (shr_record_of_loc m l) e.
Proof. destruct l as [|[]]; exact (fun H => H). Qed.

Lemma shr1_ok n r e : -1074 <= e -> 0 <= shr_m r -> inr n r e -> inr n (shr_1 r) (e + 1) /\ shr_m (shr_1 r) = shr_m r / 2.
Proof.
  intros He Hm I. unfold inr, inb in *. rewrite P_succ by exact He.
  assert (Pe := P_pos e He). assert (HT : 0 < P e * d) by nia. replace (2 * P e * d) with (2 * (P e * d)) by ring.
  set (T := P e * d) in *. clearbody T. clear Pe He.
  destruct r as [m r s]. cbn [shr_m] in *.
  assert (R : forall p, Zpos p~1 / 2 = Zpos p) by (intros p; rewrite (Pos2Z.inj_xI p); symmetry; apply Z.div_unique with 1; lia).
  assert (R0 : forall p, Zpos p~0 / 2 = Zpos p) by (intros p; rewrite (Pos2Z.inj_xO p); symmetry; apply Z.div_unique with 0; lia).
  destruct m as [|[p|p|]|p]; [| | | |lia]; cbn [shr_1 shr_m]; (split; [|first [symmetry; apply R|symmetry; apply R0|reflexivity]]);
    try rewrite ?(Pos2Z.inj_xI p), ?(Pos2Z.inj_xO p) in I; try (set (q := Zpos p) in *; assert (0 < q) by lia; clearbody q);
    destruct r, s; cbn [loc_of_shr_record orb shr_m] in *;
    rewrite ?Z.compare_eq_iff, ?Z.compare_lt_iff, ?Z.compare_gt_iff in *; try (lazymatch type of I with _ /\ _ => destruct I as [[I1 I2] I3] end); nia.
Qed.
Lemma iter_ok n p : forall r e, -1074 <= e -> 0 <= shr_m r -> inr n r e ->
  inr n (SpecFloat.iter_pos shr_1 p r) (e + Zpos p) /\ shr_m (SpecFloat.iter_pos shr_1 p r) = shr_m r / 2 ^ Zpos p.
Proof.
  induction p as [p IH|p IH|]; intros r e He Hm I; cbn [SpecFloat.iter_pos].
  - destruct (shr1_ok n r e He Hm I) as [A1 B1]. assert (0 <= shr_m (shr_1 r)) by (rewrite B1; apply Z.div_pos; lia).
    destruct (IH _ (e + 1) ltac:(lia) H A1) as [A2 B2].
    assert (0 <= shr_m (SpecFloat.iter_pos shr_1 p (shr_1 r))) by (rewrite B2; apply Z.div_pos; [lia|apply Z.pow_pos_nonneg; lia]).
    destruct (IH _ (e + 1 + Zpos p) ltac:(lia) H0 A2) as [A3 B3]. split.
    + replace (e + Zpos p~1) with (e + 1 + Zpos p + Zpos p) by lia. exact A3.
    + rewrite B3, B2, B1. rewrite !Z.div_div by (try apply Z.pow_nonzero; try apply Z.mul_pos_pos; try apply Z.pow_pos_nonneg; lia).
      f_equal. rewrite (Pos2Z.inj_xI p). replace (2 * Zpos p + 1) with (1 + Zpos p + Zpos p) by lia. rewrite !Z.pow_add_r by lia. rewrite ?Z.pow_1_r. ring.
  - destruct (IH _ e He Hm I) as [A2 B2].
    assert (0 <= shr_m (SpecFloat.iter_pos shr_1 p r)) by (rewrite B2; apply Z.div_pos; [lia|apply Z.pow_pos_nonneg; lia]).
    destruct (IH _ (e + Zpos p) ltac:(lia) H A2) as [A3 B3]. split.
    + replace (e + Zpos p~0) with (e + Zpos p + Zpos p) by lia. exact A3.
    + rewrite B3, B2. rewrite !Z.div_div by (try apply Z.pow_nonzero; try apply Z.pow_pos_nonneg; lia).
      f_equal. rewrite (Pos2Z.inj_xO p). replace (2 * Zpos p) with (Zpos p + Zpos p) by lia. rewrite !Z.pow_add_r by lia. rewrite ?Z.pow_1_r. ring.
  - apply shr1_ok; assumption.
Qed.
Lemma shr_fexp_ok n m e l : -1074 <= e -> 0 <= m -> inb n m e l ->
  exists r, shr_fexp 53 1024 m e l = (r, Z.max e (fx (Zdigits2 m + e))) /\ inr n r (Z.max e (fx (Zdigits2 m + e))) /\ shr_m r = m / 2 ^ (Z.max e (fx (Zdigits2 m + e)) - e).
Proof.
  intros He Hm I. unfold shr_fexp, shr. assert (M : shr_m (shr_record_of_loc m l) = m) by (destruct l as [|[]]; reflexivity).
  set (f := fx (Zdigits2 m + e)). destruct (f - e) as [|p|p] eqn:E.
  - exists (shr_record_of_loc m l). rewrite Z.max_l by lia. split; [reflexivity|]. split; [apply inr_of_loc, I|]. rewrite Z.sub_diag, M, Z.pow_0_r, Z.div_1_r. reflexivity.
  - assert (Z.max e f = e + Zpos p) as -> by lia. eexists. split; [reflexivity|].
    destruct (iter_ok n p (shr_record_of_loc m l) e He ltac:(rewrite M; exact Hm) (inr_of_loc _ _ _ _ I)) as [A B]. split; [exact A|].
    rewrite B, M. f_equal. f_equal. lia.
  - exists (shr_record_of_loc m l). rewrite Z.max_l by lia. split; [reflexivity|]. split; [apply inr_of_loc, I|]. rewrite Z.sub_diag, M, Z.pow_0_r, Z.div_1_r. reflexivity.
Qed.

(** [w] is the integer nearest to [n / t], the even one of two. *)
Definition near (n t w : Z) : Prop :=
  (2 * w - 1) * t <= 2 * n <= (2 * w + 1) * t /\ (2 * n = (2 * w - 1) * t -> Z.even w = true) /\ (2 * n = (2 * w + 1) * t -> Z.even w = true).
Lemma near_ok n r e : -1074 <= e -> inr n r e -> near n (P e * d) (round_nearest_even (shr_m r) (loc_of_shr_record r)).
Proof.
  intros He I. unfold inr, inb in I. assert (Pe := P_pos e He). assert (HT : 0 < P e * d) by nia. set (T := P e * d) in *. clearbody T.
  unfold near. destruct (loc_of_shr_record r) as [|[]]; cbn [round_nearest_even]; set (m := shr_m r) in *; clearbody m.
  - subst n. repeat split; nia.
  - destruct I as [[I1 I2] I3]. apply Z.compare_eq_iff in I3. destruct (Z.even m) eqn:E.
    + repeat split; try nia; intros; exact E.
    + assert (E' : Z.even (m + 1) = true) by (rewrite Z.even_add, E; reflexivity). repeat split; try nia; intros; exact E'.
  - destruct I as [[I1 I2] I3]. rewrite Z.compare_lt_iff in I3. repeat split; nia.
  - destruct I as [[I1 I2] I3]. rewrite Z.compare_gt_iff in I3. repeat split; nia.
Qed.
Lemma near_mono n1 n2 t w1 w2 : 0 < t -> n1 <= n2 -> near n1 t w1 -> near n2 t w2 -> w1 <= w2.
Proof.
  intros Ht L (A1 & A2 & A3) (B1 & B2 & B3). destruct (Z_lt_le_dec w2 w1) as [C|]; [|assumption]. exfalso.
  destruct (Z.eq_dec w1 (w2 + 1)) as [E|N].
  - subst w1. assert (2 * n1 = (2 * (w2 + 1) - 1) * t) as E1 by nia. assert (2 * n2 = (2 * w2 + 1) * t) as E2 by nia.
    specialize (A2 E1). specialize (B3 E2). rewrite Z.even_add, B3 in A2. discriminate.
  - nia.
Qed.
Lemma near_exact w t : 0 < t -> near (w * t) t w.
Proof. intros H. unfold near. repeat split; nia. Qed.

(** [v] is the double nearest to [n / d] > 0. *)
Definition rounded_pos (n v : Z) : Prop :=
  exists mag w, -1074 < mag /\ P (mag - 1) * d <= n < P mag * d /\ near n (P (fx mag) * d) w /\ v = w * P (fx mag).
Lemma near_bounds n e k w : -1074 <= e -> 0 <= k -> near n (P e * d) w -> (n < P (e + k) * d -> w <= 2 ^ k) /\ (P (e + k) * d <= n -> 2 ^ k <= w).
Proof.
  intros He Hk N. assert (Pe := P_pos e He). assert (HT : 0 < P e * d) by nia. rewrite P_add by lia.
  assert (X : near (2 ^ k * (P e * d)) (P e * d) (2 ^ k)) by (apply near_exact; exact HT). rewrite Z.mul_assoc in X. split; intros L.
  - apply (near_mono _ _ _ _ _ HT (Z.lt_le_incl _ _ L) N X).
  - apply (near_mono _ _ _ _ _ HT L X N).
Qed.
Lemma rounded_mono n1 n2 v1 v2 : n1 <= n2 -> rounded_pos n1 v1 -> rounded_pos n2 v2 -> v1 <= v2.
Proof.
  intros L (g1 & w1 & G1 & B1 & N1 & ->) (g2 & w2 & G2 & B2 & N2 & ->).
  assert (HF1 : -1074 <= fx g1) by (rewrite fx_eq; lia). assert (HF2 : -1074 <= fx g2) by (rewrite fx_eq; lia).
  assert (P1 := P_pos _ HF1). assert (P2 := P_pos _ HF2).
  assert (G : g1 <= g2).
  { assert (P (g1 - 1) * d < P g2 * d) as X by lia. apply Z.mul_lt_mono_pos_r in X; [|exact Hd]. apply P_lt_inv in X; lia. }
  destruct (Z.eq_dec g1 g2) as [<-|NE].
  - assert (w1 <= w2) by (apply (near_mono n1 n2 (P (fx g1) * d)); [nia|exact L|exact N1|exact N2]). nia.
  - destruct (near_bounds n1 (fx g1) (g1 - fx g1) w1 HF1 ltac:(rewrite fx_eq; lia) N1) as [X _].
    destruct (near_bounds n2 (fx g2) (g2 - 1 - fx g2) w2 HF2 ltac:(rewrite fx_eq; lia) N2) as [_ Y].
    replace (fx g1 + (g1 - fx g1)) with g1 in X by lia. replace (fx g2 + (g2 - 1 - fx g2)) with (g2 - 1) in Y by lia.
    specialize (X (proj2 B1)). specialize (Y (proj1 B2)).
    assert (2 ^ (g1 - fx g1) * P (fx g1) = P g1) as E1 by (rewrite <- P_add; [f_equal; lia|exact HF1|rewrite fx_eq; lia]).
    assert (2 ^ (g2 - 1 - fx g2) * P (fx g2) = P (g2 - 1)) as E2 by (rewrite <- P_add; [f_equal; lia|exact HF2|rewrite fx_eq; lia]).
    assert (P g1 <= P (g2 - 1)) by (apply P_le; lia). nia.
Qed.
Lemma rounded_pos_pos n v : rounded_pos n v -> 0 < v.
Proof.
  intros (g & w & G & B & N & ->). assert (HF : -1074 <= fx g) by (rewrite fx_eq; lia). assert (P1 := P_pos _ HF).
  destruct (near_bounds n (fx g) (g - 1 - fx g) w HF ltac:(rewrite fx_eq; lia) N) as [_ Y].
  replace (fx g + (g - 1 - fx g)) with (g - 1) in Y by lia. specialize (Y (proj1 B)).
  assert (0 < 2 ^ (g - 1 - fx g)) by (apply Z.pow_pos_nonneg; rewrite ?fx_eq; lia). nia.
Qed.
(** Doubles are their own rounding. *)
Lemma rounded_exact m e : 0 < m <= 2 ^ 53 -> -1074 <= e -> rounded_pos (m * P e * d) (m * P e).
Proof.
  intros Hm He. assert (Pe := P_pos e He). assert (DB := Zdigits_bounds m (proj1 Hm)). assert (DP := Zdigits_pos m (proj1 Hm)).
  set (D := Zdigits2 m) in *. set (g := D + e).
  assert (E1 : P (g - 1) = 2 ^ (D - 1) * P e) by (unfold g; rewrite <- P_add; [f_equal; lia|exact He|lia]).
  assert (E2 : P g = 2 ^ D * P e) by (unfold g; rewrite <- P_add; [f_equal; lia|exact He|lia]).
  assert (HF : -1074 <= fx g) by (rewrite fx_eq; lia). assert (PF := P_pos _ HF).
  assert (exists w, m * P e = w * P (fx g)) as [w W].
  { destruct (Z_le_gt_dec (fx g) e) as [C|C].
    - exists (m * 2 ^ (e - fx g)). rewrite <- Z.mul_assoc, <- P_add by lia. do 2 f_equal. lia.
    - assert (D <= 54). { destruct (Z_le_gt_dec D 54); [assumption|]. assert (2 ^ 54 <= 2 ^ (D - 1)) by (apply Z.pow_le_mono_r; lia). change (2 ^ 54) with (2 * 2 ^ 53) in H. lia. }
      assert (fx g = D + e - 53) as F by (rewrite fx_eq in *; lia). assert (D = 54) by lia.
      exists (2 ^ 52). rewrite F, H0. replace (54 + e - 53) with (e + 1) by lia. rewrite P_succ by exact He. rewrite H0 in DB. change (2 ^ (54 - 1)) with (2 ^ 53) in DB.
      assert (m = 2 * 2 ^ 52) as -> by lia. ring. }
  exists g, w. split; [lia|]. split; [rewrite E1, E2; split; nia|]. split; [|exact W].
  rewrite W, <- Z.mul_assoc. apply near_exact. nia.
Qed.

(** Any sign. *)
Definition rounded (n v : Z) : Prop := n = 0 /\ v = 0 \/ 0 < n /\ rounded_pos n v \/ n < 0 /\ rounded_pos (- n) (- v).
Lemma rounded_le n1 n2 v1 v2 : n1 <= n2 -> rounded n1 v1 -> rounded n2 v2 -> v1 <= v2.
Proof.
  intros L [[A1 A2]|[[A1 A2]|[A1 A2]]] [[B1 B2]|[[B1 B2]|[B1 B2]]]; try lia;
    try (assert (X := rounded_pos_pos _ _ A2)); try (assert (Y := rounded_pos_pos _ _ B2)); try lia.
  - apply (rounded_mono n1 n2); assumption.
  - assert (- v2 <= - v1) by (apply (rounded_mono (- n2) (- n1)); [lia|assumption|assumption]). lia.
Qed.
Lemma rounded_fix m e : -1074 <= e -> Z.abs m <= 2 ^ 53 -> rounded (m * P e * d) (m * P e).
Proof.
  intros He H. assert (Pe := P_pos e He). destruct (Z.lt_trichotomy m 0) as [C|[C|C]].
  - right. right. split; [assert (0 < P e * d) by nia; nia|]. replace (- (m * P e * d)) with (- m * P e * d) by ring. replace (- (m * P e)) with (- m * P e) by ring.
    apply rounded_exact; lia.
  - left. subst m. split; ring.
  - right. left. split; [assert (0 < P e * d) by nia; nia|]. apply rounded_exact; lia.
Qed.
Lemma rounded_opp n v : rounded n v -> rounded (- n) (- v).
Proof.
  intros [[A1 A2]|[[A1 A2]|[A1 A2]]]; [left; lia|right; right|right; left]; (split; [lia|]); [rewrite !Z.opp_involutive|]; assumption.
Qed.
End Round.

(** Doubles as SpecFloat gives them: the value, with mantissa and exponent in normal form. *)
Definition signed (s : bool) (v : Z) : Z := if s then - v else v.
Definition double_is (f : spec_float) (v : Z) : Prop :=
  match f with
  | S754_zero _ => v = 0
  | S754_finite s m e => v = signed s (Zpos m * P e) /\ -1074 <= e <= 971 /\ fx (Zdigits2 (Zpos m) + e) = e
  | _ => False
  end.

Lemma aux_ok d s n m e l : 0 < d -> -1074 <= e -> 0 < m -> inb d n m e l -> e <= fx (Zdigits2 m + e) -> n < P 1000 * d ->
  exists v, rounded_pos d n v /\ double_is (binary_round_aux 53 1024 s m e l) (signed s v).
Proof.
  intros Hd He Hm I F L. set (g := Zdigits2 m + e) in *. assert (Pe := P_pos e He). assert (DB := Zdigits_bounds m Hm). assert (DP := Zdigits_pos m Hm).
  assert (E1 : P (g - 1) = 2 ^ (Zdigits2 m - 1) * P e) by (unfold g; rewrite <- P_add; [f_equal; lia|exact He|lia]).
  assert (E2 : P g = 2 ^ Zdigits2 m * P e) by (unfold g; rewrite <- P_add; [f_equal; lia|exact He|lia]).
  assert (HT : 0 < P e * d) by nia.
  assert (B : P (g - 1) * d <= n < P g * d).
  { rewrite E1, E2. assert (m * (P e * d) <= n < (m + 1) * (P e * d)) by (unfold inb in I; destruct l as [|c]; nia). split; nia. }
  assert (HF : -1074 <= fx g) by (rewrite fx_eq; lia). assert (PF := P_pos _ HF).
  destruct (shr_fexp_ok d Hd n m e l He ltac:(lia) I) as (r & Er & Ir & _). fold g in Er, Ir. rewrite Z.max_r in Er, Ir by exact F.
  unfold binary_round_aux. rewrite Er. assert (N := near_ok d Hd n r _ HF Ir). set (w := round_nearest_even (shr_m r) (loc_of_shr_record r)) in *. clearbody w.
  exists (w * P (fx g)). split; [exists g, w; split; [lia|]; split; [exact B|]; split; [exact N|reflexivity]|].
  destruct (near_bounds d Hd n (fx g) (g - fx g) w HF ltac:(rewrite fx_eq; lia) N) as [X _].
  destruct (near_bounds d Hd n (fx g) (g - 1 - fx g) w HF ltac:(rewrite fx_eq; lia) N) as [_ Y].
  replace (fx g + (g - fx g)) with g in X by lia. replace (fx g + (g - 1 - fx g)) with (g - 1) in Y by lia.
  specialize (X (proj2 B)). specialize (Y (proj1 B)).
  assert (W0 : 0 < w) by (assert (0 < 2 ^ (g - 1 - fx g)) by (apply Z.pow_pos_nonneg; rewrite ?fx_eq; lia); lia).
  assert (G : g <= 1001). { assert (P (g - 1) * d < P 1000 * d) as Q by lia. apply Z.mul_lt_mono_pos_r in Q; [|exact Hd]. apply P_lt_inv in Q; lia. }
  assert (X53 : w <= 2 ^ 53) by (assert (2 ^ (g - fx g) <= 2 ^ 53) by (apply Z.pow_le_mono_r; rewrite ?fx_eq; lia); lia).
  assert (WB := Zdigits_bounds w W0). assert (WP := Zdigits_pos w W0).
  destruct (shr_fexp_ok 1 ltac:(lia) (w * P (fx g)) w (fx g) loc_Exact HF ltac:(lia)) as (r2 & Er2 & Ir2 & Mr2); [cbn [inb]; ring|]. rewrite Er2.
  set (e2 := Z.max (fx g) (fx (Zdigits2 w + fx g))) in *.
  assert (C : e2 = fx g /\ w < 2 ^ 53 \/ e2 = fx g + 1 /\ w = 2 ^ 53).
  { destruct (Z.eq_dec w (2 ^ 53)) as [E|NE].
    - right. split; [|exact E]. assert (Zdigits2 w = 54) as D by (rewrite E; reflexivity). unfold e2. rewrite D, (fx_eq (54 + fx g)). lia.
    - left. split; [|lia]. assert (Zdigits2 w <= 53).
      { destruct (Z_le_gt_dec (Zdigits2 w) 53); [assumption|]. assert (2 ^ 53 <= 2 ^ (Zdigits2 w - 1)) by (apply Z.pow_le_mono_r; lia). lia. }
      unfold e2. rewrite (fx_eq (Zdigits2 w + fx g)). lia. }
  assert (HG : fx g <= 948) by (rewrite fx_eq; lia).
  destruct C as [[C1 C2]|[C1 C2]].
  - rewrite C1, Z.sub_diag, Z.pow_0_r, Z.div_1_r in Mr2. rewrite C1, Mr2. destruct w as [|p|p]; try lia.
    rewrite Zle_imp_le_bool by lia. cbn [double_is]. split; [reflexivity|]. split; [lia|].
    (* canonical *)
    rewrite fx_eq. destruct (Z_le_gt_dec (g - 53) (-1074)) as [S|S].
    + assert (fx g = -1074) as -> by (rewrite fx_eq; lia). assert (Zdigits2 (Zpos p) <= 53); [|lia].
      destruct (Z_le_gt_dec (Zdigits2 (Zpos p)) 53); [assumption|]. assert (2 ^ 53 <= 2 ^ (Zdigits2 (Zpos p) - 1)) by (apply Z.pow_le_mono_r; lia). lia.
    + assert (FG : fx g = g - 53) by (rewrite fx_eq; lia). rewrite FG in *. replace (g - 1 - (g - 53)) with 52 in Y by lia.
      rewrite (digits_unique (Zpos p) 53); [lia|lia|]. change (53 - 1) with 52. lia.
  - rewrite C1 in Mr2. replace (fx g + 1 - fx g) with 1 in Mr2 by lia. rewrite Mr2, C2, C1. change (2 ^ 53 / 2 ^ 1) with (Zpos (2 ^ 52)).
    cbv iota. rewrite Zle_imp_le_bool by lia. cbn [double_is]. split; [|split; [lia|]].
    + unfold signed. rewrite P_succ by exact HF. change (2 ^ 53) with (Zpos (2 ^ 52) * 2). destruct s; ring.
    + change (Zdigits2 (Zpos (2 ^ 52))) with 53. rewrite fx_eq. lia.
Qed.

Lemma digits_le53 m e : 0 < m -> fx (Zdigits2 m + e) = e -> Zdigits2 m <= 53.
Proof. intros H. rewrite fx_eq. lia. Qed.
Lemma below_pow m k : 0 < m -> 0 <= k -> Zdigits2 m <= k -> m < 2 ^ k.
Proof. intros H K L. assert (B := Zdigits_bounds m H). assert (2 ^ Zdigits2 m <= 2 ^ k) by (apply Z.pow_le_mono_r; lia). lia. Qed.
Lemma canon_lt m e : fx (Zdigits2 (Zpos m) + e) = e -> Zpos m < 2 ^ 53.
Proof. intros F. apply below_pow; [lia|lia|]. apply (digits_le53 _ e); [lia|exact F]. Qed.
Lemma double_fix f a : double_is f a -> rounded 1 a a.
Proof.
  destruct f as [s| | |s m e]; cbn [double_is]; [intros ->; left; split; reflexivity|tauto|tauto|].
  intros (-> & E & F). assert (X := canon_lt m e F).
  assert (Y := rounded_fix 1 ltac:(lia) (Zpos m) e ltac:(lia) ltac:(lia)). rewrite Z.mul_1_r in Y.
  destruct s; cbn [signed]; [apply rounded_opp|]; exact Y.
Qed.
Lemma align_ok m e f : exists p e', shl_align m e f = (p, e') /\
  (e <= f /\ p = m /\ e' = e \/ f < e /\ e' = f /\ Zpos p = Zpos m * 2 ^ (e - f)).
Proof.
  unfold shl_align. destruct (f - e) as [|p|p] eqn:E; [exists m, e; split; [reflexivity|left; lia]|exists m, e; split; [reflexivity|left; lia]|].
  exists (shift_pos p m), f. split; [reflexivity|]. right. split; [lia|]. split; [reflexivity|].
  rewrite shift_pos_correct. replace (e - f) with (Zpos p) by lia. rewrite <- Z.pow_pos_fold. ring.
Qed.
Lemma round_ok s m e : -1074 <= e -> Zpos m * P e < P 1000 ->
  exists v, rounded_pos 1 (Zpos m * P e) v /\ double_is (binary_round 53 1024 s m e) (signed s v).
Proof.
  intros He L. unfold binary_round. set (f := fx (Zpos (digits2_pos m) + e)).
  assert (Hf : -1074 <= f) by (unfold f; rewrite fx_eq; lia).
  destruct (align_ok m e f) as (p & e' & -> & [(A & -> & ->)|(A & -> & B)]).
  - apply aux_ok; [lia|exact He|lia|cbn [inb]; ring|exact A|lia].
  - assert (E : Zpos p * P f = Zpos m * P e) by (rewrite B, <- Z.mul_assoc, <- P_add by lia; do 2 f_equal; lia).
    assert (D : Zdigits2 (Zpos p) = Zpos (digits2_pos m) + (e - f)).
    { assert (X := digits_bounds m). apply digits_unique; [lia|]. rewrite B. replace (Zpos (digits2_pos m) + (e - f) - 1) with ((Zpos (digits2_pos m) - 1) + (e - f)) by lia.
      rewrite !Z.pow_add_r by lia. assert (0 < 2 ^ (e - f)) by (apply Z.pow_pos_nonneg; lia). nia. }
    apply aux_ok; [lia|exact Hf|lia|cbn [inb]; rewrite <- E; ring|rewrite D; replace (Zpos (digits2_pos m) + (e - f) + f) with (Zpos (digits2_pos m) + e) by lia; apply Z.le_refl|lia].
Qed.
Lemma normalize_ok z e b : -1074 <= e -> Z.abs (z * P e) < P 1000 ->
  exists v, rounded 1 (z * P e) v /\ double_is (binary_normalize 53 1024 z e b) v.
Proof.
  intros He L. assert (Pe := P_pos e He). destruct z as [|m|m]; cbn [binary_normalize].
  - exists 0. split; [left; split; ring|reflexivity].
  - destruct (round_ok false m e He ltac:(lia)) as (v & R & D). exists v. split; [right; left; split; [lia|exact R]|exact D].
  - destruct (round_ok true m e He ltac:(lia)) as (v & R & D). exists (- v). split; [|exact D]. right. right. split; [lia|].
    rewrite Z.opp_involutive. replace (- (Zneg m * P e)) with (Zpos m * P e) by lia. exact R.
Qed.
Lemma add_ok f g a b : double_is f a -> double_is g b -> Z.abs (a + b) < P 1000 -> exists v, rounded 1 (a + b) v /\ double_is (SFadd 53 1024 f g) v.
Proof.
  intros F G L. assert (FF := double_fix f a F). assert (GG := double_fix g b G).
  destruct f as [s| | |s m e]; try (cbn in F; tauto); destruct g as [t| | |t n e']; try (cbn in G; tauto).
  - cbn in F, G. subst a b. exists 0. split; [left; split; reflexivity|]. cbn [SFadd]. destruct (Bool.eqb s t); reflexivity.
  - cbn in F. subst a. exists b. split; [exact GG|exact G].
  - cbn in G. subst b. exists a. rewrite Z.add_0_r. split; [exact FF|exact F].
  - destruct F as (-> & E1 & F1), G as (-> & E2 & G1). cbn [SFadd]. cbv zeta. set (ez := Z.min e e') in *.
    assert (A : Zpos (fst (shl_align m e ez)) * P ez = Zpos m * P e).
    { destruct (align_ok m e ez) as (p & e2 & -> & [(A & -> & ->)|(A & -> & B)]); cbn [fst]; [replace ez with e by lia; reflexivity|].
      rewrite B, <- Z.mul_assoc, <- P_add by lia. do 2 f_equal. lia. }
    assert (B : Zpos (fst (shl_align n e' ez)) * P ez = Zpos n * P e').
    { destruct (align_ok n e' ez) as (p & e2 & -> & [(C & -> & ->)|(C & -> & B)]); cbn [fst]; [replace ez with e' by lia; reflexivity|].
      rewrite B, <- Z.mul_assoc, <- P_add by lia. do 2 f_equal. lia. }
    set (z := cond_Zopp s (Zpos (fst (shl_align m e ez))) + cond_Zopp t (Zpos (fst (shl_align n e' ez)))).
    assert (S : signed s (Zpos m * P e) + signed t (Zpos n * P e') = z * P ez).
    { unfold z, cond_Zopp, signed. rewrite <- A, <- B. destruct s, t; ring. }
    rewrite S in *. apply normalize_ok; [lia|exact L].
Qed.

Lemma compare_ok f g a b : double_is f a -> double_is g b -> SFcompare f g = Some (a ?= b).
Proof.
  assert (Q : forall m e n e', -1074 <= e -> -1074 <= e' -> fx (Zdigits2 (Zpos m) + e) = e -> fx (Zdigits2 (Zpos n) + e') = e' -> e < e' -> Zpos m * P e < Zpos n * P e').
  { intros m e n e' H1 H2 F G L. assert (A := canon_lt m e F).
    assert (B := Zdigits_bounds (Zpos n) ltac:(lia)). assert (Zdigits2 (Zpos n) = 53) as D by (rewrite fx_eq in G; lia). rewrite D in B. change (53 - 1) with 52 in B.
    assert (Pe := P_pos e H1). assert (P (e + 1) <= P e') as X by (apply P_le; lia). rewrite P_succ in X by lia.
    change (2 ^ 53) with (2 * 2 ^ 52) in *. nia. }
  assert (W : forall m e n e', -1074 <= e -> -1074 <= e' -> fx (Zdigits2 (Zpos m) + e) = e -> fx (Zdigits2 (Zpos n) + e') = e' ->
     match Z.compare e e' with Lt => Lt | Gt => Gt | Eq => Pos.compare_cont Eq m n end = (Zpos m * P e ?= Zpos n * P e')).
  { intros m e n e' H1 H2 F G. destruct (Z.compare_spec e e') as [<-|C|C].
    - change (Pos.compare_cont Eq m n) with (Zpos m ?= Zpos n). apply Zmult_compare_compat_r. assert (X := P_pos e H1). lia.
    - symmetry. apply Z.compare_lt_iff. apply Q; assumption.
    - symmetry. apply Z.compare_gt_iff. apply Q; assumption. }
  assert (Z0 : forall m e, -1074 <= e -> 0 < Zpos m * P e) by (intros m e H; assert (X := P_pos e H); lia).
  intros F G. destruct f as [s| | |s m e]; try (cbn in F; tauto); destruct g as [t| | |t n e']; try (cbn in G; tauto).
  - cbn in F, G. subst. reflexivity.
  - cbn in F. subst a. destruct G as (-> & E2 & G1). cbn [SFcompare]. assert (X := Z0 n e' ltac:(lia)).
    destruct t; cbn [signed]; f_equal; symmetry; [apply Z.compare_gt_iff|apply Z.compare_lt_iff]; lia.
  - cbn in G. subst b. destruct F as (-> & E2 & G1). cbn [SFcompare]. assert (X := Z0 m e ltac:(lia)).
    destruct s; cbn [signed]; f_equal; symmetry; [apply Z.compare_lt_iff|apply Z.compare_gt_iff]; lia.
  - destruct F as (-> & E1 & F1), G as (-> & E2 & G1). cbn [SFcompare]. assert (X := Z0 m e ltac:(lia)). assert (Y := Z0 n e' ltac:(lia)).
    assert (V := W m e n e' ltac:(lia) ltac:(lia) F1 G1). f_equal. destruct s, t; cbn [signed].
    + rewrite <- Zcompare_opp, (Z.compare_antisym (Zpos m * P e)), <- V. destruct (e ?= e'); try reflexivity. 
    + symmetry. apply Z.compare_lt_iff. lia.
    + symmetry. apply Z.compare_gt_iff. lia.
    + exact V.
Qed.
Lemma leb_ok f g a b : double_is f a -> double_is g b -> a <= b -> SFleb f g = true.
Proof. intros F G L. unfold SFleb. rewrite (compare_ok f g a b F G). destruct (Z.compare_spec a b); [reflexivity|reflexivity|lia]. Qed.
Lemma ltb_ok f g a b : double_is f a -> double_is g b -> a < b -> SFltb f g = true.
Proof. intros F G L. unfold SFltb. rewrite (compare_ok f g a b F G). destruct (Z.compare_spec a b); [lia|reflexivity|lia]. Qed.

(** The two conversions and the division of MPI_Wtime *)
Lemma to_double_ok z : Z.abs z <= 2 ^ 63 -> exists v, rounded 1 (z * P 0) v /\ double_is (to_double z) v.
Proof.
  intros H. apply normalize_ok; [lia|]. assert (X := P_pos 0 ltac:(lia)). assert (P 1000 = 2 ^ 1000 * P 0) as -> by (rewrite <- P_add by lia; reflexivity).
  rewrite Z.abs_mul, (Z.abs_eq (P 0)) by lia. assert (2 ^ 63 < 2 ^ 1000) by (apply Z.pow_lt_mono_r; lia). nia.
Qed.
Lemma rounded_same d n v w : 0 < d -> rounded d n v -> rounded d n w -> v = w.
Proof. intros Hd A B. assert (v <= w) by (apply (rounded_le d Hd n n); [lia|assumption|assumption]). assert (w <= v) by (apply (rounded_le d Hd n n); [lia|assumption|assumption]). lia. Qed.
Lemma small_exact z : Z.abs z <= 2 ^ 53 -> double_is (to_double z) (z * P 0).
Proof.
  intros H. destruct (to_double_ok z) as (v & R & D); [assert (2 ^ 53 <= 2 ^ 63) by (apply Z.pow_le_mono_r; lia); lia|].
  assert (X := rounded_fix 1 ltac:(lia) z 0 ltac:(lia) H). rewrite Z.mul_1_r in X. rewrite (rounded_same 1 _ _ _ ltac:(lia) X R). exact D.
Qed.
Definition MILLION := 1000000.
Lemma million_double : to_double MILLION = S754_finite false (8589934592 * 1000000) (-33).
Proof. vm_compute. reflexivity. Qed.
Lemma location_ok m r : 0 <= r < m -> match new_location m r with loc_Exact => r = 0 | loc_Inexact c => 0 < r /\ (2 * r ?= m) = c end.
Proof.
  intros H. unfold new_location, new_location_even, new_location_odd. destruct (Z.even m) eqn:V; destruct (Zeq_bool r 0) eqn:E;
    try (apply Zeq_bool_eq in E; exact E); apply Zeq_bool_neq in E; (split; [lia|]); [reflexivity|].
    destruct (Z.compare_spec (2 * r + 1) m).
    + apply Z.compare_lt_iff. lia.
    + apply Z.compare_lt_iff. lia.
    + apply Z.compare_gt_iff. assert (2 * r <> m) by (intros C; rewrite <- C, Z.even_mul in V; discriminate). lia.
Qed.
Lemma div_ok u : 0 <= u < MILLION -> exists v, rounded MILLION (u * P 0) v /\ double_is (SFdiv 53 1024 (to_double u) (to_double MILLION)) v.
Proof.
  unfold MILLION. intros H. assert (D := small_exact u ltac:(lia)). fold MILLION. rewrite million_double. destruct (Z.eq_dec u 0) as [->|NZ].
  { exists 0. split; [left; split; ring|]. reflexivity. }
  assert (P0 := P_pos 0 ltac:(lia)).
  destruct (to_double u) as [s| | |s m1 e1]; try (cbn in D; tauto); [cbn in D; nia|]. destruct D as (V & E & F).
  assert (P1 := P_pos e1 ltac:(lia)). destruct s; [cbn [signed] in V; nia|]. cbn [signed] in V.
  (* the exponent of the numerator *)
  assert (D1 : -53 < Zdigits2 (Zpos m1) + e1 - 53 /\ Zdigits2 (Zpos m1) + e1 <= 20).
  { assert (X := Zdigits_bounds (Zpos m1) ltac:(lia)). assert (DP := Zdigits_pos (Zpos m1) ltac:(lia)). set (D := Zdigits2 (Zpos m1)) in *.
    assert (E1 : P (e1 + (D - 1)) = 2 ^ (D - 1) * P e1) by (apply P_add; lia). assert (E2 : P (e1 + D) = 2 ^ D * P e1) by (apply P_add; lia).
    assert (P 0 < P (e1 + D)) as L1 by nia. apply P_lt_inv in L1; [|lia].
    assert (P (e1 + (D - 1)) < P 20) as L2 by (assert (P 20 = 1048576 * P 0) as -> by (apply (P_add 0 20); lia); unfold MILLION in *; nia).
    apply P_lt_inv in L2; lia. }
  assert (E1 : e1 = Zdigits2 (Zpos m1) + e1 - 53) by (rewrite fx_eq in F; lia).
  cbn [SFdiv]. unfold SFdiv_core_binary. set (m2 := Zpos (8589934592 * 1000000)). set (d1 := Zdigits2 (Zpos m1)) in *.
  change (Zdigits2 m2) with 53. cbv zeta. replace (d1 + e1 - (53 + -33)) with (d1 + e1 - 20) by lia. replace (e1 - -33) with (e1 + 33) by lia.
  set (e' := Z.min (fx (d1 + e1 - 20)) (e1 + 33)). assert (HF : fx (d1 + e1 - 20) = e1 - 20) by (rewrite fx_eq; lia).
  assert (E' : e' = e1 - 20) by (unfold e'; rewrite HF; lia). rewrite E'. replace (e1 + 33 - (e1 - 20)) with 53 by lia. cbv iota.
  rewrite Z.shiftl_mul_pow2 by lia. remember (Zpos m1 * 2 ^ 53) as m' eqn:Em'. destruct (Z.div_eucl m' m2) as [q r] eqn:Q.
  assert (M2 : 0 < m2) by reflexivity. assert (DV := Z_div_mod m' m2 ltac:(lia)). rewrite Q in DV. destruct DV as [DV DR].
  assert (LO := location_ok m2 r DR). set (l := new_location m2 r) in *. clearbody l.
  assert (Pq := P_pos (e1 - 20) ltac:(lia)).
  (* u * P 0 * 2^33 = m' * P (e1 - 20) *)
  assert (EQ : (u * P 0) * 2 ^ 33 = m' * P (e1 - 20)).
  { rewrite V, Em'. replace (P e1) with (2 ^ 20 * P (e1 - 20)) by (rewrite <- P_add by lia; f_equal; lia).
    change (2 ^ 53) with (2 ^ 20 * 2 ^ 33). ring. }
  change m2 with (2 ^ 33 * MILLION) in *.  set (T := P (e1 - 20)) in *.
  assert (HM : 0 < MILLION) by reflexivity. set (M := MILLION) in *.
  assert (I : inb M (u * P 0) q (e1 - 20) l).
  { set (n := u * P 0) in *. unfold inb. fold T. clearbody n T M. set (A := 2 ^ 33) in *. assert (HA : 0 < A) by reflexivity. clearbody A.
    assert (EQ2 : n * A = q * (T * M) * A + r * T) by (rewrite EQ, DV; ring).
    destruct l as [|c].
    - subst r. rewrite Z.mul_0_l, Z.add_0_r in EQ2. apply Z.mul_reg_r in EQ2; [exact EQ2|lia].
    - destruct LO as [R0 LC]. assert (RT : 0 < r * T < A * M * T) by nia. split.
      + split; apply (Z.mul_lt_mono_pos_r A); [exact HA| |exact HA|]; nia.
      + rewrite <- LC. rewrite (Zmult_compare_compat_r (2 * n) _ A) by lia. rewrite (Zmult_compare_compat_r (2 * r) _ T) by lia.
        replace (2 * n * A) with (2 * (q * (T * M) * A) + 2 * r * T) by (rewrite <- (Z.mul_assoc 2 n A), EQ2; ring).
        replace ((2 * q + 1) * (T * M) * A) with (2 * (q * (T * M) * A) + A * M * T) by ring. rewrite Zcompare_plus_compat. f_equal; ring. }
  assert (MB := Zdigits_bounds (Zpos m1) ltac:(lia)). fold d1 in MB. assert (D53 : d1 = 53) by lia. rewrite D53 in MB. change (53 - 1) with 52 in MB.
  assert (Hq : 2 ^ 52 <= q).
  { destruct (Z_le_gt_dec (2 ^ 52) q); [assumption|]. exfalso. assert (m' < 2 ^ 52 * (2 ^ 33 * M)) by nia.
    assert (2 ^ 52 * 2 ^ 53 <= m') by (rewrite Em'; nia). unfold M, MILLION in *. lia. }
  destruct (aux_ok M false (u * P 0) q (e1 - 20) l HM ltac:(lia) ltac:(lia) I) as (v & R & DD).
  - assert (QB := Zdigits_bounds q ltac:(lia)). assert (2 ^ 52 < 2 ^ Zdigits2 q) as X by lia. apply Z.pow_lt_mono_r_iff in X; [|lia|apply Z.lt_le_incl, Zdigits_pos; lia].
    rewrite fx_eq. lia.
  - assert (P 1000 = 2 ^ 1000 * P 0) as -> by (rewrite <- P_add by lia; reflexivity). assert (1 <= 2 ^ 1000) by (apply Z.pow_le_mono_r with (b := 0); lia).
    unfold M, MILLION in *. nia.
  - exists v. split; [right; left; split; [nia|exact R]|exact DD].
Qed.
