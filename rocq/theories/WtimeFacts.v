(** MPI_Wtime: the order, the resolution and the accuracy of its results. *)
From Coq Require Import Floats.SpecFloat.
From Verif Require Import Base WtimeModel WtimeSpec DoubleFacts.
#[local] Notation fx := (SpecFloat.fexp 53 1024).

Lemma rle n1 n2 v1 v2 : rounded 1 n1 v1 -> rounded 1 n2 v2 -> n1 <= n2 -> v1 <= v2.
Proof. intros A B L. apply (rounded_le 1 ltac:(lia) n1 n2); assumption. Qed.
Lemma wtime_ok s u : Z.abs s <= 2 ^ 63 -> 0 <= u < 1000000 -> exists f S F T, MPI_Wtime (Some (s, u)) = Ok f /\ double_is f T /\
  rounded 1 (s * P 0) S /\ rounded MILLION (u * P 0) F /\ rounded 1 (S + F) T /\ 0 <= F <= P 0 - P (-20).
Proof.
  intros Hs Hu. destruct (to_double_ok s Hs) as (S & RS & DS). destruct (div_ok u Hu) as (F & RF & DF).
  assert (P0 := P_pos 0 ltac:(lia)). assert (P20 := P_pos (-20) ltac:(lia)). assert (E20 : P 0 = 2 ^ 20 * P (-20)) by (apply (P_add (-20) 20); lia).
  assert (HM : 0 < MILLION) by reflexivity.
  assert (FB : 0 <= F <= P 0 - P (-20)).
  { split.
    - apply (rounded_le MILLION HM 0 (u * P 0)); [nia|left; split; reflexivity|exact RF].
    - replace (P 0 - P (-20)) with ((2 ^ 20 - 1) * P (-20)) by (rewrite E20; ring).
      apply (rounded_le MILLION HM (u * P 0) ((2 ^ 20 - 1) * P (-20) * MILLION)); [|exact RF|apply rounded_fix; [exact HM|lia|lia]].
      rewrite E20. change (2 ^ 20) with 1048576. unfold MILLION. nia. }
  assert (E63 : P 63 = 2 ^ 63 * P 0) by (apply (P_add 0 63); lia).
  assert (SB : Z.abs S <= 2 ^ 63 * P 0).
  { assert (X := rounded_fix 1 ltac:(lia) 1 63 ltac:(lia) ltac:(lia)). assert (Y := rounded_opp 1 _ _ X). rewrite !Z.mul_1_r, Z.mul_1_l, E63 in X, Y.
    apply Z.abs_le. split; [apply (rle _ _ _ _ Y RS)|apply (rle _ _ _ _ RS X)]; nia. }
  destruct (add_ok _ _ S F DS DF) as (T & RT & DT).
  { assert (P 1000 = 2 ^ 1000 * P 0) as -> by (apply (P_add 0 1000); lia). assert (2 ^ 63 + 1 < 2 ^ 1000) by (apply Z.lt_le_trans with (2 ^ 64); [reflexivity|apply Z.pow_le_mono_r; lia]). nia. }
  exists (SFadd 53 1024 (to_double s) (SFdiv 53 1024 (to_double u) (to_double MILLION))), S, F, T.
  split; [reflexivity|]. auto 10.
Qed.

Lemma rounded_int z : Z.abs z <= 2 ^ 53 -> rounded 1 (z * P 0) (z * P 0).
Proof. intros H. assert (X := rounded_fix 1 ltac:(lia) z 0 ltac:(lia) H). rewrite Z.mul_1_r in X. exact X. Qed.
(** A large whole number of seconds swallows the fraction. *)
Lemma swallow n S F T : 2 ^ 53 * P 0 <= n -> rounded 1 n S -> 0 <= F < P 0 -> rounded 1 (S + F) T -> T <= S.
Proof.
  intros Hn RS HF RT. assert (P0 := P_pos 0 ltac:(lia)).
  assert (X : 2 ^ 53 * P 0 <= S) by (apply (rounded_le 1 ltac:(lia) (2 ^ 53 * P 0) n); [exact Hn|apply rounded_int; lia|exact RS]).
  destruct RS as [[A _]|[[_ (g & w & G & B & N & ->)]|[A _]]]; [nia| |nia].
  destruct RT as [[A _]|[[_ (g' & w' & G' & B' & N' & ->)]|[A _]]]; [nia| |nia].
  rewrite !Z.mul_1_r in *.
  assert (GG : 54 <= g). { assert (P 53 = 2 ^ 53 * P 0) as E by (apply (P_add 0 53); lia). assert (P 53 < P g) as L by lia. apply P_lt_inv in L; lia. }
  assert (FG : fx g = g - 53) by (rewrite fx_eq; lia). rewrite FG in *.
  assert (PG := P_pos (g - 53) ltac:(lia)). assert (P2 : 2 * P 0 <= P (g - 53)) by (rewrite <- P_succ by lia; apply P_le; lia).
  assert (WB : 2 ^ 52 <= w <= 2 ^ 53).
  { assert (Z1 := near_bounds 1 ltac:(lia) n (g - 53) 53 w ltac:(lia) ltac:(lia)). assert (Z2 := near_bounds 1 ltac:(lia) n (g - 53) 52 w ltac:(lia) ltac:(lia)).
    rewrite !Z.mul_1_r in Z1, Z2. replace (g - 53 + 53) with g in Z1 by lia. replace (g - 53 + 52) with (g - 1) in Z2 by lia.
    split; [apply (proj2 (Z2 N)); lia|apply (proj1 (Z1 N)); lia]. }
  assert (Eg : P g = 2 ^ 53 * P (g - 53)) by (rewrite <- P_add by lia; f_equal; lia).
  assert (Eg1 : P (g - 1) = 2 ^ 52 * P (g - 53)) by (rewrite <- P_add by lia; f_equal; lia).
  assert (G1 : g' <= g + 1). { assert (P (g' - 1) < P (g + 1)) as L by (rewrite P_succ by lia; nia). apply P_lt_inv in L; lia. }
  assert (G2 : g <= g'). { assert (P (g - 1) < P g') as L by nia. apply P_lt_inv in L; lia. }
  destruct N' as (N1 & _ & _). assert (FG' : fx g' = g' - 53) by (rewrite fx_eq; lia). rewrite FG' in *.
  destruct (Z.eq_dec g' g) as [->|NE]; [assert (w' <= w) by nia; nia|].
  assert (g' = g + 1) as -> by lia. replace (g + 1 - 53) with (g - 53 + 1) in * by lia. replace (g + 1 - 1) with g in * by lia. rewrite P_succ in * by lia.
  assert (w = 2 ^ 53) by nia. subst w. assert (w' <= 2 ^ 52) by nia. nia.
Qed.

Lemma C72_lemma s1 u1 s2 u2 : - 2 ^ 53 <= s1 < 2 ^ 63 -> - 2 ^ 53 <= s2 < 2 ^ 63 -> 0 <= u1 < 1000000 -> 0 <= u2 < 1000000 ->
  s1 < s2 \/ s1 = s2 /\ u1 <= u2 ->
  exists t1 t2, MPI_Wtime (Some (s1, u1)) = Ok t1 /\ MPI_Wtime (Some (s2, u2)) = Ok t2 /\ SFleb t1 t2 = true.
Proof.
  intros Hs1 Hs2 H1 H2 L. destruct (wtime_ok s1 u1 ltac:(lia) H1) as (f1 & S1 & F1 & T1 & E1 & D1 & RS1 & RF1 & RT1 & B1).
  destruct (wtime_ok s2 u2 ltac:(lia) H2) as (f2 & S2 & F2 & T2 & E2 & D2 & RS2 & RF2 & RT2 & B2).
  exists f1, f2. split; [exact E1|]. split; [exact E2|]. apply (leb_ok f1 f2 T1 T2 D1 D2).
  assert (P0 := P_pos 0 ltac:(lia)). assert (P20 := P_pos (-20) ltac:(lia)).
  destruct L as [L|[<- L]].
  2: { rewrite (rounded_same 1 _ _ _ ltac:(lia) RS2 RS1) in RT2. assert (F1 <= F2) by (apply (rounded_le MILLION ltac:(reflexivity) (u1 * P 0) (u2 * P 0)); [nia|assumption|assumption]).
       apply (rounded_le 1 ltac:(lia) (S1 + F1) (S1 + F2)); [lia|assumption|assumption]. }
  destruct (Z_lt_le_dec s1 (2 ^ 53)) as [C|C].
  - apply (rounded_le 1 ltac:(lia) (S1 + F1) (S2 + F2)); [|assumption|assumption].
    rewrite (rounded_same 1 _ _ _ ltac:(lia) RS1 (rounded_int s1 ltac:(lia))).
    assert ((s1 + 1) * P 0 <= S2) by (apply (rounded_le 1 ltac:(lia) ((s1 + 1) * P 0) (s2 * P 0)); [nia|apply rounded_int; lia|exact RS2]). lia.
  - apply Z.le_trans with S1; [apply (swallow (s1 * P 0) S1 F1 T1); [nia|assumption|lia|assumption]|].
    assert (S1 <= S2) by (apply (rounded_le 1 ltac:(lia) (s1 * P 0) (s2 * P 0)); [nia|assumption|assumption]).
    assert (X : rounded 1 S2 S2) by (destruct (to_double_ok s2 ltac:(lia)) as (S & R & D); rewrite (rounded_same 1 _ _ _ ltac:(lia) RS2 R); exact (double_fix _ _ D)).
    assert (S2 <= T2) by (apply (rounded_le 1 ltac:(lia) S2 (S2 + F2)); [lia|assumption|assumption]). lia.
Qed.

(** Size of the error *)
Lemma error_ok d n v g : 0 < d -> -1074 <= g -> Z.abs n < P g * d -> rounded d n v -> 2 * Z.abs (v * d - n) <= P (fx g) * d.
Proof.
  intros Hd Hg B R. assert (HF : -1074 <= fx g) by (rewrite fx_eq; lia). assert (PF := P_pos _ HF).
  assert (Q : forall n v, n < P g * d -> rounded_pos d n v -> 2 * Z.abs (v * d - n) <= P (fx g) * d).
  { clear n v B R. intros n v B (h & w & H & BB & (N & _ & _) & ->).
    assert (P (h - 1) * d < P g * d) as L by lia. apply Z.mul_lt_mono_pos_r in L; [|exact Hd]. apply P_lt_inv in L; [|exact Hg].
    assert (HH : -1074 <= fx h) by (rewrite fx_eq; lia). assert (X : P (fx h) <= P (fx g)) by (apply P_le; [exact HH|rewrite !fx_eq; lia]).
    assert (P (fx h) * d <= P (fx g) * d) by nia. set (t := P (fx h) * d) in *. replace (w * P (fx h) * d) with (w * t) by (unfold t; ring). lia. }
  destruct R as [[-> ->]|[[A R]|[A R]]].
  - cbn. nia.
  - apply Q; [lia|exact R].
  - assert (X := Q (- n) (- v) ltac:(lia) R). replace (- v * d - - n) with (- (v * d - n)) in X by ring. rewrite Z.abs_opp in X. exact X.
Qed.
(** Within range of 2^33 seconds, in units of the last place of the fraction. *)
Lemma wtime_close s u : - 2 ^ 33 < s < 2 ^ 33 -> 0 <= u < 1000000 -> exists f y T, MPI_Wtime (Some (s, u)) = Ok f /\ double_is f T /\
  2 * Z.abs (T - y) <= P (-20) /\ 2 * Z.abs (MILLION * y - (MILLION * s + u) * P 0) <= P (-53) * MILLION /\ Z.abs T <= P 33.
Proof.
  intros Hs Hu. assert (2 ^ 33 < 2 ^ 53) by reflexivity. assert (2 ^ 53 < 2 ^ 63) by reflexivity.
  destruct (wtime_ok s u ltac:(lia) Hu) as (f & S & F & T & E & D & RS & RF & RT & B).
  assert (P0 := P_pos 0 ltac:(lia)). assert (P20 := P_pos (-20) ltac:(lia)). assert (E33 : P 33 = 2 ^ 33 * P 0) by (apply (P_add 0 33); lia).
  assert (S = s * P 0) as -> by (apply (rounded_same 1 (s * P 0)); [lia|exact RS|apply rounded_int; lia]).
  assert (Y : Z.abs (s * P 0 + F) < P 33 * 1) by (rewrite E33; apply Z.abs_lt; nia).
  exists f, (s * P 0 + F), T. split; [exact E|]. split; [exact D|].
  assert (X := error_ok 1 _ _ 33 ltac:(lia) ltac:(lia) Y RT). rewrite !Z.mul_1_r in X. change (fx 33) with (-20) in X.
  assert (W : Z.abs (u * P 0) < P 0 * MILLION) by (unfold MILLION; nia).
  assert (V := error_ok MILLION _ _ 0 ltac:(reflexivity) ltac:(lia) W RF). change (fx 0) with (-53) in V.
  split; [exact X|]. split; [replace (MILLION * (s * P 0 + F) - (MILLION * s + u) * P 0) with (F * MILLION - u * P 0) by ring; exact V|].
  assert (Q := rounded_fix 1 ltac:(lia) 1 33 ltac:(lia) ltac:(lia)). assert (Q' := rounded_opp 1 _ _ Q). rewrite !Z.mul_1_r, !Z.mul_1_l in Q, Q'.
  apply Z.abs_le. split; [apply (rle _ _ _ _ Q' RT)|apply (rle _ _ _ _ RT Q)]; lia.
Qed.
Lemma units : P 0 = 2 ^ 53 * P (-53) /\ P (-20) = 2 ^ 33 * P (-53) /\ 0 < P (-53).
Proof. split; [apply (P_add (-53) 53); lia|]. split; [apply (P_add (-53) 33); lia|apply P_pos; lia]. Qed.
Lemma C85_resolution_lemma s1 u1 s2 u2 : - 2 ^ 33 < s1 < 2 ^ 33 -> - 2 ^ 33 < s2 < 2 ^ 33 -> 0 <= u1 < 1000000 -> 0 <= u2 < 1000000 ->
  s1 < s2 \/ s1 = s2 /\ u1 < u2 ->
  exists t1 t2, MPI_Wtime (Some (s1, u1)) = Ok t1 /\ MPI_Wtime (Some (s2, u2)) = Ok t2 /\ SFltb t1 t2 = true.
Proof.
  intros Hs1 Hs2 H1 H2 L. destruct (wtime_close s1 u1 Hs1 H1) as (f1 & y1 & T1 & E1 & D1 & A1 & B1 & _). destruct (wtime_close s2 u2 Hs2 H2) as (f2 & y2 & T2 & E2 & D2 & A2 & B2 & _).
  exists f1, f2. split; [exact E1|]. split; [exact E2|]. apply (ltb_ok f1 f2 T1 T2 D1 D2).
  destruct units as (U0 & U20 & U). rewrite U0, U20 in *. set (p := P (-53)) in *. clearbody p. unfold MILLION in *.
  assert (G : 1000000 * s1 + u1 + 1 <= 1000000 * s2 + u2) by lia.
  set (c1 := 1000000 * s1 + u1) in *. set (c2 := 1000000 * s2 + u2) in *. clearbody c1 c2.
  assert (c1 * (2 ^ 53 * p) + 2 ^ 53 * p <= c2 * (2 ^ 53 * p)) by nia.
  set (q1 := c1 * (2 ^ 53 * p)) in *. set (q2 := c2 * (2 ^ 53 * p)) in *. clearbody q1 q2. change (2 ^ 53) with 9007199254740992 in *. change (2 ^ 33) with 8589934592 in *. lia.
Qed.
Lemma C85_accuracy_lemma s u : - 2 ^ 33 < s < 2 ^ 33 -> 0 <= u < 1000000 ->
  exists t, MPI_Wtime (Some (s, u)) = Ok t /\ nearest_microsecond t (1000000 * s + u).
Proof.
  intros Hs Hu. destruct (wtime_close s u Hs Hu) as (f & y & T & E & D & A & B & C). exists f. split; [exact E|].
  set (c := 1000000 * s + u) in *. assert (Q : 2 * Z.abs (MILLION * T - c * P 0) < P 0).
  { fold MILLION in c. replace (MILLION * s + u) with c in B by reflexivity. destruct units as (U0 & U20 & U). rewrite U0, U20 in *. set (p := P (-53)) in *. clearbody p.
    unfold MILLION in *. set (q := c * (2 ^ 53 * p)) in *. clearbody q. change (2 ^ 53) with 9007199254740992 in *. change (2 ^ 33) with 8589934592 in *. lia. }
  assert (P0 := P_pos 0 ltac:(lia)). clearbody c. destruct f as [sg| | |sg m e]; try (cbn in D; tauto).
  - cbn in D. subst T. cbn [nearest_microsecond]. nia.
  - destruct D as (-> & R & F). assert (Pe := P_pos e ltac:(lia)). cbn [nearest_microsecond].
    assert (e <= 0).
    { assert (MB := Zdigits_bounds (Zpos m) ltac:(lia)). rewrite fx_eq in F. destruct (Z_le_gt_dec e 0); [assumption|]. assert (D53 : Zdigits2 (Zpos m) = 53) by lia.
      rewrite D53 in MB. change (53 - 1) with 52 in MB. exfalso. assert (Z.abs (signed sg (Zpos m * P e)) = Zpos m * P e) as X by (unfold signed; destruct sg; lia). rewrite X in C.
      assert (P 0 <= P e) by (apply P_le; lia). assert (E33 : P 33 = 2 ^ 33 * P 0) by (apply (P_add 0 33); lia). assert (2 ^ 33 < 2 ^ 52) by reflexivity. nia. }
    split; [assumption|]. assert (E0 : P 0 = 2 ^ (- e) * P e) by (rewrite <- P_add by lia; f_equal; lia). rewrite E0 in Q. set (k := 2 ^ (- e)) in *.
    assert (S : signed sg (Zpos m * P e) = (if sg then - Zpos m else Zpos m) * P e) by (unfold signed; destruct sg; ring). rewrite S in Q.
    set (z := if sg then - Zpos m else Zpos m) in *. clearbody z k. unfold MILLION in Q.
    replace (1000000 * (z * P e) - c * (k * P e)) with ((1000000 * z - c * k) * P e) in Q by ring. rewrite Z.abs_mul, (Z.abs_eq (P e)) in Q by lia. nia.
Qed.
