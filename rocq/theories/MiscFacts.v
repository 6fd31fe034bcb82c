From Verif Require Import Base MiscModel MiscSpec.

Lemma store_ok : forall w buf, (length w <= length buf)%nat -> store w buf = Ok (w ++ skipn (length w) buf).
Proof.
  induction w as [|x w IH]; intros [|y buf] H; cbn in *; try reflexivity; try lia.
  rewrite IH by lia. reflexivity.
Qed.
Lemma strlen_ok s rest : ~ In 0 s -> strlen (s ++ 0 :: rest) = Ok (Z.of_nat (length s)).
Proof.
  induction s as [|x s IH]; intros H; [reflexivity|]. cbn [app strlen length].
  destruct (Z.eqb_spec x 0) as [E|_]; [exfalso; apply H; left; exact E|]. rewrite IH by (intros X; apply H; right; exact X).
  cbn [bind]. f_equal. lia.
Qed.
(** Every buffer with a NUL in it holds a string. *)
Lemma split_nul : forall buf, In 0 buf -> exists s rest, buf = s ++ 0 :: rest /\ ~ In 0 s.
Proof.
  induction buf as [|x buf IH]; intros H; [destruct H|]. destruct (Z.eq_dec x 0) as [->|N].
  - exists [], buf. split; [reflexivity|intros []].
  - destruct IH as (s & r & -> & Hs); [destruct H; [congruence|assumption]|]. exists (x :: s), r. split; [reflexivity|].
    intros [E|E]; auto.
Qed.
Lemma split_unique : forall s s' r r', s ++ 0 :: r = s' ++ 0 :: r' -> ~ In 0 s -> ~ In 0 s' -> s = s' /\ r = r'.
Proof.
  induction s as [|x s IH]; intros [|x' s'] r r' E H H'; cbn in E.
  - inversion E. auto.
  - inversion E. subst. exfalso. apply H'. left. reflexivity.
  - inversion E. subst. exfalso. apply H. left. reflexivity.
  - inversion E. subst. destruct (IH s' r r') as [-> ->]; auto; intros X; [apply H|apply H']; right; exact X.
Qed.
Lemma upd_split {A} (v : A) : forall n l, (n < length l)%nat -> list_upd l n v = firstn n l ++ v :: skipn (S n) l.
Proof. induction n as [|n IH]; intros [|x l] H; cbn in *; try lia; [reflexivity|]. f_equal. apply IH. lia. Qed.
(** A NUL put at position [n]: the string is shorter than [n] or the first [n] characters. *)
Lemma cut_at n buf : (n < length buf)%nat -> exists s, holds (list_upd buf n 0) s /\ (length s <= n)%nat /\
  (forall h rest, firstn n buf = h ++ 0 :: rest -> ~ In 0 h -> s = h) /\ (~ In 0 (firstn n buf) -> s = firstn n buf).
Proof.
  intros H. rewrite (upd_split 0 n buf H). assert (L : length (firstn n buf) = n) by (apply firstn_length_le; lia).
  destruct (in_dec Z.eq_dec 0 (firstn n buf)) as [I|N].
  - destruct (split_nul _ I) as (s & r & E & Hs). exists s. split; [split; [exact Hs|]; exists (r ++ 0 :: skipn (S n) buf); rewrite E, <- app_assoc; reflexivity|].
    split; [rewrite E, app_length in L; cbn in L; lia|]. split; [|tauto]. intros h rest E' Hh. rewrite E in E'. apply (split_unique _ _ _ _ E' Hs Hh).
  - exists (firstn n buf). split; [split; [exact N|]; exists (skipn (S n) buf); reflexivity|]. split; [lia|]. split; [|auto].
    intros h rest E Hh. exfalso. apply N. rewrite E, in_app_iff. right. left. reflexivity.
Qed.

(** Decimal notation *)
Lemma value_snoc ds d : value (ds ++ [d]) = 10 * value ds + (d - 48).
Proof. unfold value. rewrite fold_left_app. reflexivity. Qed.
Lemma digits_ok : forall f n, 0 <= n < 10 ^ Z.of_nat f -> (0 < f)%nat ->
  decimal (digits f n) /\ value (digits f n) = n /\ (length (digits f n) <= f)%nat /\ (0 < n -> forall r, digits f n <> 48 :: r).
Proof.
  induction f as [|f IH]; intros n H F; [lia|]. cbn [digits]. destruct (Z.ltb_spec n 10) as [L|L].
  - split; [split; [discriminate|]; split; [intros d [<-|[]]; lia|intros r E; inversion E; reflexivity]|].
    split; [unfold value; cbn [fold_left]; lia|]. split; [cbn; lia|]. intros P r E. assert (48 + n = 48) by congruence. lia.
  - replace (Z.of_nat (S f)) with (Z.succ (Z.of_nat f)) in H by lia. rewrite Z.pow_succ_r in H by lia.
    assert (Q : 0 < n / 10 < 10 ^ Z.of_nat f).
    { split; [apply Z.div_str_pos; lia|apply Z.div_lt_upper_bound; lia]. }
    assert (F' : (0 < f)%nat) by (destruct f; [cbn in Q; lia|lia]).
    destruct (IH (n / 10)) as ((D1 & D2 & D3) & V & Len & Z0); [lia|exact F'|]. assert (M := Z.mod_pos_bound n 10 eq_refl).
    assert (HD : forall r, digits f (n / 10) ++ [48 + n mod 10] <> 48 :: r).
    { intros r E. destruct (digits f (n / 10)) as [|x l] eqn:Ex; [congruence|]. cbn in E. inversion E. subst. apply (Z0 (proj1 Q) l). reflexivity. }
    split; [split; [intros E; apply app_eq_nil in E; destruct E; discriminate|]; split|].
    + intros d Hd. apply in_app_iff in Hd. destruct Hd as [Hd|[<-|[]]]; [auto|lia].
    + intros r E. exfalso. apply (HD r E).
    + split; [rewrite value_snoc, V; assert (X := Z.div_mod n 10); lia|]. split; [rewrite app_length; cbn; lia|]. intros _. exact HD.
Qed.
Lemma percent_d_ok n : INT_MIN <= n <= INT_MAX -> denotes (percent_d n) n /\ (length (percent_d n) <= 11)%nat.
Proof.
  intros H. unfold INT_MIN, INT_MAX in H. unfold percent_d. destruct (Z.ltb_spec n 0) as [L|L].
  - destruct (digits_ok 10 (- n)) as (D & V & Len & _); [change (10 ^ Z.of_nat 10) with 10000000000; lia|lia|].
    split; [|cbn [length]; lia]. right. exists (digits 10 (- n)). split; [reflexivity|]. split; [exact D|]. rewrite V. lia.
  - destruct (digits_ok 10 n) as (D & V & Len & _); [change (10 ^ Z.of_nat 10) with 10000000000; lia|lia|].
    split; [|lia]. left. split; [exact D|lia].
Qed.
Lemma denotes_chars l z : denotes l z -> forall d, In d l -> d = 45 \/ 48 <= d <= 57.
Proof. intros [[(_ & D & _) _]|(ds & -> & (_ & D & _) & _)] d Hd; [right; auto|]. destruct Hd as [<-|Hd]; [auto|right; auto]. Qed.
Lemma denotes_fun l z z' : denotes l z -> denotes l z' -> z = z'.
Proof.
  intros [[D ->]|(ds & -> & D & -> & _)] [[D' ->]|(ds' & E' & D' & -> & _)].
  - reflexivity.
  - subst l. destruct D as (_ & D & _). specialize (D 45 (or_introl eq_refl)). lia.
  - destruct D' as (_ & D' & _). specialize (D' 45 (or_introl eq_refl)). lia.
  - inversion E'. reflexivity.
Qed.

Theorem C68_lemma code buf : INT_MIN <= code <= INT_MAX -> (Z.to_nat MPI_MAX_ERROR_STRING <= length buf)%nat ->
  exists buf' num, let s := text "MPI Error: code " ++ num ++ [10] in
    MPI_Error_string code buf = Ok (buf', Z.of_nat (length s)) /\ denotes num code /\ holds buf' s /\
    Z.of_nat (length s) < MPI_MAX_ERROR_STRING /\ same_after (length s + 1) buf buf'.
Proof.
  intros H L. destruct (percent_d_ok code H) as [D Len]. set (num := percent_d code) in *.
  set (s := text "MPI Error: code " ++ num ++ [10]). assert (LS : (length s <= 28)%nat).
  { unfold s. rewrite !app_length. change (length (text "MPI Error: code ")) with 16%nat. cbn [length]. lia. }
  change (Z.to_nat MPI_MAX_ERROR_STRING) with 128%nat in L.
  assert (E : store (s ++ [0]) buf = Ok (s ++ 0 :: skipn (length s + 1) buf)).
  { rewrite store_ok by (rewrite app_length; cbn [length]; lia). rewrite app_length, <- app_assoc. reflexivity. }
  assert (N : ~ In 0 s).
  { unfold s. rewrite !in_app_iff. intros [X|[X|X]]; [vm_compute in X; intuition discriminate|apply (denotes_chars _ _ D) in X; lia|destruct X as [X|[]]; discriminate]. }
  exists (s ++ 0 :: skipn (length s + 1) buf), num. cbv zeta. fold s. split; [|split; [exact D|split; [split; [exact N|eauto]|split]]].
  - unfold MPI_Error_string. change (text "MPI Error: code " ++ percent_d code ++ [10] ++ [0]) with (text "MPI Error: code " ++ num ++ ([10] ++ [0])).
    replace (text "MPI Error: code " ++ num ++ ([10] ++ [0])) with (s ++ [0]) by (unfold s; rewrite <- !app_assoc; reflexivity).
    rewrite E. cbn [bind]. rewrite strlen_ok by exact N. reflexivity.
  - unfold MPI_MAX_ERROR_STRING. lia.
  - split; [rewrite app_length; cbn [length]; rewrite skipn_length; lia|].
    replace (s ++ 0 :: skipn (length s + 1) buf) with ((s ++ [0]) ++ skipn (length s + 1) buf) by (rewrite <- app_assoc; reflexivity).
    rewrite skipn_app, skipn_all2 by (rewrite app_length; cbn; lia). rewrite app_length. cbn [length]. rewrite Nat.sub_diag. reflexivity.
Qed.
Lemma holds_fun buf s s' : holds buf s -> holds buf s' -> s = s'.
Proof. intros [H [r E]] [H' [r' E']]. rewrite E in E'. apply (split_unique _ _ _ _ E' H H'). Qed.
Theorem C68_distinct_lemma x y b1 b2 : INT_MIN <= x <= INT_MAX -> INT_MIN <= y <= INT_MAX ->
  (Z.to_nat MPI_MAX_ERROR_STRING <= length b1)%nat -> (Z.to_nat MPI_MAX_ERROR_STRING <= length b2)%nat -> x <> y ->
  exists b1' n1 b2' n2, MPI_Error_string x b1 = Ok (b1', n1) /\ MPI_Error_string y b2 = Ok (b2', n2) /\
    forall s1 s2, holds b1' s1 -> holds b2' s2 -> s1 <> s2.
Proof.
  intros Hx Hy L1 L2 N. destruct (C68_lemma x b1 Hx L1) as (b1' & u1 & E1 & D1 & S1 & _). destruct (C68_lemma y b2 Hy L2) as (b2' & u2 & E2 & D2 & S2 & _).
  eexists _, _, _, _. split; [exact E1|]. split; [exact E2|]. intros s1 s2 H1 H2 E. apply N.
  rewrite (holds_fun _ _ _ H1 S1), (holds_fun _ _ _ H2 S2) in E. apply app_inv_head in E. apply app_inj_tail in E. destruct E as [E _].
  subst u2. exact (denotes_fun _ _ _ D1 D2).
Qed.

(** C69 *)
Lemma skipn_upd {A} (v : A) n l : (n < length l)%nat -> skipn (S n) (list_upd l n v) = skipn (S n) l.
Proof.
  intros H. rewrite upd_split by exact H. replace (firstn n l ++ v :: skipn (S n) l) with ((firstn n l ++ [v]) ++ skipn (S n) l) by (rewrite <- app_assoc; reflexivity).
  assert (L : length (firstn n l ++ [v]) = S n) by (rewrite app_length, firstn_length_le by lia; cbn; lia).
  rewrite skipn_app, skipn_all2 by lia. rewrite L, Nat.sub_diag. reflexivity.
Qed.
Lemma terminate n buf : (0 < n)%nat -> (n <= length buf)%nat -> exists buf' s,
  (do b <- arr_set buf (Z.of_nat n - 1) 0; do l <- strlen b; Ok (b, l)) = Ok (buf', Z.of_nat (length s)) /\ holds buf' s /\ (length s < n)%nat /\
  same_after n buf buf' /\ (forall h rest, firstn (n - 1) buf = h ++ 0 :: rest -> ~ In 0 h -> s = h) /\ (~ In 0 (firstn (n - 1) buf) -> s = firstn (n - 1) buf).
Proof.
  intros P L. destruct (cut_at (n - 1) buf) as (s & H & Ls & H1 & H2); [lia|]. exists (list_upd buf (n - 1) 0), s.
  rewrite arr_set_ok by lia. cbn [bind]. replace (Z.to_nat (Z.of_nat n - 1)) with (n - 1)%nat by lia.
  split; [|split; [exact H|split; [lia|split; [split; [apply list_upd_length|]|split; assumption]]]].
  - destruct H as [N [rest E]]. rewrite E, strlen_ok by exact N. reflexivity.
  - destruct n as [|n]; [lia|]. replace (S n - 1)%nat with n by lia. apply skipn_upd. lia.
Qed.
Lemma skipn_twice {A} : forall n m (l : list A), skipn m (skipn n l) = skipn (n + m) l.
Proof. induction n as [|n IH]; intros m [|x l]; cbn; try reflexivity; [destruct m; reflexivity|]. apply IH. Qed.
Lemma skipn_front {A} (w buf : list A) n : (length w <= n)%nat -> (n <= length buf)%nat -> skipn n (w ++ skipn (length w) buf) = skipn n buf.
Proof.
  intros H H'. rewrite skipn_app, skipn_all2 by exact H. cbn [app]. rewrite skipn_twice. f_equal. lia.
Qed.
Lemma front_length {A} (w buf : list A) : (length w <= length buf)%nat -> length (w ++ skipn (length w) buf) = length buf.
Proof. intros H. rewrite app_length, skipn_length. lia. Qed.
Lemma strncpy_ok buf src n : (n <= length buf)%nat -> (length src <= n)%nat ->
  strncpy buf src n = Ok (src ++ repeat 0 (n - length src) ++ skipn n buf).
Proof.
  intros H L. unfold strncpy. set (w := firstn n (src ++ repeat 0 n)).
  assert (W : w = src ++ repeat 0 (n - length src)).
  { unfold w. rewrite firstn_app, firstn_all2 by exact L. f_equal.
    replace (repeat 0 n) with (repeat 0 (n - length src) ++ repeat 0 (length src)) by (rewrite <- repeat_app; f_equal; lia).
    rewrite firstn_app, firstn_all2 by (rewrite repeat_length; lia). rewrite repeat_length, Nat.sub_diag. apply app_nil_r. }
  assert (LW : length w = n) by (rewrite W, app_length, repeat_length; lia).
  rewrite store_ok by lia. rewrite LW, W, <- app_assoc. reflexivity.
Qed.

Theorem C69_name_lemma gh buf : (Z.of_nat (length (gh_bytes gh)) <= MPI_MAX_PROCESSOR_NAME <= Z.of_nat (length buf)) ->
  exists buf' s, MPI_Get_processor_name gh buf = Ok (buf', Z.of_nat (length s)) /\ holds buf' s /\ Z.of_nat (length s) < MPI_MAX_PROCESSOR_NAME /\
    same_after (Z.to_nat MPI_MAX_PROCESSOR_NAME) buf buf' /\
    (gh_ret gh <> 0 -> s = text "unknown host name") /\
    (forall h, gh_ret gh = 0 -> ~ In 0 h -> Z.of_nat (length h) < MPI_MAX_PROCESSOR_NAME -> gh_bytes gh = h ++ [0] -> s = h) /\
    (forall h, gh_ret gh = 0 -> ~ In 0 h -> MPI_MAX_PROCESSOR_NAME <= Z.of_nat (length h) -> gh_bytes gh = firstn (Z.to_nat MPI_MAX_PROCESSOR_NAME) h ->
       s = firstn (Z.to_nat (MPI_MAX_PROCESSOR_NAME - 1)) h).
Proof.
  intros [L1 L2]. unfold MPI_Get_processor_name. change (Z.to_nat MPI_MAX_PROCESSOR_NAME) with 128%nat in *. change (Z.to_nat (MPI_MAX_PROCESSOR_NAME - 1)) with 127%nat.
  set (w := gh_bytes gh) in *. change MPI_MAX_PROCESSOR_NAME with (Z.of_nat 128) in *. apply Nat2Z.inj_le in L1, L2.
  rewrite store_ok by lia. cbn [bind]. set (b1 := w ++ skipn (length w) buf).
  assert (Lb : length b1 = length buf) by (apply front_length; lia).
  assert (Sb : skipn 128 b1 = skipn 128 buf) by (apply skipn_front; lia).
  destruct (Z.eqb_spec (gh_ret gh) 0) as [E|N]; cbn [negb].
  - cbn [bind]. destruct (terminate 128 b1) as (b2 & s & Er & Hs & Ls & [S1 S2] & C1 & C2); [lia|lia|]. exists b2, s.
    split; [exact Er|]. split; [exact Hs|]. split; [lia|]. split; [split; congruence|]. split; [intros X; congruence|]. change (128 - 1)%nat with 127%nat in C1, C2. split.
    + intros h _ Hn Lh Ew. assert (Lh' : (length h <= 127)%nat) by lia.
      assert (Eb : firstn 127 b1 = h ++ firstn (127 - length h) (0 :: skipn (length h + 1) buf)).
      { unfold b1. rewrite Ew, app_length, <- app_assoc. cbn [length app]. rewrite firstn_app, firstn_all2 by lia. reflexivity. }
      destruct (127 - length h)%nat as [|k] eqn:Ek.
      * rewrite firstn_O, app_nil_r in Eb. rewrite Eb in C2. apply C2. exact Hn.
      * rewrite firstn_cons in Eb. apply (C1 h _ Eb Hn).
    + intros h _ Hn Lh Ew. assert (Lh' : (128 <= length h)%nat) by lia.
      assert (Eb : firstn 127 b1 = firstn 127 h).
      { unfold b1. rewrite Ew, firstn_app, firstn_firstn. rewrite firstn_length_le by lia. change (127 - 128)%nat with 0%nat. rewrite firstn_O, app_nil_r. reflexivity. }
      rewrite Eb in C2. apply C2. intros X. apply Hn. rewrite <- (firstn_skipn 127 h). apply in_or_app. left. exact X.
  - rewrite strncpy_ok; [|lia|change (length (text "unknown host name")) with 17%nat; lia]. cbn [bind].
    set (b2 := text "unknown host name" ++ repeat 0 (128 - length (text "unknown host name")) ++ skipn 128 b1).
    assert (L2b : length b2 = length b1).
    { unfold b2. rewrite !app_length, repeat_length, skipn_length. change (length (text "unknown host name")) with 17%nat. lia. }
    assert (S2b : skipn 128 b2 = skipn 128 b1) by reflexivity.
    destruct (terminate 128 b2) as (b3 & s & Er & Hs & Ls & [S1 S2] & C1 & C2); [lia|lia|]. exists b3, s.
    split; [exact Er|]. split; [exact Hs|]. split; [lia|]. split; [split; congruence|]. split; [intros _|split; intros; congruence].
    apply (C1 (text "unknown host name") (repeat 0 109)); [reflexivity|]. vm_compute. intuition discriminate.
Qed.

Lemma version_chars : ~ In 0 mpi_version_string.
Proof. vm_compute. intuition discriminate. Qed.
Lemma version_run buf : (80 <= length buf)%nat ->
  MPI_Get_library_version buf = Ok (mpi_version_string ++ 0 :: repeat 0 63 ++ skipn 80 buf, 16).
Proof.
  intros L. unfold MPI_Get_library_version. change (Z.to_nat MPI_MAX_LIBRARY_VERSION_STRING) with 80%nat.
  rewrite strncpy_ok; [|lia|change (length mpi_version_string) with 16%nat; lia]. cbn [bind].
  change (mpi_version_string ++ repeat 0 (80 - length mpi_version_string) ++ skipn 80 buf) with ((mpi_version_string ++ repeat 0 64) ++ skipn 80 buf).
  rewrite arr_set_ok by (rewrite app_length, skipn_length; change (length (mpi_version_string ++ repeat 0 64)) with 80%nat; unfold MPI_MAX_LIBRARY_VERSION_STRING; lia).
  reflexivity.
Qed.
Theorem C69_version_lemma buf : MPI_MAX_LIBRARY_VERSION_STRING <= Z.of_nat (length buf) ->
  exists buf', MPI_Get_library_version buf = Ok (buf', Z.of_nat (length mpi_version_string)) /\ holds buf' mpi_version_string /\
    Z.of_nat (length mpi_version_string) < MPI_MAX_LIBRARY_VERSION_STRING /\ same_after (Z.to_nat MPI_MAX_LIBRARY_VERSION_STRING) buf buf'.
Proof.
  unfold MPI_MAX_LIBRARY_VERSION_STRING. intros L. assert (L' : (80 <= length buf)%nat) by lia. eexists. split; [rewrite version_run by exact L'; reflexivity|].
  split; [split; [exact version_chars|eauto]|]. split; [reflexivity|]. split; [|reflexivity].
  rewrite app_length. cbn [length]. rewrite app_length, repeat_length, skipn_length. change (length mpi_version_string) with 16%nat. lia.
Qed.
Theorem C69_fortran_lemma buf : MPI_MAX_LIBRARY_VERSION_STRING <= Z.of_nat (length buf) ->
  exists buf', mpi_get_library_version buf = Ok (buf', Z.of_nat (length mpi_version_string)) /\
    padded (Z.to_nat MPI_MAX_LIBRARY_VERSION_STRING) buf' mpi_version_string /\ same_after (Z.to_nat MPI_MAX_LIBRARY_VERSION_STRING) buf buf'.
Proof.
  unfold MPI_MAX_LIBRARY_VERSION_STRING. intros L. assert (L' : (80 <= length buf)%nat) by lia.
  exists (mpi_version_string ++ repeat 32 64 ++ skipn 80 buf). split.
  - unfold mpi_get_library_version. rewrite version_run by exact L'. reflexivity.
  - split; [split; [reflexivity|]; split; [vm_compute; lia|exact version_chars]|]. split; [|reflexivity].
    rewrite !app_length, repeat_length, skipn_length. change (length mpi_version_string) with 16%nat. lia.
Qed.
