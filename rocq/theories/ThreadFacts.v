From Verif Require Import Base HandleModel HandleSpec HandleProofs ThreadModel ThreadSpec.

Section ThreadFacts.
Context {D : Type}.
Implicit Types t : htab D.

Definition solo : list bool := [false; false; false; false; false].
Definition other : list bool := [true; true; true; true; true].

Lemma h_get_put t p v t' : h_put t p v = Ok t' -> h_get t' p = Ok v.
Proof.
  unfold h_put, h_get. destruct (valid_ptr t p) eqn:V; [|discriminate]. intros [= <-]. unfold valid_ptr in *. cbn in *. destruct p as [b i]. rewrite V. cbn.
  unfold item_upd. rewrite !Z.eqb_refl. reflexivity.
Qed.
Lemma step5 t b :
  threads solo L182 b t = (do (h, p, t) <- alloc_handle t; Ok (Returned h p, b, t)).
Proof.
  unfold alloc_handle. cbn [threads solo]. unfold step at 1. destruct (if ht_need_init t then init_handles t else Ok t) as [t1|m|z m|m|] eqn:E; try reflexivity.
  cbn [bind]. destruct (ht_nextfree t1) as [p|] eqn:N.
  - unfold step at 1. cbn [bind]. unfold step at 1. rewrite N. cbn [bind deref]. destruct (h_get t1 p) as [it|m|z m|m|] eqn:G; try reflexivity. cbn [bind].
    unfold step at 1. cbn [bind deref]. assert (h_get (set_nextfree t1 (hi_next it)) p = Ok it) as -> by exact G. cbn [bind].
    destruct (h_put (set_nextfree t1 (hi_next it)) p (mkHitem (hi_handle it) None (hi_data it))) as [t2|m|z m|m|] eqn:P; try reflexivity.
    cbn [bind]. unfold step at 1. cbn [bind deref]. rewrite (h_get_put _ _ _ _ P). reflexivity.
  - unfold alloc_handle. assert (NI : ht_need_init t1 = false).
    { destruct (ht_need_init t) eqn:I; [|congruence]. revert E. unfold init_handles. destruct (init_block 0 (ht_item t)); try discriminate. cbn. intros [= <-]. reflexivity. }
    rewrite !NI. cbn [bind]. rewrite !N, ?NI. destruct (ht_nblocks t1 =? MAX_BLOCKS); [reflexivity|].
    destruct (init_block (ht_nblocks t1) (ht_item t1)); reflexivity.
Qed.

Lemma threads_app x y a b t :
  threads (x ++ y) a b t = (do (a, b, t) <- threads x a b t; threads y a b t).
Proof.
  revert a b t. induction x as [|w x IH]; intros a b t; [reflexivity|]. cbn [threads app]. destruct w.
  - destruct (step b t) as [[b' t']|m|z m|m|]; try reflexivity. cbn [bind]. apply IH.
  - destruct (step a t) as [[a' t']|m|z m|m|]; try reflexivity. cbn [bind]. apply IH.
Qed.
Lemma threads_swap x a b t :
  threads (map negb x) b a t = (do (a, b, t) <- threads x a b t; Ok (b, a, t)).
Proof.
  revert a b t. induction x as [|w x IH]; intros a b t; [reflexivity|]. cbn [threads map]. destruct w; cbn [negb].
  - destruct (step b t) as [[b' t']|m|z m|m|]; try reflexivity. cbn [bind]. apply IH.
  - destruct (step a t) as [[a' t']|m|z m|m|]; try reflexivity. cbn [bind]. apply IH.
Qed.
Lemma step5_other t a :
  threads other a L182 t = (do (h, p, t) <- alloc_handle t; Ok (a, Returned h p, t)).
Proof.
  change other with (map negb solo). rewrite threads_swap, step5. destruct (alloc_handle t) as [[[h p] t']|m|z m|m|]; reflexivity.
Qed.
Theorem C73_serial_lemma t :
  threads (solo ++ other) L182 L182 t =
    (do (h1, p1, t) <- alloc_handle t; do (h2, p2, t) <- alloc_handle t; Ok (Returned h1 p1, Returned h2 p2, t)).
Proof.
  rewrite threads_app, step5. destruct (alloc_handle t) as [[[h p] t']|m|z m|m|]; try reflexivity. cbn [bind]. apply step5_other.
Qed.

(** A finite picture of what can happen. *)
Inductive who3 := EP | EQ | ER.
Inductive apc := A182 | A187 | A188 (n : bool) | A189 (n : bool) | A191 (n : bool) | ARet (n : bool).  (* true: p, false: q *)
Record atab := mkAtab { at_nf : who3; at_cp : bool; at_cq : bool }.
Definition astep (l : apc) (t : atab) : option (apc * atab) :=
  match l with
  | A182 => match at_nf t with ER => None | _ => Some (A187, t) end
  | A187 => match at_nf t with EP => Some (A188 true, t) | EQ => Some (A188 false, t) | ER => None end
  | A188 n => match at_nf t with
              | EP => if at_cp t then None else Some (A189 n, mkAtab EQ (at_cp t) (at_cq t))
              | EQ => if at_cq t then None else Some (A189 n, mkAtab ER (at_cp t) (at_cq t))
              | ER => None
              end
  | A189 n => Some (A191 n, if n then mkAtab (at_nf t) true (at_cq t) else mkAtab (at_nf t) (at_cp t) true)
  | A191 n => Some (ARet n, t)
  | ARet n => Some (ARet n, t)
  end.
Fixpoint athreads (sch : list bool) (a b : apc) (t : atab) : option (apc * apc * atab) :=
  match sch with
  | [] => Some (a, b, t)
  | false :: r => match astep a t with Some (a, t) => athreads r a b t | None => None end
  | true :: r => match astep b t with Some (b, t) => athreads r a b t | None => None end
  end.

Section Rep.
Variables (t0 : htab D) (p q : Z * Z) (ip iq : hitem D).
Hypothesis H0 : two_free t0 p q ip iq.
Definition adr (n : bool) := if n then p else q.
Definition itm (n : bool) := if n then ip else iq.
Definition pc_of (l : apc) : at_line :=
  match l with
  | A182 => L182 | A187 => L187 | A188 n => L188 (Some (adr n)) | A189 n => L189 (Some (adr n)) | A191 n => L191 (Some (adr n))
  | ARet n => Returned (hi_handle (itm n)) (adr n)
  end.
Definition nf_of (e : who3) : option (Z * Z) := match e with EP => Some p | EQ => Some q | ER => hi_next iq end.
Definition cleared (c : bool) (it : hitem D) : hitem D := if c then mkHitem (hi_handle it) None (hi_data it) else it.
Definition item_is t (n : bool) (c : bool) : Prop := ht_item t (fst (adr n)) (snd (adr n)) = cleared c (itm n).
Definition rep (x : atab) t : Prop :=
  ht_nblocks t = ht_nblocks t0 /\ ht_need_init t = false /\ ht_nextfree t = nf_of (at_nf x) /\
  item_is t true (at_cp x) /\ item_is t false (at_cq x) /\
  (forall b i, (b, i) <> p -> (b, i) <> q -> ht_item t b i = ht_item t0 b i).
Lemma valid0 n : valid_ptr t0 (adr n) = true /\ ht_item t0 (fst (adr n)) (snd (adr n)) = itm n.
Proof.
  destruct H0 as (_ & _ & G & _ & G' & _). unfold h_get in *. destruct n; cbn [adr itm].
  - destruct (valid_ptr t0 p); [split; congruence|discriminate].
  - destruct (valid_ptr t0 q); [split; congruence|discriminate].
Qed.
Lemma rep0 : rep (mkAtab EP false false) t0.
Proof.
  destruct H0 as (NI & N & G & Q & G' & D1). unfold rep. cbn [at_nf at_cp at_cq nf_of]. repeat split; auto; unfold item_is, cleared; apply (valid0 _).
Qed.
Lemma valid_rep x t n : rep x t -> valid_ptr t (adr n) = true.
Proof. intros (NB & _). destruct (valid0 n) as [V _]. unfold valid_ptr in *. rewrite NB. exact V. Qed.
Lemma get_rep x t n : rep x t -> h_get t (adr n) = Ok (cleared (if n then at_cp x else at_cq x) (itm n)).
Proof.
  intros R. unfold h_get. rewrite (valid_rep x t n R). destruct R as (_ & _ & _ & P1 & P2 & _). unfold item_is in *. destruct n; congruence.
Qed.
Lemma cleared_handle c it : hi_handle (cleared c it) = hi_handle it.
Proof. destruct c; reflexivity. Qed.
Lemma cleared_data c it : hi_data (cleared c it) = hi_data it.
Proof. destruct c; reflexivity. Qed.
Lemma step_rep l x l' x' t : rep x t -> astep l x = Some (l', x') -> exists t', step (pc_of l) t = Ok (pc_of l', t') /\ rep x' t'.
Proof.
  intros R A. assert (R0 := R). destruct R as (NB & NI & NF & P1 & P2 & FR).
  destruct l as [| |n|n|n|n]; cbn [astep pc_of step] in *.
  - rewrite NI. cbn [bind]. destruct (at_nf x) eqn:E; [| |discriminate]; injection A as <- <-; rewrite NF; cbn [nf_of]; eauto.
  - destruct (at_nf x) eqn:E; [| |discriminate]; injection A as <- <-; rewrite NF; cbn [nf_of]; eexists; (split; [reflexivity|exact R0]).
  - assert (G : forall (m : bool) (e : who3), at_nf x = (if m then EP else EQ) -> (if m then at_cp x else at_cq x) = false -> e = (if m then EQ else ER) ->
        exists t', (do p0 <- deref (ht_nextfree t); do it <- h_get t p0; Ok (L189 (Some (adr n)), set_nextfree t (hi_next it))) = Ok (L189 (Some (adr n)), t') /\
          rep (mkAtab e (at_cp x) (at_cq x)) t').
    { intros m e E C ->. rewrite NF, E. assert (nf_of (if m then EP else EQ) = Some (adr m)) as -> by (destruct m; reflexivity).
      cbn [deref bind]. rewrite (get_rep x t m R0), C. cbn [bind cleared]. eexists. split; [reflexivity|].
      unfold rep. cbn [set_nextfree ht_nblocks ht_need_init ht_nextfree ht_item at_nf at_cp at_cq]. repeat split; auto.
      destruct H0 as (_ & _ & _ & Q & _). destruct m; cbn [itm nf_of]; auto. }
    destruct (at_nf x) eqn:E; [| |discriminate].
    + destruct (at_cp x) eqn:C; [discriminate|]. injection A as <- <-. apply (G true); auto.
    + destruct (at_cq x) eqn:C; [discriminate|]. injection A as <- <-. apply (G false); auto.
  - injection A as <- <-. cbn [deref bind]. rewrite (get_rep x t n R0). cbn [bind]. rewrite cleared_handle, cleared_data.
    unfold h_put. rewrite (valid_rep x t n R0). cbn [bind]. eexists. split; [reflexivity|].
    assert (NE : p <> q) by apply H0.
    destruct n; unfold rep; cbn [ht_nblocks ht_need_init ht_nextfree at_nf at_cp at_cq adr itm]; repeat split; auto.
    + unfold item_is. cbn [ht_item adr itm]. unfold item_upd. rewrite !Z.eqb_refl. reflexivity.
    + unfold item_is in *. cbn [ht_item adr itm] in *. unfold item_upd. destruct ((fst q =? fst p) && (snd q =? snd p)) eqn:B; [|exact P2].
      exfalso. apply andb_true_iff in B. rewrite !Z.eqb_eq in B. apply NE. destruct p, q; cbn in *; f_equal; symmetry; apply B.
    + intros b i N1 N2. cbn [ht_item]. unfold item_upd. destruct ((b =? fst p) && (i =? snd p)) eqn:B; [|apply FR; auto].
      exfalso. apply andb_true_iff in B. rewrite !Z.eqb_eq in B. apply N1. destruct p; cbn in *; f_equal; apply B.
    + unfold item_is in *. cbn [ht_item adr itm] in *. unfold item_upd. destruct ((fst p =? fst q) && (snd p =? snd q)) eqn:B; [|exact P1].
      exfalso. apply andb_true_iff in B. rewrite !Z.eqb_eq in B. apply NE. destruct p, q; cbn in *; f_equal; apply B.
    + unfold item_is. cbn [ht_item adr itm]. unfold item_upd. rewrite !Z.eqb_refl. reflexivity.
    + intros b i N1 N2. cbn [ht_item]. unfold item_upd. destruct ((b =? fst q) && (i =? snd q)) eqn:B; [|apply FR; auto].
      exfalso. apply andb_true_iff in B. rewrite !Z.eqb_eq in B. apply N2. destruct q; cbn in *; f_equal; apply B.
  - injection A as <- <-. cbn [deref bind]. rewrite (get_rep x t n R0). cbn [bind]. rewrite cleared_handle. eauto.
  - injection A as <- <-. eauto.
Qed.
Lemma threads_rep sch : forall a b x a' b' x' t, rep x t -> athreads sch a b x = Some (a', b', x') ->
  exists t', threads sch (pc_of a) (pc_of b) t = Ok (pc_of a', pc_of b', t') /\ rep x' t'.
Proof.
  induction sch as [|w sch IH]; intros a b x a' b' x' t R A; cbn [athreads threads] in *.
  - injection A as <- <- <-. eauto.
  - destruct w.
    + destruct (astep b x) as [[b1 x1]|] eqn:S; [|discriminate]. destruct (step_rep _ _ _ _ _ R S) as (t1 & S1 & R1). rewrite S1. cbn [bind]. eapply IH; eauto.
    + destruct (astep a x) as [[a1 x1]|] eqn:S; [|discriminate]. destruct (step_rep _ _ _ _ _ R S) as (t1 & S1 & R1). rewrite S1. cbn [bind]. eapply IH; eauto.
Qed.
Lemma rep_same x t t' : rep x t -> rep x t' -> same_tab t t'.
Proof.
  intros (NB & NI & NF & P1 & P2 & FR) (NB' & NI' & NF' & P1' & P2' & FR'). unfold same_tab. repeat split; try congruence.
  intros b i. unfold item_is in *. cbn [adr] in *. destruct p as [p1 p2], q as [q1 q2]. cbn [fst snd] in *.
  destruct (Z.eq_dec b p1) as [->|N1].
  - destruct (Z.eq_dec i p2) as [->|N2]; [congruence|]. destruct (Z.eq_dec p1 q1) as [->|N3].
    + destruct (Z.eq_dec i q2) as [->|N4]; [congruence|]. rewrite FR, FR' by congruence. reflexivity.
    + rewrite FR, FR' by congruence. reflexivity.
  - destruct (Z.eq_dec b q1) as [->|N3].
    + destruct (Z.eq_dec i q2) as [->|N4]; [congruence|]. rewrite FR, FR' by congruence. reflexivity.
    + rewrite FR, FR' by congruence. reflexivity.
Qed.
End Rep.

(** All schedules with [m] steps of one thread and [n] of the other. *)
Fixpoint mixes (k m n : nat) : list (list bool) :=
  match k with
  | O => [[]]
  | S k => (match m with S m => map (cons false) (mixes k m n) | O => [] end) ++ (match n with S n => map (cons true) (mixes k m n) | O => [] end)
  end.
Lemma mixes_all : forall sch m n, count_occ Bool.bool_dec sch false = m -> count_occ Bool.bool_dec sch true = n -> In sch (mixes (length sch) m n).
Proof.
  induction sch as [|w sch IH]; intros m n F T; [left; reflexivity|]. cbn [length mixes]. cbn [count_occ] in *. apply in_or_app. destruct w.
  - right. destruct (Bool.bool_dec true false); [discriminate|]. destruct (Bool.bool_dec true true); [|congruence]. subst n. apply in_map. apply IH; auto.
  - left. destruct (Bool.bool_dec false true); [discriminate|]. destruct (Bool.bool_dec false false); [|congruence]. subst m. apply in_map. apply IH; auto.
Qed.
Lemma count_len sch : (count_occ Bool.bool_dec sch false + count_occ Bool.bool_dec sch true = length sch)%nat.
Proof.
  induction sch as [|w sch IH]; [reflexivity|]. cbn [count_occ length]. destruct w.
  - destruct (Bool.bool_dec true false); [discriminate|]. destruct (Bool.bool_dec true true); [lia|congruence].
  - destruct (Bool.bool_dec false true); [discriminate|]. destruct (Bool.bool_dec false false); [lia|congruence].
Qed.
Definition picture (sch : list bool) : bool :=
  match athreads sch A182 A182 (mkAtab EP false false) with
  | Some (ARet a, ARet b, mkAtab ER true cq) =>
      if both_read_first sch then a && b && negb cq
      else if false_first sch then a && negb b && cq else negb a && b && cq
  | _ => false
  end.
Lemma all_pictures : forallb picture (mixes 10 5 5) = true.
Proof. vm_compute. reflexivity. Qed.

Theorem C73_schedules_lemma t p q ip iq sch :
  two_free t p q ip iq -> five_each sch ->
  let hp := Returned (hi_handle ip) p in let hq := Returned (hi_handle iq) q in
  exists a b t', threads sch L182 L182 t = Ok (a, b, t') /\
    if both_read_first sch then a = hp /\ b = hp
    else (a, b) = (if false_first sch then (hp, hq) else (hq, hp)) /\
         exists t1 t2, alloc_handle t = Ok (hi_handle ip, p, t1) /\ alloc_handle t1 = Ok (hi_handle iq, q, t2) /\ same_tab t' t2.
Proof.
  intros H0 [F T] hp hq. assert (L := count_len sch). rewrite F, T in L.
  assert (I := mixes_all sch 5 5 F T). rewrite <- L in I. assert (AP := all_pictures). rewrite forallb_forall in AP. specialize (AP _ I).
  unfold picture in AP. destruct (athreads sch A182 A182 (mkAtab EP false false)) as [[[a b] x]|] eqn:E; [|discriminate].
  destruct (threads_rep t p q ip iq H0 sch _ _ _ _ _ _ _ (rep0 _ _ _ _ _ H0) E) as (t' & R & RT).
  destruct a as [| | | | |a]; try discriminate. destruct b as [| | | | |b]; try discriminate. destruct x as [nf cp cq]. destruct nf; try discriminate. destruct cp; try discriminate.
  cbn [pc_of] in R. exists (Returned (hi_handle (itm ip iq a)) (adr p q a)), (Returned (hi_handle (itm ip iq b)) (adr p q b)), t'. split; [exact R|].
  destruct (both_read_first sch).
  - destruct a, b, cq; try discriminate. split; reflexivity.
  - assert (cq = true) as -> by (destruct (false_first sch), a, b, cq; congruence || discriminate).
    split; [destruct (false_first sch), a, b; try discriminate; reflexivity|].
    destruct (threads_rep t p q ip iq H0 (solo ++ other) A182 A182 (mkAtab EP false false) (ARet true) (ARet false) (mkAtab ER true true) _ (rep0 _ _ _ _ _ H0) eq_refl) as (t2 & R2 & RT2).
    cbn [pc_of adr itm] in R2. rewrite C73_serial_lemma in R2.
    destruct (alloc_handle t) as [[[h1 p1] t1]|m|z m|m|]; try discriminate. cbn [bind] in R2.
    destruct (alloc_handle t1) as [[[h2 p2] t3]|m|z m|m|] eqn:E2; try discriminate. cbn [bind] in R2. injection R2 as -> -> -> -> ->.
    exists t1, t2. split; [reflexivity|]. split; [exact E2|]. eapply rep_same; eauto.
Qed.
End ThreadFacts.

From Verif Require Import SysModel.
Theorem C73_level_lemma r s : MPI_Init_thread r s = (do (_, s) <- MPI_Init s; Ok (r, s)).
Proof. unfold MPI_Init_thread, mbind. destruct (MPI_Init s) as [[u s1]|m|z m|m|]; reflexivity. Qed.
