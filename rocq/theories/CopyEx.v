(** Checkers for concrete memories, and the concrete instances used beside the property theorems. *)
From Verif Require Import Base TypeModel TypeSpec TypeProofs TypeStruct TypeCons TypeTree TypeFinal
  CopyModel CopySpec CopyProofs PackProofs CopyFinal.

(** Memory [0, n) filled by [f]. *)
Definition flat (n : Z) (f : Z -> Z) : mem := fun a => if (0 <=? a) && (a <? n) then Some (f a) else None.
Lemma flat_some n f a : 0 <= a < n -> flat n f a = Some (f a).
Proof. intros H. unfold flat. destruct (Z.leb_spec 0 a); [|lia]. destruct (Z.ltb_spec a n); [reflexivity|lia]. Qed.
Lemma flat_ok n f : n <= TWO64 -> mem_ok (flat n f).
Proof.
  intros H a Ha. unfold flat in Ha. destruct (Z.leb_spec 0 a); [|cbn in Ha; congruence].
  destruct (Z.ltb_spec a n); [lia|cbn in Ha; congruence].
Qed.
Definition inb (n : Z) (r : region) : bool := (0 <=? fst r) && (fst r + snd r <=? n).
Lemma flat_live n f rs : forallb (inb n) rs = true -> live (flat n f) rs.
Proof.
  intros H r a Hr Ha. rewrite forallb_forall in H. specialize (H r Hr). unfold inb in H. apply andb_true_iff in H.
  rewrite !Z.leb_le in H. unfold inside in Ha. rewrite flat_some by lia. discriminate.
Qed.
Definition apartb (r s : region) : bool := (fst r + snd r <=? fst s) || (fst s + snd s <=? fst r).
Lemma apartb_ok r s : apartb r s = true -> apart r s.
Proof. unfold apartb. rewrite orb_true_iff, !Z.leb_le. intros H a [X Y]. unfold inside in *. lia. Qed.
Lemma all_apart_ok rs ss : forallb (fun r => forallb (apartb r) ss) rs = true -> all_apart rs ss.
Proof.
  intros H r s Hr Hs. rewrite forallb_forall in H. specialize (H r Hr). rewrite forallb_forall in H. apply apartb_ok. auto.
Qed.
Fixpoint pairb (rs : list region) : bool :=
  match rs with [] => true | r :: rest => forallb (apartb r) rest && pairb rest end.
Lemma pairwise_ok rs : pairb rs = true -> pairwise_apart rs.
Proof.
  induction rs as [|x rs IH]; intros H i j r s Hi Hj N.
  - destruct i; discriminate.
  - cbn [pairb] in H. apply andb_true_iff in H. destruct H as [H1 H2]. rewrite forallb_forall in H1.
    destruct i as [|i], j as [|j]; cbn [nth_error] in *; try congruence.
    + injection Hi as <-. apply apartb_ok, H1. eapply nth_error_In; eauto.
    + injection Hj as <-. intros a [X Y]. apply (apartb_ok x r (H1 r (nth_error_In _ _ Hi)) a). auto.
    + eapply IH; eauto.
Qed.
Definition intb (z : Z) : bool := (INT_MIN <=? z) && (z <=? INT_MAX).
Lemma fits_ok n ext tm : forallb (fun e => intb (snd e)) (elements n ext tm) = true -> offsets_fit n ext tm.
Proof.
  intros H e He. rewrite forallb_forall in H. specialize (H e He). unfold intb in H. apply andb_true_iff in H.
  rewrite !Z.leb_le in H. exact H.
Qed.
Definition wfb (c : cfg) (t : typestruct) : bool :=
  (0 <=? ts_count t) && (ts_count t <=? INT_MAX) && (1 <=? Z.of_nat (length (ts_pairs t))) &&
  (ts_count t <=? Z.of_nat (length (ts_pairs t))) &&
  forallb (fun e => match Simpletype_length c (fst e) with Ok _ => true | _ => false end) (typemap t) &&
  forallb (fun e => (LONG_MIN <=? snd e) && (snd e <=? LONG_MAX)) (typemap t).
Lemma wfb_ok c t : wfb c t = true -> wf_ts c t.
Proof.
  unfold wfb. rewrite !andb_true_iff, !Z.leb_le, !forallb_forall. intros [[[[[H1 H2] H3] H4] H5] H6]. constructor.
  - lia.
  - lia.
  - intros e He. specialize (H5 e He). destruct (Simpletype_length c (fst e)); try discriminate. eauto.
  - intros e He. specialize (H6 e He). apply andb_true_iff in H6. rewrite !Z.leb_le in H6. exact H6.
Qed.

(** vector(2 blocks of 1, stride 2) of MPI_INT, and contiguous(2) of MPI_INT, both committed. *)
Definition ex_vec : typestruct :=
  match build default_cfg (fun _ => junk0 0 0) (EVector 2 1 2 (EPre (-3))) with Ok t => Type_commit t | _ => pre1 0 0 end.
Definition ex_con : typestruct :=
  match build default_cfg (fun _ => junk0 0 0) (EContig 2 (EPre (-3))) with Ok t => Type_commit t | _ => pre1 0 0 end.
Lemma ex_vec_typed : typed default_cfg ex_vec 12 /\ typemap ex_vec = [(2, 0); (2, 8)].
Proof. split; [split; [apply wfb_ok|]|]; vm_compute; reflexivity. Qed.
Lemma ex_con_typed : typed default_cfg ex_con 8 /\ typemap ex_con = [(2, 0); (2, 4)].
Proof. split; [split; [apply wfb_ok|]|]; vm_compute; reflexivity. Qed.

Definition ex_mem : mem := flat 1000 (fun a => a * 7 mod 256).
Lemma ex_transfer : transfer default_cfg 3 ex_vec 12 3 ex_con 8 /\ transfer default_cfg 3 ex_con 8 3 ex_vec 12.
Proof.
  assert (V := ex_vec_typed). assert (C := ex_con_typed).
  split; constructor; try apply V; try apply C; vm_compute; congruence.
Qed.
Lemma ex_copy : mem_ok ex_mem /\ offsets_fit 3 12 (typemap ex_vec) /\ offsets_fit 3 8 (typemap ex_con) /\
  let A := layout default_cfg 100 3 12 (typemap ex_vec) in let B := layout default_cfg 500 3 8 (typemap ex_con) in
  A = [(100, 4); (108, 4); (112, 4); (120, 4); (124, 4); (132, 4)] /\
  B = [(500, 4); (504, 4); (508, 4); (512, 4); (516, 4); (520, 4)] /\
  buffers_ok ex_mem A B /\ live ex_mem A /\ all_apart A B /\ pairwise_apart A /\ map snd A = map snd B /\
  types_agree 3 ex_vec 3 ex_con.
Proof.
  split; [apply flat_ok; unfold TWO64; lia|]. split; [apply fits_ok; vm_compute; reflexivity|]. split; [apply fits_ok; vm_compute; reflexivity|].
  cbv zeta. split; [vm_compute; reflexivity|]. split; [vm_compute; reflexivity|].
  split; [split; [apply flat_live; vm_compute; reflexivity|split; [apply flat_live; vm_compute; reflexivity|
     split; [apply all_apart_ok; vm_compute; reflexivity|apply pairwise_ok; vm_compute; reflexivity]]]|].
  split; [apply flat_live; vm_compute; reflexivity|]. split; [apply all_apart_ok; vm_compute; reflexivity|].
  split; [apply pairwise_ok; vm_compute; reflexivity|]. split; [vm_compute; reflexivity|].
  intros k a b Ha Hb. assert (G : forall x, In x (elements 3 0 (typemap ex_vec) ++ elements 3 0 (typemap ex_con)) -> fst x = 2).
  { assert (F : forallb (fun x => fst x =? 2) (elements 3 0 (typemap ex_vec) ++ elements 3 0 (typemap ex_con)) = true) by (vm_compute; reflexivity).
    rewrite forallb_forall in F. intros x Hx. apply Z.eqb_eq. apply F. exact Hx. }
  rewrite (G a), (G b); [reflexivity| |]; apply in_or_app; [right|left]; eapply nth_error_In; eauto.
Qed.

(** C50: a char at displacement 2^31. *)
Definition ex_big : res typestruct := build default_cfg (fun _ => junk0 0 0) (EStruct [(1, 2147483648, EPre (-1))]).
Definition ex_bigt : typestruct :=
  Type_commit (mkTs 1 2147483649 2147483647 0 0 0 [mkPair 2147483648 0; mkPair 0 0]).
Definition ex_char : typestruct := pre1 1 0.
Definition ex_bigmem : mem := flat 17179869184 (fun a => if a =? 6442450944 then 7 else 1).
Lemma C50_refuted_lemma : exists (t : typestruct) (ext : Z) (m m' : mem) (source dest : Z),
  ex_big = Ok t /\ mem_ok m /\ transfer default_cfg 1 (Type_commit t) ext 1 ex_char 1 /\
  let S := layout default_cfg source 1 ext (typemap (Type_commit t)) in
  let D := layout default_cfg dest 1 1 (typemap ex_char) in
  S = [(source + 2147483648, 1)] /\ D = [(dest, 1)] /\ buffers_ok m S D /\
  Pcopy_data2 default_cfg m source 1 (Type_commit t) dest 1 ex_char = Ok m' /\
  m (source + 2147483648) = Some 7 /\ m' dest = Some 1 /\ ~ copied m m' S D.
Proof.
  destruct ex_big as [t| | | |] eqn:E; [|vm_compute in E; discriminate E..].
  assert (T : Type_commit t = ex_bigt) by (vm_compute in E; apply Ok_inj in E; subst t; reflexivity).
  destruct (Pcopy_data2 default_cfg ex_bigmem 4294967296 1 ex_bigt 100 1 ex_char) as [m'| | | |] eqn:P.
  all: assert (V : match Pcopy_data2 default_cfg ex_bigmem 4294967296 1 ex_bigt 100 1 ex_char with Ok m' => m' 100 | _ => None end = Some 1)
    by (vm_compute; reflexivity); rewrite P in V; try discriminate V.
  exists t, 2, ex_bigmem, m', 4294967296, 100. rewrite T. cbv zeta.
  split; [reflexivity|]. split; [apply flat_ok; unfold TWO64; lia|]. split.
  { constructor; try (split; [apply wfb_ok|]); vm_compute; congruence. }
  split; [reflexivity|]. split; [reflexivity|]. split.
  { split; [apply flat_live; vm_compute; reflexivity|split; [apply flat_live; vm_compute; reflexivity|
     split; [apply all_apart_ok; vm_compute; reflexivity|apply pairwise_ok; vm_compute; reflexivity]]]. }
  split; [exact P|]. split; [reflexivity|]. split; [exact V|]. intros [C _].
  specialize (C O (6442450944, 1) (100, 1) 0 eq_refl eq_refl ltac:(cbn; lia)). cbn [fst snd] in C. rewrite Z.add_0_r in C.
  rewrite V in C. vm_compute in C. discriminate C.
Qed.

(** C51: an int sent to a float, checking on. *)
Definition ex_chk : cfg := mkCfg 4 8 true.
Lemma ex_check : let S := layout32 ex_chk 100 2 4 (typemap (pre1 4 2)) in let D := layout32 ex_chk 500 2 4 (typemap (pre1 4 8)) in
  cfg_ok ex_chk /\ transfer ex_chk 2 (pre1 4 2) 4 2 (pre1 4 8) 4 /\ ~ types_agree 2 (pre1 4 2) 2 (pre1 4 8) /\ buffers_ok ex_mem S D.
Proof.
  cbv zeta. split; [unfold cfg_ok; cbn; lia|]. split; [constructor; try (split; [apply wfb_ok|]); vm_compute; congruence|]. split.
  - intros H. specialize (H O (2, 0) (8, 0) eq_refl eq_refl). cbn in H. lia.
  - split; [apply flat_live; vm_compute; reflexivity|split; [apply flat_live; vm_compute; reflexivity|
     split; [apply all_apart_ok; vm_compute; reflexivity|apply pairwise_ok; vm_compute; reflexivity]]].
Qed.

(** Packing. *)
Lemma ex_pack : let U := layout default_cfg 100 3 12 (typemap ex_vec) in
  pack_ok ex_mem U 500 40 5 /\ total_size U = 24 /\ pairwise_apart U.
Proof.
  cbv zeta. split; [|split; [vm_compute; reflexivity|apply pairwise_ok; vm_compute; reflexivity]].
  constructor.
  - apply flat_ok; unfold TWO64; lia.
  - apply flat_live; vm_compute; reflexivity.
  - apply flat_live; vm_compute; reflexivity.
  - apply all_apart_ok; vm_compute; reflexivity.
  - lia.
  - unfold INT_MAX; lia.
  - vm_compute; congruence.
Qed.
Definition ex_items : list item := [mkItem 100 3 ex_vec 12; mkItem 200 2 (pre1 8 9) 8; mkItem 250 0 ex_con 8].
Definition ex_items' : list item := [mkItem 700 3 ex_vec 12; mkItem 300 2 (pre1 8 9) 8; mkItem 100 0 ex_con 8].
Lemma ex_items_ok : Forall (fun it => typed default_cfg (it_type it) (it_ext it)) ex_items /\
  Forall (fun it => typed default_cfg (it_type it) (it_ext it)) ex_items' /\
  map (fun it => (it_count it, it_type it, it_ext it)) ex_items = map (fun it => (it_count it, it_type it, it_ext it)) ex_items' /\
  pack_ok ex_mem (items_layout default_cfg ex_items) 500 50 5 /\ pack_ok ex_mem (items_layout default_cfg ex_items') 500 50 5 /\
  5 + total_size (items_layout default_cfg ex_items) <= 50 /\ pairwise_apart (items_layout default_cfg ex_items').
Proof.
  assert (V := proj1 ex_vec_typed). assert (C := proj1 ex_con_typed).
  assert (D : typed default_cfg (pre1 8 9) 8) by (split; [apply wfb_ok|]; vm_compute; reflexivity).
  split; [apply Forall_cons; [exact V|apply Forall_cons; [exact D|apply Forall_cons; [exact C|apply Forall_nil]]]|].
  split; [apply Forall_cons; [exact V|apply Forall_cons; [exact D|apply Forall_cons; [exact C|apply Forall_nil]]]|]. split; [reflexivity|].
  assert (P : forall its, forallb (inb 1000) (items_layout default_cfg its) = true ->
    forallb (fun r => forallb (apartb r) [(500, 50)]) (items_layout default_cfg its) = true ->
    5 + total_size (items_layout default_cfg its) <= INT_MAX -> pack_ok ex_mem (items_layout default_cfg its) 500 50 5).
  { intros its H1 H2 H3. constructor; auto; try lia; try (unfold INT_MAX; lia).
    - apply flat_ok; unfold TWO64; lia.
    - apply flat_live; exact H1.
    - apply flat_live; vm_compute; reflexivity.
    - apply all_apart_ok; exact H2. }
  split; [apply P; vm_compute; congruence|]. split; [apply P; vm_compute; congruence|].
  split; [vm_compute; congruence|apply pairwise_ok; vm_compute; reflexivity].
Qed.
