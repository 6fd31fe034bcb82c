(** Deleting while walking is safe for every list; the test program of list.c prints what sequences say. *)
From Verif Require Import Base ListModel ListSpec ListProofs ListRefine PrintModel PrintSpec PrintFacts ListMainModel ListMainSpec.
Local Open Scope string_scope.

Lemma replace_same l xs (a : lstate Z) : look Z l a = Some xs -> NoDup (names Z a) -> replace Z l xs a = a.
Proof.
  induction a as [|[k ys] r IH]; intros L N; [reflexivity|]. cbn [look] in L. inversion N; subst. cbn [replace map fst]. destruct (Z.eqb_spec k l) as [->|Hk].
  - injection L as ->. f_equal. unfold replace. rewrite <- (map_id r) at 2. apply map_ext_in. intros [k ys] Hin. cbn [fst].
    destruct (Z.eqb_spec k l) as [->|]; [|reflexivity]. exfalso. apply H1. apply (in_map fst) in Hin. exact Hin.
  - f_equal. apply IH; auto.
Qed.
Lemma replace_twice l xs ys (a : lstate Z) : replace Z l xs (replace Z l ys a) = replace Z l xs a.
Proof.
  unfold replace. rewrite map_map. apply map_ext. intros [k zs]. cbn [fst]. destruct (Z.eqb_spec k l) as [->|N]; cbn [fst].
  - rewrite Z.eqb_refl. reflexivity.
  - destruct (Z.eqb_spec k l); [contradiction|reflexivity].
Qed.

Lemma abs_delete h a l ys i d zs : Abs Z h a -> look Z l a = Some (ys ++ (i, d) :: zs)%list ->
  exists h', list_delete_item l (Some i) h = Ok h' /\ Abs Z h' (replace Z l (ys ++ zs)%list a).
Proof.
  intros A L. destruct (after_all Z Z.eqb [ODeleteItem Z l i] h a (fun h' a' => Abs Z h' a') A (fun _ _ X => X)) as (out & h' & a' & E & St & A').
  - exists (ys ++ (i, d) :: zs)%list, d. split; [exact L|]. apply in_or_app. right. left. reflexivity.
  - exact I.
  - cbn [after] in A'. cbn [lexec] in E. destruct (list_delete_item l (Some i) h) as [h1| | | |] eqn:E1; try discriminate. cbn [bind] in E.
    injection E as _ <-. exists h1. split; [reflexivity|].
    pose proof A as (I & HM & HC). assert (Hl := look_in _ _ _ _ L). assert (G := gof_look _ _ _ _ L).
    assert (IC : lh_itemcount h <= INT_MAX) by (rewrite (abs_ic Z h a A); exact HM).
    destruct (list_delete_item_ok Z I Hl IC G) as (h2 & E2 & I2 & _). rewrite E1 in E2. injection E2 as <-.
    apply (abs_replace Z h); auto.
    + rewrite (abs_ic Z _ _ A'). exact (proj1 (proj2 A')).
    + rewrite (abs_hc Z _ _ A'). exact (proj2 (proj2 A')).
Qed.

Lemma weed_loop_ok strict sel l : forall zs ys fuel i h a, Abs Z h a -> look Z l a = Some (ys ++ zs)%list -> (length zs < fuel)%nat ->
  0 <= i -> i + Z.of_nat (length zs) <= INT_MAX ->
  exists h', weed_loop strict fuel sel l (first Z zs None) i h = Ok (weed_text sel i (map snd zs), h') /\
    Abs Z h' (replace Z l (ys ++ kept sel i zs)%list a).
Proof.
  induction zs as [|[j d] zs IH]; intros ys fuel i h a A L Hf Hi Hn.
  - destruct fuel; [simpl in Hf; lia|]. exists h. split; [reflexivity|]. cbn [kept]. rewrite replace_same; [exact A|exact L|]. destruct A as (I & _). exact (li_nodup I).
  - destruct fuel as [|fuel]; [simpl in Hf; lia|]. cbn [length] in Hf, Hn.
    destruct (abs_parts _ _ _ _ A L) as (ids & g & I & Hl & G). pose proof (li_seg I Hl) as SG. rewrite G in SG. apply dseg_app in SG. destruct SG as [_ [E _]].
    cbn [first weed_loop]. unfold listitem_data, listitem_next. cbn [get_item]. rewrite E. cbn [bind it_data it_next printf map snd weed_text kept].
    assert (CI : chk_int (i + 1) = Ok (i + 1)).
    { unfold chk_int, in_int. unfold INT_MIN, INT_MAX in *. destruct (Z.leb_spec (-2147483648) (i + 1)); [|lia]. destruct (Z.leb_spec (i + 1) 2147483647); [reflexivity|lia]. }
    destruct (sel i d) eqn:S.
    + destruct (abs_delete _ _ _ _ _ _ _ A L) as (h1 & E1 & A1). rewrite E1. cbn [bind]. rewrite CI. cbn [bind].
      assert (L1 : look Z l (replace Z l (ys ++ zs)%list a) = Some (ys ++ zs)%list) by (rewrite look_replace, Z.eqb_refl, L; reflexivity).
      destruct (IH ys fuel (i + 1) h1 _ A1 L1) as (h' & E' & A'); [lia|lia|lia|]. exists h'. rewrite E'. cbn [bind app]. split; [reflexivity|].
      rewrite replace_twice in A'. exact A'.
    + cbn [bind]. rewrite CI. cbn [bind].
      assert (L1 : look Z l a = Some ((ys ++ [(j, d)]) ++ zs)%list) by (rewrite <- app_assoc; exact L).
      destruct (IH _ fuel (i + 1) h _ A L1) as (h' & E' & A'); [lia|lia|lia|]. exists h'. rewrite E'. cbn [bind app]. split; [reflexivity|].
      rewrite <- app_assoc in A'. exact A'.
Qed.

Theorem C101_weed_lemma strict sel (h : lheap Z) a l xs : Abs Z h a -> look Z l a = Some xs ->
  exists h', weed strict sel l h = Ok (weed_text sel 0 (map snd xs), h') /\
    forall ops, ListSpec.after Z Z.eqb ops h' (replace Z l (kept sel 0 xs) a) (fun h2 a2 => forall k ys, look Z k a2 = Some ys ->
      list_size k h2 = Ok (Z.of_nat (length ys)) /\ list_traverse k h2 = Ok (map snd ys) /\ list_rev_traverse k h2 = Ok (rev (map snd ys))).
Proof.
  intros A L. destruct (abs_parts _ _ _ _ A L) as (ids & g & I & Hl & G). pose proof (fuel_enough _ I Hl) as FE. rewrite G in FE.
  assert (B : 0 + Z.of_nat (length xs) <= INT_MAX).
  { pose proof A as (I' & HM & _). pose proof (sumlen_le Z (gof Z a) (look_in _ _ _ _ L)) as SL. rewrite (gof_look _ _ _ _ L) in SL.
    rewrite <- (li_ic I'), (abs_ic Z h a A) in SL. lia. }
  unfold weed. rewrite (list_head_item_ok Z I Hl), G. cbn [bind].
  destruct (weed_loop_ok strict sel l xs [] (lfuel h) 0 h a A L FE ltac:(lia) B) as (h' & E & A'). exists h'. split; [exact E|].
  intros ops. apply after_all; [exact A'|]. intros h2 a2 A2 k ys L2. apply (abs_size_traverse Z h2 a2 k ys A2 L2).
Qed.

Theorem C101_main_lemma junk : listmain false junk = Ok (listmain_text, false) /\ listmain true junk = UB "printf: %d with a long".
Proof. split; vm_compute; reflexivity. Qed.
