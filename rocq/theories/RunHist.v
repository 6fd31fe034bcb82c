(** Histories of list calls from the text (C125). *)
From Verif Require Import Base LinkModel ListModel ListSpec ListRefine TextModel TextSpec SourceModel SourceSpec RunSpec RunFacts RunList RunListSpec.
From Coq Require Import Ascii.
#[local] Open Scope string_scope.
#[local] Open Scope list_scope.
#[local] Open Scope Z_scope.

Lemma rep_set h s o i v : rep h s -> rep h (set_cell s o i "" v).
Proof.
  intros R. assert (C1 : forall o' f, f <> "" -> s_cell (set_cell s o i "" v) o' 0 f = s_cell s o' 0 f).
  { intros o' f F. rewrite set_cell_get. destruct (String.eqb_spec f ""); [contradiction|]. rewrite Bool.andb_false_r. reflexivity. }
  destruct R; constructor; intros; rewrite ?C1 by discriminate; unfold set_cell; cbn [s_glob s_fresh s_junk]; auto.
Qed.
Lemma rep_fuel h s : rep h s -> lfuel h = Datatypes.S (Z.to_nat (s_fresh s)).
Proof. intros R. unfold lfuel. rewrite (rp_fresh _ _ R). reflexivity. Qed.
Lemma alike_map {A B A'} (Q : A -> B -> Prop) (R : A' -> B -> Prop) x y (f : A -> res A') : alike Q x y -> (forall a b, Q a b -> alike R (f a) (Ok b)) -> alike R (bind x f) y.
Proof. intros H G. rewrite <- (bind_Ok y). exact (alike_bind Q R x y f Ok H G). Qed.
Lemma given_name : ~ In "given" ["abort"; "fprintf"; "printf"; "perror"; "malloc"; "free"] /\ ~ In "given" (map fst (prog s_list_c)).
Proof. rewrite p_list_ok. split; cbn [In map fst p_list]; intros H; repeat (destruct H as [H|H]; [discriminate|]); exact H. Qed.
Lemma two_cells s o v w : s_cell (set_cell (set_cell s o 0 "" v) o 1 "" w) o 0 "" = v.
Proof. rewrite !set_cell_get, !Z.eqb_refl. reflexivity. Qed.
Lemma one_cell s o i v : s_cell (set_cell s o i "" v) o i "" = v.
Proof. rewrite set_cell_get, !Z.eqb_refl. reflexivity. Qed.

Lemma text_step op h s : rep h s -> is_call op -> alike (fun a r => shows (fst a) (fst r) (snd r) /\ rep (snd a) (snd r)) (lexec val_eqb op h) (text_call op s).
Proof.
  intros R H. assert (Hd : (4 <= 4)%nat) by lia. pose proof (rep_fuel _ _ R) as En.
  unfold text_call, enough. destruct op as [|l|l|l v|l v|l v|l i|l|l|l|l v|l f|l t|l|l f|l|l|]; cbn [lexec call_of vars_for fst snd is_call] in *; try contradiction; rewrite <- ?En.
  - eapply alike_map; [apply C124_new_lemma; eauto|]. intros [? ?] [? ?] [? ?]. cbn [alike fst snd shows ptr] in *. auto.
  - eapply alike_map; [apply C124_free_lemma; eauto|]. intros ? [? ?] ?. cbn [alike fst snd shows ptr] in *. auto.
  - eapply alike_map; [apply C124_read_lemma; eauto|]. intros ? ? ->. cbn [alike fst snd shows ptr] in *. auto.
  - eapply alike_map; [apply C124_add_lemma; eauto|]. intros [? ?] [? ?] [? ?]. cbn [alike fst snd shows ptr] in *. auto.
  - eapply alike_map; [apply C124_add_lemma; eauto|]. intros [? ?] [? ?] [? ?]. cbn [alike fst snd shows ptr] in *. auto.
  - eapply alike_map; [apply C124_delete_lemma; eauto|]. intros [? ?] [? ?] [? ?]. cbn [alike fst snd shows ptr] in *. auto.
  - eapply alike_map; [apply (C124_delete_item_lemma _ _ _ _ _ _ (Some i)); eauto|]. intros ? [? ?] ?. cbn [alike fst snd shows ptr] in *. auto.
  - eapply alike_map; [apply C124_read_lemma; eauto|]. intros ? ? ->. cbn [alike fst snd shows ptr] in *. auto.
  - eapply alike_map; [eapply C124_ends_lemma; [apply rep_set; eauto|apply one_cell|auto]|]. intros [v|] ? ->; cbn [alike fst snd shows]; auto using rep_set, one_cell.
  - eapply alike_map; [eapply C124_ends_lemma; [apply rep_set; eauto|apply one_cell|auto]|]. intros [v|] ? ->; cbn [alike fst snd shows]; auto using rep_set, one_cell.
  - eapply alike_map; [apply C124_search_lemma; eauto|]. intros ? ? ->. cbn [alike fst snd shows ptr] in *. auto.
  - eapply alike_map; [apply C124_search_func_lemma; [exact R|discriminate|exact (proj1 given_name)|exact (proj2 given_name)|intros v; cbn [handed alike fst snd]; split; [apply truth_of_bool|reflexivity]|exact Hd]|]. intros ? ? ->. cbn [alike fst snd shows]. auto.
  - eapply alike_map; [eapply C124_next_lemma; [apply rep_set, rep_set; eauto|apply one_cell|apply two_cells|auto]|]. intros [[v c]|] ? ->; cbn [alike fst snd shows]; auto 6 using rep_set, one_cell.
  - eapply alike_map; [apply C124_duplicate_lemma; eauto|].
    + intros q E. unfold list_new in E. apply bind_ok in E. destruct E as (c & _ & E). injection E as <-. unfold lfuel. cbn [snd lh_next set_headcount bump_next set_lists]. rewrite (rp_fresh _ _ R). reflexivity.
    + intros [? ?] [? ?] [? ?]. cbn [alike fst snd shows ptr] in *. auto.
  - eapply alike_map; [apply C124_apply_lemma; [exact R|discriminate|exact (proj1 given_name)|exact (proj2 given_name)|intros v; reflexivity|exact Hd]|]. intros ? ? ->. cbn [alike fst snd shows]. auto.
  - rewrite (C124_verify_lemma _ _ _ h); auto. cbn [alike fst snd shows]. auto.
Qed.
Lemma history : forall ops h s a, rep h s -> Abs val h a -> text_after ops s a.
Proof.
  induction ops as [|op r IH]; intros h s a R A; cbn [text_after]; [exact I|]. intros C L F.
  destruct (step_refines val val_eqb h a op A L F) as (out & h' & a' & E & S & A'). pose proof (text_step op h s R C) as T. rewrite E in T.
  destruct (text_call op s) as [[v s']| | | |]; cbn [alike] in T; try contradiction. destruct T as [T R']. cbn [fst snd] in T, R'. exists v, s', out, a'. eauto 6.
Qed.
Definition link_of (v : val) : option Z := match v with VP i _ => Some i | _ => None end.
Definition junk_of (s : cstate) (i : Z) : ListModel.item val := mkItem (s_junk s i "data") (link_of (s_junk s i "prev")) (link_of (s_junk s i "next")).
Lemma link_ptr p : ptr (link_of (ptr p)) = ptr p.
Proof. destruct p; reflexivity. Qed.
Lemma rep_fresh s : fresh s -> rep (lheap_init (junk_of s)) s.
Proof.
  intros [C I H N P X]. constructor; intros; rewrite ?C; auto. unfold lheap_init, junk_of. cbn [lh_junk it_data it_prev it_next].
  destruct (P i) as [p ->], (X i) as [q ->]. rewrite !link_ptr. auto.
Qed.
Lemma C125_history_lemma : forall ops s, fresh s -> text_after ops s [].
Proof. intros ops s F. apply (history ops (lheap_init (junk_of s))); [apply rep_fresh; exact F|apply abs_init]. Qed.
