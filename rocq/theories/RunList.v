(** The routines of list.c, run from their text, and the model (C124). *)
From Verif Require Import Base LinkModel ListModel TextModel TextSpec SourceModel SourceSpec RunSpec RunFacts.
From Coq Require Import Ascii.
#[local] Open Scope string_scope.
#[local] Open Scope list_scope.
#[local] Open Scope Z_scope.

Definition numbers : list (string * Z) := Eval vm_compute in defined_in text_mpi_h.
Lemma numbers_ok : defined_in text_mpi_h = numbers. Proof. vm_compute. reflexivity. Qed.
Definition p_list : program := Eval vm_compute in prog s_list_c.
Lemma p_list_ok : prog s_list_c = p_list. Proof. vm_compute. reflexivity. Qed.

(** Changes of the memory and of the heap. *)
Ltac cell_cases :=
  intros; cbn [lh_items lh_lists lh_itemcount lh_headcount lh_next lh_junk set_items set_lists set_itemcount set_headcount bump_next]; rewrite ?set_cell_get; cbn [String.eqb Ascii.eqb Bool.eqb];
  unfold upd; rewrite ?Bool.andb_false_r, ?Bool.andb_true_r.
Ltac rep_solve R :=
  let D := fresh "D" in
  destruct R; constructor; auto; cell_cases; auto;
  match goal with
  | |- _ =>
    repeat match goal with
    | |- context [Z.eqb ?j ?i] => destruct (Z.eqb_spec j i) as [->|D]; rewrite ?Z.eqb_refl; cbn [andb]
    end; auto; try reflexivity
  end;
  repeat match goal with H : forall _, s_cell _ _ _ ?g = _ |- context [s_cell _ _ _ ?g] => rewrite H end;
  repeat match goal with H : lh_items _ _ = _ |- _ => rewrite ?H; revert H | H : lh_lists _ _ = _ |- _ => rewrite ?H; revert H end; intros; auto; try reflexivity.
Lemma rep_item h s i it f v it' : rep h s -> lh_items h i = Some it ->
  (f = "data" /\ it' = w_data v it \/ (exists p, v = ptr p /\ (f = "prev" /\ it' = w_prev p it \/ f = "next" /\ it' = w_next p it))) ->
  rep (set_items h (upd (lh_items h) i (Some it'))) (set_cell s i 0 f (Some v)).
Proof.
  intros R E H. pose proof (rp_kind h s R i) as K. rewrite E in K. destruct K as [K|K]; [discriminate|].
  destruct H as [[-> ->]|(p & -> & [[-> ->]|[-> ->]])]; rep_solve R.
  all: match goal with U : forall i, _ <= i -> _, H : _ <= ?i |- _ => destruct (U i H) as [U1 U2]; congruence end.
Qed.
Lemma rep_list h s l x f v x' : rep h s -> lh_lists h l = Some x ->
  ((exists z, f = "count" /\ v = VI z /\ x' = w_count z x) \/ (exists p, v = ptr p /\ (f = "head" /\ x' = w_head p x \/ f = "tail" /\ x' = w_tail p x))) ->
  rep (set_lists h (upd (lh_lists h) l (Some x'))) (set_cell s l 0 f (Some v)).
Proof.
  intros R E H. pose proof (rp_kind h s R l) as K. rewrite E in K. destruct K as [K|K]; [|discriminate].
  destruct H as [(z & -> & -> & ->)|(p & -> & [[-> ->]|[-> ->]])]; rep_solve R.
  all: match goal with U : forall i, _ <= i -> _, H : _ <= ?i |- _ => destruct (U i H) as [U1 U2]; congruence end.
Qed.
Lemma rep_ic h s c : rep h s -> rep (set_itemcount h c) (set_glob s "itemcount" (VI c)).
Proof. intros R. destruct R; constructor; auto. Qed.
Lemma rep_hc h s c : rep h s -> rep (set_headcount h c) (set_glob s "headcount" (VI c)).
Proof. intros R. destruct R; constructor; auto. Qed.
Lemma rep_drop_item h s i it : rep h s -> lh_items h i = Some it -> rep (set_items h (upd (lh_items h) i None)) (drop_object s i).
Proof.
  intros R E. pose proof (rp_kind h s R i) as K. rewrite E in K. destruct K as [K|K]; [discriminate|]. unfold drop_object.
  rep_solve R; cbn [s_cell]; rewrite ?Z.eqb_refl; repeat match goal with D : ?a <> ?b |- context [Z.eqb ?a ?b] => rewrite (proj2 (Z.eqb_neq a b) D) | |- context [Z.eqb ?j ?i] => destruct (Z.eqb_spec j i) as [->|D]; rewrite ?K end; auto.
  all: try (match goal with U : forall i, _ <= i -> _, H : _ <= ?i |- _ => destruct (U i H) as [U1 U2]; auto end).
Qed.
Lemma rep_drop_list h s l x : rep h s -> lh_lists h l = Some x -> rep (set_lists h (upd (lh_lists h) l None)) (drop_object s l).
Proof.
  intros R E. pose proof (rp_kind h s R l) as K. rewrite E in K. destruct K as [K|K]; [|discriminate]. unfold drop_object.
  rep_solve R; cbn [s_cell]; rewrite ?Z.eqb_refl; repeat match goal with D : ?a <> ?b |- context [Z.eqb ?a ?b] => rewrite (proj2 (Z.eqb_neq a b) D) | |- context [Z.eqb ?j ?i] => destruct (Z.eqb_spec j i) as [->|D]; rewrite ?K end; auto.
  all: try (match goal with U : forall i, _ <= i -> _, H : _ <= ?i |- _ => destruct (U i H) as [U1 U2]; auto end).
Qed.
Lemma rep_new_item h s : rep h s -> rep (bump_next (set_items h (upd (lh_items h) (lh_next h) (Some (lh_junk h (lh_next h)))))) (new_state s "Listitem").
Proof.
  intros R. pose proof (rp_unused h s R (lh_next h) (Z.le_refl _)) as [U1 U2]. pose proof (rp_junk h s R (lh_next h)) as (J1 & J2 & J3). pose proof (rp_fresh h s R) as F.
  unfold new_state, new_object. cbn [snd]. rewrite F. destruct R; constructor; cell_cases; cbn [s_cell s_glob s_fresh s_junk]; auto; try lia.
  all: try (destruct (Z.eqb_spec i (lh_next h)) as [->|D]; cbn [Z.eqb andb]; auto; cbn; congruence).
  all: try (destruct (Z.eqb_spec l (lh_next h)) as [->|D]; cbn [Z.eqb andb]; auto; rewrite U2; reflexivity).
  all: match goal with H : _ <= ?j |- _ /\ _ => cbn [lh_next bump_next set_items set_lists] in H; destruct (Z.eqb_spec j (lh_next h)) as [->|D]; [lia|]; apply rp_unused; lia | j : Z |- _ => destruct (Z.eqb_spec j (lh_next h)) as [->|D]; auto end.
Qed.
Lemma rep_new_list h s : rep h s -> rep (bump_next (set_lists h (upd (lh_lists h) (lh_next h) (Some (mkHdr None None 0)))))
  (set_cell (set_cell (set_cell (new_state s "List") (lh_next h) 0 "head" (Some VN)) (lh_next h) 0 "tail" (Some VN)) (lh_next h) 0 "count" (Some (VI 0))).
Proof.
  intros R. pose proof (rp_unused h s R (lh_next h) (Z.le_refl _)) as [U1 U2]. pose proof (rp_fresh h s R) as F.
  destruct R; constructor; cell_cases; unfold new_state, new_object; cbn [snd s_cell s_glob s_fresh s_junk]; auto; try lia; rewrite ?F.
  all: try (destruct (Z.eqb_spec i (lh_next h)) as [->|D]; cbn [Z.eqb andb]; auto; rewrite U1; reflexivity).
  all: try (destruct (Z.eqb_spec l (lh_next h)) as [->|D]; cbn [Z.eqb andb]; auto; cbn; congruence).
  all: try (cbn [s_fresh s_junk set_cell]; auto; fail).
  all: match goal with H : _ <= ?j |- _ /\ _ => cbn [lh_next bump_next set_items set_lists] in H; destruct (Z.eqb_spec j (lh_next h)) as [->|D]; [lia|]; apply rp_unused; lia | j : Z |- _ => destruct (Z.eqb_spec j (lh_next h)) as [->|D]; auto end.
Qed.
Lemma item_cells h s i it : rep h s -> lh_items h i = Some it -> s_cell s i 0 "data" = Some (it_data it) /\ s_cell s i 0 "prev" = Some (ptr (it_prev it)) /\ s_cell s i 0 "next" = Some (ptr (it_next it)).
Proof. intros R E. rewrite (rp_data _ _ R), (rp_prev _ _ R), (rp_next _ _ R), E. auto. Qed.
Lemma item_none h s i : rep h s -> lh_items h i = None -> s_cell s i 0 "data" = None /\ s_cell s i 0 "prev" = None /\ s_cell s i 0 "next" = None.
Proof. intros R E. rewrite (rp_data _ _ R), (rp_prev _ _ R), (rp_next _ _ R), E. auto. Qed.
Lemma list_cells h s l x : rep h s -> lh_lists h l = Some x -> s_cell s l 0 "head" = Some (ptr (l_head x)) /\ s_cell s l 0 "tail" = Some (ptr (l_tail x)) /\ s_cell s l 0 "count" = Some (VI (l_count x)).
Proof. intros R E. rewrite (rp_head _ _ R), (rp_tail _ _ R), (rp_count _ _ R), E. auto. Qed.
Lemma list_none h s l : rep h s -> lh_lists h l = None -> s_cell s l 0 "head" = None /\ s_cell s l 0 "tail" = None /\ s_cell s l 0 "count" = None.
Proof. intros R E. rewrite (rp_head _ _ R), (rp_tail _ _ R), (rp_count _ _ R), E. auto. Qed.
Lemma there_item h s i it : rep h s -> lh_items h i = Some it -> there s i = true.
Proof. intros R E. unfold there. rewrite (rp_data _ _ R), E. reflexivity. Qed.
Lemma there_list h s i it : rep h s -> lh_lists h i = Some it -> there s i = true.
Proof. intros R E. unfold there. rewrite (rp_data _ _ R), (rp_count _ _ R), E. destruct (lh_items h i); reflexivity. Qed.
Lemma alike_bind_eq {A B C D} (Q : A -> B -> Prop) (R : C -> D -> Prop) x y f g : alike Q x y -> (forall a b, x = Ok a -> Q a b -> alike R (f a) (g b)) -> alike R (bind x f) (bind y g).
Proof. destruct x, y; cbn [alike bind]; try contradiction; auto. Qed.
Lemma eq_val a b : arith "==" a b = Ok (of_bool (val_eqb a b)).
Proof. destruct a, b; reflexivity. Qed.
Lemma ne_val a b : arith "!=" a b = Ok (of_bool (negb (val_eqb a b))).
Proof. destruct a, b; reflexivity. Qed.
Lemma ptr_truth p : truth (ptr p) = Ok (match p with Some _ => true | None => false end).
Proof. destruct p; reflexivity. Qed.
Lemma ptr_eqb p q : val_eqb (ptr p) (ptr q) = opt_eqb p q.
Proof. destruct p, q; cbn; rewrite ?Bool.andb_true_r; reflexivity. Qed.

(** Following a run with a heap at hand. *)
Lemma ptr_eqb1 i p : val_eqb (VP i 0) (ptr p) = opt_eqb (Some i) p.
Proof. destruct p; [apply Bool.andb_true_r|reflexivity]. Qed.
Ltac facts :=
  repeat match goal with
  | R : rep ?h ?s, E : lh_items ?h ?i = Some ?it |- _ =>
      lazymatch goal with H : s_cell s i 0 "data" = Some _ |- _ => fail | _ => destruct (item_cells h s i it R E) as (? & ? & ?) end
  | R : rep ?h ?s, E : lh_items ?h ?i = None |- _ =>
      lazymatch goal with H : s_cell s i 0 "data" = None |- _ => fail | _ => destruct (item_none h s i R E) as (? & ? & ?) end
  | R : rep ?h ?s, E : lh_lists ?h ?i = Some ?it |- _ =>
      lazymatch goal with H : s_cell s i 0 "head" = Some _ |- _ => fail | _ => destruct (list_cells h s i it R E) as (? & ? & ?) end
  | R : rep ?h ?s, E : lh_lists ?h ?i = None |- _ =>
      lazymatch goal with H : s_cell s i 0 "head" = None |- _ => fail | _ => destruct (list_none h s i R E) as (? & ? & ?) end
  end.
Ltac globs :=
  repeat match goal with
  | R : rep ?h ?s |- context [s_glob ?s "itemcount"] => rewrite (rp_itemcount h s R)
  | R : rep ?h ?s |- context [s_glob ?s "headcount"] => rewrite (rp_headcount h s R)
  end.
Ltac st :=
  lazymatch goal with
  | |- alike _ _ (bind (store (LCell _ _ _) _ _) _) => fail
  | |- alike _ _ (bind (store (LGlob _) _ _) _) => fail
  | |- alike _ _ (bind (run _ _ _ _ _ _ _ _ _) _) => first [eapply c_prim; [reflexivity|] | eapply c_outer; [reflexivity|reflexivity|]]; tidy
  | |- alike _ _ (bind (Ok (new_object ?s ?t)) _) => change (new_object s t) with (VP (s_fresh s) 0, new_state s t); step
  | |- alike _ _ (bind (arith "==" ?a ?b) _) => eapply a_ok; [apply eq_val|]; rewrite ?ptr_eqb, ?ptr_eqb1; cbn [val_eqb]; tidy
  | |- alike _ _ (bind (arith "!=" ?a ?b) _) => eapply a_ok; [apply ne_val|]; rewrite ?ptr_eqb, ?ptr_eqb1; cbn [val_eqb]; tidy
  | |- alike _ _ (bind (truth (ptr _)) _) => eapply a_ok; [apply ptr_truth|]; tidy
  | _ => step
  end; globs.
Ltac gost := repeat (st || split_if).
Ltac chk := cbn [bind]; match goal with |- alike _ (bind (chk_int ?a) _) (bind (chk_int ?a) _) => destruct (chk_int a) eqn:?; cbn [bind]; [|exact I|reflexivity|exact I|exact I] end.


Lemma put_item_step {A B} (Q : A -> B -> Prop) h s i f v g K k env : rep h s ->
  (f = "data" /\ g = w_data v \/ (exists p, v = ptr p /\ (f = "prev" /\ g = @w_prev val p \/ f = "next" /\ g = @w_next val p))) ->
  (forall it h' s', lh_items h i = Some it -> h' = set_items h (upd (lh_items h) i (Some (g it))) -> rep h' s' -> alike Q (K h') (k (env, s'))) ->
  alike Q (bind (put_item h (Some i) g) K) (bind (store (LCell i 0 f) v (env, s)) k).
Proof.
  intros R L H. unfold put_item, store. cbn [snd fst]. destruct (lh_items h i) as [it|] eqn:E.
  - destruct (item_cells h s i it R E) as (C1 & C2 & C3).
    assert (X : exists w, s_cell s i 0 f = Some w) by (destruct L as [[-> _]|(p & _ & [[-> _]|[-> _]])]; eauto).
    destruct X as [w ->]. cbn [bind]. eapply H; eauto. eapply rep_item; eauto.
    destruct L as [[-> ->]|(p & -> & [[-> ->]|[-> ->]])]; [left|right; exists p|right; exists p]; auto.
  - destruct (item_none h s i R E) as (C1 & C2 & C3).
    assert (X : s_cell s i 0 f = None) by (destruct L as [[-> _]|(p & _ & [[-> _]|[-> _]])]; auto). rewrite X. exact I.
Qed.
Lemma put_list_step {A B} (Q : A -> B -> Prop) h s l f v g K k env : rep h s ->
  ((exists z, f = "count" /\ v = VI z /\ g = w_count z) \/ (exists p, v = ptr p /\ (f = "head" /\ g = w_head p \/ f = "tail" /\ g = w_tail p))) ->
  (forall x h' s', lh_lists h l = Some x -> h' = set_lists h (upd (lh_lists h) l (Some (g x))) -> rep h' s' -> alike Q (K h') (k (env, s'))) ->
  alike Q (bind (put_list h l g) K) (bind (store (LCell l 0 f) v (env, s)) k).
Proof.
  intros R L H. unfold put_list, store. cbn [snd fst]. destruct (lh_lists h l) as [x|] eqn:E.
  - destruct (list_cells h s l x R E) as (C1 & C2 & C3).
    assert (X : exists w, s_cell s l 0 f = Some w) by (destruct L as [(z & -> & _)|(p & _ & [[-> _]|[-> _]])]; eauto).
    destruct X as [w ->]. cbn [bind]. eapply H; eauto. eapply rep_list; eauto.
    destruct L as [(z & -> & -> & ->)|(p & -> & [[-> ->]|[-> ->]])]; [left; exists z|right; exists p|right; exists p]; auto.
  - destruct (list_none h s l R E) as (C1 & C2 & C3).
    assert (X : s_cell s l 0 f = None) by (destruct L as [(z & -> & _)|(p & _ & [[-> _]|[-> _]])]; auto). rewrite X. exact I.
Qed.
Lemma malloc_inv (h : lheap val) i h1 : listitem_malloc h = Ok (i, h1) -> i = lh_next h /\ lh_lists h1 = lh_lists h /\ lh_items h1 = upd (lh_items h) i (Some (lh_junk h i)) /\ lh_next h1 = lh_next h + 1.
Proof. unfold listitem_malloc. destruct (chk_int (lh_itemcount h + 1)); cbn [bind]; intros E; inversion E; subst; auto. Qed.
Ltac link := first [left; split; reflexivity | left; eexists; split; [reflexivity|split; reflexivity] | right; eexists; split; [first [reflexivity | instantiate (1 := None); reflexivity | instantiate (1 := Some _); reflexivity]|]; first [left; split; reflexivity | right; split; reflexivity]].
Ltac getl := cbn [bind];
  match goal with |- alike _ (bind (get_list ?h ?l) _) _ =>
    unfold get_list at 1; first [match goal with E : lh_lists h l = _ |- _ => rewrite E end | destruct (lh_lists h l) eqn:?]; cbn [bind] end; facts.
Ltac geti := cbn [bind];
  match goal with |- alike _ (bind (get_item ?h (Some ?l)) _) _ =>
    unfold get_item at 1; first [match goal with E : lh_items h l = _ |- _ => rewrite E end | destruct (lh_items h l) eqn:?]; cbn [bind] end; facts.
Ltac fin := gost; exact I.
(** One store: the heap and the memory after it take the place of those before. *)
Ltac carry R Eh :=
  match type of R with rep ?h ?s =>
    match type of Eh with ?h2 = _ =>
      repeat match goal with
      | E : lh_lists h ?l = ?r |- _ =>
          lazymatch goal with H : lh_lists h2 l = _ |- _ => fail | _ => 
            first [ let F := fresh "F" in assert (F : lh_lists h2 l = r) by (rewrite Eh; exact E)
                  | match type of Eh with _ = set_lists _ (upd _ l ?z) => let F := fresh "F" in assert (F : lh_lists h2 l = z) by (rewrite Eh; apply upd_same) end ] end
      | E : lh_items h ?l = ?r |- _ =>
          lazymatch goal with H : lh_items h2 l = _ |- _ => fail | _ => 
            first [ let F := fresh "F" in assert (F : lh_items h2 l = r) by (rewrite Eh; exact E)
                  | match type of Eh with _ = set_items _ (upd _ l ?z) => let F := fresh "F" in assert (F : lh_items h2 l = z) by (rewrite Eh; apply upd_same) end
                  | let F := fresh "F" in assert (F : lh_items h2 l = r) by (rewrite Eh; cbn [lh_items set_items]; rewrite upd_other by congruence; exact E) ] end
      end end; clear R end; facts.
Ltac puti := cbn [bind];
  match goal with R : rep ?h ?s |- alike _ (bind (put_item ?h (Some _) _) _) _ =>
    let it := fresh "it" in let h' := fresh "h" in let s' := fresh "s" in let E := fresh "E" in let Eh := fresh "Eh" in let R' := fresh "R" in
    eapply put_item_step; [exact R|link|]; intros it h' s' E Eh R'; carry R Eh end.
Ltac putl := cbn [bind];
  match goal with R : rep ?h ?s |- alike _ (bind (put_list ?h _ _) _) _ =>
    let it := fresh "x" in let h' := fresh "h" in let s' := fresh "s" in let E := fresh "E" in let Eh := fresh "Eh" in let R' := fresh "R" in
    eapply put_list_step; [exact R|link|]; intros it h' s' E Eh R'; carry R Eh end.

Ltac top := apply a_top; eapply c_fun; [reflexivity|reflexivity|reflexivity|]; tidy.

Section Routines.
Variable outer : string -> list val -> cstate -> res (val * cstate).
Notation RUN := (run (constants numbers) counters outer p_list).
Notation post := (fun a r => fst r = ptr (Some (fst a)) /\ rep (snd a) (snd r)).
Lemma malloc_run d n h s : rep h s -> alike post (listitem_malloc h) (RUN (Datatypes.S (Datatypes.S d)) n "AP_listitem_malloc" [] s).
Proof.
  intros R. top. unfold listitem_malloc. gost. chk. cbn [bind]. step. pose proof (rep_ic h s a R) as R1. gost. cbn [alike]. split.
  - cbn [fst]. rewrite (rp_fresh _ _ R1). reflexivity.
  - exact (rep_new_item _ _ R1).
Qed.
Lemma free_run d n h s i it : rep h s -> lh_items h i = Some it -> alike (fun a r => rep a (snd r)) (listitem_free h (Some i)) (RUN (Datatypes.S (Datatypes.S d)) n "AP_listitem_free" [VP i 0] s).
Proof.
  intros R E. top. unfold listitem_free. cbn [get_item]. rewrite E. cbn [bind]. gost. pose proof (rep_drop_item _ _ _ _ R E) as R1.
  rewrite (there_item _ _ _ _ R E). cbn [Z.eqb andb]. gost. chk. step. pose proof (rep_ic _ _ a R1) as R2. gost. exact R2.
Qed.
Lemma verify_run d n h s : rep h s -> RUN (Datatypes.S (Datatypes.S d)) n "AP_listitem_verify" [] s = Ok (of_bool (listitem_verify h), s).
Proof.
  intros R. match goal with |- ?x = Ok ?y => assert (G : alike (fun _ r => r = y) (Ok tt) x) end.
  - top. unfold listitem_verify. gost; cbn [alike]; repeat match goal with H : _ = true |- _ => rewrite H | H : _ = false |- _ => rewrite H end; cbn [orb]; try reflexivity.
  - destruct (alike_value _ _ G) as (? & -> & ->). reflexivity.
Qed.
Lemma item_prev_run d n h s i : rep h s -> alike (fun a r => r = (ptr a, s)) (listitem_prev h (Some i)) (RUN (Datatypes.S d) n "AP_listitem_prev" [VP i 0] s).
Proof. intros R. top. unfold listitem_prev. geti; gost; [reflexivity|exact I]. Qed.
Lemma item_next_run d n h s i : rep h s -> alike (fun a r => r = (ptr a, s)) (listitem_next h (Some i)) (RUN (Datatypes.S d) n "AP_listitem_next" [VP i 0] s).
Proof. intros R. top. unfold listitem_next. geti; gost; [reflexivity|exact I]. Qed.
Lemma item_data_run d n h s i : rep h s -> alike (fun a r => r = (a, s)) (listitem_data h (Some i)) (RUN (Datatypes.S d) n "AP_listitem_data" [VP i 0] s).
Proof. intros R. top. unfold listitem_data. geti; gost; [reflexivity|exact I]. Qed.
Lemma size_run d n h s l : rep h s -> alike (fun a r => r = (VI a, s)) (list_size l h) (RUN (Datatypes.S d) n "AP_list_size" [VP l 0] s).
Proof. intros R. top. unfold list_size. getl; gost; [reflexivity|exact I]. Qed.
Lemma head_item_run d n h s l : rep h s -> alike (fun a r => r = (ptr a, s)) (list_head_item l h) (RUN (Datatypes.S d) n "AP_list_head_item" [VP l 0] s).
Proof. intros R. top. unfold list_head_item. getl; gost; [reflexivity|exact I]. Qed.
Lemma head_run d n h s l po pi old : rep h s -> s_cell s po pi "" = Some old ->
  alike (fun a r => match a with Some v => r = (VI 1, set_cell s po pi "" (Some v)) | None => r = (VI 0, s) end) (list_head l h) (RUN (Datatypes.S d) n "AP_list_head" [VP l 0; VP po pi] s).
Proof.
  intros R O. top. unfold list_head. getl; [|fin]. destruct (l_head l0) as [i|] eqn:E; cbn [ptr] in *.
  - geti; [|fin]. gost. step. gost. reflexivity.
  - gost. reflexivity.
Qed.
Lemma tail_run d n h s l po pi old : rep h s -> s_cell s po pi "" = Some old ->
  alike (fun a r => match a with Some v => r = (VI 1, set_cell s po pi "" (Some v)) | None => r = (VI 0, s) end) (list_tail l h) (RUN (Datatypes.S d) n "AP_list_tail" [VP l 0; VP po pi] s).
Proof.
  intros R O. top. unfold list_tail. getl; [|fin]. destruct (l_tail l0) as [i|] eqn:E; cbn [ptr] in *.
  - geti; [|fin]. gost. step. gost. reflexivity.
  - gost. reflexivity.
Qed.
Lemma new_run d n h s : rep h s -> alike post (list_new h) (RUN (Datatypes.S (Datatypes.S d)) n "AP_list_new" [] s).
Proof.
  intros R. top. unfold list_new. gost. pose proof (rep_new_list h s R) as R1. pose proof (rp_fresh h s R) as F.
  assert (C1 : exists w, s_cell (new_state s "List") (s_fresh s) 0 "head" = Some w) by (unfold new_state, new_object; cbn [snd s_cell]; rewrite Z.eqb_refl; eexists; reflexivity).
  destruct C1 as [w1 C1]. step. gost.
  assert (C2 : exists w, s_cell (set_cell (new_state s "List") (s_fresh s) 0 "head" (Some VN)) (s_fresh s) 0 "tail" = Some w)
    by (rewrite set_cell_get; unfold new_state, new_object; cbn [snd s_cell String.eqb Ascii.eqb Bool.eqb]; rewrite Bool.andb_false_r, Z.eqb_refl; eexists; reflexivity).
  destruct C2 as [w2 C2]. step. gost.
  assert (C3 : exists w, s_cell (set_cell (set_cell (new_state s "List") (s_fresh s) 0 "head" (Some VN)) (s_fresh s) 0 "tail" (Some VN)) (s_fresh s) 0 "count" = Some w)
    by (rewrite !set_cell_get; unfold new_state, new_object; cbn [snd s_cell String.eqb Ascii.eqb Bool.eqb]; rewrite !Bool.andb_false_r, Z.eqb_refl; eexists; reflexivity).
  destruct C3 as [w3 C3]. step. rewrite F. gost. chk. step. pose proof (rep_hc _ _ a R1) as R2. gost. cbn [alike fst snd]. split; [reflexivity|exact R2].
Qed.
Lemma prepend_run d n h s l v : rep h s -> v <> VU -> alike post (list_prepend l v h) (RUN (Datatypes.S (Datatypes.S (Datatypes.S d))) n "AP_list_prepend" [VP l 0; v] s).
Proof.
  intros R V. top. assert (V' : match v with VU => false | _ => true end = true) by (destruct v; auto). unfold list_prepend. gost.
  eapply alike_bind_eq; [apply malloc_run; exact R|]. intros [i h1] [w s1] Em [Ew R1]. cbn [fst snd ptr] in Ew, R1. subst w. destruct (malloc_inv _ _ _ Em) as (Ei & El & Et & _).
  assert (Fi : lh_items h1 i = Some (lh_junk h i)) by (rewrite Et; apply upd_same).
  facts. gost.
  puti. gost. puti. gost. getl; [|fin]. gost. puti. rename l0 into x.
  assert (X : forall h5 s5, rep h5 s5 -> lh_lists h5 l = Some x -> alike post
     (do h6 <- put_list h5 l (w_head (Some i)); do hd <- get_list h6 l;
      do h7 <- match l_tail hd with None => put_list h6 l (w_tail (Some i)) | Some _ => Ok h6 end;
      do hd <- get_list h7 l; do c <- chk_int (l_count hd + 1); do h8 <- put_list h7 l (w_count c); Ok (i, h8))
     (do d0 <- store (LCell l 0 "head") (VP i 0) ([("new", VP i 0); ("list", VP l 0); ("data", v)], s5);
      do a <- exec (constants numbers) counters (RUN (Datatypes.S (Datatypes.S d)) n) n
         (SSeq (SIf (EUn "!" (EMem (EId "list") "tail")) (SExp (ESet "=" (EMem (EId "list") "tail") (EId "new"))) SSkip)
         (SSeq (SExp (EStep "++" (EMem (EId "list") "count"))) (SSeq (SRet (Some (EId "new"))) SSkip))) d0;
      match a with Next c => Ok (VU, snd c) | Return v0 c => Ok (v0, snd c) end)).
  { intros h5 s5 R5 E5. facts. putl. getl. destruct (l_tail (w_head (Some i) x0)) as [j|] eqn:Ej; cbn [ptr] in *.
    - gost. getl. chk. cbn [bind]. putl. gost. cbn [alike fst snd ptr]. auto.
    - gost. putl. gost. getl. chk. cbn [bind]. putl. gost. cbn [alike fst snd ptr]. auto. }
  destruct (l_head x) as [j|] eqn:Ej; cbn [ptr] in *; gost.
  - puti. gost. apply X; auto.
  - cbn [bind]. apply X; auto.
Qed.
Lemma append_run d n h s l v : rep h s -> v <> VU -> alike post (list_append l v h) (RUN (Datatypes.S (Datatypes.S (Datatypes.S d))) n "AP_list_append" [VP l 0; v] s).
Proof.
  intros R V. top. assert (V' : match v with VU => false | _ => true end = true) by (destruct v; auto). unfold list_append. gost.
  eapply alike_bind_eq; [apply malloc_run; exact R|]. intros [i h1] [w s1] Em [Ew R1]. cbn [fst snd ptr] in Ew, R1. subst w. destruct (malloc_inv _ _ _ Em) as (Ei & El & Et & _).
  assert (Fi : lh_items h1 i = Some (lh_junk h i)) by (rewrite Et; apply upd_same).
  facts. gost. puti. gost. getl; [|fin]. rename l0 into x. gost. puti. gost. puti.
  destruct (l_tail x) as [j|] eqn:Ej; cbn [ptr] in *; gost.
  - puti. gost. putl. gost. getl. chk. cbn [bind]. putl. gost. cbn [alike fst snd ptr]. auto.
  - putl. gost. putl. gost. getl. chk. cbn [bind]. putl. gost. cbn [alike fst snd ptr]. auto.
Qed.
Lemma turns_one {A} (Q : A -> after -> Prop) (x : res A) m (T : conf -> res (bool * conf)) B T' B' c : T = T' -> B = B' ->
  alike Q x (bind (T' c) (fun r => if fst r then bind (B' (snd r)) (fun a => match a with Next d => turns m T B d | Return v d => Ok (Return v d) end) else Ok (Next (snd r)))) ->
  alike Q x (turns (Datatypes.S m) T B c).
Proof. intros -> -> H. exact H. Qed.
Lemma turns_one_bind {A C} (Q : A -> C -> Prop) (x : res A) m (T : conf -> res (bool * conf)) B T' B' c (K : after -> res C) : T = T' -> B = B' ->
  alike Q x (bind (bind (T' c) (fun r => if fst r then bind (B' (snd r)) (fun a => match a with Next d => turns m T B d | Return v d => Ok (Return v d) end) else Ok (Next (snd r)))) K) ->
  alike Q x (bind (turns (Datatypes.S m) T B c) K).
Proof. intros -> -> H. exact H. Qed.
Ltac fold_loop := match goal with |- alike _ _ (bind (turns _ ?t ?b _) ?k) => let T := fresh "T" in let B := fresh "B" in let K := fresh "K" in remember t as T eqn:ET; remember b as B eqn:EB; remember k as K eqn:EK end.
Lemma search_run d n h s l v : rep h s -> v <> VU -> n = lfuel h -> alike (fun a r => r = (ptr a, s)) (list_search val_eqb l v h) (RUN (Datatypes.S d) n "AP_list_search" [VP l 0; v] s).
Proof.
  intros R V En. top. assert (V' : match v with VU => false | _ => true end = true) by (destruct v; auto). unfold list_search. getl; [|fin]. rename l0 into x. gost. rewrite <- En.
  fold_loop. generalize (l_head x). generalize n at 1 2. intros m. induction m as [|m IH]; intros cur; [exact I|]. cbn [search_loop].
  apply (turns_one_bind _ _ _ _ _ _ _ _ _ ET EB). unfold test_of.
  destruct cur as [i|]; cbn [ptr].
  - geti; gost.
    + subst K. reflexivity.
    + exact (IH _).
    + exact I.
  - gost. subst K. gost. reflexivity.
Qed.
Lemma delete_end d n h s l i it : rep h s -> lh_items h i = Some it -> alike (fun a r => rep a (snd r))
  (do h2 <- listitem_free h (Some i); do hd0 <- get_list h2 l; do c <- chk_int (l_count hd0 - 1); put_list h2 l (w_count c))
  (do a <- exec (constants numbers) counters (RUN (Datatypes.S (Datatypes.S d)) n) n
     (SSeq (SExp (ECall (EId "AP_listitem_free") (ACons (EId "item") ANil))) (SSeq (SExp (EStep "--" (EMem (EId "list") "count"))) SSkip))
     ([("list", VP l 0); ("item", VP i 0)], s);
   match a with Next c => Ok (VU, snd c) | Return v c => Ok (v, snd c) end).
Proof.
  intros R E. gost. eapply alike_bind; [eapply free_run; eassumption|]. intros h1 [w s1] R1. cbn [snd] in R1. gost.
  getl; [|fin]. gost. chk. rewrite <- (bind_Ok (put_list _ _ _)). putl. gost. assumption.
Qed.
Lemma delete_tail d n h s l i : rep h s -> alike (fun a r => rep a (snd r))
  (do hd <- get_list h l;
   do h1 <- (if opt_eqb (Some i) (l_tail hd) then do it <- get_item h (Some i); put_list h l (w_tail (it_prev it))
             else do it <- get_item h (Some i); put_item h (it_next it) (w_prev (it_prev it)));
   do h2 <- listitem_free h1 (Some i); do hd0 <- get_list h2 l; do c <- chk_int (l_count hd0 - 1); put_list h2 l (w_count c))
  (do a <- exec (constants numbers) counters (RUN (Datatypes.S (Datatypes.S d)) n) n
     (SSeq (SIf (EBin "==" (EId "item") (EMem (EId "list") "tail")) (SExp (ESet "=" (EMem (EId "list") "tail") (EMem (EId "item") "prev")))
             (SExp (ESet "=" (EMem (EMem (EId "item") "next") "prev") (EMem (EId "item") "prev"))))
       (SSeq (SExp (ECall (EId "AP_listitem_free") (ACons (EId "item") ANil))) (SSeq (SExp (EStep "--" (EMem (EId "list") "count"))) SSkip)))
     ([("list", VP l 0); ("item", VP i 0)], s);
   match a with Next c => Ok (VU, snd c) | Return v c => Ok (v, snd c) end).
Proof.
  intros R. getl; [|fin]. rename l0 into x. gost; rewrite bind_assoc.
  - geti; [|fin]. gost. putl. eapply delete_end; eassumption.
  - geti; [|fin]. gost. destruct (it_next i0) as [j|] eqn:Ej; cbn [ptr] in *; gost; [|exact I]. puti.
    assert (exists it', lh_items h0 i = Some it') as [it' F'] by (subst h0; cbn [lh_items set_items]; unfold upd; destruct (Z.eqb i j); eauto).
    eapply delete_end; eassumption.
Qed.
Lemma delete_item_run d n h s l i : rep h s -> alike (fun a r => rep a (snd r)) (list_delete_item l (Some i) h) (RUN (Datatypes.S (Datatypes.S (Datatypes.S d))) n "AP_list_delete_item" [VP l 0; VP i 0] s).
Proof.
  intros R. top. unfold list_delete_item. getl; [|fin]. rename l0 into x. gost; rewrite bind_assoc.
  - geti; [|fin]. gost. putl. apply delete_tail; auto.
  - geti; [|fin]. destruct (it_prev i0) as [j|]; cbn [ptr] in *; gost; [|exact I]. puti. apply delete_tail; auto.
Qed.
Lemma delete_run d n h s l v : rep h s -> v <> VU -> n = lfuel h -> alike (fun a r => fst r = VI (fst a) /\ rep (snd a) (snd r)) (list_delete val_eqb l v h) (RUN (Datatypes.S (Datatypes.S (Datatypes.S (Datatypes.S d)))) n "AP_list_delete" [VP l 0; v] s).
Proof.
  intros R V En. top. assert (V' : match v with VU => false | _ => true end = true) by (destruct v; auto). unfold list_delete. gost.
  eapply alike_bind; [apply search_run; eassumption|]. intros p r ->. destruct p as [i|]; cbn [ptr]; gost.
  - eapply alike_bind; [apply delete_item_run; exact R|]. intros h1 [w s1] R1. gost. split; [reflexivity|exact R1].
  - split; [reflexivity|exact R].
Qed.
Ltac next_end s tpo tpi dpo dpi k :=
  gost; step;
  let C1 := fresh "C1" in let C2 := fresh "C2" in let C3 := fresh "C3" in let w := fresh "w" in
  assert (C1 : forall i f, f <> "" -> s_cell (set_cell s tpo tpi "" (Some (VP k 0))) i 0 f = s_cell s i 0 f)
    by (intros; rewrite set_cell_get; match goal with H : ?f <> "" |- _ => destruct (String.eqb_spec f ""); [contradiction|] end; rewrite Bool.andb_false_r; reflexivity);
  assert (exists w, s_cell (set_cell s tpo tpi "" (Some (VP k 0))) dpo dpi "" = Some w) as [w C2] by (rewrite set_cell_get; destruct (_ && _ && _); eauto);
  geti;
  [ match goal with E : lh_items _ k = Some ?i |- _ => assert (C3 : s_cell (set_cell s tpo tpi "" (Some (VP k 0))) k 0 "data" = Some (it_data i)) by (rewrite C1; [assumption|discriminate]) end;
    gost; step; gost; reflexivity
  | assert (C3 : s_cell (set_cell s tpo tpi "" (Some (VP k 0))) k 0 "data" = None) by (rewrite C1; [assumption|discriminate]);
    gost; exact I ].
Lemma next_run d n h s l t tpo tpi dpo dpi old : rep h s -> s_cell s tpo tpi "" = Some (ptr t) -> s_cell s dpo dpi "" = Some old ->
  alike (fun a r => match a with Some (v, c) => r = (VI 1, set_cell (set_cell s tpo tpi "" (Some (ptr c))) dpo dpi "" (Some v)) | None => r = (VI 0, s) end)
    (list_next l t h) (RUN (Datatypes.S d) n "AP_list_next" [VP l 0; VP dpo dpi; VP tpo tpi] s).
Proof.
  intros R Ct Cd. top. unfold list_next. destruct t as [j|]; cbn [ptr] in Ct; gost; rewrite bind_assoc.
  - geti; [|fin]. gost. destruct (it_next i) as [k|] eqn:Ek; cbn [ptr].
    + next_end s tpo tpi dpo dpi k.
    + gost. reflexivity.
  - getl; [|fin]. gost. destruct (l_head l0) as [k|] eqn:Ek; cbn [ptr].
    + next_end s tpo tpi dpo dpi k.
    + gost. reflexivity.
Qed.
Lemma ptr_set p : match ptr p with VU => false | _ => true end = true.
Proof. destruct p; reflexivity. Qed.
Lemma list_free_run d n h s l : rep h s -> n = lfuel h -> alike (fun a r => rep a (snd r)) (list_free l h) (RUN (Datatypes.S (Datatypes.S (Datatypes.S d))) n "AP_list_free" [VP l 0] s).
Proof.
  intros R En. top. unfold list_free. getl; [|fin]. rename l0 into x. gost. rewrite <- En. clear En H H0 H1 Heqo.
  fold_loop.
  assert (L : forall m cur count nx h s, rep h s -> alike (fun q a => exists nx s', a = Next ([("count", VI (fst q)); ("cur", VN); ("next", nx); ("list", VP l 0)], s') /\ rep (snd q) s')
    (list_free_loop m cur count h) (turns m T B ([("count", VI count); ("cur", ptr cur); ("next", nx); ("list", VP l 0)], s))).
  { clear s h R x. induction m as [|m IH]; intros cur count nx h s R; [exact I|]. cbn [list_free_loop]. apply (turns_one _ _ _ _ _ _ _ _ ET EB). unfold test_of.
    destruct cur as [i|]; cbn [ptr].
    - geti; gost; [|exact I]. pose proof (ptr_set (it_next i0)) as P. eapply alike_bind; [eapply free_run; eassumption|]. intros h1 [w s1] R1. cbn [snd] in R1. gost. chk. gost. exact (IH _ _ _ _ _ R1).
    - gost. cbn [alike fst snd]. eauto. }
  eapply alike_bind; [apply (L n (l_head x) 0 VU); exact R|]. intros [count h1] a (nx & s1 & -> & R1). cbn [fst snd] in *. subst K.
  getl; [|fin]. gost; [exact I|]. chk. step. pose proof (rep_hc _ _ a R1) as R2. pose proof (rep_drop_list _ _ _ _ R2 Heqo) as R3. gost. rewrite (there_list _ _ _ _ R2 Heqo). cbn [Z.eqb andb]. gost. exact R3.
Qed.
Lemma duplicate_run d n h s l : rep h s -> (forall q, list_new h = Ok q -> n = lfuel (snd q)) -> alike post (list_duplicate l h) (RUN (Datatypes.S (Datatypes.S (Datatypes.S d))) n "AP_list_duplicate" [VP l 0] s).
Proof.
  intros R En. top. unfold list_duplicate. gost. eapply alike_bind_eq; [apply new_run; exact R|]. intros [nl h1] [w s1] En1 [Ew R1]. cbn [fst snd ptr] in Ew, R1. subst w. specialize (En _ En1). cbn [snd] in En.
  gost. getl; [|fin]. rename l0 into x. gost. rewrite <- En. clear En H H0 H1 Heqo. fold_loop.
  assert (L : forall m cur prev nw h s, rep h s -> alike (fun q a => exists nw s', a = Next ([("prev", ptr (fst q)); ("new", nw); ("cur", VN); ("newlist", VP nl 0); ("list", VP l 0)], s') /\ rep (snd q) s')
    (dup_loop m nl cur prev h) (turns m T B ([("prev", ptr prev); ("new", nw); ("cur", ptr cur); ("newlist", VP nl 0); ("list", VP l 0)], s))).
  { clear s h R x h1 s1 En1 R1. induction m as [|m IH]; intros cur prev nw h s R; [exact I|]. cbn [dup_loop]. apply (turns_one _ _ _ _ _ _ _ _ ET EB). unfold test_of.
    destruct cur as [i|]; cbn [ptr].
    - gost. eapply alike_bind_eq; [apply malloc_run; exact R|]. intros [k h1] [w s1] Em [Ew R1]. cbn [fst snd ptr] in Ew, R1. subst w. destruct (malloc_inv _ _ _ Em) as (Ei & El & Et & _).
      assert (Fi : lh_items h1 k = Some (lh_junk h k)) by (rewrite Et; apply upd_same).
      facts. gost. geti; [|fin]. gost. puti. pose proof (ptr_set prev) as P. gost. puti. destruct prev as [j|]; cbn [ptr] in *; gost.
      + puti. gost. geti; [|fin]. gost. exact (IH _ (Some k) _ _ _ R0).
      + putl. gost. geti; [|fin]. gost. exact (IH _ (Some k) _ _ _ R0).
    - gost. cbn [alike fst snd]. eauto. }
  eapply alike_bind; [apply (L n (l_head x) None VU); exact R1|]. intros [prev h2] a (nw & s2 & -> & R2). cbn [fst snd] in *. subst K.
  destruct prev as [j|]; cbn [ptr]; gost.
  - puti. gost. putl. gost. getl; [|fin]. gost. putl. gost. cbn [alike fst snd ptr]. auto.
  - cbn [bind]. putl. gost. getl; [|fin]. gost. putl. gost. cbn [alike fst snd ptr]. auto.
Qed.
Lemma search_func_run d n h s l g fx (func : val -> res bool) : rep h s -> n = lfuel h -> fx <> VU -> (forall args s, prim g args s = None) -> TextSpec.find g p_list = None ->
  (forall v, alike (fun b r => truth (fst r) = Ok b /\ snd r = s) (func v) (outer g [v; fx] s)) ->
  alike (fun a r => r = (ptr a, s)) (list_search_func l func h) (RUN (Datatypes.S (Datatypes.S d)) n "AP_list_search_func" [VP l 0; VF g; fx] s).
Proof.
  intros R En V Pg Fg G. top. assert (V' : match fx with VU => false | _ => true end = true) by (destruct fx; auto). unfold list_search_func. getl; [|fin]. rename l0 into x. gost. rewrite <- En.
  fold_loop. generalize (l_head x). generalize n at 1 2. intros m. induction m as [|m IH]; intros cur; [exact I|]. cbn [search_loop].
  apply (turns_one_bind _ _ _ _ _ _ _ _ _ ET EB). unfold test_of.
  destruct cur as [i|]; cbn [ptr].
  - geti; gost; [|exact I]. eapply c_outer; [apply Pg|exact Fg|]. eapply alike_bind; [apply G|]. intros b [w s1] [Eb Es]. cbn [fst snd] in *. subst s1.
    eapply a_ok; [exact Eb|]. destruct b; gost; [subst K; reflexivity|exact (IH _)].
  - gost. subst K. gost. reflexivity.
Qed.
Lemma apply_run d n h s l g fx (func : val -> res Z) : rep h s -> n = lfuel h -> fx <> VU -> (forall args s, prim g args s = None) -> TextSpec.find g p_list = None ->
  (forall v, alike (fun b r => r = (VI b, s)) (func v) (outer g [v; fx] s)) ->
  alike (fun a r => r = (VI a, s)) (list_apply l func h) (RUN (Datatypes.S (Datatypes.S d)) n "AP_list_apply" [VP l 0; VF g; fx] s).
Proof.
  intros R En V Pg Fg G. top. assert (V' : match fx with VU => false | _ => true end = true) by (destruct fx; auto). unfold list_apply. getl; [|fin]. rename l0 into x. gost. rewrite <- En.
  fold_loop. generalize (l_head x). generalize 0 at 1 2. generalize n at 1 2. intros m. induction m as [|m IH]; intros total cur; [exact I|]. cbn [apply_loop].
  apply (turns_one_bind _ _ _ _ _ _ _ _ _ ET EB). unfold test_of.
  destruct cur as [i|]; cbn [ptr].
  - geti; gost; [|exact I]. eapply c_outer; [apply Pg|exact Fg|]. eapply alike_bind; [apply G|]. intros b r ->. gost. chk. gost. exact (IH _ _).
  - gost. subst K. gost. reflexivity.
Qed.
End Routines.

(** The same of the text itself. *)
Lemma list_text outer d n f args s : runs_with outer s_list_c counters d n f args s = run (constants numbers) counters outer p_list d n f args s.
Proof. unfold runs_with. rewrite numbers_ok, p_list_ok. reflexivity. Qed.
Ltac whole d Hd := rewrite list_text; destruct d as [|[|[|[|d]]]]; [lia|lia|lia|lia|].
Lemma C124_malloc_lemma : forall outer d n h s, rep h s -> (4 <= d)%nat ->
  alike (fun a r => fst r = VP (fst a) 0 /\ rep (snd a) (snd r)) (listitem_malloc h) (runs_with outer s_list_c counters d n "AP_listitem_malloc" [] s).
Proof. intros outer d n h s R Hd. whole d Hd. apply malloc_run; auto. Qed.
Lemma C124_item_free_lemma : forall outer d n h s i it, rep h s -> lh_items h i = Some it -> (4 <= d)%nat ->
  alike (fun a r => rep a (snd r)) (listitem_free h (Some i)) (runs_with outer s_list_c counters d n "AP_listitem_free" [VP i 0] s).
Proof. intros outer d n h s i it R E Hd. whole d Hd. eapply free_run; eauto. Qed.
Lemma C124_verify_lemma : forall outer d n h s, rep h s -> (4 <= d)%nat ->
  runs_with outer s_list_c counters d n "AP_listitem_verify" [] s = Ok (VI (if listitem_verify h then 1 else 0), s).
Proof. intros outer d n h s R Hd. whole d Hd. rewrite (verify_run outer _ _ h); auto. Qed.
Lemma C124_item_lemma : forall outer d n h s p, rep h s -> (4 <= d)%nat ->
  alike (fun a r => r = (ptr a, s)) (listitem_prev h p) (runs_with outer s_list_c counters d n "AP_listitem_prev" [ptr p] s) /\
  alike (fun a r => r = (ptr a, s)) (listitem_next h p) (runs_with outer s_list_c counters d n "AP_listitem_next" [ptr p] s) /\
  alike (fun a r => r = (a, s)) (listitem_data h p) (runs_with outer s_list_c counters d n "AP_listitem_data" [ptr p] s).
Proof.
  intros outer d n h s p R Hd. rewrite !list_text. destruct d as [|d]; [lia|].
  destruct p as [i|]; cbn [ptr]; [|split; [top; gost; exact I|split; [top; gost; exact I|top; gost; exact I]]]. split; [apply item_prev_run; auto|]. split; [apply item_next_run; auto|apply item_data_run; auto]. Qed.
Lemma C124_new_lemma : forall outer d n h s, rep h s -> (4 <= d)%nat ->
  alike (fun a r => fst r = VP (fst a) 0 /\ rep (snd a) (snd r)) (list_new h) (runs_with outer s_list_c counters d n "AP_list_new" [] s).
Proof. intros outer d n h s R Hd. whole d Hd. apply new_run; auto. Qed.
Lemma C124_free_lemma : forall outer d h s l, rep h s -> (4 <= d)%nat ->
  alike (fun a r => rep a (snd r)) (list_free l h) (runs_with outer s_list_c counters d (lfuel h) "AP_list_free" [VP l 0] s).
Proof. intros outer d h s l R Hd. whole d Hd. apply list_free_run; auto. Qed.
Lemma C124_read_lemma : forall outer d n h s l, rep h s -> (4 <= d)%nat ->
  alike (fun a r => r = (VI a, s)) (list_size l h) (runs_with outer s_list_c counters d n "AP_list_size" [VP l 0] s) /\
  alike (fun a r => r = (ptr a, s)) (list_head_item l h) (runs_with outer s_list_c counters d n "AP_list_head_item" [VP l 0] s).
Proof. intros outer d n h s l R Hd. rewrite !list_text. destruct d as [|d]; [lia|]. split; [apply size_run; auto|apply head_item_run; auto]. Qed.
Lemma C124_ends_lemma : forall outer d n h s l po pi old, rep h s -> s_cell s po pi "" = Some old -> (4 <= d)%nat ->
  alike (fun a r => match a with Some v => r = (VI 1, set_cell s po pi "" (Some v)) | None => r = (VI 0, s) end) (list_head l h) (runs_with outer s_list_c counters d n "AP_list_head" [VP l 0; VP po pi] s) /\
  alike (fun a r => match a with Some v => r = (VI 1, set_cell s po pi "" (Some v)) | None => r = (VI 0, s) end) (list_tail l h) (runs_with outer s_list_c counters d n "AP_list_tail" [VP l 0; VP po pi] s).
Proof. intros outer d n h s l po pi old R E Hd. rewrite !list_text. destruct d as [|d]; [lia|]. split; [eapply head_run; eauto|eapply tail_run; eauto]. Qed.
Lemma C124_add_lemma : forall outer d n h s l v, rep h s -> v <> VU -> (4 <= d)%nat ->
  alike (fun a r => fst r = VP (fst a) 0 /\ rep (snd a) (snd r)) (list_append l v h) (runs_with outer s_list_c counters d n "AP_list_append" [VP l 0; v] s) /\
  alike (fun a r => fst r = VP (fst a) 0 /\ rep (snd a) (snd r)) (list_prepend l v h) (runs_with outer s_list_c counters d n "AP_list_prepend" [VP l 0; v] s).
Proof. intros outer d n h s l v R V Hd. rewrite !list_text. destruct d as [|[|[|d]]]; [lia|lia|lia|]. split; [apply append_run; auto|apply prepend_run; auto]. Qed.
Lemma C124_delete_item_lemma : forall outer d n h s l p, rep h s -> (4 <= d)%nat ->
  alike (fun a r => rep a (snd r)) (list_delete_item l p h) (runs_with outer s_list_c counters d n "AP_list_delete_item" [VP l 0; ptr p] s).
Proof.
  intros outer d n h s l p R Hd. whole d Hd. destruct p as [i|]; cbn [ptr].
  2: { top. unfold list_delete_item. getl; [|fin]. gost; destruct (opt_eqb None (l_head l0)); cbn [get_item bind]; gost; exact I. }
  apply delete_item_run; auto. Qed.
Lemma C124_search_lemma : forall outer d h s l v, rep h s -> v <> VU -> (4 <= d)%nat ->
  alike (fun a r => r = (ptr a, s)) (list_search val_eqb l v h) (runs_with outer s_list_c counters d (lfuel h) "AP_list_search" [VP l 0; v] s).
Proof. intros outer d h s l v R V Hd. whole d Hd. apply search_run; auto. Qed.
Lemma C124_delete_lemma : forall outer d h s l v, rep h s -> v <> VU -> (4 <= d)%nat ->
  alike (fun a r => fst r = VI (fst a) /\ rep (snd a) (snd r)) (list_delete val_eqb l v h) (runs_with outer s_list_c counters d (lfuel h) "AP_list_delete" [VP l 0; v] s).
Proof. intros outer d h s l v R V Hd. whole d Hd. apply delete_run; auto. Qed.
Lemma C124_next_lemma : forall outer d n h s l t tpo tpi dpo dpi old, rep h s -> s_cell s tpo tpi "" = Some (ptr t) -> s_cell s dpo dpi "" = Some old -> (4 <= d)%nat ->
  alike (fun a r => match a with Some (v, c) => r = (VI 1, set_cell (set_cell s tpo tpi "" (Some (ptr c))) dpo dpi "" (Some v)) | None => r = (VI 0, s) end)
    (list_next l t h) (runs_with outer s_list_c counters d n "AP_list_next" [VP l 0; VP dpo dpi; VP tpo tpi] s).
Proof. intros outer d n h s l t tpo tpi dpo dpi old R Et Ed Hd. whole d Hd. eapply next_run; eauto. Qed.
Lemma C124_duplicate_lemma : forall outer d n h s l, rep h s -> (forall q, list_new h = Ok q -> n = lfuel (snd q)) -> (4 <= d)%nat ->
  alike (fun a r => fst r = VP (fst a) 0 /\ rep (snd a) (snd r)) (list_duplicate l h) (runs_with outer s_list_c counters d n "AP_list_duplicate" [VP l 0] s).
Proof. intros outer d n h s l R En Hd. whole d Hd. apply duplicate_run; auto. Qed.
Lemma given g : ~ In g ["abort"; "fprintf"; "printf"; "perror"; "malloc"; "free"] -> forall args s, prim g args s = None.
Proof.
  intros H args s. unfold prim. cbn [listed existsb].
  repeat match goal with |- context [String.eqb g ?x] => destruct (String.eqb_spec g x) as [->|]; [exfalso; apply H; cbn [In]; tauto|] end. reflexivity.
Qed.
Lemma not_found {A} g (p : list (string * A)) : ~ In g (map fst p) -> TextSpec.find g p = None.
Proof. induction p as [|[x a] p IH]; cbn [map fst In TextSpec.find]; intros H; [reflexivity|]. destruct (String.eqb_spec x g) as [->|]; [exfalso; auto|]. destruct (String.eqb_spec g x) as [->|]; [exfalso; auto|]. apply IH; auto. Qed.
Lemma C124_search_func_lemma : forall outer d h s l g fx (func : val -> res bool), rep h s -> fx <> VU ->
  ~ In g ["abort"; "fprintf"; "printf"; "perror"; "malloc"; "free"] -> ~ In g (map fst (prog s_list_c)) ->
  (forall v, alike (fun b r => truth (fst r) = Ok b /\ snd r = s) (func v) (outer g [v; fx] s)) -> (4 <= d)%nat ->
  alike (fun a r => r = (ptr a, s)) (list_search_func l func h) (runs_with outer s_list_c counters d (lfuel h) "AP_list_search_func" [VP l 0; VF g; fx] s).
Proof. intros outer d h s l g fx func R V Hp Hg G Hd. rewrite p_list_ok in Hg. whole d Hd. apply search_func_run; auto using given, not_found. Qed.
Lemma C124_apply_lemma : forall outer d h s l g fx (func : val -> res Z), rep h s -> fx <> VU ->
  ~ In g ["abort"; "fprintf"; "printf"; "perror"; "malloc"; "free"] -> ~ In g (map fst (prog s_list_c)) ->
  (forall v, alike (fun b r => r = (VI b, s)) (func v) (outer g [v; fx] s)) -> (4 <= d)%nat ->
  alike (fun a r => r = (VI a, s)) (list_apply l func h) (runs_with outer s_list_c counters d (lfuel h) "AP_list_apply" [VP l 0; VF g; fx] s).
Proof. intros outer d h s l g fx func R V Hp Hg G Hd. rewrite p_list_ok in Hg. whole d Hd. apply apply_run; auto using given, not_found. Qed.
