(** Proofs for C116 and C117. *)
From Verif Require Import Base LinkModel BuildModel ConfModel NameModel NameSpec.
From Coq Require Import Lia.
#[local] Open Scope string_scope.
#[local] Open Scope Z_scope.
#[local] Open Scope list_scope.

(** ** Reading without knowing the macros *)

Definition sev : Type := list (bool * string) * ev.
(** As [expand] (mpiP.h 14-30), but the tests are kept with what they are for; a guarded header under a test is not handled. *)
Fixpoint expandS (fuel : nat) (seen : list string) (f : string) : option (list sev * list string) :=
  match fuel, text_of f with
  | S k, Some rs =>
      (fix go (seen : list string) (rs : list row) : option (list sev * list string) :=
         match rs with
         | [] => Some ([], seen)
         | r :: rs =>
             match r_item r with
             | Incl h =>
                 if inb h guarded then
                   match r_when r with
                   | [] =>
                       if inb h seen then go seen rs
                       else match expandS k (h :: seen) h with
                            | Some (t, seen) => match go seen rs with Some (t', seen) => Some (app t t', seen) | None => None end
                            | None => None
                            end
                   | _ => None
                   end
                 else match expandS k seen h with
                      | Some (t, seen') =>
                          if Nat.eqb (length seen') (length seen) && forallb (fun x => String.eqb (fst x) (snd x)) (combine seen' seen) then
                            match go seen rs with Some (t', seen) => Some (app (map (fun e : sev => (r_when r ++ fst e, snd e)) t) t', seen) | None => None end
                          else None
                      | None => None
                      end
             | Macro n b => match go seen rs with Some (t, seen) => Some ((r_when r, EDef f (r_line r) n b) :: t, seen) | None => None end
             | Def n => match go seen rs with Some (t, seen) => Some ((r_when r, EDef f (r_line r) n []) :: t, seen) | None => None end
             | Use n => match go seen rs with Some (t, seen) => Some ((r_when r, EUse f (r_line r) n) :: t, seen) | None => None end
             | Stop => match go seen rs with Some (t, seen) => Some ((r_when r, EStop f (r_line r)) :: t, seen) | None => None end
             end
         end) seen rs
  | _, _ => None
  end.

Definition pick (on : string -> bool) (t : list sev) : list ev := map snd (filter (fun e : sev => readb on (fst e)) t).

Lemma pick_app on t u : pick on (t ++ u) = pick on t ++ pick on u.
Proof. unfold pick. rewrite filter_app, map_app. reflexivity. Qed.

Lemma pick_under on w t : pick on (map (fun e : sev => (w ++ fst e, snd e)) t) = if readb on w then pick on t else [].
Proof.
  unfold pick. induction t as [|[v e] t IH]; [destruct (readb on w); reflexivity|].
  cbn [map filter fst snd]. unfold readb in *. rewrite forallb_app.
  destruct (forallb (fun x => Bool.eqb (on (snd x)) (fst x)) w); cbn [andb] in *; [|exact IH].
  destruct (forallb (fun x => Bool.eqb (on (snd x)) (fst x)) v); cbn [map]; rewrite IH; reflexivity.
Qed.

Lemma same_list (a : list string) : forall b, Nat.eqb (length a) (length b) && forallb (fun x => String.eqb (fst x) (snd x)) (combine a b) = true -> a = b.
Proof.
  induction a as [|x a IH]; intros [|y b]; cbn; intro E; try reflexivity; try discriminate.
  apply andb_prop in E as [E1 E2]. apply andb_prop in E2 as [E2 E3]. apply String.eqb_eq in E2 as ->. f_equal. apply IH. rewrite E1, E3. reflexivity.
Qed.

Lemma expandS_sound on : forall fuel seen f t seen', expandS fuel seen f = Some (t, seen') -> expand fuel on seen f = Some (pick on t, seen').
Proof.
  induction fuel as [|k IH]; intros seen f t seen' E; [discriminate|].
  cbn [expand expandS] in *. destruct (text_of f) as [rs|]; [|discriminate].
  revert seen t seen' E. induction rs as [|r rs IHr]; intros seen t seen' E.
  - injection E as <- <-. reflexivity.
  - destruct (r_item r) as [h|n b|n|n|] eqn:I.
    + destruct (inb h guarded) eqn:G.
      * destruct (r_when r) eqn:W; [|discriminate]. cbn [readb forallb andb].
        destruct (inb h seen) eqn:Sn; cbn [andb].
        -- apply IHr. exact E.
        -- destruct (expandS k (h :: seen) h) as [[t1 s1]|] eqn:E1; [|discriminate]. rewrite (IH _ _ _ _ E1).
           match goal with |- match ?g with _ => _ end = _ => destruct g as [[t2 s2]|] eqn:E2 end;
           match type of E with match ?g with _ => _ end = _ => destruct g as [[t3 s3]|] eqn:E3 end; try discriminate;
           rewrite (IHr _ _ _ E3) in E2; [|discriminate]. injection E2 as <- <-. injection E as <- <-. rewrite pick_app. reflexivity.
      * destruct (expandS k seen h) as [[t1 s1]|] eqn:E1; [|discriminate].
        destruct (Nat.eqb (length s1) (length seen) && forallb (fun x => String.eqb (fst x) (snd x)) (combine s1 seen)) eqn:Q; [|discriminate].
        apply same_list in Q as ->.
        match type of E with match ?g with _ => _ end = _ => destruct g as [[t3 s3]|] eqn:E3 end; [|discriminate].
        injection E as <- <-. rewrite pick_app, pick_under. cbn [andb]. rewrite (IH _ _ _ _ E1).
        destruct (readb on (r_when r)); cbn [app]; [|exact (IHr _ _ _ E3)].
        rewrite (IHr _ _ _ E3). reflexivity.
    + match type of E with match ?g with _ => _ end = _ => destruct g as [[t3 s3]|] eqn:E3 end; [|discriminate].
      injection E as <- <-. unfold pick. cbn [filter map fst]. destruct (readb on (r_when r)) eqn:R; rewrite (IHr _ _ _ E3); reflexivity.
    + match type of E with match ?g with _ => _ end = _ => destruct g as [[t3 s3]|] eqn:E3 end; [|discriminate].
      injection E as <- <-. unfold pick. cbn [filter map fst]. destruct (readb on (r_when r)) eqn:R; rewrite (IHr _ _ _ E3); reflexivity.
    + match type of E with match ?g with _ => _ end = _ => destruct g as [[t3 s3]|] eqn:E3 end; [|discriminate].
      injection E as <- <-. unfold pick. cbn [filter map fst]. destruct (readb on (r_when r)) eqn:R; rewrite (IHr _ _ _ E3); reflexivity.
    + match type of E with match ?g with _ => _ end = _ => destruct g as [[t3 s3]|] eqn:E3 end; [|discriminate].
      injection E as <- <-. unfold pick. cbn [filter map fst]. destruct (readb on (r_when r)) eqn:R; rewrite (IHr _ _ _ E3); reflexivity.
Qed.

(** ** Definitions before uses *)

Definition lit : Type := bool * string.
Definition litb (a b : lit) : bool := Bool.eqb (fst a) (fst b) && String.eqb (snd a) (snd b).
Definition opp (a : lit) : lit := (negb (fst a), snd a).
Definition lin (a : lit) (w : list lit) : bool := existsb (litb a) w.

Fixpoint cov (fuel : nat) (w : list lit) (pre : list sev) (n : string) : bool :=
  match fuel with
  | O => false
  | S k =>
      lin (true, n) w ||
      match find (fun e : sev => match snd e with EDef _ _ n' _ => String.eqb n' n && negb (existsb (fun l => lin (opp l) w) (fst e)) | _ => false end) pre with
      | Some (wd, EDef _ _ _ b) =>
          match find (fun l => negb (lin l w)) wd with
          | None => forallb (cov k w pre) b
          | Some l => cov k (l :: w) pre n && cov k (opp l :: w) pre n
          end
      | _ => false
      end
  end.

Lemma lin_In a w : lin a w = true -> In a w.
Proof.
  unfold lin. rewrite existsb_exists. intros [b [H E]]. unfold litb in E. apply andb_prop in E as [E1 E2].
  apply Bool.eqb_prop in E1. apply String.eqb_eq in E2. destruct a, b; cbn in *; subst. exact H.
Qed.

Lemma readb_In on w : readb on w = true <-> forall l, In l w -> on (snd l) = fst l.
Proof.
  unfold readb. rewrite forallb_forall. split; intros H l Hl; specialize (H l Hl).
  - apply Bool.eqb_prop. exact H.
  - rewrite H. apply Bool.eqb_reflx.
Qed.

Lemma cov_sound on pre : forall fuel w n, cov fuel w pre n = true -> readb on w = true -> ready on (pick on pre) n.
Proof.
  induction fuel as [|k IH]; intros w n E R; [discriminate|]. cbn [cov] in E.
  apply orb_prop in E as [E|E].
  - apply ry_given. apply lin_In in E. exact (proj1 (readb_In on w) R _ E).
  - match type of E with match ?g with _ => _ end = _ => destruct g as [[wd e]|] eqn:Fd end; [|discriminate].
    apply find_some in Fd as [Fi Fe]. cbn [fst snd] in Fe. destruct e as [f l n' b|f l n'|f l]; try discriminate.
    apply andb_prop in Fe as [Fe _]. apply String.eqb_eq in Fe as ->.
    destruct (find (fun l0 => negb (lin l0 w)) wd) as [x|] eqn:Q.
    + apply andb_prop in E as [E1 E2]. destruct (Bool.bool_dec (on (snd x)) (fst x)) as [D|D].
      * apply (IH _ _ E1). apply readb_In. intros l' [<-|Hl]; [exact D|exact (proj1 (readb_In on w) R _ Hl)].
      * apply (IH _ _ E2). apply readb_In. intros l' [<-|Hl]; [cbn; destruct (on (snd x)), (fst x); cbn; congruence|exact (proj1 (readb_In on w) R _ Hl)].
    + apply (ry_defined _ _ f l n b).
      * unfold pick. change (EDef f l n b) with (snd (wd, EDef f l n b)). apply in_map. apply filter_In. split; [exact Fi|]. cbn [fst].
        apply readb_In. intros x Hx. pose proof (find_none _ _ Q x Hx) as N. apply Bool.negb_false_iff in N. exact (proj1 (readb_In on w) R _ (lin_In _ _ N)).
      * intros x Hx. rewrite forallb_forall in E. exact (IH _ _ (E x Hx) R).
Qed.

Lemma ready_more on t u n : ready on t n -> (forall e, In e t -> In e u) -> ready on u n.
Proof. intros H I. induction H as [n H|f l n b H _ IH]; [apply ry_given; exact H|]. apply (ry_defined _ _ f l n b); [apply I; exact H|exact IH]. Qed.

Fixpoint checkS (pre post : list sev) : bool :=
  match post with
  | [] => true
  | (w, e) :: post => match e with EUse _ _ n => cov 20 w pre n | _ => true end && checkS ((w, e) :: pre) post
  end.

Lemma checkS_sound on : forall post pre, checkS pre post = true -> forall t1 f l n t2, pick on post = t1 ++ EUse f l n :: t2 -> ready on (pick on pre ++ t1) n.
Proof.
  induction post as [|[w e] post IH]; intros pre E t1 f l n t2 P; [destruct t1; discriminate|].
  cbn [checkS] in E. apply andb_prop in E as [E1 E2].
  unfold pick in P. cbn [filter fst] in P. destruct (readb on w) eqn:R.
  - cbn [map snd] in P. destruct t1 as [|e1 t1].
    + cbn [app] in P. injection P as -> _. rewrite app_nil_r. exact (cov_sound on pre _ _ _ E1 R).
    + cbn [app] in P. injection P as <- P. refine (ready_more _ _ _ _ (IH _ E2 _ _ _ _ _ P) _).
      intros x. unfold pick at 1. cbn [filter fst]. rewrite R. cbn [map snd]. rewrite !in_app_iff. cbn [In]. rewrite ?in_app_iff. cbn [In]. tauto.
  - refine (ready_more _ _ _ _ (IH _ E2 _ _ _ _ _ P) _). intros x. unfold pick at 1. cbn [filter fst]. rewrite R. tauto.
Qed.

(** ** The files *)

Definition c_sources : list string := filter (fun s => negb (inb s ["fort.F90"; "mpif.F90"])) sources.
Definition unitS (s : string) : list sev := match expandS 9 [] s with Some (t, _) => t | None => [] end.

Definition okS (s : string) : bool := match expandS 9 [] s with Some (t, _) => checkS [] t | None => false end.
Lemma okS_all : forallb okS (nodup string_dec c_sources) = true.
Proof. vm_compute. reflexivity. Qed.

Lemma c_source s : In s sources -> s <> "fort.F90" -> s <> "mpif.F90" -> In s (nodup string_dec c_sources).
Proof.
  intros H N1 N2. apply nodup_In. unfold c_sources. apply filter_In. split; [exact H|]. unfold inb. cbn [existsb].
  apply String.eqb_neq in N1, N2. rewrite N1, N2. reflexivity.
Qed.

Lemma unit_is on s : In s sources -> s <> "fort.F90" -> s <> "mpif.F90" -> exists seen, expand 9 on [] s = Some (pick on (unitS s), seen) /\ checkS [] (unitS s) = true.
Proof.
  intros H N1 N2. pose proof (proj1 (forallb_forall _ _) okS_all s (c_source s H N1 N2)) as O. unfold okS in O. unfold unitS.
  destruct (expandS 9 [] s) as [[t seen]|] eqn:E; [|discriminate]. exists seen. split; [|exact O]. exact (expandS_sound on _ _ _ _ _ E).
Qed.

Lemma C116_defined_lemma : forall on s, In s sources -> s <> "fort.F90" -> s <> "mpif.F90" -> exists t seen, expand 9 on [] s = Some (t, seen) /\ defined_before on t.
Proof.
  intros on s H N1 N2. destruct (unit_is on s H N1 N2) as [seen [E C]]. exists (pick on (unitS s)), seen. split; [exact E|].
  intros t1 f l n t2 P. exact (checkS_sound on _ _ C _ _ _ _ _ P).
Qed.

(** *** Nothing is defined twice *)

Definition nameS (e : sev) : list (list lit * string) := map (fun n => (fst e, n)) (defined_names [snd e]).
Definition apartb (a b : list lit) : bool := existsb (fun l => lin (opp l) b) a.
Fixpoint onceS (l : list (list lit * string)) : bool :=
  match l with [] => true | (w, n) :: l => forallb (fun x => negb (String.eqb (snd x) n) || apartb w (fst x)) l && onceS l end.

Lemma defined_names_cons e t : defined_names (e :: t) = defined_names [e] ++ defined_names t.
Proof. unfold defined_names. cbn [flat_map]. rewrite app_nil_r. reflexivity. Qed.

Lemma defined_names_pick on t : defined_names (pick on t) = map snd (filter (fun x : list lit * string => readb on (fst x)) (flat_map nameS t)).
Proof.
  induction t as [|[w e] t IH]; [reflexivity|]. cbn [flat_map]. rewrite filter_app, map_app, <- IH. unfold pick. cbn [filter fst].
  unfold nameS. cbn [fst snd]. destruct (readb on w) eqn:R.
  - cbn [map snd]. rewrite defined_names_cons. f_equal.
    generalize (defined_names [e]). intro l. induction l as [|x l IHl]; [reflexivity|]. cbn [map filter fst]. rewrite R. cbn [map snd]. f_equal. exact IHl.
  - replace (filter (fun x : list lit * string => readb on (fst x)) (map (fun n : string => (w, n)) (defined_names [e]))) with (@nil (list lit * string)); [reflexivity|].
    generalize (defined_names [e]). intro l. induction l as [|x l IHl]; [reflexivity|]. cbn [map filter fst]. rewrite R. exact IHl.
Qed.

Lemma onceS_sound on l : onceS l = true -> NoDup (map snd (filter (fun x : list lit * string => readb on (fst x)) l)).
Proof.
  induction l as [|[w n] l IH]; intro E; [constructor|]. cbn [onceS] in E. apply andb_prop in E as [E1 E2]. cbn [filter fst].
  destruct (readb on w) eqn:R; [|exact (IH E2)]. cbn [map snd]. constructor; [|exact (IH E2)].
  intro H. apply in_map_iff in H as [[w' n'] [E H]]. cbn in E. subst n'. apply filter_In in H as [H R']. cbn [fst] in R'.
  rewrite forallb_forall in E1. specialize (E1 _ H). cbn [fst snd] in E1. rewrite String.eqb_refl in E1. cbn [negb orb] in E1.
  unfold apartb in E1. apply existsb_exists in E1 as [x [Hx Hy]]. apply lin_In in Hy.
  pose proof (proj1 (readb_In on w) R _ Hx). pose proof (proj1 (readb_In on w') R' _ Hy) as D. unfold opp in D. cbn in D. destruct (on (snd x)), (fst x); discriminate.
Qed.

Lemma onceS_all : forallb (fun s => onceS (flat_map nameS (unitS s))) (nodup string_dec c_sources) = true.
Proof. vm_compute. reflexivity. Qed.

Lemma C116_once_lemma : forall on s t seen, In s sources -> s <> "fort.F90" -> s <> "mpif.F90" -> expand 9 on [] s = Some (t, seen) -> NoDup (defined_names t).
Proof.
  intros on s t seen H N1 N2 E. destruct (unit_is on s H N1 N2) as [seen' [E' _]]. rewrite E' in E. injection E as <- _.
  rewrite defined_names_pick. apply onceS_sound. exact (proj1 (forallb_forall _ _) onceS_all s (c_source s H N1 N2)).
Qed.

(** *** The #error *)

Definition stopsS (t : list sev) : list (list lit) := map fst (filter (fun e : sev => match snd e with EStop _ _ => true | _ => false end) t).
Definition stop_when : list lit := (false, "HAVE_CONFIG_H") :: map (fun x => (false, x)) fortran_macros.

Lemma stops_all : forallb (fun s => if String.eqb s "list.c" then match stopsS (unitS s) with [] => true | _ => false end
  else match stopsS (unitS s) with [w] => forallb (fun x => lin x stop_when) w && forallb (fun x => lin x w) stop_when | _ => false end) (nodup string_dec c_sources) = true.
Proof. vm_compute. reflexivity. Qed.

Lemma stops_pick on t : (exists f l, In (EStop f l) (pick on t)) <-> exists w, In w (stopsS t) /\ readb on w = true.
Proof.
  unfold stopsS, pick. split.
  - intros [f [l H]]. apply in_map_iff in H as [[w e] [E H]]. cbn in E. subst e. apply filter_In in H as [H R]. exists w. split; [|exact R].
    change w with (fst (w, EStop f l)). apply in_map. apply filter_In. split; [exact H|reflexivity].
  - intros [w [H R]]. apply in_map_iff in H as [[w' e] [E H]]. cbn in E. subst w'. apply filter_In in H as [H S]. cbn [snd] in S. destruct e as [| |f l]; try discriminate.
    exists f, l. change (EStop f l) with (snd (w, EStop f l)). apply in_map. apply filter_In. split; [exact H|exact R].
Qed.

Lemma C116_error_lemma : forall on s t seen, In s sources -> s <> "fort.F90" -> s <> "mpif.F90" -> expand 9 on [] s = Some (t, seen) ->
  ((exists f l, In (EStop f l) t) <-> s <> "list.c" /\ on "HAVE_CONFIG_H" = false /\ forall x, In x fortran_macros -> on x = false).
Proof.
  intros on s t seen H N1 N2 E. destruct (unit_is on s H N1 N2) as [seen' [E' _]]. rewrite E' in E. injection E as <- _. clear E'.
  rewrite stops_pick. pose proof (proj1 (forallb_forall _ _) stops_all s (c_source s H N1 N2)) as Q. cbv beta in Q.
  destruct (String.eqb s "list.c") eqn:L.
  - apply String.eqb_eq in L. destruct (stopsS (unitS s)); [|discriminate]. split; [intros [w [[] _]]|intros [Nl _]; contradiction].
  - apply String.eqb_neq in L. destruct (stopsS (unitS s)) as [|w [|? ?]]; try discriminate. apply andb_prop in Q as [Q1 Q2]. rewrite forallb_forall in Q1, Q2.
    split.
    + intros [w' [[<-|[]] R]]. split; [exact L|]. assert (forall l, In l stop_when -> on (snd l) = fst l) as G.
      { intros l Hl. exact (proj1 (readb_In on w) R _ (lin_In _ _ (Q2 l Hl))). }
      split; [exact (G (false, "HAVE_CONFIG_H") (or_introl eq_refl))|]. intros x Hx. apply (G (false, x)). right. exact (in_map (fun x => (false, x)) _ _ Hx).
    + intros [_ [H1 H2]]. exists w. split; [left; reflexivity|]. apply readb_In. intros l Hl. pose proof (lin_In _ _ (Q1 l Hl)) as I.
      destruct I as [<-|I]; [exact H1|]. apply in_map_iff in I as [x [<- Hx]]. exact (H2 x Hx).
Qed.

(** ** Names in a program *)


Lemma inb_In s l : inb s l = true <-> In s l.
Proof.
  unfold inb. rewrite existsb_exists. split; [intros [x [H E]]; apply String.eqb_eq in E; subst; exact H|]. intro H. exists s. split; [exact H|apply String.eqb_refl].
Qed.

Definition mangs : list mangling := [ONE_UNDERSCORE; TWO_UNDERSCORES; SAME; CAPS].
Lemma mangs_all m : In m mangs.
Proof. destruct m; cbn; tauto. Qed.

Lemma others_exact_all : forallb (fun m =>
  forallb (fun f => forallb (fun s => String.prefix "MPI_" s || String.prefix "mpi_" s || inb s others) (gives m f)) (nodup string_dec sources)) mangs = true.
Proof. vm_compute. reflexivity. Qed.

Lemma C117_names_lemma : forall m f s, In f sources -> In s (gives m f) -> of_mpi s \/ In s others.
Proof.
  intros m f s Hf Hs. pose proof (proj1 (forallb_forall _ _) others_exact_all m (mangs_all m)) as E.
  cbv beta in E. rewrite forallb_forall in E. pose proof (E f (proj2 (nodup_In string_dec sources f) Hf)) as E1. cbv beta in E1. rewrite forallb_forall in E1. pose proof (E1 s Hs) as E2. cbv beta in E2.
  apply orb_prop in E2 as [E2|E2]; [left; exact (orb_prop _ _ E2)|right; exact (proj1 (inb_In s others) E2)].
Qed.

Lemma C117_others_lemma : forall s, In s others -> ~ of_mpi s /\ exists f, In f sources /\ forall m, In s (gives m f).
Proof.
  assert (forallb (fun s => negb (String.prefix "MPI_" s || String.prefix "mpi_" s) && existsb (fun f => forallb (fun m => inb s (gives m f)) mangs) sources) others = true) as E
    by (vm_compute; reflexivity).
  intros s Hs. rewrite forallb_forall in E. specialize (E s Hs). apply andb_prop in E as [E1 E2]. split.
  - apply Bool.negb_true_iff, Bool.orb_false_iff in E1 as [A B]. intros [C|C]; congruence.
  - apply existsb_exists in E2 as [f [Hf E2]]. exists f. split; [exact Hf|]. intro m. rewrite forallb_forall in E2. apply inb_In. exact (E2 m (mangs_all m)).
Qed.

(** What the linker takes, computed: which file needs which name of which file, and what is reached by names other than [X]. *)
Definition given_by (srcs : list string) (m : mangling) : list (string * string) := flat_map (fun f => map (fun s => (s, f)) (gives m f)) srcs.
Definition edges (srcs : list string) (m : mangling) : list (string * string * string) :=
  let gv := given_by srcs m in
  flat_map (fun g => flat_map (fun s => map (fun p => (g, s, snd p)) (filter (fun p => String.eqb (fst p) s && negb (String.eqb (snd p) g)) gv)) (nodup string_dec (wants m g))) srcs.
Fixpoint reach (fuel : nat) (es : list (string * string * string)) (X : string) (got : list string) : list string :=
  match fuel with
  | O => got
  | S k => reach k es X (fold_left (fun got e => let '(g, s, f) := e in if inb g got && negb (inb f got) && negb (String.eqb s X) then f :: got else got) es got)
  end.
Definition start (srcs : list string) (m : mangling) (X : string) (u : list string) : list string := map snd (filter (fun p => inb (fst p) u && negb (String.eqb (fst p) X)) (given_by srcs m)).

Lemma given_by_In srcs m s f : In (s, f) (given_by srcs m) -> In f srcs /\ In s (gives m f).
Proof.
  intro H. unfold given_by in H. apply in_flat_map in H as [f' [Hf H]]. apply in_map_iff in H as [s' [E H]]. injection E as -> ->. split; [exact Hf|exact H].
Qed.

Lemma edges_In srcs m g s f : In (g, s, f) (edges srcs m) -> In s (wants m g) /\ In f srcs /\ In s (gives m f).
Proof.
  intro H. unfold edges in H. cbv zeta in H. apply in_flat_map in H as [g' [_ H]]. apply in_flat_map in H as [s' [Hs H]]. apply in_map_iff in H as [[s2 f2] [E H]].
  cbn [snd] in E. injection E as -> -> ->. apply filter_In in H as [H E]. cbn [fst snd] in E. apply andb_prop in E as [E _]. apply String.eqb_eq in E as ->.
  split; [exact (proj1 (nodup_In _ _ _) Hs)|exact (given_by_In srcs m _ _ H)].
Qed.

Lemma reach_taken srcs m p X : (forall f, In f srcs -> In f sources) -> own p = [X] -> forall fuel got, (forall f, In f got -> taken m p f) -> forall f, In f (reach fuel (edges srcs m) X got) -> taken m p f.
Proof.
  intros SR O. induction fuel as [|k IH]; intros got G f H; [exact (G f H)|]. cbn [reach] in H. revert H. apply IH. clear IH f.
  assert (forall es got, (forall e, In e es -> In e (edges srcs m)) -> (forall f, In f got -> taken m p f) ->
    forall f, In f (fold_left (fun got e => let '(g, s, f) := e in if inb g got && negb (inb f got) && negb (String.eqb s X) then f :: got else got) es got) -> taken m p f) as K.
  { clear got G. induction es as [|[[g s] f] es IHe]; intros got I G f' H; [exact (G f' H)|]. cbn [fold_left] in H. revert H. apply IHe; [intros e He; exact (I e (or_intror He))|].
    destruct (inb g got && negb (inb f got) && negb (String.eqb s X)) eqn:E; [|exact G]. apply andb_prop in E as [E E3]. apply andb_prop in E as [E1 _]. apply inb_In in E1.
    intros h [<-|Hh]; [|exact (G h Hh)]. destruct (edges_In srcs m g s f (I _ (or_introl eq_refl))) as [W [Hf Hs]]. apply (tk_library m p g s f (G g E1) W); [|exact (SR f Hf)|exact Hs].
    rewrite O. intros [C|[]]. subst s. rewrite String.eqb_refl in E3. discriminate. }
  apply K; [intros e He; exact He|exact G].
Qed.

Lemma start_taken srcs m p X u : (forall f, In f srcs -> In f sources) -> own p = [X] -> (forall x, In x u -> In x (used p)) -> forall f, In f (start srcs m X u) -> taken m p f.
Proof.
  intros SR O U f H. unfold start in H. apply in_map_iff in H as [[s f'] [E H]]. cbn in E. subst f'. apply filter_In in H as [H E]. cbn [fst] in E. apply andb_prop in E as [E1 E2]. apply inb_In in E1.
  destruct (given_by_In srcs m s f H) as [Hf Hs]. apply (tk_program m p s f (U s E1)); [|exact (SR f Hf)|exact Hs]. rewrite O. intros [C|[]]. subst s. rewrite String.eqb_refl in E2. discriminate.
Qed.

(** A closed set of files holds everything that is taken. *)
Definition closedb (srcs : list string) (m : mangling) (o u got : list string) : bool :=
  let w := app u (flat_map (wants m) got) in forallb (fun f => inb f got || forallb (fun s => inb s o || negb (inb s w)) (gives m f)) srcs.
Lemma closed_taken srcs m p got : (forall f, In f sources -> In f srcs) -> closedb srcs m (own p) (used p) got = true -> forall f, taken m p f -> In f got.
Proof.
  intros SR C f T. unfold closedb in C. cbv zeta in C. rewrite forallb_forall in C.
  assert (forall s f, In f sources -> ~ In s (own p) -> In s (gives m f) -> (In s (used p) \/ exists g, In g got /\ In s (wants m g)) -> In f got) as K.
  { intros s f' Hf N Hs W. specialize (C f' (SR f' Hf)). apply orb_prop in C as [C|C]; [apply inb_In; exact C|].
    rewrite forallb_forall in C. specialize (C s Hs). apply orb_prop in C as [C|C]; [apply inb_In in C; contradiction|].
    apply Bool.negb_true_iff in C. assert (inb s (app (used p) (flat_map (wants m) got)) = true) as X; [|congruence].
    apply inb_In, in_app_iff. destruct W as [W|[g [Hg W]]]; [left; exact W|right; apply in_flat_map; exists g; split; [exact Hg|exact W]]. }
  induction T as [s f U N Hf Hs|g s f T IH W N Hf Hs]; [exact (K s f Hf N Hs (or_introl U))|exact (K s f Hf N Hs (or_intror (ex_intro _ g (conj IH W))))].
Qed.

Lemma C117_clear_lemma : forall m p, (forall s f, In s (own p) -> In f sources -> ~ In s (gives m f)) -> forall s, ~ clash m p s /\ ~ replaced m p s.
Proof.
  intros m p D s. split.
  - intros [H [f [T G]]]. apply (D s f H); [|exact G]. destruct T as [? ? _ _ Hf _|? ? ? _ _ _ Hf _]; exact Hf.
  - intros [H [[f [Hf G]] _]]. exact (D s f H Hf G).
Qed.

(** The files, each once. *)
Definition once : list string := nodup string_dec sources.
Lemma once_in f : In f once -> In f sources.
Proof. exact (proj1 (nodup_In string_dec sources f)). Qed.
Lemma in_once f : In f sources -> In f once.
Proof. exact (proj2 (nodup_In string_dec sources f)). Qed.

Definition spared : list string := ["copy_data2"; "Pcopy_data2"; "simpletypes"; "Pack"; "Pack_size"; "Unpack"].
Lemma clash_init_all : forallb (fun m =>
  let es := edges once m in let gv := given_by once m in
  forallb (fun X => inb X spared || (let got := reach 5 es X (start once m X ["MPI_Init"]) in existsb (fun p => String.eqb (fst p) X && inb (snd p) got) gv)) others) mangs = true.
Proof. vm_compute. reflexivity. Qed.

Lemma C117_clash_lemma : forall m p X, In X others -> ~ In X ["copy_data2"; "Pcopy_data2"; "simpletypes"; "Pack"; "Pack_size"; "Unpack"] ->
  own p = [X] -> In "MPI_Init" (used p) -> clash m p X.
Proof.
  intros m p X H N O U. pose proof (proj1 (forallb_forall _ _) clash_init_all m (mangs_all m)) as E. cbv beta in E. cbv zeta in E. rewrite forallb_forall in E.
  specialize (E X H). apply orb_prop in E as [E|E]; [apply inb_In in E; contradiction|].
  apply existsb_exists in E as [[s f] [Hf E]]. cbn [fst snd] in E. apply andb_prop in E as [E1 E2]. apply String.eqb_eq in E1 as ->. apply inb_In in E2. destruct (given_by_In once m X f Hf) as [_ G].
  split; [rewrite O; left; reflexivity|]. exists f. split; [|exact G]. revert E2. apply (reach_taken once m p X once_in O).
  apply (start_taken once m p X _ once_in O). intros y [<-|[]]. exact U.
Qed.

Lemma only_two_all : forallb (fun m =>
  let es := edges once m in
  forallb (fun e => let '(g, X, f) := e in negb (inb X others) || inb X ["copy_data2"; "simpletypes"] || inb f (reach 5 es X [g])) es) mangs = true.
Proof. vm_compute. reflexivity. Qed.

Lemma taken_source m p f : taken m p f -> In f sources.
Proof. intros [? ? _ _ Hf _|? ? ? _ _ _ Hf _]; exact Hf. Qed.

Lemma edges_all srcs m g s f : In g srcs -> In s (wants m g) -> In f srcs -> In s (gives m f) -> g <> f -> In (g, s, f) (edges srcs m).
Proof.
  intros Hg W Hf G N. unfold edges. cbv zeta. apply in_flat_map. exists g. split; [exact Hg|]. apply in_flat_map. exists s. split; [apply nodup_In; exact W|].
  apply in_map_iff. exists (s, f). split; [reflexivity|]. apply filter_In. split.
  - unfold given_by. apply in_flat_map. exists f. split; [exact Hf|]. exact (in_map (fun s => (s, f)) _ _ G).
  - cbn [fst snd]. rewrite String.eqb_refl. apply Bool.negb_true_iff. apply String.eqb_neq. intro C. subst. exact (N eq_refl).
Qed.

Lemma C117_replaced_lemma : forall m p X, own p = [X] -> ~ of_mpi X -> replaced m p X -> X = "copy_data2" \/ X = "simpletypes".
Proof.
  intros m p X O N [H [[f [Hf G]] [[g [T W]] C]]]. destruct (C117_names_lemma m f X Hf G) as [M|M]; [contradiction|].
  destruct (string_dec g f) as [->|Ng]; [exfalso; apply C; split; [exact H|]; exists f; split; [exact T|exact G]|].
  pose proof (proj1 (forallb_forall _ _) only_two_all m (mangs_all m)) as E. cbv beta in E. cbv zeta in E. rewrite forallb_forall in E.
  specialize (E _ (edges_all once m g X f (in_once g (taken_source m p g T)) W (in_once f Hf) G Ng)). cbv beta iota in E. apply orb_prop in E as [E|E]; [apply orb_prop in E as [E|E]|].
  - apply inb_In in M. rewrite M in E. discriminate.
  - apply inb_In in E as [<-|[<-|[]]]; [left|right]; reflexivity.
  - exfalso. apply C. split; [exact H|]. exists f. split; [|exact G]. apply inb_In in E. revert E. apply (reach_taken once m p X once_in O). intros x [<-|[]]. exact T.
Qed.

Definition exchange : list string := ["MPI_Init"; "MPI_Isend"; "MPI_Recv"; "MPI_Finalize"].
Lemma C117_replaced_refuted_lemma : forall m X, X = "copy_data2" \/ X = "simpletypes" -> replaced m (mkProg [X] ["MPI_Init"; "MPI_Isend"; "MPI_Recv"; "MPI_Finalize"]) X.
Proof.
  intros m X HX. assert (In X ["copy_data2"; "simpletypes"]) as H by (cbn; destruct HX; subst; tauto). clear HX.
  assert (forallb (fun m => forallb (fun X => let got := reach 5 (edges once m) X (start once m X exchange) in
    closedb once m [X] exchange got && forallb (fun f => negb (inb X (gives m f))) got && existsb (fun g => inb X (wants m g)) got && existsb (fun f => inb X (gives m f)) sources) ["copy_data2"; "simpletypes"]) mangs = true) as E
    by (vm_compute; reflexivity).
  rewrite forallb_forall in E. specialize (E m (mangs_all m)). rewrite forallb_forall in E. specialize (E X H). cbv zeta in E.
  set (got := reach 5 (edges once m) X (start once m X exchange)) in E. apply andb_prop in E as [E E4]. apply andb_prop in E as [E E3]. apply andb_prop in E as [E1 E2].
  set (p := mkProg [X] exchange). change (replaced m p X).
  split; [left; reflexivity|]. split.
  - apply existsb_exists in E4 as [f [Hf G]]. exists f. split; [exact Hf|apply inb_In; exact G].
  - split.
    + apply existsb_exists in E3 as [g [Hg W]]. exists g. split; [|apply inb_In; exact W]. revert Hg. subst got. apply (reach_taken once m p X once_in eq_refl). apply (start_taken once m p X _ once_in eq_refl). intros y Hy. exact Hy.
    + intros [_ [f [T G]]]. pose proof (closed_taken once m p got in_once E1 f T) as Hf. rewrite forallb_forall in E2. specialize (E2 f Hf). apply inb_In in G. rewrite G in E2. exact (Bool.diff_false_true E2).
Qed.

Lemma C117_header_lemma :
  (forall r n, In r t_mpi_h -> (r_item r = Def n \/ exists b, r_item r = Macro n b) -> String.prefix "MPI_" n = true \/ String.prefix "." n = true) /\
  (forall d s, In d declarations -> d_file d = "mpi.h" -> d_name d = C s -> String.prefix "MPI_" s = true \/ s = "mpi_comm_new").
Proof.
  split.
  - assert (forallb (fun r => match r_item r with Def n | Macro n _ => String.prefix "MPI_" n || String.prefix "." n | _ => true end) t_mpi_h = true) as E by (vm_compute; reflexivity).
    intros r n Hr I. rewrite forallb_forall in E. specialize (E r Hr). destruct I as [I|[b I]]; rewrite I in E; apply orb_prop in E; exact E.
  - assert (forallb (fun d => negb (String.eqb (d_file d) "mpi.h") || match d_name d with C s => String.prefix "MPI_" s || String.eqb s "mpi_comm_new" | F _ _ => true end) declarations = true) as E by (vm_compute; reflexivity).
    intros d s Hd Hf Hs. rewrite forallb_forall in E. specialize (E d Hd). rewrite Hf, Hs, String.eqb_refl in E. cbn [negb orb] in E.
    apply orb_prop in E as [E|E]; [left; exact E|right; apply String.eqb_eq; exact E].
Qed.

(** ** The same tables elsewhere *)

Definition includes_of (rs : list row) : list string := flat_map (fun r => match r_item r with Incl h => [h] | _ => [] end) rs.
Definition pairs_eqb (a b : list (string * list string)) : bool :=
  Nat.eqb (length a) (length b) && forallb (fun x => String.eqb (fst (fst x)) (fst (snd x)) && if list_eq_dec string_dec (snd (fst x)) (snd (snd x)) then true else false) (combine a b).
Lemma C116_includes_lemma : forall f l, In (f, l) includes -> exists rs, text_of f = Some rs /\ l = flat_map (fun r => match r_item r with Incl h => [h] | _ => [] end) rs.
Proof.
  assert (forallb (fun p => match text_of (fst p) with Some rs => if list_eq_dec string_dec (snd p) (includes_of rs) then true else false | None => false end) includes = true) as E by (vm_compute; reflexivity).
  intros f l H. rewrite forallb_forall in E. specialize (E _ H). cbn [fst snd] in E. destruct (text_of f) as [rs|]; [|discriminate]. exists rs. split; [reflexivity|].
  destruct (list_eq_dec string_dec l (includes_of rs)) as [e|]; [exact e|discriminate].
Qed.

Definition in_region (f : string) (l : Z) (m : string) : bool := existsb (fun g => let '(f', m', a, b) := g in String.eqb f' f && String.eqb m' m && (Z.ltb a l && Z.ltb l b)) regions.
Definition all_macros : list string := nodup string_dec (map (fun g => snd (fst (fst g))) regions).
Definition row_region (f : string) (r : row) : bool :=
  match r_item r with
  | Incl _ => true
  | _ => forallb (fun x : bool * string => fst x && in_region f (r_line r) (snd x)) (r_when r) && forallb (fun m => negb (in_region f (r_line r) m) || existsb (fun x : bool * string => fst x && String.eqb (snd x) m) (r_when r)) all_macros
  end.
Lemma in_region_iff f l m : in_region f l m = true <-> exists a b, In (f, m, a, b) regions /\ a < l < b.
Proof.
  unfold in_region. rewrite existsb_exists. split.
  - intros [[[[f' m'] a] b] [H E]]. apply andb_prop in E as [E1 E2]. apply andb_prop in E1 as [E1 E3]. apply andb_prop in E2 as [E2 E4].
    apply String.eqb_eq in E1 as ->. apply String.eqb_eq in E3 as ->. apply Z.ltb_lt in E2, E4. exists a, b. split; [exact H|split; assumption].
  - intros [a [b [H [A B]]]]. exists (f, m, a, b). split; [exact H|]. rewrite !String.eqb_refl. apply Z.ltb_lt in A, B. rewrite A, B. reflexivity.
Qed.

Lemma C116_tests_lemma : forall s rs r, In s sources -> s <> "fort.F90" -> s <> "mpif.F90" -> text_of s = Some rs -> In r rs -> (forall h, r_item r <> Incl h) ->
  (forall m, ~ In (false, m) (r_when r)) /\ (forall m, In (true, m) (r_when r) <-> exists a b, In (s, m, a, b) regions /\ a < r_line r < b).
Proof.
  assert (forallb (fun s => match text_of s with Some rs => forallb (row_region s) rs | None => false end) (nodup string_dec c_sources) = true) as E by (vm_compute; reflexivity).
  intros s rs r H N1 N2 T Hr I. rewrite forallb_forall in E. specialize (E s (c_source s H N1 N2)). cbv beta in E. rewrite T in E. rewrite forallb_forall in E. specialize (E r Hr).
  unfold row_region in E. assert (forallb (fun x : bool * string => fst x && in_region s (r_line r) (snd x)) (r_when r) && forallb (fun m => negb (in_region s (r_line r) m) || existsb (fun x : bool * string => fst x && String.eqb (snd x) m) (r_when r)) all_macros = true) as E'.
  { destruct (r_item r); try exact E. exfalso. exact (I _ eq_refl). }
  clear E. apply andb_prop in E' as [E1 E2]. rewrite forallb_forall in E1, E2. split.
  - intros m Hm. specialize (E1 _ Hm). discriminate.
  - intro m. split.
    + intro Hm. specialize (E1 _ Hm). cbn [fst snd andb] in E1. apply in_region_iff. exact E1.
    + intros [a [b [Hg Hl]]]. assert (In m all_macros) as Hm.
      { unfold all_macros. apply nodup_In. apply in_map_iff. exists (s, m, a, b). split; [reflexivity|exact Hg]. }
      specialize (E2 m Hm). rewrite (proj2 (in_region_iff s (r_line r) m) (ex_intro _ a (ex_intro _ b (conj Hg Hl)))) in E2. cbn [negb orb] in E2.
      apply existsb_exists in E2 as [[b' m'] [Hx E2]]. apply andb_prop in E2 as [E3 E4]. cbn [fst snd] in E3, E4. subst b'. apply String.eqb_eq in E4 as ->. exact Hx.
Qed.

Lemma C116_variables_lemma : forall f n l st, In (f, n, l, st) variables -> exists rs r, text_of f = Some rs /\ In r rs /\ r_line r = l /\ r_item r = Def n.
Proof.
  assert (forallb (fun v => let '(f, n, l, _) := v in match text_of f with Some rs => existsb (fun r => Z.eqb (r_line r) l && match r_item r with Def n' => String.eqb n' n | _ => false end) rs | None => false end) variables = true) as E by (vm_compute; reflexivity).
  intros f n l st H. rewrite forallb_forall in E. specialize (E _ H). cbv beta iota in E. destruct (text_of f) as [rs|]; [|discriminate]. apply existsb_exists in E as [r [Hr E]].
  apply andb_prop in E as [E1 E2]. apply Z.eqb_eq in E1. destruct (r_item r) eqn:I; try discriminate. apply String.eqb_eq in E2 as ->. exists rs, r.
  split; [reflexivity|]. split; [exact Hr|]. split; [exact E1|exact I].
Qed.

Definition plain_types : list string := ["int"; "void"; "char"; "double"; "long"].
Definition type_used (g : fn) (t : string) : bool :=
  inb t plain_types || match text_of (fn_file g) with Some rs => existsb (fun r => match r_item r with Use n => String.eqb n t | _ => false end) rs | None => false end.
Lemma C116_types_lemma : forall g t, In g library -> fn_file g <> "fort.F90" -> In t (fn_ret g :: fn_params g) ->
  In (fst t) ["int"; "void"; "char"; "double"; "long"; "int(void*,void*)"] \/ exists rs r, text_of (fn_file g) = Some rs /\ In r rs /\ r_item r = Use (fst t).
Proof.
  assert (forallb (fun g => String.eqb (fn_file g) "fort.F90" || forallb (fun t => String.eqb (fst t) "int(void*,void*)" || type_used g (fst t)) (fn_ret g :: fn_params g)) library = true) as E by (vm_compute; reflexivity).
  intros g t Hg N Ht. rewrite forallb_forall in E. specialize (E g Hg). cbv beta in E. apply orb_prop in E as [E|E]; [apply String.eqb_eq in E; contradiction|].
  rewrite forallb_forall in E. specialize (E t Ht). apply orb_prop in E as [E|E]; [apply String.eqb_eq in E; left; rewrite E; cbn; tauto|].
  unfold type_used in E. apply orb_prop in E as [E|E]; [left; apply inb_In in E; unfold plain_types in E; cbn [In] in *; tauto|]. right.
  destruct (text_of (fn_file g)) as [rs|]; [|discriminate]. apply existsb_exists in E as [r [Hr E]]. exists rs, r. split; [reflexivity|]. split; [exact Hr|].
  destruct (r_item r); try discriminate. apply String.eqb_eq in E as ->. reflexivity.
Qed.
