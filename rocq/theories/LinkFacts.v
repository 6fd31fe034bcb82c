(** Proofs for C105 and C106: finite checks of the tables. *)
From Verif Require Import Base LinkModel BindModel RetModel LinkSpec.
From Coq Require Import Relations Ascii.
#[local] Open Scope nat_scope.
#[local] Open Scope string_scope.
#[local] Open Scope list_scope.

Section Checks.
Variables (m : mangling) (lib : list fn).

Definition meantb (file : string) (n : nm) (g : fn) : bool :=
  String.eqb (symbol m (fn_name g)) (symbol m n) && (negb (fn_static g) || String.eqb (fn_file g) file).
Definition these (file : string) (n : nm) : list fn := filter (meantb file n) lib.

Lemma meantb_spec file n g : In g lib -> meantb file n g = true <-> meant m lib file n g.
Proof.
  intros I. unfold meantb. split.
  - intros H. apply andb_true_iff in H. destruct H as [A B]. constructor; [exact I|now apply String.eqb_eq|].
    intros S. rewrite S in B. simpl in B. now apply String.eqb_eq.
  - intros [_ A B]. apply andb_true_iff. split; [now apply String.eqb_eq|].
    destruct (fn_static g); [simpl; apply String.eqb_eq; now apply B|reflexivity].
Qed.
Lemma in_these file n g : In g (these file n) <-> meant m lib file n g.
Proof.
  unfold these. rewrite filter_In. split.
  - intros [I H]. now apply meantb_spec.
  - intros M. split; [apply (me_in _ _ _ _ _ M)|apply meantb_spec; [apply (me_in _ _ _ _ _ M)|exact M]].
Qed.

Definition from_Cb (n : nm) : bool := match n with C s => existsb (String.eqb s) standard | F _ _ => false end.
Lemma from_Cb_spec n : from_Cb n = true <-> from_C n.
Proof.
  destruct n as [s|a b]; unfold from_Cb; split.
  - intros H. apply existsb_exists in H. destruct H as [x [I E]]. apply String.eqb_eq in E. subst x. now exists s.
  - intros [x [E I]]. inversion E; subst x. apply existsb_exists. exists s. split; [exact I|apply String.eqb_refl].
  - discriminate.
  - intros [x [E _]]. discriminate.
Qed.

Definition linkedb (file : string) (n : nm) : bool := match these file n with [g] => true | [] => from_Cb n | _ => false end.
Lemma linkedb_spec file n : linkedb file n = true -> linked m lib file n.
Proof.
  unfold linkedb. destruct (these file n) as [|g [|h l]] eqn:E; [|intros _|discriminate].
  - intros H. right. split; [now apply from_Cb_spec|]. intros g M. apply in_these in M. rewrite E in M. exact M.
  - left. exists g. split; [apply in_these; rewrite E; now left|]. intros h M. apply in_these in M. rewrite E in M. destruct M as [M|[]]. now symmetry.
Qed.
Definition missingb (file : string) (n : nm) : bool := match these file n with [] => negb (from_Cb n) | _ => false end.
Lemma missingb_spec file n : missingb file n = true -> missing m lib file n.
Proof.
  unfold missingb. destruct (these file n) eqn:E; [|discriminate]. intros H. split.
  - intros g M. apply in_these in M. rewrite E in M. exact M.
  - intros X. apply from_Cb_spec in X. rewrite X in H. discriminate.
Qed.
Definition closedb : bool := forallb (fun f => forallb (linkedb (fn_file f)) (fn_calls f ++ fn_passes f)) lib.
Lemma closedb_spec : closedb = true -> forall f n, In f lib -> In n (fn_calls f ++ fn_passes f) -> linked m lib (fn_file f) n.
Proof.
  unfold closedb. intros H f n I J. rewrite forallb_forall in H. specialize (H f I). rewrite forallb_forall in H. now apply linkedb_spec, H.
Qed.
Lemma linkedb_all file l : forallb (linkedb file) l = true -> forall n, In n l -> linked m lib file n.
Proof. intros H n I. rewrite forallb_forall in H. now apply linkedb_spec, H. Qed.

Definition rightb (file : string) (x : nm * nat) : bool :=
  match these file (fst x) with [g] => Nat.eqb (length (fn_params g)) (snd x) | _ => false end.
Lemma rightb_spec file x : rightb file x = true -> called_right m lib file x.
Proof.
  unfold rightb, called_right. destruct (these file (fst x)) as [|g [|h l]] eqn:E; try discriminate. intros H. exists g.
  split; [apply in_these; rewrite E; now left|]. split.
  - intros h M. apply in_these in M. rewrite E in M. destruct M as [M|[]]. now symmetry.
  - now apply Nat.eqb_eq.
Qed.
Definition wrongb (file : string) (x : nm * nat) : bool := forallb (fun g => negb (Nat.eqb (length (fn_params g)) (snd x))) (these file (fst x)).
Lemma wrongb_spec file x : wrongb file x = true -> ~ called_right m lib file x.
Proof.
  unfold wrongb. rewrite forallb_forall. intros H [g [M [_ L]]]. apply in_these in M. specialize (H g M). rewrite L, Nat.eqb_refl in H. discriminate.
Qed.

(** Names that clash: pairs of places in the list. *)
Definition clashb (f g : fn) : bool :=
  String.eqb (symbol m (fn_name f)) (symbol m (fn_name g)) && (negb (fn_static f) && negb (fn_static g) || String.eqb (fn_file f) (fn_file g)).
Fixpoint apartb (l : list fn) : bool := match l with [] => true | f :: l => forallb (fun g => negb (clashb f g)) l && apartb l end.
Lemma clashb_sym f g : clashb f g = clashb g f.
Proof. unfold clashb. rewrite (String.eqb_sym (symbol m (fn_name g))), (String.eqb_sym (fn_file g)), (andb_comm (negb (fn_static g))). reflexivity. Qed.
Lemma clash_b f g : clash m f g -> clashb f g = true.
Proof.
  intros [_ [A B]]. unfold clashb. apply andb_true_iff. split; [now apply String.eqb_eq|]. apply orb_true_iff. destruct B as [[B C]|B].
  - left. now rewrite B, C.
  - right. now apply String.eqb_eq.
Qed.
Lemma apartb_spec l : apartb l = true -> forall f g, In f l -> In g l -> ~ clash m f g.
Proof.
  induction l as [|a l IH]; intros H f g If Ig K; [destruct If|]. simpl in H. apply andb_true_iff in H. destruct H as [H1 H2]. rewrite forallb_forall in H1.
  pose proof (clash_b _ _ K) as Kb. destruct If as [If|If], Ig as [Ig|Ig].
  - subst. destruct K as [K _]. now apply K.
  - subst f. specialize (H1 g Ig). rewrite Kb in H1. discriminate.
  - subst g. specialize (H1 f If). rewrite clashb_sym, Kb in H1. discriminate.
  - exact (IH H2 f g If Ig K).
Qed.

(** Chains of calls. *)
Definition passed : list fn := flat_map (fun h => flat_map (these (fn_file h)) (fn_passes h)) lib.
Definition succs (f : fn) : list fn := flat_map (these (fn_file f)) (fn_calls f) ++ (if fn_indirect f then passed else []).
Lemma calls_succs f g : calls m lib f g -> In g (succs f).
Proof.
  intros H. destruct H as [f n g I J M|f h n g I J K L M]; unfold succs; apply in_or_app.
  - left. apply in_flat_map. exists n. split; [exact J|now apply in_these].
  - right. rewrite J. unfold passed. apply in_flat_map. exists h. split; [exact K|]. apply in_flat_map. exists n. split; [exact L|now apply in_these].
Qed.
Lemma succs_calls f g : In f lib -> In g (succs f) -> calls m lib f g.
Proof.
  intros If H. unfold succs in H. apply in_app_or in H. destruct H as [H|H].
  - apply in_flat_map in H. destruct H as [n [A B]]. apply in_these in B. exact (by_name m lib f n g If A B).
  - destruct (fn_indirect f) eqn:E; [|destruct H]. unfold passed in H. apply in_flat_map in H. destruct H as [h [A B]].
    apply in_flat_map in B. destruct B as [n [B D]]. apply in_these in D. exact (by_pointer m lib f h n g If E A B D).
Qed.
Lemma calls_in f g : calls m lib f g -> In f lib /\ In g lib.
Proof. intros H. destruct H as [f n g I J M|f h n g I J K L M]; (split; [exact I|apply (me_in _ _ _ _ _ M)]). Qed.

Fixpoint shallow (k : nat) (f : fn) : bool := match k with O => false | S k => forallb (shallow k) (succs f) end.
Lemma shallow_chain k : forall f l, shallow k f = true -> chain m lib f l -> S (length l) <= k.
Proof.
  induction k as [|k IH]; intros f l H K; [discriminate|]. destruct l as [|g l]; [simpl; lia|]. simpl in K. destruct K as [K1 K2]. simpl in H.
  rewrite forallb_forall in H. specialize (IH g l (H g (calls_succs _ _ K1)) K2). simpl. lia.
Qed.

Fixpoint stopsb (k : nat) (f : fn) : bool :=
  match k with
  | O => true
  | S k => existsb (fun n => match n with C s => String.eqb s "abort" || String.eqb s "exit" | F _ _ => false end) (fn_calls f) || existsb (stopsb k) (succs f)
  end.
Lemma stopsb_spec k : forall f, stopsb k f = false -> ~ may_stop m lib f.
Proof.
  induction k as [|k IH]; intros f H; [discriminate|]. simpl in H. apply orb_false_iff in H. destruct H as [H1 H2]. intros [g [R S]].
  apply clos_rt_rt1n_iff in R. destruct R as [|h g R1 R2].
  - assert (X : existsb (fun n => match n with C s => String.eqb s "abort" || String.eqb s "exit" | F _ _ => false end) (fn_calls f) = true).
    { apply existsb_exists. destruct S as [S|S]; [exists (C "abort")|exists (C "exit")]; (split; [exact S|reflexivity]). }
    rewrite X in H1. discriminate.
  - assert (X : stopsb k h = false).
    { destruct (stopsb k h) eqn:E; [|reflexivity]. rewrite <- H2. symmetry. apply existsb_exists. exists h. split; [now apply calls_succs|exact E]. }
    apply (IH h X). exists g. split; [now apply clos_rt_rt1n_iff|exact S].
Qed.
Fixpoint stops_surely (k : nat) (f : fn) : bool :=
  match k with
  | O => false
  | S k => existsb (fun n => match n with C s => String.eqb s "abort" || String.eqb s "exit" | F _ _ => false end) (fn_calls f) || existsb (stops_surely k) (succs f)
  end.
Lemma stops_surely_spec k : forall f, In f lib -> stops_surely k f = true -> may_stop m lib f.
Proof.
  induction k as [|k IH]; intros f If H; [discriminate|]. simpl in H. apply orb_true_iff in H. destruct H as [H|H].
  - exists f. split; [apply rt_refl|]. apply existsb_exists in H. destruct H as [n [I E]]. destruct n as [s|]; [|discriminate].
    apply orb_true_iff in E. destruct E as [E|E]; apply String.eqb_eq in E; subst s; [left|right]; exact I.
  - apply existsb_exists in H. destruct H as [h [I E]]. pose proof (succs_calls _ _ If I) as K. destruct (IH h (proj2 (calls_in _ _ K)) E) as [g [R S]].
    exists g. split; [|exact S]. apply rt_trans with h; [now apply rt_step|exact R].
Qed.
End Checks.

(** A cycle would give chains of every length. *)
Lemma chain_app m lib : forall l f g k, chain m lib f (l ++ [g]) -> chain m lib g k -> chain m lib f (l ++ g :: k).
Proof. induction l as [|a l IH]; intros f g k H K; simpl in *; [tauto|]. destruct H as [H1 H2]. split; [exact H1|now apply IH]. Qed.
Lemma trans_chain m lib f g : clos_trans fn (calls m lib) f g -> exists l, chain m lib f (l ++ [g]).
Proof.
  intros H. apply clos_trans_t1n_iff in H. induction H as [f g H|f h g H _ [l L]]; [exists []; simpl; tauto|]. exists (h :: l). simpl. now split.
Qed.
Lemma cycle_chain m lib f : clos_trans fn (calls m lib) f f -> forall k, exists l, chain m lib f l /\ k <= length l.
Proof.
  intros H. apply trans_chain in H. destruct H as [l L]. induction k as [|k [j [J K]]]; [exists []; simpl; split; [exact I|lia]|].
  exists (l ++ f :: j). split; [now apply chain_app|]. rewrite app_length. simpl. lia.
Qed.

(** Both kinds of build. *)
Lemma C105_closed_lemma : forall m lib, lib = library \/ lib = (library ++ internal)%list /\ m <> SAME ->
  forall f n, In f lib -> In n (fn_calls f ++ fn_passes f) -> linked m lib (fn_file f) n.
Proof.
  intros m lib H. apply closedb_spec. destruct H as [->|[-> N]].
  - destruct m; vm_compute; reflexivity.
  - destruct m; try (vm_compute; reflexivity). now destruct N.
Qed.
Lemma C105_once_lemma : forall m lib, m <> CAPS -> lib = library \/ lib = (library ++ internal)%list /\ m <> SAME ->
  forall f g, In f lib -> In g lib -> ~ clash m f g.
Proof.
  intros m lib N H. apply apartb_spec. destruct H as [->|[-> M]].
  - destruct m; try (vm_compute; reflexivity). now destruct N.
  - destruct m; try (vm_compute; reflexivity); [now destruct M|now destruct N].
Qed.
Lemma in_two {A} (l : list A) (p q : A -> bool) : existsb p l = true -> existsb q l = true -> exists x y, In x l /\ In y l /\ p x = true /\ q y = true.
Proof. intros H K. apply existsb_exists in H, K. destruct H as [x [A1 A2]], K as [y [B1 B2]]. now exists x, y. Qed.
Definition called (n : nm) (f : fn) : bool :=
  match n, fn_name f with C a, C b => String.eqb a b | F a c, F b d => String.eqb a b && String.eqb c d | _, _ => false end.
Lemma called_spec n f : called n f = true -> fn_name f = n.
Proof.
  unfold called. destruct n as [a|a c], (fn_name f) as [b|b d]; try discriminate.
  - intros H. apply String.eqb_eq in H. now subst.
  - intros H. apply andb_true_iff in H. destruct H as [H K]. apply String.eqb_eq in H, K. now subst.
Qed.
Definition named (n : nm) (st : bool) (f : fn) : bool := called n f && Bool.eqb (fn_static f) st.
Lemma two_names lib n k : existsb (named n false) lib = true -> existsb (named k false) lib = true ->
  exists f g, In f lib /\ In g lib /\ fn_name f = n /\ fn_name g = k /\ fn_static f = false /\ fn_static g = false.
Proof.
  intros H K. destruct (in_two _ _ _ H K) as [f [g [A [B [D E]]]]]. exists f, g. apply andb_true_iff in D, E. destruct D as [D1 D2], E as [E1 E2].
  apply eqb_prop in D2, E2. do 2 (split; [assumption|]). do 2 (split; [now apply called_spec|]). now split.
Qed.
Lemma C105_once_refuted_lemma :
  (exists f g, In f library /\ In g library /\ fn_name f = F "mpi_get_address" "MPI_ADDRESS" /\ fn_name g = F "mpi_address" "MPI_ADDRESS" /\ clash CAPS f g) /\
  missing CAPS library "" (F "mpi_get_address" "MPI_GET_ADDRESS") /\
  exists f g, In f (library ++ internal) /\ In g (library ++ internal) /\ fn_name f = F "print_typemap" "PRINT_TYPEMAP" /\ fn_name g = C "print_typemap" /\ clash SAME f g.
Proof.
  split; [|split].
  - destruct (two_names library (F "mpi_get_address" "MPI_ADDRESS") (F "mpi_address" "MPI_ADDRESS")) as [f [g [A [B [D [E [G H]]]]]]]; try (vm_compute; reflexivity).
    exists f, g. do 4 (split; [assumption|]). split; [intros X; subst g; rewrite D in E; discriminate|]. split; [now rewrite D, E|now left].
  - apply missingb_spec. vm_compute. reflexivity.
  - destruct (two_names (library ++ internal) (F "print_typemap" "PRINT_TYPEMAP") (C "print_typemap")) as [f [g [A [B [D [E [G H]]]]]]]; try (vm_compute; reflexivity).
    exists f, g. do 4 (split; [assumption|]). split; [intros X; subst g; rewrite D in E; discriminate|]. split; [now rewrite D, E|now left].
Qed.

(** Declarations. *)
Definition ctyb (a b : cty) : bool := String.eqb (fst a) (fst b) && Nat.eqb (snd a) (snd b).
Lemma ctyb_spec a b : ctyb a b = true -> a = b.
Proof. destruct a, b. unfold ctyb. simpl. intros H. apply andb_true_iff in H. destruct H as [H K]. apply String.eqb_eq in H. apply Nat.eqb_eq in K. now subst. Qed.
Fixpoint ctysb (a b : list cty) : bool := match a, b with [], [] => true | x :: a, y :: b => ctyb x y && ctysb a b | _, _ => false end.
Lemma ctysb_spec : forall a b, ctysb a b = true -> a = b.
Proof.
  induction a as [|x a IH]; intros [|y b] H; try discriminate; [reflexivity|]. simpl in H. apply andb_true_iff in H. destruct H as [H K].
  apply ctyb_spec in H. apply IH in K. now subst.
Qed.
Definition agreesb (d : decl) (f : fn) : bool :=
  called (d_name d) f && negb (fn_static f) && ctyb (plain (fn_ret f)) (plain (d_ret d)) && ctysb (map plain (fn_params f)) (map plain (d_params d)).
Lemma agreesb_spec d f : agreesb d f = true -> agrees d f.
Proof.
  unfold agreesb. intros H. apply andb_true_iff in H. destruct H as [H H4]. apply andb_true_iff in H. destruct H as [H H3]. apply andb_true_iff in H.
  destruct H as [H1 H2]. constructor; [now apply called_spec|now apply negb_true_iff|now apply ctyb_spec|now apply ctysb_spec].
Qed.
Definition one_of (l : list string) (n : nm) : bool := match n with C s => existsb (String.eqb s) l | F _ _ => false end.
Lemma one_of_spec l n : one_of l n = true -> In n (map C l).
Proof.
  destruct n as [s|]; [|discriminate]. unfold one_of. intros H. apply existsb_exists in H. destruct H as [x [I E]]. apply String.eqb_eq in E. subst x. now apply in_map.
Qed.
Lemma C105_declared_lemma : forall d, In d declarations -> ~ In (d_name d) [C "MPI_Type_dup"; C "print_typemap"] -> exists f, In f library /\ agrees d f.
Proof.
  assert (H : forallb (fun d => one_of ["MPI_Type_dup"; "print_typemap"] (d_name d) || existsb (agreesb d) library) declarations = true) by (vm_compute; reflexivity).
  intros d I N. rewrite forallb_forall in H. specialize (H d I). apply orb_true_iff in H. destruct H as [H|H].
  - exfalso. apply N. exact (one_of_spec _ _ H).
  - apply existsb_exists in H. destruct H as [f [A B]]. exists f. split; [exact A|now apply agreesb_spec].
Qed.
Definition declares (file : string) (n : nm) (d : decl) : bool := String.eqb (d_file d) file && match n, d_name d with C a, C b => String.eqb a b | _, _ => false end.
Lemma declares_in file s : existsb (declares file (C s)) declarations = true -> exists d, In d declarations /\ d_file d = file /\ d_name d = C s.
Proof.
  intros H. apply existsb_exists in H. destruct H as [d [A B]]. exists d. unfold declares in B. apply andb_true_iff in B. destruct B as [B D].
  apply String.eqb_eq in B. destruct (d_name d); [|discriminate]. apply String.eqb_eq in D. subst. now split.
Qed.
Lemma declares_out file s : existsb (declares file (C s)) declarations = false -> forall d, In d declarations -> d_file d = file -> d_name d <> C s.
Proof.
  intros H d A B D. assert (X : existsb (declares file (C s)) declarations = true); [|rewrite X in H; discriminate].
  apply existsb_exists. exists d. split; [exact A|]. unfold declares. rewrite B, D, !String.eqb_refl. reflexivity.
Qed.
Lemma C105_declared_refuted_lemma :
  (exists d, In d declarations /\ d_file d = "mpi.h" /\ d_name d = C "MPI_Type_dup") /\
  (forall m, missing m (library ++ internal) "" (C "MPI_Type_dup")) /\
  (exists d, In d declarations /\ d_file d = "type.h" /\ d_name d = C "print_typemap") /\
  (forall m, missing m library "" (C "print_typemap")) /\
  forall d, In d declarations -> d_name d = C "print_typemap" -> exists f, In f internal /\ agrees d f.
Proof.
  split; [apply declares_in; vm_compute; reflexivity|]. split; [intros []; apply missingb_spec; vm_compute; reflexivity|].
  split; [apply declares_in; vm_compute; reflexivity|]. split; [intros []; apply missingb_spec; vm_compute; reflexivity|].
  assert (H : forallb (fun d => negb (one_of ["print_typemap"] (d_name d)) || existsb (agreesb d) internal) declarations = true) by (vm_compute; reflexivity).
  intros d I N. rewrite forallb_forall in H. specialize (H d I). rewrite N in H. simpl negb in H. apply existsb_exists in H. destruct H as [f [A B]].
  exists f. split; [exact A|now apply agreesb_spec].
Qed.
Lemma C105_public_lemma :
  (forall f s, In f library -> fn_name f = C s -> fn_static f = false -> String.prefix "MPI_" s = true -> ~ In s not_in_mpi_h ->
     exists d, In d declarations /\ d_file d = "mpi.h" /\ agrees d f) /\
  (forall s, In s not_in_mpi_h -> (exists f, In f library /\ fn_name f = C s /\ fn_static f = false) /\ forall d, In d declarations -> d_file d = "mpi.h" -> d_name d <> C s).
Proof.
  split.
  - assert (H : forallb (fun f => match fn_name f with C s => negb (String.prefix "MPI_" s) || existsb (String.eqb s) not_in_mpi_h || existsb (fun d => String.eqb (d_file d) "mpi.h" && agreesb d f) declarations | F _ _ => true end) library = true) by (vm_compute; reflexivity).
    intros f s I E S P N. rewrite forallb_forall in H. specialize (H f I). rewrite E, P in H. simpl negb in H. rewrite orb_false_l in H. apply orb_true_iff in H. destruct H as [H|H].
    + apply existsb_exists in H. destruct H as [x [A B]]. apply String.eqb_eq in B. subst x. now destruct N.
    + apply existsb_exists in H. destruct H as [d [A B]]. apply andb_true_iff in B. destruct B as [B D]. exists d. split; [exact A|]. split; [now apply String.eqb_eq|now apply agreesb_spec].
  - assert (H : forallb (fun s => existsb (named (C s) false) library && negb (existsb (declares "mpi.h" (C s)) declarations)) not_in_mpi_h = true) by (vm_compute; reflexivity).
    intros s I. rewrite forallb_forall in H. specialize (H s I). apply andb_true_iff in H. destruct H as [H K]. split.
    + apply existsb_exists in H. destruct H as [f [A B]]. apply andb_true_iff in B. destruct B as [B D]. exists f. split; [exact A|]. split; [now apply called_spec|now apply eqb_prop in D].
    + apply declares_out. now apply negb_true_iff.
Qed.

(** Fortran routines of the routines of C. *)
Definition bindb (c f : fn) : bool :=
  match fn_name c, fn_name f with
  | C s, F lo _ => String.eqb lo (lower s) && negb (fn_static f) && Nat.eqb (length (fn_params f)) (S (length (fn_params c)))
  | _, _ => false
  end.
Lemma bindb_spec c f : bindb c f = true -> binding_of c f.
Proof.
  unfold bindb, binding_of. destruct (fn_name c) as [s|]; [|discriminate]. destruct (fn_name f) as [|lo up]; [discriminate|]. intros H.
  apply andb_true_iff in H. destruct H as [H K]. apply andb_true_iff in H. destruct H as [H J]. apply String.eqb_eq in H. apply negb_true_iff in J. apply Nat.eqb_eq in K.
  subst lo. exists s, up. now split.
Qed.
Lemma C105_bindings_lemma :
  forall c s, In c library -> fn_name c = C s -> fn_static c = false -> String.prefix "MPI_" s = true -> ~ In s C_only -> exists f, In f library /\ binding_of c f.
Proof.
  assert (H : forallb (fun c => match fn_name c with C s => negb (String.prefix "MPI_" s) || existsb (String.eqb s) C_only || existsb (bindb c) library | F _ _ => true end) library = true) by (vm_compute; reflexivity).
  intros c s I E S P N. rewrite forallb_forall in H. specialize (H c I). rewrite E, P in H. simpl negb in H. rewrite orb_false_l in H. apply orb_true_iff in H. destruct H as [H|H].
  - apply existsb_exists in H. destruct H as [x [A B]]. apply String.eqb_eq in B. subst x. now destruct N.
  - apply existsb_exists in H. destruct H as [f [A B]]. exists f. split; [exact A|now apply bindb_spec].
Qed.

(** The test programs. *)
Definition nmb (a b : nm) : bool := match a, b with C a, C b => String.eqb a b | F a c, F b d => String.eqb a b && String.eqb c d | _, _ => false end.
Lemma nmb_spec a b : nmb a b = true -> a = b.
Proof.
  destruct a as [a|a c], b as [b|b d]; try discriminate; unfold nmb; intros H.
  - apply String.eqb_eq in H. now subst.
  - apply andb_true_iff in H. destruct H as [H K]. apply String.eqb_eq in H, K. now subst.
Qed.
Lemma nmb_in a l : existsb (nmb a) l = true -> In a l.
Proof. intros H. apply existsb_exists in H. destruct H as [x [A B]]. apply nmb_spec in B. now subst x. Qed.
Definition callb (a b : nm * nat) : bool := nmb (fst a) (fst b) && Nat.eqb (snd a) (snd b).
Lemma callb_spec a b : callb a b = true -> a = b.
Proof. destruct a, b. unfold callb. simpl. intros H. apply andb_true_iff in H. destruct H as [H K]. apply nmb_spec in H. apply Nat.eqb_eq in K. now subst. Qed.
Lemma callb_in a l : existsb (callb a) l = true -> In a l.
Proof. intros H. apply existsb_exists in H. destruct H as [x [A B]]. apply callb_spec in B. now subst x. Qed.
Lemma C105_tests_lemma : forall m,
  (forall n, In n (ctest_calls ++ ctest_old_calls) -> linked m library "" n) /\
  (forall x, In x fort_calls -> called_right m library "" x) /\
  (m <> CAPS -> forall x, In x (ftest_calls ++ ftest_old_calls) -> x <> (F "mpi_send" "MPI_SEND", 8) -> x <> (F "mpi_unpack" "MPI_UNPACK", 7) -> called_right m library "" x).
Proof.
  intros m. split; [|split].
  - apply linkedb_all. destruct m; vm_compute; reflexivity.
  - assert (H : forallb (rightb m library "") fort_calls = true) by (destruct m; vm_compute; reflexivity).
    intros x I. rewrite forallb_forall in H. now apply rightb_spec, H.
  - intros N.
    assert (H : forallb (fun x => callb (F "mpi_send" "MPI_SEND", 8) x || callb (F "mpi_unpack" "MPI_UNPACK", 7) x || rightb m library "" x)
                  (ftest_calls ++ ftest_old_calls) = true) by (destruct m; try (vm_compute; reflexivity); now destruct N).
    intros x I N1 N2. rewrite forallb_forall in H. specialize (H x I). apply orb_true_iff in H. destruct H as [H|H]; [|now apply rightb_spec].
    apply orb_true_iff in H. destruct H as [H|H]; apply callb_spec in H; congruence.
Qed.
Lemma C105_tests_refuted_lemma :
  In (F "mpi_send" "MPI_SEND", 8) ftest_calls /\ In (F "mpi_unpack" "MPI_UNPACK", 7) ftest_old_calls /\
  forall m, ~ called_right m library "" (F "mpi_send" "MPI_SEND", 8) /\ ~ called_right m library "" (F "mpi_unpack" "MPI_UNPACK", 7).
Proof.
  split; [|split].
  - apply callb_in. vm_compute. reflexivity.
  - apply callb_in. vm_compute. reflexivity.
  - intros m. split; apply wrongb_spec; destruct m; vm_compute; reflexivity.
Qed.
Lemma C105_internal_lemma : forall m, m <> SAME -> m <> CAPS ->
  (forall n, In n ctest_internal_calls -> n <> C "copy_data" -> linked m (library ++ internal) "" n) /\
  (forall x, In x (ftest_with_internal_calls ++ ftest_internal_calls) -> x <> (F "copy_data2" "COPY_DATA2", 7) ->
     x <> (F "mpi_type_indexed_block" "MPI_TYPE_INDEXED_BLOCK", 6) -> called_right m (library ++ internal) "" x).
Proof.
  intros m N1 N2. split.
  - assert (H : forallb (fun n => nmb (C "copy_data") n || linkedb m (library ++ internal) "" n) ctest_internal_calls = true) by (destruct m; try (vm_compute; reflexivity); congruence).
    intros n I N. rewrite forallb_forall in H. specialize (H n I). apply orb_true_iff in H. destruct H as [H|H]; [apply nmb_spec in H; congruence|now apply linkedb_spec].
  - assert (H : forallb (fun x => callb (F "copy_data2" "COPY_DATA2", 7) x || callb (F "mpi_type_indexed_block" "MPI_TYPE_INDEXED_BLOCK", 6) x || rightb m (library ++ internal) "" x)
                  (ftest_with_internal_calls ++ ftest_internal_calls) = true) by (destruct m; try (vm_compute; reflexivity); congruence).
    intros x I M1 M2. rewrite forallb_forall in H. specialize (H x I). apply orb_true_iff in H. destruct H as [H|H]; [|now apply rightb_spec].
    apply orb_true_iff in H. destruct H as [H|H]; apply callb_spec in H; congruence.
Qed.
Lemma C105_internal_refuted_lemma :
  (In (C "copy_data") ctest_internal_calls /\ forall m, missing m (library ++ internal) "" (C "copy_data")) /\
  (In (F "copy_data2" "COPY_DATA2", 7) ftest_with_internal_calls /\ In (F "copy_data2" "COPY_DATA2", 7) ftest_internal_calls /\
   (forall m, m <> SAME -> missing m (library ++ internal) "" (F "copy_data2" "COPY_DATA2")) /\
   ~ called_right SAME (library ++ internal) "" (F "copy_data2" "COPY_DATA2", 7)) /\
  (In (F "mpi_type_indexed_block" "MPI_TYPE_INDEXED_BLOCK", 6) ftest_internal_calls /\
   forall m, missing m (library ++ internal) "" (F "mpi_type_indexed_block" "MPI_TYPE_INDEXED_BLOCK")).
Proof.
  split; [|split].
  - split; [apply (nmb_in (C "copy_data")); vm_compute; reflexivity|]. intros []; apply missingb_spec; vm_compute; reflexivity.
  - split; [apply callb_in; vm_compute; reflexivity|]. split; [apply callb_in; vm_compute; reflexivity|]. split.
    + intros m N. apply missingb_spec. destruct m; try (vm_compute; reflexivity). now destruct N.
    + apply wrongb_spec. vm_compute. reflexivity.
  - split; [apply callb_in; vm_compute; reflexivity|]. intros []; apply missingb_spec; vm_compute; reflexivity.
Qed.

(** Chains. *)
Lemma C106_depth_lemma : forall m lib, lib = library \/ lib = library ++ internal /\ m <> SAME ->
  forall f l, In f lib -> chain m lib f l -> length (f :: l) <= 9.
Proof.
  intros m lib H f l I K. change (length (f :: l)) with (S (length l)). apply (shallow_chain m lib 9 f l); [|exact K].
  assert (X : forallb (shallow m lib 9) lib = true).
  { destruct H as [->|[-> N]]; destruct m; try (vm_compute; reflexivity). now destruct N. }
  rewrite forallb_forall in X. now apply X.
Qed.
Lemma C106_lemma : forall m lib, lib = library \/ lib = library ++ internal /\ m <> SAME -> forall f, ~ clos_trans fn (calls m lib) f f.
Proof.
  intros m lib H f K. destruct (cycle_chain m lib f K 9) as [l [L1 L2]].
  assert (I : In f lib).
  { destruct (trans_chain m lib f f K) as [k C]. destruct k as [|a k]; simpl in C; destruct C as [C _]; exact (proj1 (calls_in _ _ _ _ C)). }
  pose proof (C106_depth_lemma m lib H f l I L1) as X. simpl in X. lia.
Qed.
Lemma C106_stop_lemma : forall m f s, In f library -> fn_name f = C s -> String.prefix "MPI_" s = true -> ~ may_stop m library f <-> In s returning.
Proof.
  intros m.
  assert (H : forallb (fun f => match fn_name f with C s => negb (String.prefix "MPI_" s) || Bool.eqb (existsb (String.eqb s) returning) (negb (stopsb m library 9 f)) && Bool.eqb (stopsb m library 9 f) (stops_surely m library 9 f) | F _ _ => true end) library = true)
    by (destruct m; vm_compute; reflexivity).
  intros f s I E P. rewrite forallb_forall in H. specialize (H f I). rewrite E, P in H. change (negb true) with false in H. rewrite orb_false_l in H. apply andb_true_iff in H.
  destruct H as [H K]. apply eqb_prop in H, K. destruct (stopsb m library 9 f) eqn:S; unfold negb in H.
  - split.
    + intros N. exfalso. apply N. apply (stops_surely_spec m library 9); [exact I|now symmetry].
    + intros J. exfalso. assert (X : existsb (String.eqb s) returning = true) by (apply existsb_exists; exists s; split; [exact J|apply String.eqb_refl]).
      rewrite X in H. discriminate H.
  - split.
    + intros _. apply existsb_exists in H. destruct H as [x [A B]]. apply String.eqb_eq in B. now subst x.
    + intros _. now apply (stopsb_spec m library 9).
Qed.
(** Only two routines are called through pointers, none of them the user's. *)
Lemma C106_pointers_lemma : forall m f g, calls m library f g -> fn_indirect f = true -> In (fn_name g) [C "mpi_match_send"; C "mpi_match_recv"].
Proof.
  intros m f g K E. destruct (calls_in _ _ _ _ K) as [If _]. apply calls_succs in K.
  assert (H : forallb (fun f => negb (fn_indirect f) || forallb (fun g => one_of ["mpi_match_send"; "mpi_match_recv"] (fn_name g)) (succs m library f)) library = true)
    by (destruct m; vm_compute; reflexivity).
  rewrite forallb_forall in H. specialize (H f If). rewrite E in H. simpl negb in H. rewrite orb_false_l in H. rewrite forallb_forall in H. exact (one_of_spec _ _ (H g K)).
Qed.

(** The other tables. *)
Definition kindb (a b : kind) : bool :=
  match a, b with Kint, Kint | Klong, Klong | Kaint, Kaint | Kvoid, Kvoid | Kchar, Kchar | Kstatus, Kstatus | Kfun, Kfun => true | _, _ => false end.
Lemma kindb_spec a b : kindb a b = true -> a = b.
Proof. destruct a, b; try discriminate; reflexivity. Qed.
Definition prmb (a b : option prm) : bool := match a, b with Some (Val x), Some (Val y) | Some (Ptr x), Some (Ptr y) => kindb x y | _, _ => false end.
Lemma prmb_spec a b : prmb a b = true -> a = b.
Proof. destruct a as [[x|x]|], b as [[y|y]|]; try discriminate; intros H; apply kindb_spec in H; now subst. Qed.
Fixpoint prmsb (a b : list (option prm)) : bool := match a, b with [], [] => true | x :: a, y :: b => prmb x y && prmsb a b | _, _ => false end.
Lemma prmsb_spec : forall a b, prmsb a b = true -> a = b.
Proof.
  induction a as [|x a IH]; intros [|y b] H; try discriminate; [reflexivity|]. simpl in H. apply andb_true_iff in H. destruct H as [H K].
  apply prmb_spec in H. apply IH in K. now subst.
Qed.
Lemma forallb_existsb {A B} (p : A -> B -> bool) (l : list A) (k : list B) :
  forallb (fun x => existsb (p x) k) l = true -> forall x, In x l -> exists y, In y k /\ p x y = true.
Proof. intros H x I. rewrite forallb_forall in H. specialize (H x I). now apply existsb_exists in H. Qed.
Lemma C105_tables_lemma :
  (forall b, In b bindings -> exists f, In f (library ++ internal) /\ fn_name f = F (b_lower b) (b_upper b) /\
     map as_prm (fn_params f) = map (fun p => Some (snd p)) (b_params b) /\ In (C (b_callee b)) (fn_calls f)) /\
  (forall p, In p prototypes -> exists f, In f (library ++ internal) /\ fn_name f = C (fst p) /\ map as_prm (fn_params f) = map Some (snd p)) /\
  (forall f lo up, In f (library ++ internal) -> fn_name f = F lo up -> ~ In lo ["mpi_init_fort"; "mpi_save_fort_pointers"; "mpi_wtime"] -> fn_file f <> "fort.F90" ->
     exists b, In b bindings /\ b_lower b = lo /\ b_upper b = up) /\
  (forall p, In p returns_of -> exists f, In f (library ++ internal) /\ text_of (fn_name f) = fst p /\
     forall g, In (Of g) (snd p) -> exists n, In n (fn_calls f) /\ text_of n = g) /\
  (forall f, In f (library ++ internal) -> fn_ret f = ("int", 0) -> ~ In (text_of (fn_name f)) no_code -> exists rs, In (text_of (fn_name f), rs) returns_of) /\
  (forall p, In p ierror_of -> exists f, In f (library ++ internal) /\ text_of (fn_name f) = fst p /\
     forall g, snd p = Of g -> exists n, In n (fn_calls f) /\ text_of n = g).
Proof.
  split; [|split; [|split; [|split; [|split]]]].
  - assert (H : forallb (fun b => existsb (fun f => called (F (b_lower b) (b_upper b)) f && (prmsb (map as_prm (fn_params f)) (map (fun p => Some (snd p)) (b_params b)) &&
      existsb (nmb (C (b_callee b))) (fn_calls f))) (library ++ internal)) bindings = true) by (vm_compute; reflexivity).
    intros b I. destruct (forallb_existsb _ _ _ H b I) as [f [If K]]. apply andb_true_iff in K. destruct K as [K1 K]. apply andb_true_iff in K. destruct K as [K2 K3].
    exists f. split; [exact If|]. split; [now apply called_spec|]. split; [now apply prmsb_spec|now apply nmb_in].
  - assert (H : forallb (fun p => existsb (fun f => called (C (fst p)) f && prmsb (map as_prm (fn_params f)) (map Some (snd p))) (library ++ internal)) prototypes = true) by (vm_compute; reflexivity).
    intros p I. destruct (forallb_existsb _ _ _ H p I) as [f [If K]]. apply andb_true_iff in K. destruct K as [K1 K2].
    exists f. split; [exact If|]. split; [now apply called_spec|now apply prmsb_spec].
  - assert (H : forallb (fun f => match fn_name f with C _ => true | F lo up => existsb (String.eqb lo) ["mpi_init_fort"; "mpi_save_fort_pointers"; "mpi_wtime"] ||
      String.eqb (fn_file f) "fort.F90" || existsb (fun b => String.eqb (b_lower b) lo && String.eqb (b_upper b) up) bindings end) (library ++ internal) = true) by (vm_compute; reflexivity).
    intros f lo up I E N1 N2. rewrite forallb_forall in H. specialize (H f I). rewrite E in H. apply orb_true_iff in H. destruct H as [H|H].
    + exfalso. apply orb_true_iff in H. destruct H as [H|H]; [|apply String.eqb_eq in H; now apply N2].
      apply existsb_exists in H. destruct H as [x [A B]]. apply String.eqb_eq in B. subst x. now apply N1.
    + apply existsb_exists in H. destruct H as [b [A B]]. apply andb_true_iff in B. destruct B as [B D]. exists b. split; [exact A|]. split; now apply String.eqb_eq.
  - assert (H : forallb (fun p => existsb (fun f => String.eqb (text_of (fn_name f)) (fst p) &&
      forallb (fun r => match r with Of g => existsb (fun n => String.eqb (text_of n) g) (fn_calls f) | _ => true end) (snd p)) (library ++ internal)) returns_of = true) by (vm_compute; reflexivity).
    intros p I. destruct (forallb_existsb _ _ _ H p I) as [f [If K]]. apply andb_true_iff in K. destruct K as [K1 K2]. exists f. split; [exact If|].
    split; [now apply String.eqb_eq|]. intros g J. rewrite forallb_forall in K2. specialize (K2 _ J). cbv beta iota in K2. apply existsb_exists in K2. destruct K2 as [n [A B]].
    exists n. split; [exact A|now apply String.eqb_eq].
  - assert (H : forallb (fun f => negb (ctyb (fn_ret f) ("int", 0)) || existsb (String.eqb (text_of (fn_name f))) no_code ||
      existsb (fun p => String.eqb (fst p) (text_of (fn_name f))) returns_of) (library ++ internal) = true) by (vm_compute; reflexivity).
    intros f I E N. rewrite forallb_forall in H. specialize (H f I). rewrite E in H. change (ctyb ("int", 0) ("int", 0)) with true in H. change (negb true) with false in H. rewrite orb_false_l in H. apply orb_true_iff in H. destruct H as [H|H].
    + exfalso. apply existsb_exists in H. destruct H as [x [A B]]. apply String.eqb_eq in B. subst x. now apply N.
    + apply existsb_exists in H. destruct H as [[a rs] [A B]]. apply String.eqb_eq in B. exists rs. cbn [fst] in B. now subst a.
  - assert (H : forallb (fun p => existsb (fun f => String.eqb (text_of (fn_name f)) (fst p) &&
      match snd p with Of g => existsb (fun n => String.eqb (text_of n) g) (fn_calls f) | _ => true end) (library ++ internal)) ierror_of = true) by (vm_compute; reflexivity).
    intros p I. destruct (forallb_existsb _ _ _ H p I) as [f [If K]]. apply andb_true_iff in K. destruct K as [K1 K2]. exists f. split; [exact If|].
    split; [now apply String.eqb_eq|]. intros g J. rewrite J in K2. apply existsb_exists in K2. destruct K2 as [n [A B]].
    exists n. split; [exact A|now apply String.eqb_eq].
Qed.

(** A chain along given names, for the examples. *)
Fixpoint follow (m : mangling) (lib : list fn) (f : fn) (ns : list nm) : list fn :=
  match ns with
  | [] => []
  | n :: ns => match find (called n) (succs m lib f) with Some g => g :: follow m lib g ns | None => [] end
  end.
Lemma follow_chain m lib : forall ns f, In f lib -> chain m lib f (follow m lib f ns).
Proof.
  induction ns as [|n ns IH]; intros f I; [exact Logic.I|]. simpl. destruct (find (called n) (succs m lib f)) as [g|] eqn:E; [|exact Logic.I].
  apply find_some in E. destruct E as [E _]. pose proof (succs_calls m lib f g I E) as K. split; [exact K|]. apply IH. exact (proj2 (calls_in _ _ _ _ K)).
Qed.
Lemma find_named lib n f : find (called n) lib = Some f -> In f lib /\ fn_name f = n.
Proof. intros H. apply find_some in H. destruct H as [A B]. split; [exact A|now apply called_spec]. Qed.
Lemma chain_found m lib n ns l : option_map (fun f => map fn_name (f :: follow m lib f ns)) (find (called n) lib) = Some l ->
  exists f k, In f lib /\ chain m lib f k /\ map fn_name (f :: k) = l.
Proof.
  destruct (find (called n) lib) as [f|] eqn:E; [|discriminate]. intros H. injection H as H. destruct (find_named _ _ _ E) as [I _].
  exists f, (follow m lib f ns). split; [exact I|]. split; [now apply follow_chain|exact H].
Qed.
