(** Proofs for C109, C110 and C111: finite checks of the tables. *)
From Verif Require Import Base LinkModel LinkSpec BuildModel BuildSpec.
From Coq Require Import Ascii.
#[local] Open Scope string_scope.
#[local] Open Scope list_scope.
#[local] Open Scope Z_scope.

Definition nmb (a b : nm) : bool := match a, b with C s, C t => String.eqb s t | F s u, F t v => String.eqb s t && String.eqb u v | _, _ => false end.
Lemma nmb_eq a b : nmb a b = true <-> a = b.
Proof.
  destruct a as [s|s u], b as [t|t v]; cbn [nmb]; try (split; discriminate).
  - rewrite String.eqb_eq. split; congruence.
  - rewrite andb_true_iff, !String.eqb_eq. split; [intros [-> ->]; reflexivity|intros [= -> ->]; auto].
Qed.
Definition memb (s : string) (l : list string) : bool := existsb (String.eqb s) l.
Lemma memb_in s l : memb s l = true <-> In s l.
Proof.
  unfold memb. rewrite existsb_exists. split.
  - intros (x & I & E). apply String.eqb_eq in E. now subst x.
  - intros I. exists s. split; [exact I|apply String.eqb_refl].
Qed.

(** What a file includes. *)
Definition next (l : list string) : list string := flat_map (fun f => flat_map (fun p => if String.eqb (fst p) f then snd p else []) includes) l.
Fixpoint below (k : nat) (l : list string) : list string := match k with O => [] | S k => let n := next l in n ++ below k n end.
Lemma next_reaches f l h : (forall x, In x l -> x = f \/ reaches f x) -> In h (next l) -> reaches f h.
Proof.
  intros L H. unfold next in H. apply in_flat_map in H. destruct H as (x & Ix & H). apply in_flat_map in H. destruct H as ([y hs] & Iy & H). cbn [fst snd] in H.
  destruct (String.eqb y x) eqn:E; [|destruct H]. apply String.eqb_eq in E. subst y. specialize (L x Ix). destruct L as [->|L]; [exact (re_itself f hs h Iy H)|].
  exact (re_through f x h L (re_itself x hs h Iy H)).
Qed.
Lemma below_reaches f k : forall l h, (forall x, In x l -> x = f \/ reaches f x) -> In h (below k l) -> reaches f h.
Proof.
  induction k as [|k IH]; intros l h L H; [destruct H|]. cbn [below] in H. apply in_app_or in H. destruct H as [H|H]; [exact (next_reaches f l h L H)|].
  apply (IH (next l) h); [|exact H]. intros x Hx. right. exact (next_reaches f l x L Hx).
Qed.
Lemma reach_b f h : memb h (below 5 [f]) = true -> reaches f h.
Proof. intros H. apply memb_in in H. apply (below_reaches f 5 [f] h); [|exact H]. intros x [<-|[]]. now left. Qed.

(** Declared before use. *)
Definition tags (w v : option string) : list string := match w with Some x => [x] | None => [] end ++ match v with Some x => [x] | None => [] end.
Definition tagb (ws : list string) (w : option string) : bool := match w with None => true | Some x => memb x ws end.
Definition declb (ws : list string) (file : string) (line : Z) (n : nm) : bool :=
  existsb (fun p => String.eqb (p_file p) file && nmb (p_name p) n && tagb ws (p_when p) && (p_first p <=? line)) places ||
  existsb (fun x => String.eqb (fst (fst x)) file && nmb (d_name (snd x)) n && (snd (fst x) <? line)) prototypes_in ||
  existsb (fun d => nmb (d_name d) n && memb (d_file d) (below 5 [file])) declarations ||
  match n with C s => existsb (fun x => memb s (snd x) && memb (fst x) (below 5 [file])) c_headers | F _ _ => false end.
Lemma declb_spec on ws file line n : (forall x, In x ws -> In x on) -> declb ws file line n = true -> declared on file line n.
Proof.
  intros W H. unfold declb in H. apply orb_true_iff in H. destruct H as [H|H]; [apply orb_true_iff in H; destruct H as [H|H]; [apply orb_true_iff in H; destruct H as [H|H]|]|].
  - left. apply existsb_exists in H. destruct H as (p & I & H). rewrite !andb_true_iff in H. destruct H as [[[A B] D] E].
    exists p. split; [exact I|]. split; [now apply String.eqb_eq|]. split; [now apply nmb_eq|]. split; [|now apply Z.leb_le].
    destruct (p_when p) as [x|]; [|exact I0 || exact Logic.I]. cbn [tagb] in D. apply memb_in in D. exact (W x D).
  - right. left. apply existsb_exists in H. destruct H as ([[f l] d] & I & H). cbn [fst snd] in H. rewrite !andb_true_iff in H. destruct H as [[A B] D].
    apply String.eqb_eq in A. subst f. exists l, d. split; [exact I|]. split; [now apply nmb_eq|now apply Z.ltb_lt].
  - right. right. left. apply existsb_exists in H. destruct H as (d & I & H). apply andb_true_iff in H. destruct H as [A B].
    exists d. split; [exact I|]. split; [now apply nmb_eq|]. exact (reach_b _ _ B).
  - right. right. right. destruct n as [s|lo u]; [|discriminate]. apply existsb_exists in H. destruct H as ([h l] & I & H). cbn [fst snd] in H. apply andb_true_iff in H.
    destruct H as [A B]. exists s, h, l. split; [reflexivity|]. split; [exact (reach_b _ _ B)|]. split; [exact I|now apply memb_in].
Qed.
Definition optb (a b : option string) : bool := match a, b with None, None => true | Some x, Some y => String.eqb x y | _, _ => false end.
Definition useb (u v : use) : bool := Z.eqb (u_line u) (u_line v) && nmb (u_name u) (u_name v) && optb (u_when u) (u_when v).
Lemma optb_eq a b : optb a b = true -> a = b.
Proof. destruct a, b; cbn [optb]; try discriminate; [|reflexivity]. intros H. apply String.eqb_eq in H. now subst. Qed.
Lemma useb_eq u v : useb u v = true -> u = v.
Proof.
  destruct u as [l n w], v as [l' n' w']. unfold useb. cbn [u_line u_name u_when]. rewrite !andb_true_iff. intros [[A B] D].
  apply Z.eqb_eq in A. apply nmb_eq in B. apply optb_eq in D. now subst.
Qed.
Definition badb (file : string) (u : use) : bool := existsb (fun x => String.eqb (fst x) file && useb (snd x) u) undeclared.
Lemma all_declared : forallb (fun p => forallb (fun u => badb (p_file p) u || declb (tags (p_when p) (u_when u)) (p_file p) (u_line u) (u_name u)) (p_uses p)) places = true.
Proof. vm_compute. reflexivity. Qed.
Theorem C109_declared_lemma on p u : In p places -> In u (p_uses p) -> compiled on (p_when p) -> compiled on (u_when u) -> ~ In (p_file p, u) undeclared ->
  declared on (p_file p) (u_line u) (u_name u).
Proof.
  intros Ip Iu Cp Cu N. pose proof all_declared as H. rewrite forallb_forall in H. specialize (H p Ip). cbv beta in H. rewrite forallb_forall in H. specialize (H u Iu). cbv beta in H.
  apply orb_true_iff in H. destruct H as [H|H].
  - exfalso. apply N. unfold badb in H. apply existsb_exists in H. destruct H as ([f v] & I & H). cbn [fst snd] in H. apply andb_true_iff in H. destruct H as [A B].
    apply String.eqb_eq in A. apply useb_eq in B. now subst.
  - apply (declb_spec on) in H; [exact H|]. intros x Hx. unfold tags in Hx. apply in_app_or in Hx.
    destruct Hx as [Hx|Hx]; [destruct (p_when p) as [y|]|destruct (u_when u) as [y|]]; try (destruct Hx as [<-|[]]; assumption); destruct Hx.
Qed.
(** Nothing declares it. *)
Definition nodeclb (file : string) (line : Z) (n : nm) : bool :=
  forallb (fun p => negb (String.eqb (p_file p) file && nmb (p_name p) n && (p_first p <=? line))) places &&
  forallb (fun x => negb (nmb (d_name (snd x)) n)) prototypes_in && forallb (fun d => negb (nmb (d_name d) n)) declarations &&
  match n with C s => forallb (fun x => negb (memb s (snd x))) c_headers | F _ _ => true end.
Lemma nodeclb_spec on file line n : nodeclb file line n = true -> ~ declared on file line n.
Proof.
  unfold nodeclb. rewrite !andb_true_iff, !forallb_forall. intros [[[A B] D] E] [(p & I & F1 & F2 & _ & F3)|[(l & d & I & F1 & F2)|[(d & I & F1 & F2)|(s & h & l & F1 & _ & I & F2)]]].
  - specialize (A p I). rewrite F1, F2, String.eqb_refl, (proj2 (nmb_eq n n) eq_refl), (proj2 (Z.leb_le _ _) F3) in A. discriminate.
  - specialize (B _ I). cbn [snd] in B. rewrite F1, (proj2 (nmb_eq n n) eq_refl) in B. discriminate.
  - specialize (D d I). rewrite F1, (proj2 (nmb_eq n n) eq_refl) in D. discriminate.
  - subst n. rewrite forallb_forall in E. specialize (E _ I). cbn [snd] in E. rewrite (proj2 (memb_in s l) F2) in E. discriminate.
Qed.
Theorem C109_declared_refuted_lemma f u : In (f, u) undeclared ->
  (exists p, In p places /\ p_file p = f /\ In u (p_uses p)) /\ forall on, ~ declared on f (u_line u) (u_name u).
Proof.
  assert (H : forallb (fun x => existsb (fun p => String.eqb (p_file p) (fst x) && existsb (useb (snd x)) (p_uses p)) places && nodeclb (fst x) (u_line (snd x)) (u_name (snd x))) undeclared = true)
    by (vm_compute; reflexivity).
  intros I. rewrite forallb_forall in H. specialize (H _ I). cbn [fst snd] in H. apply andb_true_iff in H. destruct H as [A B]. split.
  - apply existsb_exists in A. destruct A as (p & Ip & A). apply andb_true_iff in A. destruct A as [A D]. apply String.eqb_eq in A. apply existsb_exists in D. destruct D as (v & Iv & D).
    apply useb_eq in D. subst v. eauto.
  - intros on. now apply nodeclb_spec.
Qed.

(** Lines. *)
Definition placeb (p q : place) : bool := (p_last p <? p_first q) || (p_last q <? p_first p) || negb (String.eqb (p_file p) (p_file q)).
Fixpoint apart (l : list place) : bool := match l with [] => true | p :: l => forallb (placeb p) l && apart l end.
Lemma apart_spec l : apart l = true -> forall p q, In p l -> In q l -> p_file p = p_file q -> p = q \/ p_last p < p_first q \/ p_last q < p_first p.
Proof.
  induction l as [|x l IH]; intros H p q Ip Iq E; [destruct Ip|]. cbn [apart] in H. apply andb_true_iff in H. destruct H as [A B]. rewrite forallb_forall in A.
  assert (K : forall y, In y l -> p_file x = p_file y -> p_last x < p_first y \/ p_last y < p_first x).
  { intros y Iy Ey. specialize (A y Iy). unfold placeb in A. rewrite Ey, String.eqb_refl in A. cbn [negb] in A. rewrite orb_false_r, orb_true_iff, !Z.ltb_lt in A. exact A. }
  destruct Ip as [<-|Ip], Iq as [<-|Iq]; [now left| | |exact (IH B p q Ip Iq E)].
  - right. exact (K q Iq E).
  - right. destruct (K p Ip (eq_sym E)); auto.
Qed.
Theorem C109_lines_lemma :
  (forall p u, In p places -> In u (p_uses p) -> p_first p <= u_line u <= p_last p) /\
  (forall p q, In p places -> In q places -> p_file p = p_file q -> p = q \/ p_last p < p_first q \/ p_last q < p_first p).
Proof.
  split.
  - assert (H : forallb (fun p => forallb (fun u => (p_first p <=? u_line u) && (u_line u <=? p_last p)) (p_uses p)) places = true) by (vm_compute; reflexivity).
    intros p u Ip Iu. rewrite forallb_forall in H. specialize (H p Ip). cbv beta in H. rewrite forallb_forall in H. specialize (H u Iu). cbv beta in H.
    apply andb_true_iff in H. rewrite !Z.leb_le in H. exact H.
  - apply apart_spec. vm_compute. reflexivity.
Qed.

(** The table of LinkModel. *)
Definition sub (l k : list nm) : bool := forallb (fun n => existsb (nmb n) k) l.
Lemma sub_spec l k : sub l k = true -> forall n, In n l -> In n k.
Proof. unfold sub. rewrite forallb_forall. intros H n I. specialize (H n I). apply existsb_exists in H. destruct H as (x & Ix & E). apply nmb_eq in E. now subst. Qed.
Definition plain_uses (p : place) : list nm := map u_name (filter (fun u => optb (u_when u) None) (p_uses p)).
Definition sameb (w : option string) (f : fn) (p : place) : bool :=
  String.eqb (p_file p) (fn_file f) && nmb (p_name p) (fn_name f) && optb (p_when p) w && sub (fn_calls f ++ fn_passes f) (plain_uses p) && sub (plain_uses p) (fn_calls f ++ fn_passes f).
Lemma sameb_spec w f p : sameb w f p = true -> same w f p.
Proof.
  unfold sameb. rewrite !andb_true_iff. intros [[[[A B] D] E] G]. apply String.eqb_eq in A. apply nmb_eq in B. apply optb_eq in D. do 3 (split; [assumption|]).
  intros n. split.
  - intros I. apply (sub_spec _ _ E) in I. unfold plain_uses in I. apply in_map_iff in I. destruct I as (u & Eu & I). apply filter_In in I. destruct I as [I J]. apply optb_eq in J. eauto.
  - intros (u & I & J & Eu). apply (sub_spec _ _ G). unfold plain_uses. apply in_map_iff. exists u. split; [exact Eu|]. apply filter_In. split; [exact I|]. now rewrite J.
Qed.
Theorem C109_same_lemma :
  (forall f, In f library -> fn_file f <> "fort.F90" -> exists p, In p places /\ same None f p) /\
  (forall f, In f internal -> exists p, In p places /\ same (Some "TEST_INTERNAL") f p) /\
  (forall p, In p places -> p_when p = None -> exists f, In f library /\ same None f p) /\
  (forall p, In p places -> p_when p = Some "TEST_INTERNAL" -> exists f, In f internal /\ same (Some "TEST_INTERNAL") f p).
Proof.
  assert (A : forallb (fun f => String.eqb (fn_file f) "fort.F90" || existsb (sameb None f) places) library = true) by (vm_compute; reflexivity).
  assert (B : forallb (fun f => existsb (sameb (Some "TEST_INTERNAL") f) places) internal = true) by (vm_compute; reflexivity).
  assert (D : forallb (fun p => negb (optb (p_when p) None) || existsb (fun f => sameb None f p) library) places = true) by (vm_compute; reflexivity).
  assert (E : forallb (fun p => negb (optb (p_when p) (Some "TEST_INTERNAL")) || existsb (fun f => sameb (Some "TEST_INTERNAL") f p) internal) places = true) by (vm_compute; reflexivity).
  rewrite forallb_forall in A, B, D, E. split; [|split; [|split]].
  - intros f I N. specialize (A f I). apply orb_true_iff in A. destruct A as [A|A]; [apply String.eqb_eq in A; contradiction|]. apply existsb_exists in A. destruct A as (p & Ip & A).
    exists p. split; [exact Ip|now apply sameb_spec].
  - intros f I. specialize (B f I). apply existsb_exists in B. destruct B as (p & Ip & B). exists p. split; [exact Ip|now apply sameb_spec].
  - intros p I W. specialize (D p I). rewrite W in D. cbn [optb negb orb] in D. apply existsb_exists in D. destruct D as (f & If & D). exists f. split; [exact If|now apply sameb_spec].
  - intros p I W. specialize (E p I). cbv beta in E. rewrite W in E. change (negb (optb (Some "TEST_INTERNAL") (Some "TEST_INTERNAL"))) with false in E. cbn [orb] in E. apply existsb_exists in E. destruct E as (f & If & E). exists f. split; [exact If|now apply sameb_spec].
Qed.

(** Macros. *)
Definition needsb (p : place) (u : use) (w : string) : bool := optb (u_when u) (Some w) || optb (u_when u) None && optb (p_when p) (Some w).
Lemma optb_refl a : optb a a = true.
Proof. destruct a; [apply String.eqb_refl|reflexivity]. Qed.
Lemma needsb_spec p u w : needsb p u w = true <-> needs p u w.
Proof.
  unfold needsb, needs. rewrite orb_true_iff, andb_true_iff. split.
  - intros [H|[H K]]; [left; now apply optb_eq|right; split; now apply optb_eq].
  - intros [->|[-> ->]]; [left; apply optb_refl|right; split; [reflexivity|apply optb_refl]].
Qed.
Definition rowb (x y : string * nm * nm * string) : bool :=
  let '(a, b, c, d) := x in let '(a', b', c', d') := y in String.eqb a a' && nmb b b' && nmb c c' && String.eqb d d'.
Lemma rowb_eq x y : rowb x y = true -> x = y.
Proof. destruct x as [[[a b] c] d], y as [[[a' b'] c'] d']. cbn [rowb]. rewrite !andb_true_iff, !String.eqb_eq, !nmb_eq. intros [[[-> ->] ->] ->]. reflexivity. Qed.
Theorem C109_macros_lemma :
  (forall file r n w, In (file, r, n, w) added <-> In w watching /\ exists p u, In p places /\ In u (p_uses p) /\ needs p u w /\ p_file p = file /\ p_name p = r /\ u_name u = n) /\
  (forall p u w, In p places -> In u (p_uses p) -> needs p u w -> In w (watching ++ ["TEST_INTERNAL"; "LISTMAIN"])) /\
  (forall file r n w, In (file, r, n, w) added -> In n (map C ["fflush"; "fprintf"; "printf"; "print_list"; "print_item"; "AP_list_apply"]) \/ In w ["CHECKS"; "TYPE_CHECKING"] /\ In n (map C ["abort"; "exit"; "verify_handle"])).
Proof.
  assert (A : forallb (fun x => let '(file, r, n, w) := x in memb w watching &&
    existsb (fun p => String.eqb (p_file p) file && nmb (p_name p) r && existsb (fun u => nmb (u_name u) n && needsb p u w) (p_uses p)) places) added = true) by (vm_compute; reflexivity).
  assert (B : forallb (fun p => forallb (fun u => forallb (fun w => negb (needsb p u w) || existsb (rowb (p_file p, p_name p, u_name u, w)) added) watching) (p_uses p)) places = true) by (vm_compute; reflexivity).
  assert (D : forallb (fun p => forallb (fun u => match (match u_when u with None => p_when p | x => x end) with Some w => memb w (watching ++ ["TEST_INTERNAL"; "LISTMAIN"]) | None => true end) (p_uses p)) places = true)
    by (vm_compute; reflexivity).
  assert (E : forallb (fun x => let '(file, r, n, w) := x in existsb (nmb n) (map C ["fflush"; "fprintf"; "printf"; "print_list"; "print_item"; "AP_list_apply"]) ||
    memb w ["CHECKS"; "TYPE_CHECKING"] && existsb (nmb n) (map C ["abort"; "exit"; "verify_handle"])) added = true) by (vm_compute; reflexivity).
  assert (MN : forall n l, existsb (nmb n) l = true -> In n l) by (intros n l H; apply existsb_exists in H; destruct H as (x & I & H); apply nmb_eq in H; now subst).
  rewrite forallb_forall in A, B, D, E. split; [|split].
  - intros file r n w. split.
    + intros I. specialize (A _ I). cbv beta iota in A. apply andb_true_iff in A. destruct A as [A1 A2]. split; [now apply memb_in|]. apply existsb_exists in A2. destruct A2 as (p & Ip & A2).
      rewrite !andb_true_iff in A2. destruct A2 as [[A3 A4] A5]. apply existsb_exists in A5. destruct A5 as (u & Iu & A5). apply andb_true_iff in A5. destruct A5 as [A5 A6].
      exists p, u. split; [exact Ip|]. split; [exact Iu|]. split; [now apply needsb_spec|]. split; [now apply String.eqb_eq|]. split; now apply nmb_eq.
    + intros (W & p & u & Ip & Iu & N & <- & <- & <-). specialize (B p Ip). cbv beta in B. rewrite forallb_forall in B. specialize (B u Iu). cbv beta in B. rewrite forallb_forall in B. specialize (B w W). cbv beta in B.
      rewrite (proj2 (needsb_spec p u w) N) in B. cbn [negb orb] in B. apply existsb_exists in B. destruct B as (x & Ix & B). apply rowb_eq in B. now rewrite B.
  - intros p u w Ip Iu N. specialize (D p Ip). cbv beta in D. rewrite forallb_forall in D. specialize (D u Iu). cbv beta in D. apply memb_in. destruct N as [N|[N1 N2]]; [now rewrite N in D|now rewrite N1, N2 in D].
  - intros file r n w I. specialize (E _ I). cbv beta iota in E. apply orb_true_iff in E. destruct E as [E|E]; [left; now apply MN|right]. apply andb_true_iff in E. destruct E as [E1 E2]. split; [now apply memb_in|now apply MN].
Qed.

(** Types. *)
Definition ctyb (a b : cty) : bool := String.eqb (fst a) (fst b) && Nat.eqb (snd a) (snd b).
Lemma ctyb_eq a b : ctyb a b = true -> a = b.
Proof. destruct a, b. unfold ctyb. cbn [fst snd]. rewrite andb_true_iff, String.eqb_eq, Nat.eqb_eq. intros [-> ->]. reflexivity. Qed.
Fixpoint ctysb (a b : list cty) : bool := match a, b with [], [] => true | x :: a, y :: b => ctyb x y && ctysb a b | _, _ => false end.
Lemma ctysb_eq a : forall b, ctysb a b = true -> a = b.
Proof. induction a as [|x a IH]; intros [|y b] H; try discriminate; [reflexivity|]. cbn [ctysb] in H. apply andb_true_iff in H. destruct H as [A B]. f_equal; [now apply ctyb_eq|now apply IH]. Qed.
Definition agreesb (d : decl) (f : fn) : bool :=
  nmb (fn_name f) (d_name d) && negb (fn_static f) && ctyb (plain (fn_ret f)) (plain (d_ret d)) && ctysb (map plain (fn_params f)) (map plain (d_params d)).
Lemma agreesb_spec d f : agreesb d f = true -> agrees d f.
Proof.
  unfold agreesb. rewrite !andb_true_iff. intros [[[A B] D] E]. constructor; [now apply nmb_eq|now apply negb_true_iff in B|now apply ctyb_eq|now apply ctysb_eq].
Qed.
Theorem C109_types_lemma :
  (forall file l d, In (file, l, d) prototypes_in -> exists f, In f library /\ fn_file f = file /\ agrees d f) /\
  (forall f n g, In f library -> In n (fn_passes f) -> In g library -> fn_name g = n -> can_be_passed g).
Proof.
  assert (A : forallb (fun x => existsb (fun f => String.eqb (fn_file f) (fst (fst x)) && agreesb (snd x) f) library) prototypes_in = true) by (vm_compute; reflexivity).
  assert (B : forallb (fun f => forallb (fun n => forallb (fun g => negb (nmb (fn_name g) n) || ctyb (fn_ret g) ("int", 0%nat) && ctysb (fn_params g) [("void", 1%nat); ("void", 1%nat)]) library) (fn_passes f)) library = true)
    by (vm_compute; reflexivity).
  rewrite forallb_forall in A, B. split.
  - intros file l d I. specialize (A _ I). cbn [fst snd] in A. apply existsb_exists in A. destruct A as (f & If & A). apply andb_true_iff in A. destruct A as [A D].
    exists f. split; [exact If|]. split; [now apply String.eqb_eq|now apply agreesb_spec].
  - intros f n g If In_ Ig E. specialize (B f If). cbv beta in B. rewrite forallb_forall in B. specialize (B n In_). cbv beta in B. rewrite forallb_forall in B. specialize (B g Ig). cbv beta in B.
    rewrite E, (proj2 (nmb_eq n n) eq_refl) in B. cbn [negb orb] in B. apply andb_true_iff in B. destruct B as [B D]. split; [now apply ctyb_eq|now apply ctysb_eq].
Qed.

(** Files. *)
Definition known (h : string) : bool := memb h files || memb h made_by_configure || existsb (fun p => String.eqb (fst p) h) c_headers.
Theorem C110_headers_lemma :
  (forall f l, In (f, l) includes -> In f files) /\
  (forall f, In f files -> (exists n, f = (n ++ ".c")%string \/ f = (n ++ ".h")%string) -> f <> "mpif.h" -> exists l, In (f, l) includes) /\
  (forall f l h, In (f, l) includes -> In h l -> In h files \/ In h made_by_configure \/ exists r, In (h, r) c_headers).
Proof.
  assert (A : forallb (fun p => memb (fst p) files) includes = true) by (vm_compute; reflexivity).
  assert (D : forallb (fun p => forallb known (snd p)) includes = true) by (vm_compute; reflexivity).
  rewrite forallb_forall in A, D. split; [|split].
  - intros f l I. apply memb_in. exact (A _ I).
  - assert (B : forallb (fun f => existsb (fun p => String.eqb (fst p) f) includes || String.eqb f "mpif.h" ||
        negb (String.eqb (substring (String.length f - 2)%nat 2 f) ".c" || String.eqb (substring (String.length f - 2)%nat 2 f) ".h")) files = true) by (vm_compute; reflexivity).
    assert (S2 : forall n e, String.length e = 2%nat -> substring (String.length (n ++ e) - 2)%nat 2 (n ++ e)%string = e).
    { assert (S1 : forall n e k, substring (String.length n) k (n ++ e)%string = substring 0 k e) by (induction n as [|x n IH]; intros e k; [reflexivity|cbn; apply IH]).
      assert (S0 : forall n e, String.length (n ++ e)%string = (String.length n + String.length e)%nat) by (induction n as [|x n IH]; intros e; [reflexivity|cbn; now rewrite IH]).
      intros n e L. rewrite S0, L. replace (String.length n + 2 - 2)%nat with (String.length n) by lia. rewrite S1.
      destruct e as [|x [|y [|z e]]]; try discriminate. reflexivity. }
    rewrite forallb_forall in B. intros f I (n & Hn) Nm. specialize (B f I). cbv beta in B.
    assert (Ef : (String.eqb (substring (String.length f - 2)%nat 2 f) ".c" || String.eqb (substring (String.length f - 2)%nat 2 f) ".h") = true)
      by (destruct Hn as [-> | ->]; rewrite S2 by reflexivity; reflexivity).
    rewrite Ef in B. cbn [negb] in B. rewrite orb_false_r in B. apply orb_true_iff in B. destruct B as [B|B]; [|apply String.eqb_eq in B; contradiction].
    apply existsb_exists in B. destruct B as ([x l] & Ix & B). cbn [fst] in B. apply String.eqb_eq in B. subst x. eauto.
  - intros f l h I J. specialize (D _ I). cbn [snd] in D. rewrite forallb_forall in D. specialize (D h J). unfold known in D. rewrite !orb_true_iff in D. destruct D as [[D|D]|D].
    + left. now apply memb_in.
    + right. left. now apply memb_in.
    + right. right. apply existsb_exists in D. destruct D as ([x r] & Ix & D). cbn [fst] in D. apply String.eqb_eq in D. subst x. eauto.
Qed.

(** What is read: a function for it. *)
Fixpoint lookup (f : string) (l : list (string * list string)) : option (list string) :=
  match l with [] => None | (x, hs) :: l => if String.eqb x f then Some hs else lookup f l end.
Lemma lookup_in f l hs : lookup f l = Some hs -> In (f, hs) l.
Proof. induction l as [|[x k] l IH]; [discriminate|]. cbn [lookup]. destruct (String.eqb x f) eqn:E; [apply String.eqb_eq in E; intros [= ->]; left; now subst|right; auto]. Qed.
Lemma lookup_none f l : lookup f l = None -> forall hs, ~ In (f, hs) l.
Proof.
  induction l as [|[x k] l IH]; intros H hs; [intros []|]. cbn [lookup] in H. destruct (String.eqb x f) eqn:E; [discriminate|]. intros [[= -> ->]|I]; [now rewrite String.eqb_refl in E|exact (IH H hs I)].
Qed.
Fixpoint dups (l : list string) : bool := match l with [] => false | x :: l => memb x l || dups l end.
Lemma dups_spec l : dups l = false -> NoDup l.
Proof.
  induction l as [|x l IH]; [constructor|]. cbn [dups]. intros H. apply orb_false_iff in H. destruct H as [A B]. constructor; [|now apply IH]. intros I. apply memb_in in I. congruence.
Qed.
Lemma lookup_one f (l : list (string * list string)) : NoDup (map fst l) -> forall hs hs', In (f, hs) l -> In (f, hs') l -> hs = hs'.
Proof.
  induction l as [|[x k] l IH]; intros N hs hs' I J; [destruct I|]. cbn [map fst] in N. inversion N; subst. destruct I as [I|I], J as [J|J]; [congruence| | |exact (IH H2 hs hs' I J)]; [injection I as -> ->|injection J as -> ->].
  - destruct H1. apply in_map_iff. now exists (f, hs').
  - destruct H1. apply in_map_iff. now exists (f, hs).
Qed.
Lemma one_entry f hs hs' : In (f, hs) includes -> In (f, hs') includes -> hs = hs'.
Proof. apply lookup_one. apply dups_spec. vm_compute. reflexivity. Qed.
Scheme reads_ind2 := Minimality for reads Sort Prop with reads_all_ind2 := Minimality for reads_all Sort Prop.
Lemma reads_det seen f l : reads seen f l -> forall l', reads seen f l' -> l' = l.
Proof.
  revert seen f l. apply (reads_ind2 (fun seen f l => forall l', reads seen f l' -> l' = l) (fun seen hs l => forall l', reads_all seen hs l' -> l' = l)).
  - intros seen f N l' H. inversion H; subst; [reflexivity|]. exfalso. exact (N _ H0).
  - intros seen f hs l I _ IH l' H. inversion H; subst; [exfalso; exact (H0 _ I)|]. rewrite (one_entry _ _ _ H0 I) in H1. exact (IH _ H1).
  - intros seen l' H. now inversion H.
  - intros seen h hs l A B _ IH l' H. inversion H; subst; [now apply IH|]. exfalso. auto.
  - intros seen h hs l k N _ IH _ IH2 l' H. inversion H as [|? ? ? ? A B|? ? ? l1 k1 _ R1 R2]; subst; [exfalso; auto|]. apply IH in R1. subst l1. apply IH2 in R2. now subst k1.
Qed.
Fixpoint rd (k : nat) (seen : list string) (f : string) : option (list string) :=
  match k with
  | O => None
  | S k =>
      match lookup f includes with
      | None => Some []
      | Some hs =>
          (fix go (seen hs : list string) : option (list string) :=
             match hs with
             | [] => Some []
             | h :: hs =>
                 if memb h seen && memb h guarded then go seen hs
                 else match rd k (h :: seen) h with
                      | None => None
                      | Some l => match go (l ++ h :: seen) hs with None => None | Some l' => Some (h :: l ++ l') end
                      end
             end) seen hs
      end
  end.
Lemma rd_reads k : forall seen f l, rd k seen f = Some l -> reads seen f l.
Proof.
  induction k as [|k IH]; intros seen f l H; [discriminate|]. cbn [rd] in H. destruct (lookup f includes) as [hs|] eqn:E.
  2: { injection H as <-. apply rd_leaf. now apply lookup_none. }
  apply lookup_in in E. apply (rd_file seen f hs l E). clear E. revert seen l H. induction hs as [|h hs IHh]; intros seen l H; [injection H as <-; constructor|].
  destruct (memb h seen && memb h guarded) eqn:G.
  - apply andb_true_iff in G. destruct G as [G1 G2]. apply ra_skip; [now apply memb_in|now apply memb_in|now apply IHh].
  - destruct (rd k (h :: seen) h) as [l1|] eqn:R; [|discriminate].
    match type of H with match ?t with _ => _ end = _ => destruct t as [l2|] eqn:Q end; [|discriminate]. injection H as <-.
    apply ra_read; [|now apply IH|now apply IHh]. intros [A B]. apply memb_in in A, B. rewrite A, B in G. discriminate.
Qed.
Theorem C110_once_lemma s l : In s sources -> reads [] s l -> NoDup (filter of_library l).
Proof.
  assert (H : forallb (fun s => match rd 9 [] s with Some l => negb (dups (filter of_library l)) | None => false end) sources = true) by (vm_compute; reflexivity).
  intros I R. rewrite forallb_forall in H. specialize (H s I). destruct (rd 9 [] s) as [k|] eqn:E; [|discriminate]. apply rd_reads in E. rewrite (reads_det _ _ _ E _ R).
  apply dups_spec. now apply negb_true_iff.
Qed.
Theorem C110_read_lemma s : In s sources -> exists l, reads [] s l.
Proof.
  assert (H : forallb (fun s => match rd 9 [] s with Some l => true | None => false end) sources = true) by (vm_compute; reflexivity).
  intros I. rewrite forallb_forall in H. specialize (H s I). destruct (rd 9 [] s) as [k|] eqn:E; [|discriminate]. exists k. exact (rd_reads _ _ _ _ E).
Qed.

Theorem C110_sources_lemma :
  (forall f, In f (library ++ internal) -> In (fn_file f) sources) /\
  (forall s, In s sources -> In s files /\ ((exists f, In f library /\ fn_file f = s) \/ In s ["mpif.F90"; "type_const.c"])) /\
  (forall s, In s files -> (exists n, s = (n ++ ".c")%string \/ s = (n ++ ".F90")%string) -> In s sources).
Proof.
  assert (A : forallb (fun f => memb (fn_file f) sources) (library ++ internal) = true) by (vm_compute; reflexivity).
  assert (B : forallb (fun s => memb s files && (existsb (fun f => String.eqb (fn_file f) s) library || memb s ["mpif.F90"; "type_const.c"])) sources = true) by (vm_compute; reflexivity).
  rewrite forallb_forall in A, B. split; [|split].
  - intros f I. apply memb_in. exact (A f I).
  - intros s I. specialize (B s I). cbv beta in B. apply andb_true_iff in B. destruct B as [B D]. split; [now apply memb_in|]. apply orb_true_iff in D. destruct D as [D|D]; [left|right; now apply memb_in].
    apply existsb_exists in D. destruct D as (f & If & D). apply String.eqb_eq in D. eauto.
  - assert (D : forallb (fun s => memb s sources || negb (String.eqb (substring (String.length s - 2)%nat 2 s) ".c" || String.eqb (substring (String.length s - 2)%nat 2 s) "90")) files = true) by (vm_compute; reflexivity).
    assert (S0 : forall n e, String.length (n ++ e)%string = (String.length n + String.length e)%nat) by (induction n as [|x n IH]; intros e; [reflexivity|cbn; now rewrite IH]).
    assert (S1 : forall n e j k, substring (String.length n + j)%nat k (n ++ e)%string = substring j k e) by (induction n as [|x n IH]; intros e j k; [reflexivity|cbn; apply IH]).
    rewrite forallb_forall in D. intros s I (n & Hn). specialize (D s I). cbv beta in D.
    assert (Ef : (String.eqb (substring (String.length s - 2)%nat 2 s) ".c" || String.eqb (substring (String.length s - 2)%nat 2 s) "90") = true).
    { destruct Hn as [-> | ->]; rewrite S0; cbn [String.length].
      - replace (String.length n + 2 - 2)%nat with (String.length n + 0)%nat by lia. rewrite S1. reflexivity.
      - replace (String.length n + 4 - 2)%nat with (String.length n + 2)%nat by lia. rewrite S1. reflexivity. }
    rewrite Ef in D. cbn [negb] in D. rewrite orb_false_r in D. now apply memb_in.
Qed.
Theorem C110_installed_lemma h l x : In h installed -> In (h, l) includes -> In x l -> In x installed.
Proof.
  assert (H : forallb (fun h => match lookup h includes with Some l => forallb (fun x => memb x installed) l | None => true end) installed = true) by (vm_compute; reflexivity).
  intros I J K. rewrite forallb_forall in H. specialize (H h I). cbv beta in H. destruct (lookup h includes) as [l'|] eqn:E; [|exfalso; exact (lookup_none _ _ E _ J)].
  apply lookup_in in E. rewrite (one_entry _ _ _ E J) in H. rewrite forallb_forall in H. apply memb_in. exact (H x K).
Qed.
Theorem C110_dist_lemma :
  (forall h, In h ["mpiP.h"; "type.h"; "list.h"; "listP.h"; "listops.h"] -> In h files /\ ~ In h dist_files /\ exists s, In s sources /\ reaches s h) /\
  (forall x, In x ["COPYING"; "ChangeLog"; "INSTALL"; "NEWS"; "mpi.mod"] -> In x dist_files /\ ~ In x files) /\
  (forall x, In x dist_files -> In x files \/ In x ["COPYING"; "ChangeLog"; "INSTALL"; "NEWS"; "mpi.mod"]).
Proof.
  assert (A : forallb (fun h => memb h files && negb (memb h dist_files) && existsb (fun s => memb h (below 5 [s])) sources) ["mpiP.h"; "type.h"; "list.h"; "listP.h"; "listops.h"] = true) by (vm_compute; reflexivity).
  assert (B : forallb (fun x => memb x dist_files && negb (memb x files)) ["COPYING"; "ChangeLog"; "INSTALL"; "NEWS"; "mpi.mod"] = true) by (vm_compute; reflexivity).
  assert (D : forallb (fun x => memb x files || memb x ["COPYING"; "ChangeLog"; "INSTALL"; "NEWS"; "mpi.mod"]) dist_files = true) by (vm_compute; reflexivity).
  assert (NM : forall x l, negb (memb x l) = true -> ~ In x l) by (intros x l H I; apply memb_in in I; rewrite I in H; discriminate).
  rewrite forallb_forall in A, B, D. split; [|split].
  - intros h I. specialize (A h I). cbv beta in A. rewrite !andb_true_iff in A. destruct A as [[A1 A2] A3]. split; [now apply memb_in|]. split; [now apply NM|].
    apply existsb_exists in A3. destruct A3 as (s & Is & A3). exists s. split; [exact Is|now apply reach_b].
  - intros x I. specialize (B x I). cbv beta in B. apply andb_true_iff in B. destruct B as [B1 B2]. split; [now apply memb_in|now apply NM].
  - intros x I. specialize (D x I). cbv beta in D. apply orb_true_iff in D. destruct D as [D|D]; [left|right]; now apply memb_in.
Qed.

(** Names of Fortran. *)
Definition schemes : list scheme := flat_map (fun a => flat_map (fun b => map (mkScheme a b) [false; true]) [false; true]) [false; true].
Lemma in_schemes sc : In sc schemes.
Proof. destruct sc as [[|] [|] [|]]; cbn; auto 10. Qed.
Definition at_address (lo : string) : bool := String.eqb lo "mpi_get_address".
Theorem C111_names_lemma sc f lo u : In f (library ++ internal) -> fn_name f = F lo u -> sc_extra sc = false -> (sc_upper sc = true -> lo <> "mpi_get_address") ->
  config_symbol sc (fn_name f) = fortran_name sc lo.
Proof.
  assert (H : forallb (fun sc => forallb (fun f => match fn_name f with F lo u => sc_extra sc || sc_upper sc && at_address lo || String.eqb (config_symbol sc (fn_name f)) (fortran_name sc lo) | C _ => true end) (library ++ internal)) schemes = true)
    by (vm_compute; reflexivity).
  intros I E X U. rewrite forallb_forall in H. specialize (H sc (in_schemes sc)). cbv beta in H. rewrite forallb_forall in H. specialize (H f I). cbv beta in H. rewrite E in H. rewrite E, X in *.
  cbn [orb] in H. apply orb_true_iff in H. destruct H as [H|H]; [|now apply String.eqb_eq]. apply andb_true_iff in H. destruct H as [A B]. exfalso. apply (U A). now apply String.eqb_eq.
Qed.
Theorem C111_names_refuted_lemma :
  (forall sc f lo u g, In f (library ++ internal) -> fn_name f = F lo u -> sc_extra sc = true -> In g (library ++ internal) -> config_symbol sc (fn_name g) <> fortran_name sc lo) /\
  (forall sc g, sc_upper sc = true -> In g (library ++ internal) -> config_symbol sc (fn_name g) <> fortran_name sc "mpi_get_address") /\
  (forall sc f lo u, In f (library ++ internal) -> fn_name f = F lo u -> (sc_upper sc = true -> lo <> "mpi_get_address") -> fc_func_ sc lo u = fortran_name sc lo).
Proof.
  assert (A : forallb (fun sc => negb (sc_extra sc) || forallb (fun f => match fn_name f with F lo u => forallb (fun g => negb (String.eqb (config_symbol sc (fn_name g)) (fortran_name sc lo))) (library ++ internal) | C _ => true end) (library ++ internal)) schemes = true)
    by (vm_compute; reflexivity).
  assert (B : forallb (fun sc => negb (sc_upper sc) || forallb (fun g => negb (String.eqb (config_symbol sc (fn_name g)) (fortran_name sc "mpi_get_address"))) (library ++ internal)) schemes = true)
    by (vm_compute; reflexivity).
  assert (D : forallb (fun sc => forallb (fun f => match fn_name f with F lo u => sc_upper sc && at_address lo || String.eqb (fc_func_ sc lo u) (fortran_name sc lo) | C _ => true end) (library ++ internal)) schemes = true)
    by (vm_compute; reflexivity).
  rewrite forallb_forall in A, B, D. split; [|split].
  - intros sc f lo u g If E X Ig Q. specialize (A sc (in_schemes sc)). cbv beta in A. rewrite X in A. cbn [negb orb] in A. rewrite forallb_forall in A. specialize (A f If). cbv beta in A. rewrite E in A.
    rewrite forallb_forall in A. specialize (A g Ig). cbv beta in A. rewrite Q, String.eqb_refl in A. discriminate.
  - intros sc g U Ig Q. specialize (B sc (in_schemes sc)). cbv beta in B. rewrite U in B. cbn [negb orb] in B. rewrite forallb_forall in B. specialize (B g Ig). cbv beta in B. rewrite Q, String.eqb_refl in B. discriminate.
  - intros sc f lo u If E U. specialize (D sc (in_schemes sc)). cbv beta in D. rewrite forallb_forall in D. specialize (D f If). cbv beta in D. rewrite E in D. apply orb_true_iff in D. destruct D as [D|D]; [|now apply String.eqb_eq].
    apply andb_true_iff in D. destruct D as [D1 D2]. exfalso. apply (U D1). now apply String.eqb_eq.
Qed.
Theorem C111_by_hand_lemma m f lo u : In f (library ++ internal) -> fn_name f = F lo u -> (m = CAPS -> lo <> "mpi_get_address") -> symbol m (fn_name f) = fortran_name (by_hand m) lo.
Proof.
  assert (H : forallb (fun m => forallb (fun f => match fn_name f with F lo u => sc_upper (by_hand m) && at_address lo || String.eqb (symbol m (fn_name f)) (fortran_name (by_hand m) lo) | C _ => true end) (library ++ internal)) [ONE_UNDERSCORE; TWO_UNDERSCORES; SAME; CAPS] = true)
    by (vm_compute; reflexivity).
  intros I E U. rewrite forallb_forall in H. assert (J : In m [ONE_UNDERSCORE; TWO_UNDERSCORES; SAME; CAPS]) by (destruct m; cbn; auto). specialize (H m J). cbv beta in H. rewrite forallb_forall in H.
  specialize (H f I). cbv beta in H. rewrite E in H. rewrite E. apply orb_true_iff in H. destruct H as [H|H]; [|now apply String.eqb_eq]. apply andb_true_iff in H. destruct H as [A B]. exfalso.
  apply U; [destruct m; try discriminate A; reflexivity|now apply String.eqb_eq].
Qed.

(** Clashes. *)
Definition clashb (sc : scheme) (f g : fn) : bool :=
  String.eqb (config_symbol sc (fn_name f)) (config_symbol sc (fn_name g)) && (negb (fn_static f) && negb (fn_static g) || String.eqb (fn_file f) (fn_file g)).
Definition pairb (f g : fn) : bool := nmb (fn_name f) (F "mpi_get_address" "MPI_ADDRESS") && nmb (fn_name g) (F "mpi_address" "MPI_ADDRESS").
Fixpoint clearb (sc : scheme) (l : list fn) : bool :=
  match l with [] => true | f :: l => forallb (fun g => negb (clashb sc f g) || sc_upper sc && (pairb f g || pairb g f)) l && clearb sc l end.
Lemma clashb_spec sc f g : clash_config sc f g -> clashb sc f g = true.
Proof.
  intros (_ & E & H). unfold clashb. rewrite E, String.eqb_refl. destruct H as [[-> ->]|H]; [reflexivity|]. rewrite H, String.eqb_refl. apply orb_true_r.
Qed.
Lemma clash_sym sc f g : clash_config sc f g -> clash_config sc g f.
Proof. intros (N & E & H). split; [congruence|]. split; [congruence|]. destruct H as [[A B]|H]; [left; now split|right; congruence]. Qed.
Lemma clearb_spec sc l : clearb sc l = true -> forall f g, In f l -> In g l -> clash_config sc f g -> sc_upper sc = true /\ (pairb f g = true \/ pairb g f = true).
Proof.
  induction l as [|x l IH]; intros H f g If Ig Q; [destruct If|]. cbn [clearb] in H. apply andb_true_iff in H. destruct H as [A B]. rewrite forallb_forall in A.
  assert (K : forall y, In y l -> clash_config sc x y -> sc_upper sc = true /\ (pairb x y = true \/ pairb y x = true)).
  { intros y Iy Qy. specialize (A y Iy). rewrite (clashb_spec _ _ _ Qy) in A. cbn [negb orb] in A. rewrite andb_true_iff, orb_true_iff in A. exact A. }
  destruct If as [<-|If], Ig as [<-|Ig]; [destruct Q as [N _]; now destruct N|exact (K g Ig Q)| |exact (IH B f g If Ig Q)].
  destruct (K f If (clash_sym _ _ _ Q)) as [U P]. split; [exact U|]. destruct P; auto.
Qed.
Theorem C111_once_lemma sc f g : In f library -> In g library -> clash_config sc f g ->
  sc_upper sc = true /\ (fn_name f = F "mpi_get_address" "MPI_ADDRESS" /\ fn_name g = F "mpi_address" "MPI_ADDRESS" \/ fn_name g = F "mpi_get_address" "MPI_ADDRESS" /\ fn_name f = F "mpi_address" "MPI_ADDRESS").
Proof.
  assert (H : forallb (fun sc => clearb sc library) schemes = true) by (vm_compute; reflexivity).
  rewrite forallb_forall in H. intros If Ig Q. destruct (clearb_spec _ _ (H sc (in_schemes sc)) f g If Ig Q) as [U P]. split; [exact U|].
  unfold pairb in P. rewrite !andb_true_iff, !nmb_eq in P. exact P.
Qed.
Theorem C111_once_refuted_lemma sc : sc_upper sc = true -> exists f g, In f library /\ In g library /\ clash_config sc f g.
Proof.
  assert (H : existsb (fun f => existsb (fun g => pairb f g && negb (fn_static f) && negb (fn_static g)) library) library = true) by (vm_compute; reflexivity).
  apply existsb_exists in H. destruct H as (f & If & H). apply existsb_exists in H. destruct H as (g & Ig & H). unfold pairb in H. rewrite !andb_true_iff, !nmb_eq, !negb_true_iff in H. destruct H as [[[A B] D] E].
  intros U. exists f, g. split; [exact If|]. split; [exact Ig|]. split; [intros ->; congruence|]. split; [|now left]. rewrite A, B. unfold config_symbol, fc_func. now rewrite U.
Qed.
