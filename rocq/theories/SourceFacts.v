(** Proofs for C120. *)
From Verif Require Import Base LinkModel BuildModel TextSpec SourceModel SourceSpec.
From Coq Require Import Ascii.

(** Only the macros a file asks about matter. *)
Lemma asked_cons : forall l r n, In n (asked r) -> In n (asked (l :: r)).
Proof. intros l r n I. unfold asked. cbn [flat_map]. apply in_or_app. right. exact I. Qed.
Lemma select_ext : forall on on' lines stack ms, (forall n, In n (asked lines) -> on n = on' n) -> select on stack ms lines = select on' stack ms lines.
Proof.
  intros on on' lines. induction lines as [|l r IH]; intros stack ms A; cbn [select]; [reflexivity|].
  assert (B : forall st ms', select on st ms' r = select on' st ms' r) by (intros; apply IH; intros n I; apply A; apply asked_cons; exact I).
  assert (D : forall k n z z' z'', l = [(z, S "#"%char); (z', W k); (z'', W n)] -> String.eqb k "ifdef" = true \/ String.eqb k "ifndef" = true -> defined on ms n = defined on' ms n).
  { intros k n z z' z'' E K. unfold defined. rewrite (A n); [reflexivity|]. subst l. unfold asked. cbn [flat_map]. apply in_or_app. left.
    rewrite Ascii.eqb_refl. cbn [andb]. destruct K as [K|K]; rewrite K; [|rewrite orb_true_r]; cbn [orb]; left; reflexivity. }
  destruct l as [|[z [w|h]] rest]; try (rewrite !B; reflexivity).
  destruct (Ascii.eqb h "#") eqn:H; [|rewrite !B; reflexivity].
  apply Ascii.eqb_eq in H. subst h.
  destruct rest as [|[z1 [k|c]] rest]; try reflexivity.
  destruct rest as [|[z2 [n|c]] rest].
  - destruct (String.eqb k "endif"); [destruct stack; [reflexivity|apply B]|].
    destruct (String.eqb k "else"); [|reflexivity].
    destruct stack as [|[b [|]] st]; [reflexivity|apply B|reflexivity].
  - destruct rest as [|x rest].
    + destruct (String.eqb k "ifdef") eqn:K1; [rewrite (D k n z z1 z2 eq_refl (or_introl K1)); apply B|].
      destruct (String.eqb k "ifndef") eqn:K2; [rewrite (D k n z z1 z2 eq_refl (or_intror K2)); apply B|].
      destruct (String.eqb k "define"); [destruct (active stack); apply B|reflexivity].
    + destruct (String.eqb k "define"); [destruct (active stack); apply B|reflexivity].
  - destruct (String.eqb k "include"); [apply B|reflexivity].
Qed.
Lemma read_lines_ext : forall known on on' lines, (forall n, In n (asked lines) -> on n = on' n) -> read_lines known on lines = read_lines known on' lines.
Proof. intros k on on' lines A. unfold read_lines. rewrite (select_ext on on' lines [] [] A). reflexivity. Qed.

(** All subsets. *)
Fixpoint powers (l : list string) : list (list string) := match l with [] => [[]] | x :: r => powers r ++ map (cons x) (powers r) end.
Lemma filter_powers : forall on l, In (filter on l) (powers l).
Proof.
  intros on l. induction l as [|x l IH]; cbn [filter powers]; [left; reflexivity|].
  apply in_or_app. destruct (on x); [right; apply in_map; exact IH|left; exact IH].
Qed.
Definition only (l : list string) (n : string) : bool := listed n l.
Lemma listed_In : forall n l, listed n l = true <-> In n l.
Proof.
  intros n l. unfold listed. rewrite existsb_exists. split.
  - intros [x [I E]]. apply String.eqb_eq in E. subst. exact I.
  - intros I. exists n. split; [exact I|apply String.eqb_refl].
Qed.
Lemma only_filter : forall on l n, In n l -> on n = only (filter on l) n.
Proof.
  intros on l n I. unfold only. destruct (on n) eqn:E; symmetry.
  - apply listed_In. apply filter_In. split; assumption.
  - destruct (listed n (filter on l)) eqn:L; [|reflexivity]. apply listed_In in L. apply filter_In in L. destruct L as [_ L]. congruence.
Qed.
Definition same_macros (l : list string) : list string := nodup string_dec l.
Lemma holds_ext : forall on on' w, (forall m, w = Some m -> on m = on' m) -> holds on w = holds on' w.
Proof. intros on on' [m|] A; cbn [holds]; [apply A; reflexivity|reflexivity]. Qed.
Definition whens (f : string) : list string :=
  flat_map (fun p => if String.eqb (p_file p) f then (match p_when p with Some m => [m] | None => [] end) ++ flat_map (fun u => match u_when u with Some m => [m] | None => [] end) (p_uses p) else []) places.
Lemma filter_ext_In : forall (A : Type) (f g : A -> bool) l, (forall x, In x l -> f x = g x) -> filter f l = filter g l.
Proof.
  intros A f g l. induction l as [|x l IH]; intros E; cbn [filter]; [reflexivity|].
  rewrite (E x (or_introl eq_refl)), IH; [reflexivity|intros; apply E; right; assumption].
Qed.
Lemma in_places_ext : forall on on' f, (forall m, In m (whens f) -> on m = on' m) -> in_places on f = in_places on' f.
Proof.
  intros on on' f A. unfold in_places.
  assert (E : filter (fun p => (String.eqb (p_file p) f && holds on (p_when p))%bool) places = filter (fun p => (String.eqb (p_file p) f && holds on' (p_when p))%bool) places).
  { apply filter_ext_In. intros p I. destruct (String.eqb (p_file p) f) eqn:F; [|reflexivity]. cbn [andb]. apply holds_ext. intros m W. apply A.
    unfold whens. apply in_flat_map. exists p. split; [exact I|]. rewrite F, W. left. reflexivity. }
  rewrite E. apply map_ext_in. intros p I. apply filter_In in I. destruct I as [I F]. apply andb_true_iff in F. destruct F as [F _].
  f_equal. f_equal. apply filter_ext_In. intros u U. apply holds_ext. intros m W. apply A.
  unfold whens. apply in_flat_map. exists p. split; [exact I|]. rewrite F. apply in_or_app. right. apply in_flat_map. exists u. split; [exact U|]. rewrite W. left. reflexivity.
Qed.

(** Comparing by computation. *)
Definition nm_dec : forall a b : nm, {a = b} + {a <> b}.
Proof. decide equality; apply string_dec. Defined.
Definition stands_dec : forall a b : option (list where_it_stands), {a = b} + {a <> b}.
Proof. repeat decide equality. Defined.
Definition heading_dec : forall a b : list heading, {a = b} + {a <> b}.
Proof. repeat decide equality. Defined.
Definition lexed : list (string * option (list (list ltok))) := Eval vm_compute in map (fun p => (fst p, logical_lines (snd p))) c_texts.
Lemma lexed_eq : map (fun p => (fst p, logical_lines (snd p))) c_texts = lexed.
Proof. vm_compute. reflexivity. Qed.

(** What holds for every subset of the macros that a file asks about holds whatever macros are defined. *)
Definition everywhere (P : (string -> bool) -> string -> list routine -> bool) (dep : string -> list string) : bool :=
  forallb (fun p => match snd p with
    | Some lines => (forallb (fun m => listed m (same_macros (asked lines))) (dep (fst p)) &&
        forallb (fun s => match read_lines known (only s) lines with Some rs => P (only s) (fst p) rs | None => false end) (powers (same_macros (asked lines))))%bool
    | None => false end) lexed.
Lemma everywhere_ok : forall P dep, everywhere P dep = true ->
  (forall on on' f rs, (forall m, In m (dep f) -> on m = on' m) -> P on f rs = true -> P on' f rs = true) ->
  forall on f text, In (f, text) c_texts -> exists rs, read_file known on text = Some rs /\ P on f rs = true.
Proof.
  intros P dep A X on f text I.
  assert (J : In (f, logical_lines text) lexed) by (rewrite <- lexed_eq; exact (in_map (fun p => (fst p, logical_lines (snd p))) _ _ I)).
  unfold everywhere in A. rewrite forallb_forall in A. specialize (A _ J). cbn [fst snd] in A.
  unfold read_file. destruct (logical_lines text) as [lines|]; [|discriminate A]. clear I J.
  apply andb_true_iff in A. destruct A as [Wh A]. rewrite forallb_forall in Wh. rewrite forallb_forall in A.
  specialize (A _ (filter_powers on (same_macros (asked lines)))). cbv beta in A.
  rewrite (read_lines_ext known on (only (filter on (same_macros (asked lines)))) lines).
  2:{ intros n N. apply only_filter. apply nodup_In. exact N. }
  destruct (read_lines known (only (filter on (same_macros (asked lines)))) lines) as [rs|]; [|discriminate A].
  exists rs. split; [reflexivity|]. apply (X (only (filter on (same_macros (asked lines))))); [|exact A].
  intros m M. symmetry. apply only_filter. apply listed_In. exact (Wh m M).
Qed.


(** C120. *)
Definition stands_as (on : string -> bool) (f : string) (rs : list routine) : bool :=
  ((if stands_dec (Some (map stands rs)) (Some (in_places on f)) then true else false) &&
   (if heading_dec (map heads (filter has_head rs)) (in_tables on f) then true else false))%bool.
Lemma stands_everywhere : everywhere stands_as whens = true.
Proof. vm_compute. reflexivity. Qed.
Lemma internal_file : forall x, In x internal -> fn_file x = "type.c"%string.
Proof.
  assert (A : forallb (fun x => String.eqb (fn_file x) "type.c") internal = true) by (vm_compute; reflexivity).
  intros x I. rewrite forallb_forall in A. apply String.eqb_eq. exact (A x I).
Qed.
Lemma in_tables_ext : forall on on' f, (forall m, In m (whens f) -> on m = on' m) -> in_tables on f = in_tables on' f.
Proof.
  intros on on' f A. unfold in_tables. destruct (String.eqb f "type.c") eqn:E.
  - apply String.eqb_eq in E. subst f. rewrite (A "TEST_INTERNAL"%string); [reflexivity|]. apply listed_In. vm_compute. reflexivity.
  - assert (X : in_library internal f = []).
    { unfold in_library. rewrite (filter_ext_In _ _ (fun _ => false)).
      - generalize internal. intros l. induction l as [|x l IH]; [reflexivity|exact IH].
      - intros x I. rewrite (internal_file x I). rewrite String.eqb_sym. exact E. }
    rewrite X. destruct (on "TEST_INTERNAL"%string), (on' "TEST_INTERNAL"%string); reflexivity.
Qed.
Lemma stands_as_ext : forall on on' f rs, (forall m, In m (whens f) -> on m = on' m) -> stands_as on f rs = true -> stands_as on' f rs = true.
Proof. intros on on' f rs A. unfold stands_as. rewrite (in_places_ext on on' f A), (in_tables_ext on on' f A). intros H. exact H. Qed.
Lemma C120_routines_lemma : forall on f text, In (f, text) c_texts ->
  exists rs, read_file known on text = Some rs /\ map stands rs = in_places on f /\ map heads (filter has_head rs) = in_tables on f.
Proof.
  intros on f text I. destruct (everywhere_ok stands_as whens stands_everywhere stands_as_ext on f text I) as [rs [R P]].
  exists rs. split; [exact R|]. unfold stands_as in P. apply andb_true_iff in P. destruct P as [P Q]. split.
  - destruct (stands_dec (Some (map stands rs)) (Some (in_places on f))) as [E|E]; [injection E as E; exact E|discriminate P].
  - destruct (heading_dec (map heads (filter has_head rs)) (in_tables on f)) as [E|E]; [exact E|discriminate Q].
Qed.
(** Nothing of the tables is left out but the two Fortran files. *)
Definition fortran_files : list string := ["fort.F90"; "mpif.F90"]%string.
Lemma C120_files_lemma :
  forall f, In f sources \/ In f (map p_file places) \/ In f (map fn_file (library ++ internal)) -> In f ["fort.F90"; "mpif.F90"]%string \/ exists text, In (f, text) c_texts.
Proof.
  assert (A : forallb (fun f => (listed f fortran_files || listed f (map fst c_texts))%bool) (sources ++ map p_file places ++ map fn_file (library ++ internal)) = true) by (vm_compute; reflexivity).
  intros f H. rewrite forallb_forall in A.
  assert (I : In f (sources ++ map p_file places ++ map fn_file (library ++ internal))).
  { rewrite !in_app_iff. rewrite map_app, in_app_iff in H. rewrite map_app, in_app_iff. clear A. tauto. }
  specialize (A f I). apply orb_true_iff in A. destruct A as [L|L]; apply listed_In in L; [left; exact L|right].
  apply in_map_iff in L. destruct L as [[g text] [E J]]. cbn [fst] in E. subst g. exists text. exact J.
Qed.
