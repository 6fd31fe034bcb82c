(** Proofs for C121 and C122. *)
From Verif Require Import Base BindModel RetModel LinkModel BuildModel NameModel TextSpec SourceModel SourceSpec BodySpec SourceFacts.
From Coq Require Import Ascii.
#[local] Open Scope string_scope.
#[local] Open Scope list_scope.

Definition rexpr_dec : forall a b : string * list rexpr, {a = b} + {a <> b}.
Proof. repeat decide equality. Defined.
Definition stored_dec : forall a b : string * rexpr, {a = b} + {a <> b}.
Proof. repeat decide equality. Defined.
Definition bind_dec : forall a b : bind_text, {a = b} + {a <> b}.
Proof. repeat decide equality. Defined.
Definition prms_dec : forall a b : string * list prm, {a = b} + {a <> b}.
Proof. repeat decide equality. Defined.
Definition ctype_eqb (a b : ctype) : bool := (String.eqb (fst a) (fst b) && Nat.eqb (snd a) (snd b))%bool.
Lemma ctype_eqb_eq : forall a b, ctype_eqb a b = true <-> a = b.
Proof.
  intros [a n] [b m]. unfold ctype_eqb. cbn [fst snd]. rewrite andb_true_iff, String.eqb_eq, Nat.eqb_eq. split.
  - intros [-> ->]. reflexivity.
  - intros E. injection E as -> ->. split; reflexivity.
Qed.
Definition inside {A} (dec : forall a b : A, {a = b} + {a <> b}) (x : A) (l : list A) : bool := if in_dec dec x l then true else false.
Lemma inside_In : forall A dec (x : A) l, inside dec x l = true -> In x l.
Proof. intros A dec x l. unfold inside. destruct (in_dec dec x l); [intros _; assumption|discriminate]. Qed.

(** C121. *)
Definition says (r : routine) : bool :=
  ((negb (ctype_eqb (hd_ret (ro_head r)) ("int", O)) || listed (name_of r) other_ints ||
      match returns_in r with Some l => inside rexpr_dec (name_of r, l) returns_of | None => false end) &&
   match hd_name (ro_head r) with
   | F a b =>
       ((listed a ["mpi_save_fort_pointers"; "mpi_wtime"] || match stores_in r with Some e => inside stored_dec (a, e) ierror_of | None => false end) &&
        (listed a ["mpi_save_fort_pointers"; "mpi_wtime"; "mpi_init_fort"] || match binding_in r with Some t => inside bind_dec t bindings | None => false end))
   | C n => (negb (listed n (map fst prototypes)) || match all_some (fun p => prm_of (fst p)) (hd_params (ro_head r)) with Some l => inside prms_dec (n, l) prototypes | None => false end)
   end)%bool.
Lemma says_everywhere : everywhere (fun _ _ rs => forallb says rs) (fun _ => []) = true.
Proof. vm_compute. reflexivity. Qed.
Lemma says_ok : forall on f text rs r, In (f, text) c_texts -> read_file known on text = Some rs -> In r rs -> says r = true.
Proof.
  intros on f text rs r I R J.
  destruct (everywhere_ok _ _ says_everywhere (fun _ _ _ _ _ H => H) on f text I) as [rs' [R' P]].
  rewrite R in R'. injection R' as <-. rewrite forallb_forall in P. exact (P r J).
Qed.
Lemma C121_returns_lemma : forall on f text rs r, In (f, text) c_texts -> read_file known on text = Some rs -> In r rs ->
  returns_int r -> ~ In (name_of r) other_ints -> exists l, returns_in r = Some l /\ In (name_of r, l) returns_of.
Proof.
  intros on f text rs r I R J T N. pose proof (says_ok on f text rs r I R J) as S. unfold says in S. apply andb_true_iff in S. destruct S as [S _].
  apply orb_true_iff in S. destruct S as [S|S]; [exfalso|].
  - apply orb_true_iff in S. destruct S as [S|S]; [|apply listed_In in S; exact (N S)].
    apply negb_true_iff in S. apply ctype_eqb_eq in T. congruence.
  - destruct (returns_in r) as [l|]; [|discriminate S]. exists l. split; [reflexivity|]. exact (inside_In _ _ _ _ S).
Qed.
Lemma C121_stores_lemma : forall on f text rs r a b, In (f, text) c_texts -> read_file known on text = Some rs -> In r rs ->
  hd_name (ro_head r) = F a b -> ~ In a ["mpi_save_fort_pointers"; "mpi_wtime"] -> exists e, stores_in r = Some e /\ In (a, e) ierror_of.
Proof.
  intros on f text rs r a b I R J T N. pose proof (says_ok on f text rs r I R J) as S. unfold says in S. apply andb_true_iff in S. destruct S as [_ S].
  rewrite T in S. apply andb_true_iff in S. destruct S as [S _]. apply orb_true_iff in S. destruct S as [S|S]; [apply listed_In in S; contradiction|].
  destruct (stores_in r) as [e|]; [|discriminate S]. exists e. split; [reflexivity|]. exact (inside_In _ _ _ _ S).
Qed.
Lemma C121_bindings_lemma : forall on f text rs r a b, In (f, text) c_texts -> read_file known on text = Some rs -> In r rs ->
  hd_name (ro_head r) = F a b -> ~ In a ["mpi_save_fort_pointers"; "mpi_wtime"; "mpi_init_fort"] -> exists t, binding_in r = Some t /\ In t bindings.
Proof.
  intros on f text rs r a b I R J T N. pose proof (says_ok on f text rs r I R J) as S. unfold says in S. apply andb_true_iff in S. destruct S as [_ S].
  rewrite T in S. apply andb_true_iff in S. destruct S as [_ S]. apply orb_true_iff in S. destruct S as [S|S]; [apply listed_In in S; contradiction|].
  destruct (binding_in r) as [t|]; [|discriminate S]. exists t. split; [reflexivity|]. exact (inside_In _ _ _ _ S).
Qed.
Lemma C121_prototypes_lemma : forall on f text rs r n, In (f, text) c_texts -> read_file known on text = Some rs -> In r rs ->
  hd_name (ro_head r) = C n -> In n (map fst prototypes) -> exists l, all_some (fun p => prm_of (fst p)) (hd_params (ro_head r)) = Some l /\ In (n, l) prototypes.
Proof.
  intros on f text rs r n I R J T N. pose proof (says_ok on f text rs r I R J) as S. unfold says in S. apply andb_true_iff in S. destruct S as [_ S].
  rewrite T in S. apply orb_true_iff in S. destruct S as [S|S]; [apply listed_In in N; rewrite N in S; discriminate S|].
  destruct (all_some (fun p => prm_of (fst p)) (hd_params (ro_head r))) as [l|]; [|discriminate S]. exists l. split; [reflexivity|]. exact (inside_In _ _ _ _ S).
Qed.

(** All rows of the tables come from the text: with TEST_INTERNAL defined and no other macro. *)
Definition internal_only : string -> bool := String.eqb "TEST_INTERNAL".
Definition routines_from (l : list (string * option (list (list ltok)))) : list routine :=
  flat_map (fun p => match snd p with Some lines => match read_lines known internal_only lines with Some rs => rs | None => [] end | None => [] end) l.
Lemma routines_from_in : forall l r, In r (routines_from l) -> exists f lines rs, In (f, Some lines) l /\ read_lines known internal_only lines = Some rs /\ In r rs.
Proof.
  intros l r I. unfold routines_from in I. apply in_flat_map in I. destruct I as [[f [lines|]] [J I]]; cbn [snd] in I; [|contradiction I].
  destruct (read_lines known internal_only lines) as [rs|] eqn:R; [|contradiction I]. exists f, lines, rs. do 2 (split; [assumption|]). exact I.
Qed.
Definition all_routines : list routine := routines_from lexed.
Lemma all_routines_in : forall r, In r all_routines -> exists f text rs, In (f, text) c_texts /\ read_file known internal_only text = Some rs /\ In r rs.
Proof.
  intros r I. destruct (routines_from_in _ r I) as [f [lines [rs [J [R K]]]]].
  rewrite <- lexed_eq in J. apply in_map_iff in J. destruct J as [[g text] [E J]]. cbn [fst snd] in E. injection E as -> E.
  exists f, text, rs. split; [exact J|]. split; [|exact K]. unfold read_file. rewrite E. exact R.
Qed.
Lemma all_rows :
  (forallb (fun x => (String.eqb (fst x) "mpi_init_fort" || existsb (fun r => match returns_in r with Some l => if rexpr_dec (name_of r, l) x then true else false | None => false end) all_routines)) returns_of &&
   forallb (fun x => existsb (fun r => match stores_in r with Some e => if stored_dec (name_of r, e) x then true else false | None => false end) all_routines) ierror_of &&
   forallb (fun x => existsb (fun r => match binding_in r with Some t => if bind_dec t x then true else false | None => false end) all_routines) bindings &&
   forallb (fun x => existsb (fun r => match all_some (fun p => prm_of (fst p)) (hd_params (ro_head r)) with Some l => if prms_dec (name_of r, l) x then true else false | None => false end) all_routines) prototypes)%bool = true.
Proof. vm_compute. reflexivity. Qed.
Lemma C121_rows_lemma :
  let from_text (P : routine -> Prop) := exists f text rs r, In (f, text) c_texts /\ read_file known internal_only text = Some rs /\ In r rs /\ P r in
  (forall n l, In (n, l) returns_of -> n <> "mpi_init_fort" -> from_text (fun r => name_of r = n /\ returns_in r = Some l)) /\
  (forall n e, In (n, e) ierror_of -> from_text (fun r => name_of r = n /\ stores_in r = Some e)) /\
  (forall t, In t bindings -> from_text (fun r => binding_in r = Some t)) /\
  (forall n l, In (n, l) prototypes -> from_text (fun r => name_of r = n /\ all_some (fun p => prm_of (fst p)) (hd_params (ro_head r)) = Some l)).
Proof.
  assert (X : forall (P : routine -> Prop) r, In r all_routines -> P r -> exists f text rs r, In (f, text) c_texts /\ read_file known internal_only text = Some rs /\ In r rs /\ P r).
  { intros P r I Q. destruct (all_routines_in r I) as [f [text [rs [A [B D]]]]]. exists f, text, rs, r. do 3 (split; [assumption|]). exact Q. }
  pose proof all_rows as A. apply andb_true_iff in A. destruct A as [A A4]. apply andb_true_iff in A. destruct A as [A A3]. apply andb_true_iff in A. destruct A as [A1 A2].
  rewrite forallb_forall in A1, A2, A3, A4. intros from_text. unfold from_text. split; [|split; [|split]].
  - intros n l I N. specialize (A1 _ I). cbn [fst] in A1. apply orb_true_iff in A1. destruct A1 as [E|E]; [apply String.eqb_eq in E; contradiction|].
    apply existsb_exists in E. destruct E as [r [J E]]. apply (X _ r J). destruct (returns_in r) as [l'|]; [|discriminate E].
    destruct (rexpr_dec (name_of r, l') (n, l)) as [Q|]; [|discriminate E]. injection Q as -> ->. split; reflexivity.
  - intros n e I. specialize (A2 _ I). apply existsb_exists in A2. destruct A2 as [r [J E]]. apply (X _ r J). destruct (stores_in r) as [e'|]; [|discriminate E].
    destruct (stored_dec (name_of r, e') (n, e)) as [Q|]; [|discriminate E]. injection Q as -> ->. split; reflexivity.
  - intros t I. specialize (A3 _ I). apply existsb_exists in A3. destruct A3 as [r [J E]]. apply (X _ r J). destruct (binding_in r) as [t'|]; [|discriminate E].
    destruct (bind_dec t' t) as [Q|]; [|discriminate E]. subst t'. reflexivity.
  - intros n l I. specialize (A4 _ I). apply existsb_exists in A4. destruct A4 as [r [J E]]. apply (X _ r J).
    destruct (all_some (fun p => prm_of (fst p)) (hd_params (ro_head r))) as [l'|]; [|discriminate E].
    destruct (prms_dec (name_of r, l') (n, l)) as [Q|]; [|discriminate E]. injection Q as -> ->. split; reflexivity.
Qed.

(** C122. *)
Definition unknown (f : string) (r : routine) (w : string) : bool := (String.eqb f "probe.c" && String.eqb (name_of r) "MPI_Iprobe" && listed w ["count"; "datatype"])%bool.
Definition row_macros (f : string) : list string :=
  match NameModel.text_of f with Some rows => flat_map (fun x => map snd (r_when x)) rows | None => [] end.
Definition words_ok (on : string -> bool) (f : string) (rs : list routine) : bool :=
  forallb (fun r => (forallb (fun x => (of_routine (snd x) || in_table on f (fst x) (snd x) || unknown f r (snd x))%bool) (words_outside r) &&
                     forallb (fun t => in_table on f (ro_last r) t) (types_in r))%bool) rs.
Lemma words_everywhere : everywhere words_ok row_macros = true.
Proof. vm_compute. reflexivity. Qed.
Lemma in_table_ext : forall on on' f line w, (forall m, In m (row_macros f) -> on m = on' m) -> in_table on f line w = in_table on' f line w.
Proof.
  intros on on' f line w A. unfold in_table, row_macros in *. destruct (NameModel.text_of f) as [rows|]; [|reflexivity].
  induction rows as [|x rows IH]; [reflexivity|]. cbn [existsb]. cbn [flat_map] in A.
  assert (E : readb on (r_when x) = readb on' (r_when x)).
  { unfold readb. assert (B : forall m, In m (map snd (r_when x)) -> on m = on' m) by (intros m M; apply A; apply in_or_app; left; exact M).
    clear - B. induction (r_when x) as [|[b m] l IH]; [reflexivity|]. cbn [forallb snd fst map] in *. rewrite (B m (or_introl eq_refl)), IH; [reflexivity|].
    intros k K. apply B. right. exact K. }
  rewrite E, IH; [reflexivity|]. intros m M. apply A. apply in_or_app. right. exact M.
Qed.
Lemma words_ok_ext : forall on on' f rs, (forall m, In m (row_macros f) -> on m = on' m) -> words_ok on f rs = true -> words_ok on' f rs = true.
Proof.
  intros on on' f rs A W. unfold words_ok in *. rewrite forallb_forall in W. apply forallb_forall. intros r R. specialize (W r R). apply andb_true_iff in W. destruct W as [W T].
  apply andb_true_iff. rewrite forallb_forall in W, T. split; apply forallb_forall.
  - intros x X. rewrite <- (in_table_ext on on' f (fst x) (snd x) A). exact (W x X).
  - intros t I. rewrite <- (in_table_ext on on' f (ro_last r) t A). exact (T t I).
Qed.
Lemma in_table_meaning : forall on f line w, in_table on f line w = true ->
  exists rows x, NameModel.text_of f = Some rows /\ In x rows /\ r_line x <= line /\ (forall b m, In (b, m) (r_when x) -> on m = b) /\ In w (row_name (r_item x)).
Proof.
  intros on f line w T. unfold in_table in T. destruct (NameModel.text_of f) as [rows|]; [|discriminate T].
  apply existsb_exists in T. destruct T as [x [X T]]. apply andb_true_iff in T. destruct T as [T L]. apply andb_true_iff in T. destruct T as [T Q].
  exists rows, x. split; [reflexivity|]. split; [exact X|]. split; [apply Z.leb_le; exact T|]. split; [|apply listed_In; exact L].
  intros b m M. unfold readb in Q. rewrite forallb_forall in Q. specialize (Q _ M). cbn [fst snd] in Q. apply eqb_prop in Q. exact Q.
Qed.
Lemma C122_words_lemma : forall on f text rs r, In (f, text) c_texts -> read_file known on text = Some rs -> In r rs ->
  (forall line w, In (line, w) (words_outside r) ->
     of_routine w = true \/ in_table on f line w = true \/ (f = "probe.c" /\ name_of r = "MPI_Iprobe" /\ In w ["count"; "datatype"])) /\
  (forall t, In t (types_in r) -> in_table on f (ro_last r) t = true).
Proof.
  intros on f text rs r I R J. destruct (everywhere_ok _ _ words_everywhere words_ok_ext on f text I) as [rs' [R' P]].
  rewrite R in R'. injection R' as <-. unfold words_ok in P. rewrite forallb_forall in P. specialize (P r J). apply andb_true_iff in P. destruct P as [P T].
  rewrite forallb_forall in P, T. split; [|exact T].
  intros line w W. specialize (P _ W). cbn [fst snd] in P. apply orb_true_iff in P. destruct P as [P|P].
  - apply orb_true_iff in P. destruct P as [P|P]; [left; exact P|right; left; exact P].
  - right. right. unfold unknown in P. apply andb_true_iff in P. destruct P as [P L]. apply andb_true_iff in P. destruct P as [P Q].
    apply String.eqb_eq in P. apply String.eqb_eq in Q. apply listed_In in L. do 2 (split; [assumption|]). exact L.
Qed.
(** With INFO probe.c uses two names that nothing declares. *)
Definition probe_only (n : string) : bool := String.eqb n "INFO".
Definition nowhere (w : string) : Prop :=
  of_routine w = false /\ (forall h l, In (h, l) c_names -> ~ In w l) /\
  forall f rows x, In (f, rows) texts -> In x rows -> ~ In w (row_name (r_item x)).
Definition nowhere_b (w : string) : bool :=
  (negb (of_routine w) && forallb (fun p => negb (listed w (snd p))) c_names && forallb (fun p => forallb (fun x => negb (listed w (row_name (r_item x)))) (snd p)) texts)%bool.
Lemma nowhere_ok : forall w, nowhere_b w = true -> nowhere w.
Proof.
  intros w H. unfold nowhere_b in H. apply andb_true_iff in H. destruct H as [H H3]. apply andb_true_iff in H. destruct H as [H1 H2].
  rewrite forallb_forall in H2, H3. split; [apply negb_true_iff; exact H1|]. split.
  - intros h l I J. specialize (H2 _ I). cbn [snd] in H2. apply listed_In in J. rewrite J in H2. discriminate H2.
  - intros f rows x I J K. specialize (H3 _ I). cbn [snd] in H3. rewrite forallb_forall in H3. specialize (H3 _ J). apply listed_In in K. rewrite K in H3. discriminate H3.
Qed.
Definition uses_unknown (on : string -> bool) (f : string) (rs : list routine) : bool :=
  (negb (String.eqb f "probe.c") || negb (on "INFO") ||
   existsb (fun r => (String.eqb (name_of r) "MPI_Iprobe" && existsb (fun x => (Z.eqb (fst x) 34 && String.eqb (snd x) "count")%bool) (words_outside r) &&
                      existsb (fun x => (Z.eqb (fst x) 34 && String.eqb (snd x) "datatype")%bool) (words_outside r))%bool) rs)%bool.
Lemma uses_unknown_everywhere : everywhere uses_unknown (fun f => if String.eqb f "probe.c" then ["INFO"] else []) = true.
Proof. vm_compute. reflexivity. Qed.
Lemma word_in : forall (z : Z) (s : string) l, existsb (fun x => (Z.eqb (fst x) z && String.eqb (snd x) s)%bool) l = true -> In (z, s) l.
Proof.
  intros z s l E. apply existsb_exists in E. destruct E as [[a b] [I E]]. cbn [fst snd] in E. apply andb_true_iff in E. destruct E as [A B].
  apply Z.eqb_eq in A. apply String.eqb_eq in B. subst. exact I.
Qed.
Lemma C122_info_lemma : forall on text, In ("probe.c", text) c_texts -> on "INFO" = true ->
  exists rs r, read_file known on text = Some rs /\ In r rs /\ name_of r = "MPI_Iprobe" /\
    forall w, In w ["count"; "datatype"] -> In (34, w) (words_outside r) /\ nowhere w.
Proof.
  intros on text I N.
  destruct (everywhere_ok _ _ uses_unknown_everywhere) with (on := on) (f := "probe.c") (text := text) as [rs [R P]]; [|exact I|].
  - intros o o' f rs A H. unfold uses_unknown in *. destruct (String.eqb f "probe.c"); [|reflexivity]. rewrite <- (A "INFO" (or_introl eq_refl)). exact H.
  - unfold uses_unknown in P. rewrite N in P. rewrite String.eqb_refl in P. cbn [negb orb] in P.
    apply existsb_exists in P. destruct P as [r [J P]]. apply andb_true_iff in P. destruct P as [P P3]. apply andb_true_iff in P. destruct P as [P1 P2].
    exists rs, r. split; [exact R|]. split; [exact J|]. split; [apply String.eqb_eq; exact P1|].
    intros w [<-|[<-|[]]]; (split; [apply word_in; assumption|apply nowhere_ok; vm_compute; reflexivity]).
Qed.
(** Without INFO there are no such names. *)
Definition words_known (on : string -> bool) (f : string) (rs : list routine) : bool :=
  ((String.eqb f "probe.c" && on "INFO") || forallb (fun r => forallb (fun x => (of_routine (snd x) || in_table on f (fst x) (snd x))%bool) (words_outside r)) rs)%bool.
Lemma words_known_everywhere : everywhere words_known (fun f => (if String.eqb f "probe.c" then ["INFO"] else []) ++ row_macros f) = true.
Proof. vm_compute. reflexivity. Qed.
Lemma C122_known_lemma : forall on f text rs r line w, In (f, text) c_texts -> read_file known on text = Some rs -> In r rs -> In (line, w) (words_outside r) ->
  f <> "probe.c" \/ on "INFO" = false -> of_routine w = true \/ in_table on f line w = true.
Proof.
  intros on f text rs r line w I R J W H.
  destruct (everywhere_ok _ _ words_known_everywhere) with (on := on) (f := f) (text := text) as [rs' [R' P]]; [|exact I|].
  - clear. intros o o' f rs A H. unfold words_known in *. apply orb_true_iff in H. apply orb_true_iff.
    assert (A' : forall m, In m (row_macros f) -> o m = o' m) by (intros m M; apply A; apply in_or_app; right; exact M).
    destruct H as [H|H].
    + left. destruct (String.eqb f "probe.c"); [|discriminate H]. rewrite <- (A "INFO"); [exact H|]. apply in_or_app. left. left. reflexivity.
    + right. rewrite forallb_forall in H. apply forallb_forall. intros r R. specialize (H r R). rewrite forallb_forall in H. apply forallb_forall. intros x X.
      rewrite <- (in_table_ext o o' f (fst x) (snd x) A'). exact (H x X).
  - rewrite R in R'. injection R' as <-. unfold words_known in P. apply orb_true_iff in P. destruct P as [P|P].
    + apply andb_true_iff in P. destruct P as [P1 P2]. apply String.eqb_eq in P1. destruct H as [H|H]; [contradiction|congruence].
    + rewrite forallb_forall in P. specialize (P r J). rewrite forallb_forall in P. specialize (P _ W). cbn [fst snd] in P. apply orb_true_iff in P. exact P.
Qed.
(** The rows of the table of C116 are where it says. *)
Lemma rows_stand : forallb (fun p => match NameModel.text_of (fst p), snd p with
    | Some rows, Some lines => forallb (fun x => forallb (stands_in lines (r_line x)) (row_name (r_item x))) rows
    | _, _ => false end) lexed = true.
Proof. vm_compute. reflexivity. Qed.
Lemma C122_rows_lemma : forall f text, In (f, text) c_texts -> exists rows lines, NameModel.text_of f = Some rows /\ logical_lines text = Some lines /\
  forall x w, In x rows -> In w (row_name (r_item x)) -> stands_in lines (r_line x) w = true.
Proof.
  intros f text I. assert (J : In (f, logical_lines text) lexed) by (rewrite <- lexed_eq; exact (in_map (fun p => (fst p, logical_lines (snd p))) _ _ I)).
  pose proof rows_stand as A. rewrite forallb_forall in A. specialize (A _ J). cbn [fst snd] in A.
  destruct (NameModel.text_of f) as [rows|]; [|discriminate A]. destruct (logical_lines text) as [lines|]; [|discriminate A].
  exists rows, lines. do 2 (split; [reflexivity|]). intros x w X W. rewrite forallb_forall in A. specialize (A x X). rewrite forallb_forall in A. exact (A w W).
Qed.
Lemma C122_names_lemma : forall on f text rs r line w, In (f, text) c_texts -> read_file known on text = Some rs -> In r rs -> In (line, w) (words_outside r) ->
  f <> "probe.c" \/ on "INFO" = false ->
  of_routine w = true \/
  exists rows x, NameModel.text_of f = Some rows /\ In x rows /\ r_line x <= line /\ (forall b m, In (b, m) (r_when x) -> on m = b) /\ In w (row_name (r_item x)).
Proof.
  intros on f text rs r line w I R J W H. destruct (C122_known_lemma on f text rs r line w I R J W H) as [K|K]; [left; exact K|right].
  apply in_table_meaning. exact K.
Qed.
