(** Proofs for C113, C114 and C115. *)
From Verif Require Import Base HandleModel TypeModel TypeSpec CopyModel SysModel SysCalls HeaderModel FortModel FortSpec FinitModel FinitSpec FinitFacts LinkModel LinkSpec BuildModel BuildSpec ConfModel ConfSpec.
From Coq Require Import Ascii DecimalString DecimalN.
#[local] Open Scope string_scope.
#[local] Open Scope list_scope.

Definition mem (x : string) (l : list string) : bool := existsb (String.eqb x) l.
Lemma mem_spec x l : mem x l = true <-> In x l.
Proof.
  unfold mem. rewrite existsb_exists. split.
  - intros (y & I & E). apply String.eqb_eq in E. subst y. exact I.
  - intros I. exists x. split; [exact I|apply String.eqb_refl].
Qed.
Lemma mem_not x l : mem x l = false <-> ~ In x l.
Proof. rewrite <- mem_spec. destruct (mem x l); split; intros H; try discriminate; try reflexivity; try (intros K; discriminate). exfalso. apply H. reflexivity. Qed.

(** ** C113 *)
Definition C_names : list string := flat_map (fun f => match fn_name f with C s => if fn_static f then [] else [lower s] | F _ _ => [] end) library.
Definition h_names : list string := flat_map (fun d => match d_name d with C s => if String.eqb (d_file d) "mpi.h" then [lower s] else [] | F _ _ => [] end) declarations.
Definition F_names : list string := flat_map (fun f => match fn_name f with C _ => [] | F s _ => if fn_static f then [] else [s] end) library.
Lemma C_names_spec n : In n C_names <-> in_C n.
Proof.
  unfold C_names, in_C. rewrite in_flat_map. split.
  - intros (f & I & H). destruct (fn_name f) as [s|lo up] eqn:E; [|destruct H]. destruct (fn_static f) eqn:S; [destruct H|]. destruct H as [H|[]]. exists f, s. auto.
  - intros (f & s & I & E & L & S). exists f. split; [exact I|]. rewrite E, S. left. exact L.
Qed.
Lemma h_names_spec n : In n h_names <-> in_mpi_h n.
Proof.
  unfold h_names, in_mpi_h. rewrite in_flat_map. split.
  - intros (f & I & H). destruct (d_name f) as [s|lo up] eqn:E; [|destruct H]. destruct (String.eqb (d_file f) "mpi.h") eqn:S; [|destruct H]. destruct H as [H|[]].
    apply String.eqb_eq in S. exists f, s. auto.
  - intros (f & s & I & S & E & L). exists f. split; [exact I|]. rewrite E, S, String.eqb_refl. left. exact L.
Qed.
Lemma F_names_spec n : In n F_names <-> in_Fortran n.
Proof.
  unfold F_names, in_Fortran. rewrite in_flat_map. split.
  - intros (f & I & H). destruct (fn_name f) as [s|lo up] eqn:E; [destruct H|]. destruct (fn_static f) eqn:S; [destruct H|]. destruct H as [<-|[]]. exists f, up. auto.
  - intros (f & up & I & E & S). exists f. split; [exact I|]. rewrite E, S. left. reflexivity.
Qed.
Lemma table (names excepted l : list string) : forallb (fun n => Bool.eqb (mem n names) (negb (mem n excepted))) l = true ->
  forall n, In n l -> (In n names <-> ~ In n excepted).
Proof.
  intros H n I. rewrite forallb_forall in H. specialize (H n I). apply Bool.eqb_prop in H.
  rewrite <- mem_spec, <- mem_not, H. destruct (mem n excepted); cbn; intuition discriminate.
Qed.
Theorem C113_listed_lemma : forall n, In n listed ->
  (in_C n <-> ~ In n no_routine) /\ (in_mpi_h n <-> ~ In n not_declared) /\ (in_Fortran n <-> ~ In n not_in_Fortran).
Proof.
  intros n I. rewrite <- C_names_spec, <- h_names_spec, <- F_names_spec.
  split; [|split]; revert n I; apply table; vm_compute; reflexivity.
Qed.
Theorem C113_refuted_lemma : ~ C113_full.
Proof.
  intros H. destruct (H "mpi_type_dup") as [K _]; [apply mem_spec; vm_compute; reflexivity|].
  apply C_names_spec in K. apply mem_spec in K. vm_compute in K. discriminate.
Qed.
Theorem C113_unlisted_lemma : forall f s, In f library -> fn_name f = C s -> prefix "MPI_" s = true -> (In (lower s) listed <-> ~ In (lower s) not_listed).
Proof.
  intros f s I E P.
  assert (H : forallb (fun f => match fn_name f with C s => if prefix "MPI_" s then Bool.eqb (mem (lower s) listed) (negb (mem (lower s) not_listed)) else true | F _ _ => true end) library = true)
    by (vm_compute; reflexivity).
  rewrite forallb_forall in H. specialize (H f I). rewrite E, P in H. apply Bool.eqb_prop in H.
  rewrite <- mem_spec, <- mem_not, H. destruct (mem (lower s) not_listed); cbn; intuition discriminate.
Qed.
Theorem C113_targets_lemma : forall there,
  (forall t, In t ["all"; "clean"; "check"] -> make_asked there t = Its_rule) /\
  (In "tests" there -> make_asked there "tests" = Nothing_done) /\ (~ In "examples" there -> make_asked there "examples" = No_rule).
Proof.
  intros there. unfold make_asked. split; [|split].
  - intros t I. cbn [In] in I. destruct I as [<-|[<-|[<-|[]]]]; vm_compute; reflexivity.
  - intros I. apply mem_spec in I. unfold mem in I. rewrite I. assert (E : existsb (String.eqb "tests") targets = false) by (vm_compute; reflexivity). rewrite E. reflexivity.
  - intros I. apply mem_not in I. unfold mem in I. rewrite I. assert (E : existsb (String.eqb "examples") targets = false) by (vm_compute; reflexivity). rewrite E. reflexivity.
Qed.

(** ** C114 *)
Definition jointb (c : ascii) : bool := existsb (Ascii.eqb c) ["-"; "+"; "."]%char.
Lemma joint_to c : joint c <-> (if jointb c then "_"%char else c) = "_"%char.
Proof.
  unfold joint, jointb. cbn [existsb In].
  destruct (Ascii.eqb_spec c "-"); [subst; cbn; intuition|]. destruct (Ascii.eqb_spec c "+"); [subst; cbn; intuition|]. destruct (Ascii.eqb_spec c "."); [subst; cbn; intuition|].
  cbn [orb]. split; [|intros ->; tauto]. intros [H|[H|[H|[H|[]]]]]; congruence.
Qed.
Lemma alike_spec a b : alike a b <-> shell_name a = shell_name b.
Proof.
  split.
  - induction 1 as [|c s t A IH|c d s t J K A IH]; [reflexivity| |]; cbn [shell_name].
    + rewrite IH. reflexivity.
    + apply joint_to in J, K. unfold jointb in J, K. rewrite J, K, IH. reflexivity.
  - revert b. induction a as [|c s IH]; intros [|d t] H; cbn [shell_name] in H; try discriminate; [constructor|].
    injection H as E H. apply IH in H. change ((if jointb c then "_"%char else c) = (if jointb d then "_"%char else d)) in E.
    destruct (jointb c) eqn:JC; destruct (jointb d) eqn:JD.
    + apply al_joint; [apply joint_to; rewrite JC; reflexivity|apply joint_to; rewrite JD; reflexivity|exact H].
    + subst d. apply al_joint; [apply joint_to; rewrite JC; reflexivity|unfold joint; cbn; tauto|exact H].
    + subst c. apply al_joint; [unfold joint; cbn; tauto|apply joint_to; rewrite JD; reflexivity|exact H].
    + subst d. apply al_same. exact H.
Qed.
Definition here (o : opt) (name : string) : bool := String.eqb (shell_name (name_of o)) (shell_name name).
Lemma here_spec o name : here o name = true <-> about o name.
Proof. unfold here, about. rewrite alike_spec. apply String.eqb_eq. Qed.
Lemma here_not o name : here o name = false <-> ~ about o name.
Proof. rewrite <- here_spec. destruct (here o name); intuition discriminate. Qed.
Lemma variable_none l name : variable l (shell_name name) = None <-> never_said l name.
Proof.
  unfold never_said. induction l as [|o l IH]; cbn [variable]; [split; [intros _ p []|reflexivity]|].
  fold (here o name). destruct (variable l (shell_name name)) as [x|].
  - split; [discriminate|]. intros H. exfalso. assert (K : @None string = None) by reflexivity.
    assert (N : forall p, In p l -> ~ about p name) by (intros p I; apply H; right; exact I). apply IH in N. discriminate.
  - assert (N := proj1 IH eq_refl). destruct (here o name) eqn:E.
    + split; [discriminate|]. intros H. exfalso. apply (H o); [left; reflexivity|]. apply here_spec. exact E.
    + split; [|reflexivity]. intros _ p [<-|I]; [apply here_not; exact E|apply N; exact I].
Qed.
Lemma variable_some l name x : variable l (shell_name name) = Some x <-> exists o, last_said l name o /\ value_of o = x.
Proof.
  induction l as [|o l IH]; cbn [variable].
  - split; [discriminate|]. intros (o & (l1 & l2 & E & _) & _). destruct l1; discriminate.
  - fold (here o name). destruct (variable l (shell_name name)) as [y|] eqn:V.
    + rewrite IH. split.
      * intros (p & (l1 & l2 & E & A & N) & X). exists p. split; [|exact X]. exists (o :: l1), l2. subst l. auto.
      * intros (p & (l1 & l2 & E & A & N) & X). destruct l1 as [|q l1].
        -- injection E as -> ->. exfalso. assert (K : never_said l2 name) by exact N. apply variable_none in K. rewrite K in V. discriminate.
        -- injection E as -> ->. exists p. split; [|exact X]. exists l1, l2. auto.
    + assert (N := proj1 (variable_none l name) V). destruct (here o name) eqn:E.
      * split.
        -- intros [= X]. exists o. split; [|exact X]. exists [], l. split; [reflexivity|]. split; [apply here_spec; exact E|exact N].
        -- intros (p & (l1 & l2 & F & A & M) & X). destruct l1 as [|q l1]; injection F as -> ->; [rewrite X; reflexivity|].
           exfalso. apply (N p); [apply in_elt|exact A].
      * split; [discriminate|]. intros (p & (l1 & l2 & F & A & M) & X). exfalso. destruct l1 as [|q l1]; injection F as -> ->.
        -- apply here_spec in A. rewrite A in E. discriminate.
        -- apply (N p); [apply in_elt|exact A].
Qed.
Lemma said_spec l name : said l name <-> variable l (shell_name name) <> None.
Proof.
  split.
  - intros (p & I & A) H. apply variable_none in H. exact (H p I A).
  - intros H. destruct (variable l (shell_name name)) as [x|] eqn:V; [|exfalso; apply H; reflexivity].
    apply variable_some in V. destruct V as (o & (l1 & l2 & E & A & _) & _). exists o. subst l. split; [apply in_elt|exact A].
Qed.
Lemma defines_spec l name m : In (name, m) option_macros -> (defines l m <-> variable l (shell_name name) <> None).
Proof.
  intros I. unfold defines, config_h. cbn [option_macros In] in I.
  change (shell_name name) with (shell_name name).
  destruct I as [[= <- <-]|[[= <- <-]|[[= <- <-]|[[= <- <-]|[[= <- <-]|[]]]]]]; cbn [shell_name existsb Ascii.eqb Bool.eqb orb];
  destruct (variable l "test_internal"), (variable l "info"), (variable l "fort_real"), (variable l "fort_double"), (variable l "type_checking");
  cbn [app In]; (split; [intros (v & H) K; repeat (destruct H as [H|H]; [discriminate H|]); try discriminate K; try (destruct H)
                       |intros K; try (exfalso; apply K; reflexivity); eexists; repeat (first [left; reflexivity|right])]).
Qed.
Theorem C114_said_lemma : forall l name m, In (name, m) option_macros -> (defines l m <-> said l name).
Proof. intros l name m I. rewrite (defines_spec l name m I), said_spec. reflexivity. Qed.
Theorem C114_nothing_else_lemma : forall l m, defines l m -> In m (map snd option_macros).
Proof.
  intros l m (v & H). unfold config_h in H. cbn [map snd option_macros].
  destruct (variable l "test_internal"), (variable l "info"), (variable l "fort_real"), (variable l "fort_double"), (variable l "type_checking");
  cbn [app In] in *; repeat (destruct H as [H|H]; [injection H as <- <-; tauto|]); destruct H.
Qed.
Theorem C114_wanted_lemma : forall l name m, In (name, m) option_macros ->
  (forall p, In p l -> about p name -> exists x a, p = Enable x a /\ a <> Some "no") -> (defines l m <-> wanted l name).
Proof.
  intros l name m I H. rewrite (C114_said_lemma l name m I), said_spec. split.
  - intros K. destruct (variable l (shell_name name)) as [x|] eqn:V; [|exfalso; apply K; reflexivity].
    apply variable_some in V. destruct V as (o & L & _). pose proof L as (l1 & l2 & E & A & _).
    destruct (H o) as (y & a & -> & N); [subst l; apply in_elt|exact A|]. exists y, a. auto.
  - intros (x & a & L & _) V. apply variable_none in V. destruct L as (l1 & l2 & E & A & _). apply (V (Enable x a)); [subst l; apply in_elt|exact A].
Qed.
Theorem C114_refuted_lemma : ~ C114_full.
Proof.
  intros H. destruct (H [Disable "type-checking"] "type-checking" "TYPE_CHECKING") as [A _]; [cbn; tauto|].
  destruct A as (x & a & (l1 & l2 & E & _) & _); [exists ""; cbn; tauto|]. destruct l1 as [|q [|r l1]]; discriminate.
Qed.

Lemma decimal_number k : number (decimal k) = Some (Z.of_N k).
Proof.
  unfold number, decimal. rewrite NilZero.usu.
  - rewrite Unsigned.of_to, String.eqb_refl. reflexivity.
  - destruct k as [|p]; [discriminate|]. cbn. apply DecimalPos.Unsigned.to_uint_nonnil.
Qed.
Lemma macro_real l : macro l "CONFIG_FORT_REAL" = variable l (shell_name "fort-real").
Proof.
  unfold macro, config_h. change (shell_name "fort-real") with "fort_real".
  destruct (variable l "test_internal"), (variable l "info"), (variable l "fort_real"), (variable l "fort_double"), (variable l "type_checking"); reflexivity.
Qed.
Lemma macro_double l : macro l "CONFIG_FORT_DOUBLE" = variable l (shell_name "fort-double").
Proof.
  unfold macro, config_h. change (shell_name "fort-double") with "fort_double".
  destruct (variable l "test_internal"), (variable l "info"), (variable l "fort_real"), (variable l "fort_double"), (variable l "type_checking"); reflexivity.
Qed.
Lemma macro_checking l : macro l "TYPE_CHECKING" <> None <-> said l "type-checking".
Proof.
  rewrite said_spec. unfold macro, config_h. change (shell_name "type-checking") with "type_checking".
  destruct (variable l "test_internal"), (variable l "info"), (variable l "fort_real"), (variable l "fort_double"), (variable l "type_checking");
    cbn; split; intros H K; try discriminate; apply H; reflexivity.
Qed.
Lemma size_spec l m name default n : macro l m = variable l (shell_name name) -> size_asked l name default n -> fsize l m default = Some n.
Proof.
  intros E [(N & ->)|(x & k & L & ->)]; unfold fsize; rewrite E.
  - apply variable_none in N. rewrite N. reflexivity.
  - assert (V : variable l (shell_name name) = Some (decimal k)) by (apply variable_some; eexists; split; [exact L|reflexivity]).
    rewrite V. apply decimal_number.
Qed.
Theorem C114_sizes_lemma : forall l r d, size_asked l "fort-real" 4 r -> size_asked l "fort-double" 8 d ->
  exists t, cfg_of l = Some (mkCfg r d t) /\ (t = true <-> said l "type-checking").
Proof.
  intros l r d R D. unfold cfg_of. rewrite (size_spec _ _ _ _ _ (macro_real l) R), (size_spec _ _ _ _ _ (macro_double l) D).
  eexists. split; [reflexivity|]. rewrite <- macro_checking. destruct (macro l "TYPE_CHECKING"); intuition discriminate.
Qed.
Theorem C114_init_lemma : forall l r d base elem s s1, size_asked l "fort-real" 4 r -> size_asked l "fort-double" 8 d ->
  MPI_Init s = Ok (tt, s1) -> (forall a, is_int (elem a)) -> elem "fint" = 4 -> elem "flog" = 4 -> elem "fcomp" = 2 * elem "freal" ->
  exists c, cfg_of l = Some c /\
    (elem "freal" = r /\ elem "fdub" = d -> MPI_INIT_f c base elem s = Ok (0, s1)) /\
    (~ (elem "freal" = r /\ elem "fdub" = d) -> exists m, MPI_INIT_f c base elem s = Abort m).
Proof.
  intros l r d base elem s s1 R D HI EI F1 F2 F3. destruct (C114_sizes_lemma l r d R D) as (t & E & _).
  exists (mkCfg r d t). split; [exact E|]. destruct (C100_init_lemma (mkCfg r d t) base elem s s1 HI EI) as [A B]. unfold usual in A, B. cbn [fsize_real fsize_dprec] in A, B. split.
  - intros [G1 G2]. apply A. rewrite F1, F2, F3, G1, G2. auto.
  - intros N. destruct B as (m & B & _); [|exists m; exact B]. intros (_ & _ & G1 & G2 & _). apply N. auto.
Qed.
Theorem C114_no_number_lemma : forall l x, last_said l "fort-real" x -> (exists n, x = Disable n) \/ (exists n, x = Enable n None) -> cfg_of l = None.
Proof.
  intros l x L H. unfold cfg_of, fsize. rewrite macro_real.
  assert (V : variable l (shell_name "fort-real") = Some (value_of x)) by (apply variable_some; eexists; split; [exact L|reflexivity]). rewrite V.
  destruct H as [(n & ->)|(n & ->)]; reflexivity.
Qed.

Definition brings_config : list string := ["mpiP.h"; "type.h"].
Lemma config_brought h : In h brings_config -> brings h "config.h".
Proof.
  intros I. cbn in I. destruct I as [<-|[<-|[]]].
  - apply (br_line _ 30). cbn; tauto.
  - apply (br_line _ 11). cbn; tauto.
Qed.
Theorem C114_seen_lemma : forall f n m, In (f, n, m) asking_lines -> config_before f n.
Proof.
  intros f n m I.
  assert (H : forallb (fun a => existsb (fun i => String.eqb (fst (fst i)) (fst (fst a)) && Z.ltb (snd (fst i)) (snd (fst a)) && mem (snd i) ("config.h" :: brings_config)) include_lines) asking_lines = true)
    by (vm_compute; reflexivity).
  rewrite forallb_forall in H. specialize (H _ I). cbn [fst snd] in H. apply existsb_exists in H. destruct H as ([[g k] h] & J & H). cbn [fst snd] in H.
  apply andb_prop in H. destruct H as [H M]. apply andb_prop in H. destruct H as [E L]. apply String.eqb_eq in E. subst g. apply Z.ltb_lt in L. apply mem_spec in M.
  exists k, h. split; [exact J|]. split; [exact L|]. destruct M as [<-|M]; [left; reflexivity|right; apply config_brought; exact M].
Qed.
Theorem C114_lines_lemma : forall f l, In (f, l) includes -> l = map snd (filter (fun i => String.eqb (fst (fst i)) f) include_lines).
Proof.
  intros f l I.
  assert (H : forallb (fun p => if list_eq_dec string_dec (snd p) (map snd (filter (fun i => String.eqb (fst (fst i)) (fst p)) include_lines)) then true else false) includes = true)
    by (vm_compute; reflexivity).
  rewrite forallb_forall in H. specialize (H _ I). cbn [fst snd] in H. destruct (list_eq_dec _ _ _) as [E|]; [exact E|discriminate].
Qed.

(** ** C109 *)
Definition withs (f : string) (n : Z) : list string :=
  flat_map (fun r => match r with (g, w, a, b) => if String.eqb g f && Z.ltb a n && Z.ltb n b then [w] else [] end) regions.
Lemma withs_spec f n w : In w (withs f n) <-> only_with f n w.
Proof.
  unfold withs, only_with. rewrite in_flat_map. split.
  - intros ([[[g v] a] b] & I & H). destruct (String.eqb g f && Z.ltb a n && Z.ltb n b) eqn:E; [|destruct H]. destruct H as [->|[]].
    apply andb_prop in E. destruct E as [E L2]. apply andb_prop in E. destruct E as [E L1]. apply String.eqb_eq in E. apply Z.ltb_lt in L1, L2. subst g. exists a, b. auto.
  - intros (a & b & I & L1 & L2). exists (f, w, a, b). split; [exact I|]. apply Z.ltb_lt in L1, L2. rewrite String.eqb_refl, L1, L2. left. reflexivity.
Qed.
Definition needsb (p : place) (u : use) : list string := match u_when u with Some w => [w] | None => match p_when p with Some w => [w] | None => [] end end.
Lemma needsb_spec p u w : In w (needsb p u) <-> needs p u w.
Proof.
  unfold needsb, needs. destruct (u_when u) as [v|]; [|destruct (p_when p) as [v|]]; cbn [In]; split; intros H.
  - destruct H as [->|[]]. left. reflexivity.
  - destruct H as [H|[H _]]; [|discriminate]. injection H as ->. auto.
  - destruct H as [->|[]]. right. auto.
  - destruct H as [H|[_ H]]; [discriminate|]. injection H as ->. auto.
  - destruct H.
  - destruct H as [H|[_ H]]; discriminate.
Qed.
Theorem C109_when_lemma : forall p, In p places ->
  (forall u w, In u (p_uses p) -> (needs p u w <-> only_with (p_file p) (u_line u) w)) /\
  (forall w, p_when p = Some w <-> only_with (p_file p) (p_first p) w) /\ (forall w, p_when p = Some w <-> only_with (p_file p) (p_last p) w) /\
  (forall u, In u (p_uses p) -> p_first p <= u_line u <= p_last p).
Proof.
  assert (H : forallb (fun p => forallb (fun u => if list_eq_dec string_dec (needsb p u) (withs (p_file p) (u_line u)) then Z.leb (p_first p) (u_line u) && Z.leb (u_line u) (p_last p) else false) (p_uses p) &&
    (if list_eq_dec string_dec (match p_when p with Some w => [w] | None => [] end) (withs (p_file p) (p_first p)) then true else false) &&
    (if list_eq_dec string_dec (match p_when p with Some w => [w] | None => [] end) (withs (p_file p) (p_last p)) then true else false)) places = true) by (vm_compute; reflexivity).
  rewrite forallb_forall in H. intros p I. specialize (H p I). apply andb_prop in H. destruct H as [H C]. apply andb_prop in H. destruct H as [A B]. rewrite forallb_forall in A.
  assert (W : forall w, p_when p = Some w <-> In w (match p_when p with Some w => [w] | None => [] end)).
  { intros w. destruct (p_when p) as [v|]; cbn [In]; split; intros K; try discriminate; try (injection K as ->; auto); [destruct K as [->|[]]; reflexivity|destruct K]. }
  split; [|split; [|split]].
  - intros u w J. specialize (A u J). destruct (list_eq_dec _ _ _) as [E|]; [|discriminate]. rewrite <- withs_spec, <- E. symmetry. apply needsb_spec.
  - intros w. destruct (list_eq_dec _ _ (withs (p_file p) (p_first p))) as [E|]; [|discriminate]. rewrite <- withs_spec, <- E. apply W.
  - intros w. destruct (list_eq_dec _ _ (withs (p_file p) (p_last p))) as [E|]; [|discriminate]. rewrite <- withs_spec, <- E. apply W.
  - intros u J. specialize (A u J). destruct (list_eq_dec _ _ _) as [E|]; [|discriminate]. apply andb_prop in A. destruct A as [L1 L2]. apply Z.leb_le in L1, L2. auto.
Qed.
Theorem C109_regions_lemma : forall f w a b, In (f, w, a, b) regions -> In w (map snd option_macros) -> In (f, a, w) asking_lines.
Proof.
  intros f w a b I J.
  assert (H : forallb (fun r => match r with (f, w, a, b) => negb (mem w (map snd option_macros)) || existsb (fun q => String.eqb (fst (fst q)) f && Z.eqb (snd (fst q)) a && String.eqb (snd q) w) asking_lines end) regions = true)
    by (vm_compute; reflexivity).
  rewrite forallb_forall in H. specialize (H _ I). cbn beta iota in H. apply mem_spec in J. rewrite J in H. cbn [negb orb] in H. apply existsb_exists in H. destruct H as ([[g k] v] & K & E).
  cbn [fst snd] in E. apply andb_prop in E. destruct E as [E E3]. apply andb_prop in E. destruct E as [E1 E2]. apply String.eqb_eq in E1, E3. apply Z.eqb_eq in E2. subst. exact K.
Qed.

(** ** C115 *)
Definition makes (t : string) : list string := t :: match rule_for t with Some r => ru_besides r | None => [] end.
Lemma perform_inl tr : forall there,
  (forall f l1 l2, tr = l1 ++ Look f :: l2 -> In f there \/ exists t, In (Run t) l1 /\ In f (makes t)) ->
  exists l, perform tr there = inl l /\ (forall x, In x there -> In x l) /\ (forall t x, In (Run t) tr -> In x (makes t) -> In x l).
Proof.
  induction tr as [|s tr IH]; intros there H; cbn [perform].
  - exists there. split; [reflexivity|]. split; [auto|]. intros t x [].
  - destruct s as [f|t].
    + assert (K : In f there) by (destruct (H f [] tr eq_refl) as [K|(t & [] & _)]; exact K).
      apply mem_spec in K. unfold mem in K. rewrite K. destruct (IH there) as (l & E & A & B).
      * intros g l1 l2 ->. destruct (H g (Look f :: l1) l2 eq_refl) as [K1|(t & [K1|K1] & K2)]; [left; exact K1|discriminate|right; exists t; auto].
      * exists l. split; [exact E|]. split; [exact A|]. intros t x [I|I] J; [discriminate|exact (B t x I J)].
    + change (t :: match rule_for t with Some r => ru_besides r | None => [] end ++ there) with (makes t ++ there). destruct (IH (makes t ++ there)) as (l & E & A & B).
      * intros g l1 l2 ->. destruct (H g (Run t :: l1) l2 eq_refl) as [K1|(u & [K1|K1] & K2)].
        -- left. apply in_or_app. auto.
        -- injection K1 as ->. left. apply in_or_app. auto.
        -- right. exists u. auto.
      * exists l. split; [exact E|]. split; [intros x I; apply A; apply in_or_app; auto|].
        intros u x [I|I] J; [injection I as ->; apply A; apply in_or_app; auto|exact (B u x I J)].
Qed.
Lemma perform_inr tr : forall there f l1 l2, tr = l1 ++ Look f :: l2 ->
  (forall g k1 k2, l1 = k1 ++ Look g :: k2 -> In g there \/ exists t, In (Run t) k1 /\ In g (makes t)) ->
  ~ In f there -> (forall t, In (Run t) l1 -> ~ In f (makes t)) -> perform tr there = inr f.
Proof.
  induction tr as [|s tr IH]; intros there f l1 l2 E H N M; destruct l1 as [|s' l1]; cbn [app] in E; try discriminate; injection E as -> E; cbn [perform].
  - apply mem_not in N. unfold mem in N. rewrite N. reflexivity.
  - destruct s' as [g|t].
    + assert (K : In g there) by (destruct (H g [] l1 eq_refl) as [K|(t & [] & _)]; exact K).
      apply mem_spec in K. unfold mem in K. rewrite K. apply (IH there f l1 l2 E).
      * intros h k1 k2 ->. destruct (H h (Look g :: k1) k2 eq_refl) as [K1|(t & [K1|K1] & K2)]; [left; exact K1|discriminate|right; exists t; auto].
      * exact N.
      * intros t I. apply M. right. exact I.
    + change (t :: match rule_for t with Some r => ru_besides r | None => [] end ++ there) with (makes t ++ there). apply (IH (makes t ++ there) f l1 l2 E).
      * intros h k1 k2 ->. destruct (H h (Run t :: k1) k2 eq_refl) as [K1|(u & [K1|K1] & K2)].
        -- left. apply in_or_app. auto.
        -- injection K1 as ->. left. apply in_or_app. auto.
        -- right. exists u. auto.
      * intros I. apply in_app_or in I. destruct I as [I|I]; [apply (M t); [left; reflexivity|exact I]|exact (N I)].
      * intros u I. apply M. right. exact I.
Qed.

Definition ruled (x : string) : bool := existsb (fun r => String.eqb (ru_target r) x) rules.
Lemma ruled_spec x : ruled x = true <-> exists r, In r rules /\ ru_target r = x.
Proof.
  unfold ruled. rewrite existsb_exists. split; intros (r & I & E); exists r; (split; [exact I|]); [apply String.eqb_eq; exact E|rewrite E; apply String.eqb_refl].
Qed.
Lemma ruled_not x : ruled x = false <-> forall r, In r rules -> ru_target r <> x.
Proof.
  split.
  - intros E r I K. assert (T : ruled x = true) by (apply ruled_spec; exists r; auto). rewrite T in E. discriminate.
  - intros H. destruct (ruled x) eqn:E; [|reflexivity]. apply ruled_spec in E. destruct E as (r & I & K). exfalso. exact (H r I K).
Qed.
Definition the_step (x : string) : step := if ruled x then Run x else Look x.
Lemma step_for_spec x s : step_for x s <-> s = the_step x.
Proof.
  unfold step_for, the_step. rewrite <- ruled_spec, <- ruled_not. destruct (ruled x); intuition discriminate.
Qed.
Definition all_needed : list string := "all-am" :: flat_map ru_needs rules.
Lemma needed_all x : needed x -> In x all_needed.
Proof. induction 1 as [|r x _ _ I J]; [left; reflexivity|]. right. apply in_flat_map. exists r. auto. Qed.
Lemma rules_reached : forall r, In r rules -> needed (ru_target r).
Proof.
  assert (A : forall x, In x ["Makefile"; "libmpi-serial.a"; "mpi.h"; "mpif.h"; "mpi.mod"; "config.h"] -> needed x).
  { intros x I. eapply (ne_rule (mkRule "all-am" _ [])); [apply ne_all|left; reflexivity|exact I]. }
  assert (B : forall o, In o objects -> needed (fst o ++ ".o")%string).
  { intros o I. eapply (ne_rule (mkRule "libmpi-serial.a" (map (fun o => (fst o ++ ".o")%string) objects) [])).
    - apply A. cbn; tauto.
    - right. left. reflexivity.
    - cbn [ru_needs]. apply in_map_iff. exists o. auto. }
  intros r I. unfold rules in I. destruct I as [<-|[<-|I]].
  - apply ne_all.
  - apply A. cbn; tauto.
  - apply in_map_iff in I. destruct I as (o & <- & I). cbn [ru_target object_rule]. apply B. exact I.
Qed.
Lemma all_needed_spec x : In x all_needed <-> needed x.
Proof.
  split; [|apply needed_all]. intros [<-|I]; [apply ne_all|]. apply in_flat_map in I. destruct I as (r & J & K). apply (ne_rule r); [apply rules_reached; exact J|exact J|exact K].
Qed.

Definition step_eqb (a b : step) : bool := match a, b with Look x, Look y => String.eqb x y | Run x, Run y => String.eqb x y | _, _ => false end.
Lemma step_eqb_spec a b : step_eqb a b = true <-> a = b.
Proof.
  destruct a, b; cbn [step_eqb]; (split; [intros H; try discriminate; try (apply String.eqb_eq in H; subst; reflexivity)|intros H; try discriminate; injection H as ->; apply String.eqb_refl]).
Qed.
Definition smem (s : step) (l : list step) : bool := existsb (step_eqb s) l.
Lemma smem_spec s l : smem s l = true <-> In s l.
Proof.
  unfold smem. rewrite existsb_exists. split; [intros (y & I & E); apply step_eqb_spec in E; subst; exact I|].
  intros I. exists s. split; [exact I|]. apply step_eqb_spec. reflexivity.
Qed.
Fixpoint nodupb (l : list step) : bool := match l with [] => true | s :: l => negb (smem s l) && nodupb l end.
Lemma nodupb_spec l : nodupb l = true -> NoDup l.
Proof.
  induction l as [|s l IH]; cbn [nodupb]; intros H; [constructor|]. apply andb_prop in H. destruct H as [A B].
  constructor; [|apply IH; exact B]. intros I. apply smem_spec in I. rewrite I in A. discriminate.
Qed.
(** [earlier a b tr]: [b] is in [tr], after an [a]. *)
Fixpoint earlier (a b : step) (tr : list step) : bool := match tr with [] => false | s :: tr => (step_eqb s a && smem b tr) || earlier a b tr end.
Lemma earlier_spec a b tr : earlier a b tr = true <-> before a b tr.
Proof.
  unfold before. induction tr as [|s tr IH]; cbn [earlier].
  - split; [discriminate|]. intros (l1 & l2 & l3 & E). destruct l1; discriminate.
  - rewrite Bool.orb_true_iff, Bool.andb_true_iff, step_eqb_spec, smem_spec, IH. split.
    + intros [[-> I]|(l1 & l2 & l3 & ->)]; [|exists (s :: l1), l2, l3; reflexivity].
      apply in_split in I. destruct I as (l2 & l3 & ->). exists [], l2, l3. reflexivity.
    + intros (l1 & l2 & l3 & E). destruct l1 as [|q l1]; injection E as -> ->.
      * left. split; [reflexivity|apply in_elt].
      * right. exists l1, l2, l3. reflexivity.
Qed.
Definition properb (tr : list step) : bool :=
  nodupb tr && forallb (fun s => existsb (fun x => step_eqb s (the_step x)) all_needed) tr && forallb (fun x => smem (the_step x) tr) all_needed &&
  forallb (fun r => forallb (fun x => earlier (the_step x) (Run (ru_target r)) tr) (ru_needs r)) rules.
Lemma properb_spec tr : properb tr = true -> proper tr.
Proof.
  unfold properb. intros H. apply andb_prop in H. destruct H as [H D]. apply andb_prop in H. destruct H as [H C]. apply andb_prop in H. destruct H as [A B].
  rewrite forallb_forall in B, C, D. constructor.
  - apply nodupb_spec. exact A.
  - intros s. split.
    + intros I. specialize (B s I). apply existsb_exists in B. destruct B as (x & J & E). apply step_eqb_spec in E. exists x. split; [apply all_needed_spec; exact J|apply step_for_spec; exact E].
    + intros (x & J & E). apply step_for_spec in E. subst s. apply smem_spec. apply C. apply all_needed_spec. exact J.
  - intros r x s I _ J E. apply step_for_spec in E. subst s. specialize (D r I). rewrite forallb_forall in D. apply earlier_spec. apply D. exact J.
Qed.
Definition must : list string := ["Makefile"; "config.h"; "mpi.h"; "mpif.h"] ++ sources.
Lemma looked tr f l1 l2 : proper tr -> tr = l1 ++ Look f :: l2 -> f = "mpi.mod" \/ In f must.
Proof.
  intros P E. assert (I : In (Look f) tr) by (subst tr; apply in_elt). apply (pr_steps _ P) in I. destruct I as (x & N & S).
  apply step_for_spec in S. unfold the_step in S. destruct (ruled x) eqn:R; [discriminate|]. injection S as <-. apply needed_all in N.
  assert (H : forallb (fun x => ruled x || String.eqb x "mpi.mod" || mem x must) all_needed = true) by (vm_compute; reflexivity).
  rewrite forallb_forall in H. specialize (H f N). rewrite R in H. cbn [orb] in H. apply Bool.orb_true_iff in H.
  destruct H as [H|H]; [left; apply String.eqb_eq; exact H|right; apply mem_spec; exact H].
Qed.
Lemma ready_must there f : ready there -> In f must -> In f there.
Proof. intros R I. apply R. unfold must in I. apply in_app_or in I. exact I. Qed.
Lemma who_makes tr t l1 : proper tr -> (forall s, In s l1 -> In s tr) -> In (Run t) l1 -> In "mpi.mod" (makes t) -> t = "mpif.o".
Proof.
  intros P Q I M. apply Q in I. apply (pr_steps _ P) in I. destruct I as (x & N & S). apply step_for_spec in S. unfold the_step in S.
  destruct (ruled x) eqn:R; [|discriminate]. injection S as ->. apply needed_all in N.
  assert (H : forallb (fun x => negb (ruled x) || negb (mem "mpi.mod" (makes x)) || String.eqb x "mpif.o") all_needed = true) by (vm_compute; reflexivity).
  rewrite forallb_forall in H. specialize (H x N). rewrite R in H. apply mem_spec in M. rewrite M in H. cbn [negb orb] in H. apply String.eqb_eq. exact H.
Qed.
Lemma in_proper tr x s : proper tr -> In x all_needed -> s = the_step x -> In s tr.
Proof. intros P I ->. apply (pr_steps _ P). exists x. split; [apply all_needed_spec; exact I|apply step_for_spec; reflexivity]. Qed.
Lemma works tr there : proper tr -> ready there ->
  (In "mpi.mod" there \/ before (Run "mpif.o") (Look "mpi.mod") tr) -> built tr there.
Proof.
  intros P R H. destruct (perform_inl tr there) as (l & E & A & B).
  - intros f l1 l2 F. destruct (looked tr f l1 l2 P F) as [->|I]; [|left; apply ready_must; assumption].
    destruct H as [H|(k1 & k2 & k3 & G)]; [left; exact H|]. right. exists "mpif.o". split; [|vm_compute; tauto].
    assert (X : l1 = k1 ++ Run "mpif.o" :: k2).
    { pose proof (pr_once _ P) as ND. rewrite F in G.
      assert (G' : l1 ++ Look "mpi.mod" :: l2 = (k1 ++ Run "mpif.o" :: k2) ++ Look "mpi.mod" :: k3) by (rewrite G, <- app_assoc; reflexivity).
      clear G. rewrite F in ND. clear - ND G'. revert ND G'. generalize (k1 ++ Run "mpif.o" :: k2) as m. induction l1 as [|q l1 IH]; intros [|r m] ND G; cbn [app] in G; [reflexivity| | |].
      - exfalso. injection G as <- ->. cbn in ND. inversion ND as [|? ? X _]. apply X. apply in_elt.
      - exfalso. injection G as -> <-. cbn in ND. inversion ND as [|? ? X _]. apply X. apply in_elt.
      - injection G as -> G. f_equal. apply IH; [|exact G]. cbn in ND. inversion ND. assumption. }
    rewrite X. apply in_elt.
  - assert (R1 : In (Run "libmpi-serial.a") tr) by (apply (in_proper tr "libmpi-serial.a"); [exact P|apply mem_spec; vm_compute; reflexivity|vm_compute; reflexivity]).
    assert (R2 : In (Run "mpif.o") tr) by (apply (in_proper tr "mpif.o"); [exact P|apply mem_spec; vm_compute; reflexivity|vm_compute; reflexivity]).
    exists l. split; [exact E|]. split; [apply (B _ _ R1); left; reflexivity|]. split; [apply (B _ _ R2); apply mem_spec; vm_compute; reflexivity|].
    split; apply A; apply ready_must; try exact R; apply mem_spec; vm_compute; reflexivity.
Qed.
Theorem C115_any_lemma : forall tr there, proper tr -> ready there ->
  (In "mpi.mod" there \/ before (Run "mpif.o") (Look "mpi.mod") tr -> built tr there) /\
  (~ In "mpi.mod" there -> before (Look "mpi.mod") (Run "mpif.o") tr -> perform tr there = inr "mpi.mod").
Proof.
  intros tr there P R. split; [apply works; assumption|]. intros N (l1 & l2 & l3 & E). apply (perform_inr tr there "mpi.mod" l1 (l2 ++ Run "mpif.o" :: l3)); [exact E| |exact N|].
  - intros g k1 k2 F. destruct (looked tr g k1 (k2 ++ Look "mpi.mod" :: l2 ++ Run "mpif.o" :: l3) P) as [->|I].
    + rewrite E, F, <- app_assoc. reflexivity.
    + exfalso. pose proof (pr_once _ P) as ND. rewrite E, F in ND. rewrite <- app_assoc in ND. apply NoDup_remove_2 in ND. apply ND. apply in_or_app. right. apply in_elt.
    + left. apply ready_must; assumption.
  - intros t I M. assert (T : t = "mpif.o") by (apply (who_makes tr t l1 P); [intros s J; rewrite E; apply in_or_app; auto|exact I|exact M]). subst t.
    pose proof (pr_once _ P) as ND. rewrite E in ND.
    assert (ND' : NoDup ((l1 ++ Look "mpi.mod" :: l2) ++ Run "mpif.o" :: l3)) by (rewrite <- app_assoc; exact ND).
    apply NoDup_remove_2 in ND'. apply ND'. apply in_or_app. left. apply in_or_app. auto.
Qed.
Lemma make_all_proper : proper make_all.
Proof. apply properb_spec. vm_compute. reflexivity. Qed.
Theorem C115_one_lemma : proper make_all /\ forall there, ready there -> built make_all there.
Proof.
  split; [exact make_all_proper|]. intros there R. apply works; [exact make_all_proper|exact R|]. right. apply earlier_spec. vm_compute. reflexivity.
Qed.
(** The same steps, but every look before every run. *)
Definition hasty : list step := filter (fun s => match s with Look _ => true | Run _ => false end) make_all ++ filter (fun s => match s with Look _ => false | Run _ => true end) make_all.
Theorem C115_refuted_lemma : proper hasty /\ ready files_there /\ perform hasty files_there = inr "mpi.mod" /\ ~ C115_full.
Proof.
  assert (P : proper hasty) by (apply properb_spec; vm_compute; reflexivity).
  assert (R : ready files_there).
  { intros f I. assert (J : In f must) by (unfold must; apply in_or_app; exact I).
    assert (H : forallb (fun f => mem f files_there) must = true) by (vm_compute; reflexivity). rewrite forallb_forall in H. apply mem_spec. apply H. exact J. }
  split; [exact P|]. split; [exact R|]. assert (E : perform hasty files_there = inr "mpi.mod") by (vm_compute; reflexivity). split; [exact E|].
  intros H. destruct (H hasty files_there P R) as (l & F & _). rewrite E in F. discriminate.
Qed.

Definition foundb (contents : dir -> list string) (ds : list dir) (h : string) : bool := existsb (fun d => mem h (contents d)) ds.
Lemma foundb_spec c ds h : foundb c ds h = true <-> found c ds h.
Proof. unfold foundb, found. rewrite existsb_exists. split; intros (d & I & H); exists d; (split; [exact I|]); apply mem_spec; exact H. Qed.
Theorem C115_found_lemma : forall c, c = contents \/ c = contents_together ->
  (forall f hs h, In (f, hs) includes \/ In (f, hs) fortran_needs -> In h hs -> In h (map fst c_headers) \/ found c library_dirs h) /\
  (forall h, In h ["config.h"; "mpi.mod"] -> found c tests_dirs h).
Proof.
  intros c K. split.
  - intros f hs h I J.
    assert (H : forallb (fun p => forallb (fun h => mem h (map fst c_headers) || foundb c library_dirs h) (snd p)) (includes ++ fortran_needs) = true)
      by (destruct K as [-> | ->]; vm_compute; reflexivity).
    rewrite forallb_forall in H. specialize (H (f, hs) (in_or_app _ _ _ I)). cbn [snd] in H. rewrite forallb_forall in H. specialize (H h J).
    apply Bool.orb_true_iff in H. destruct H as [H|H]; [left; apply mem_spec; exact H|right; apply foundb_spec; exact H].
  - intros h I. apply foundb_spec. cbn in I. destruct K as [-> | ->]; destruct I as [<-|[<-|[]]]; vm_compute; reflexivity.
Qed.
Theorem C115_tests_lemma :
  (forall f hs h, In (f, hs) tests_need -> In h hs -> In h (map fst c_headers) \/ found contents_together tests_dirs h) /\
  (forall h, In h ["mpi.h"; "mpif.h"; "mpiP.h"; "type.h"] -> ~ found contents tests_dirs h).
Proof.
  split.
  - intros f hs h I J.
    assert (H : forallb (fun p => forallb (fun h => mem h (map fst c_headers) || foundb contents_together tests_dirs h) (snd p)) tests_need = true) by (vm_compute; reflexivity).
    rewrite forallb_forall in H. specialize (H (f, hs) I). cbn [snd] in H. rewrite forallb_forall in H. specialize (H h J).
    apply Bool.orb_true_iff in H. destruct H as [H|H]; [left; apply mem_spec; exact H|right; apply foundb_spec; exact H].
  - intros h I F. apply foundb_spec in F. cbn in I. destruct I as [<-|[<-|[<-|[<-|[]]]]]; vm_compute in F; discriminate.
Qed.
