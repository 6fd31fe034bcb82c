From Verif Require Import Base CopyModel SysModel CollModel SysCalls FortModel FortSpec FortFacts BindModel BindSpec.

(** A check of one binding. *)
Definition kind_eqb (a b : kind) : bool := match a, b with Kint, Kint | Klong, Klong | Kaint, Kaint | Kvoid, Kvoid | Kchar, Kchar | Kstatus, Kstatus | Kfun, Kfun => true | _, _ => false end.
Definition good_arg (n : string) (p : prm) (fo : prm) (x : sentinel) (e : arg) : bool :=
  match e, fo, p, x with
  | Deref x, Val Kint, Ptr Kint, _ => String.eqb x n
  | Same x, Ptr _, Ptr _, Plain => String.eqb x n
  | CInPlace x, Ptr _, Ptr _, Place => String.eqb x n
  | CStatus x, Ptr _, Ptr _, OneStatus => String.eqb x n
  | CStatuses x, Ptr _, Ptr _, Statuses => String.eqb x n
  | _, _, _, _ => false
  end.
Fixpoint good_args (b : string) (i : nat) (ps : list (string * prm)) (fos : list prm) (es : list arg) (ie : string) : bool :=
  match ps, fos, es with
  | [(n, p)], [], [] => String.eqb n ie
  | (n, p) :: ps, fo :: fos, e :: es =>
      if good_arg n p fo (sentinel_at b i) e then if existsb (fun q => String.eqb (fst q) n) ps then false else if String.eqb n ie then false else good_args b (S i) ps fos es ie else false
  | _, _, _ => false
  end.
Definition good_binding (b : bind_text) : bool :=
  match lookup (b_callee b) prototypes with Some fos => good_args (b_lower b) 0 (b_params b) fos (b_args b) (b_ierr b) | None => false end.

Lemma lookup_in {A} n (l : list (string * A)) v : lookup n l = Some v -> In (n, v) l.
Proof.
  induction l as [|[k w] l IH]; [discriminate|]. cbn [lookup]. destruct (String.eqb_spec k n) as [->|]; intros H; [injection H as ->; left; reflexivity|right; auto].
Qed.
Lemma eval_arg_ok f m params env fo x e n p a :
  good_arg n p fo x e = true -> lookup n params = Some p -> lookup n env = Some a ->
  match fo with Val _ => exists v, integer_at m a v | Ptr _ => True end ->
  exists v, eval_arg f m params env fo e = Ok v /\ right_arg f m fo x a v.
Proof.
  intros G P E I. destruct fo as [k|k].
  - destruct e as [y|y|y|y|y]; destruct k; try discriminate G; try (destruct p; discriminate G). destruct p as [k'|k']; try discriminate G. destruct k'; try discriminate G.
    assert (Y : String.eqb y n = true) by (destruct x; exact G). apply String.eqb_eq in Y. subst. unfold eval_arg. rewrite P, E. destruct I as [v I]. cbn [bind read].
    rewrite (load4 _ _ _ I). cbn [bind convert]. exists v. destruct I as [R I]. split; [|split; assumption]. f_equal.
    assert (to_s32 (v mod 2 ^ 32) = v) as ->; [|apply to_s32_id; unfold INT_MIN, INT_MAX; change (2 ^ 31) with 2147483648 in R; lia].
    unfold to_s32, TWO32. change (2 ^ 32) with 4294967296. change (2 ^ 31) with 2147483648 in R. rewrite Z.add_mod_idemp_l by lia. rewrite Z.mod_small by lia. lia.
  - destruct p as [k'|k']; [destruct e; discriminate G|]. destruct e as [y|y|y|y|y]; try discriminate G; destruct x; try discriminate G;
      apply String.eqb_eq in G; subst; unfold eval_arg; rewrite E; cbn [bind ptr_of right_arg]; eexists; split; try reflexivity.
Qed.
Lemma combine_cons_lookup n p (ps : list (string * prm)) (a : Z) addrs q :
  existsb (fun q => String.eqb (fst q) n) ps = false -> In q (map fst ps) ->
  lookup q ((n, p) :: ps) = lookup q ps /\ lookup q ((n, a) :: combine (map fst ps) addrs) = lookup q (combine (map fst ps) addrs).
Proof.
  intros N I. assert (n <> q). { intros ->. apply in_map_iff in I. destruct I as [[q' x] [E I]]. cbn in E. subst. assert (existsb (fun p => String.eqb (fst p) q) ps = true); [|congruence].
    apply existsb_exists. eexists. split; [exact I|]. apply String.eqb_refl. }
  cbn [lookup]. destruct (String.eqb_spec n q); [congruence|auto].
Qed.
Lemma eval_args_ok f m : forall b ps i fos es ie addrs e params env,
  good_args b i ps fos es ie = true -> length addrs = length fos -> has_integers m fos addrs ->
  (forall n, In n (map fst ps) -> lookup n params = lookup n ps /\ lookup n env = lookup n (combine (map fst ps) (addrs ++ [e]))) ->
  (exists vs, eval_args f m params env fos es = Ok vs /\ all_right f m b i fos addrs vs) /\ lookup ie (combine (map fst ps) (addrs ++ [e])) = Some e.
Proof.
  intros b. induction ps as [|[n p] ps IH]; intros i fos es ie addrs e params env G L HI H; [discriminate|].
  destruct fos as [|fo fos].
  - destruct es; [|destruct ps; discriminate]. destruct ps as [|q ps]; [|destruct q; discriminate]. destruct addrs; [|discriminate].
    cbn [good_args] in G. split; [exists []; split; [reflexivity|exact Logic.I]|]. cbn. rewrite G. reflexivity.
  - destruct es as [|a0 es]; [destruct ps as [|[]]; discriminate|]. destruct addrs as [|a addrs]; [discriminate|].
    assert (G' : (if good_arg n p fo (sentinel_at b i) a0 then if existsb (fun q => String.eqb (fst q) n) ps then false else if String.eqb n ie then false else good_args b (S i) ps fos es ie else false) = true) by (destruct ps as [|[]]; exact G).
    clear G. destruct (good_arg n p fo (sentinel_at b i) a0) eqn:GA; [|discriminate]. destruct (existsb _ ps) eqn:EX; [discriminate|]. destruct (String.eqb n ie) eqn:NE; [discriminate|].
    cbn [has_integers] in HI. destruct HI as [HI HR]. cbn [length] in L. injection L as L.
    destruct (H n (or_introl eq_refl)) as [P E]. cbn [lookup map combine app fst] in P, E. rewrite String.eqb_refl in P, E.
    destruct (eval_arg_ok f m params env fo _ a0 n p a GA P E HI) as (v & EV & RV).
    destruct (IH (S i) fos es ie addrs e params env G' L HR) as [(vs & ES & RS) IE].
    { intros q Q. destruct (H q (or_intror Q)) as [P' E']. cbn [map combine app fst] in E'.
      destruct (combine_cons_lookup n p ps a (addrs ++ [e]) q EX Q) as [X Y]. rewrite P', E'. auto. }
    split.
    + exists (v :: vs). cbn [eval_args]. rewrite EV, ES. split; [reflexivity|]. split; assumption.
    + cbn [map combine app fst lookup]. rewrite NE. exact IE.
Qed.
Lemma all_good : forallb (fun b => if existsb (String.eqb (b_lower b)) wide_reads then true else good_binding b) bindings = true.
Proof. vm_compute. reflexivity. Qed.
Theorem C80_lemma b : In b bindings -> ~ In (b_lower b) wide_reads ->
  exists fos, In (b_callee b, fos) prototypes /\
    forall f m addrs e, length addrs = length fos -> has_integers m fos addrs ->
      exists vs, passed f m b (addrs ++ [e]) = Ok vs /\ all_right f m (b_lower b) 0 fos addrs vs /\ code_at b (addrs ++ [e]) = Some e.
Proof.
  intros I N. assert (A := all_good). rewrite forallb_forall in A. specialize (A b I). cbn beta in A.
  destruct (existsb (String.eqb (b_lower b)) wide_reads) eqn:W.
  - exfalso. apply N. apply existsb_exists in W. destruct W as [x [J E]]. apply String.eqb_eq in E. congruence.
  - unfold good_binding in A. destruct (lookup (b_callee b) prototypes) as [fos|] eqn:P; [|discriminate]. exists fos. split; [apply lookup_in; exact P|].
    intros f m addrs e L H. unfold passed, code_at. rewrite P.
    destruct (eval_args_ok f m (b_lower b) (b_params b) 0 fos (b_args b) (b_ierr b) addrs e (b_params b) (combine (map fst (b_params b)) (addrs ++ [e])) A L H) as [(vs & E & R) IE]; [auto|].
    eauto.
Qed.

(** Every status that a binding hands out may be ignored. *)
Definition outs_ok (b : bind_text) : bool :=
  match lookup (b_callee b) prototypes with
  | Some fos => forallb (fun i => match nth_error fos i with
                                  | Some (Ptr Kstatus) => if existsb (String.eqb (b_lower b)) ["mpi_get_count"; "mpi_get_elements"]%string then true
                                                          else match sentinel_at (b_lower b) i with OneStatus | Statuses => true | _ => false end
                                  | _ => true end) (seq 0 (length fos))
  | None => false
  end.
Lemma outs_good : forallb outs_ok bindings = true.
Proof. vm_compute. reflexivity. Qed.
Lemma lookup_none : forall n (l : list (string * list prm)), NoDup (map fst l) -> forall v, In (n, v) l -> lookup n l = Some v.
Proof.
  intros n l. induction l as [|[k w] l IH]; intros ND v I; [destruct I|]. cbn [map fst] in ND. inversion ND as [|? ? N1 N2]; subst. cbn [lookup].
  destruct I as [E|I]; [injection E as -> ->; rewrite String.eqb_refl; reflexivity|]. destruct (String.eqb_spec k n) as [->|]; [|auto].
  exfalso. apply N1. apply in_map_iff. exists (n, v). auto.
Qed.
Lemma nodup_strings : forall l : list string, (fix nd l := match l with [] => true | x :: r => if existsb (String.eqb x) r then false else nd r end) l = true -> NoDup l.
Proof.
  induction l as [|x l IH]; intros H; [constructor|]. destruct (existsb (String.eqb x) l) eqn:E; [discriminate|].
  constructor; [|exact (IH H)]. intros J. assert (existsb (String.eqb x) l = true); [|congruence]. apply existsb_exists. exists x. split; [exact J|apply String.eqb_refl].
Qed.
Theorem C80_statuses_lemma b fos i : In b bindings -> In (b_callee b, fos) prototypes -> nth_error fos i = Some (Ptr Kstatus) ->
  In (b_lower b) ["mpi_get_count"; "mpi_get_elements"]%string \/ sentinel_at (b_lower b) i = OneStatus \/ sentinel_at (b_lower b) i = Statuses.
Proof.
  intros I P N. assert (A := outs_good). rewrite forallb_forall in A. specialize (A b I). unfold outs_ok in A.
  rewrite (lookup_none _ _ (nodup_strings (map fst prototypes) eq_refl) _ P), forallb_forall in A.
  specialize (A i ltac:(apply in_seq; split; [lia|]; apply nth_error_Some; congruence)). rewrite N in A.
  destruct (existsb _ _) eqn:E in A.
  - left. apply existsb_exists in E. destruct E as (x & X & Y). apply String.eqb_eq in Y. subst. exact X.
  - right. destruct (sentinel_at (b_lower b) i); auto; discriminate A.
Qed.

Definition renamed : list (string * string) :=
  [("mpi_ssend", "MPI_Send"); ("mpi_rsend", "MPI_Send"); ("mpi_get_address", "FGet_address"); ("mpi_address", "FGet_address")]%string.
Lemma names_ok : forallb (fun b => if String.eqb (lower (b_callee b)) (b_lower b) then true else existsb (fun p => if String.eqb (fst p) (b_lower b) then String.eqb (snd p) (b_callee b) else false) renamed) bindings = true.
Proof. vm_compute. reflexivity. Qed.
Theorem C80_names_lemma :
  (forall b, In b bindings -> lower (b_callee b) = b_lower b \/
     In (b_lower b, b_callee b) [("mpi_ssend", "MPI_Send"); ("mpi_rsend", "MPI_Send"); ("mpi_get_address", "FGet_address"); ("mpi_address", "FGet_address")]%string) /\
  NoDup (map b_lower bindings) /\
  forall c buf n ty d g cm, exec c (KSsend buf n ty d g cm) = exec c (KSend buf n ty d g cm) /\ exec c (KRsend buf n ty d g cm) = exec c (KSend buf n ty d g cm).
Proof.
  split; [|split; [|split; reflexivity]].
  - intros b I. assert (A := names_ok). rewrite forallb_forall in A. specialize (A b I). cbn beta in A.
    destruct (String.eqb_spec (lower (b_callee b)) (b_lower b)) as [E|E]; [left; exact E|right].
    apply existsb_exists in A. destruct A as [[x y] [J A]]. cbn [fst snd] in A. destruct (String.eqb_spec x (b_lower b)) as [->|]; [|discriminate].
    apply String.eqb_eq in A. rewrite <- A. exact J.
  - assert (N : forall l : list string, (fix nd l := match l with [] => true | x :: r => if existsb (String.eqb x) r then false else nd r end) l = true -> NoDup l).
    { induction l as [|x l IH]; intros H; [constructor|]. destruct (existsb (String.eqb x) l) eqn:E; [discriminate|].
      constructor; [|exact (IH H)]. intros J. assert (existsb (String.eqb x) l = true); [|congruence]. apply existsb_exists. exists x. split; [exact J|apply String.eqb_refl]. }
    apply N. vm_compute. reflexivity.
Qed.
