(** Running the text of routines step by step: rules for the meaning in [RunSpec]. *)
From Verif Require Import Base LinkModel ListModel TextSpec SourceSpec RunSpec.
From Coq Require Import Ascii.
#[local] Open Scope string_scope.
#[local] Open Scope list_scope.
#[local] Open Scope Z_scope.

Lemma bind_ext {A B} (x : res A) (f g : A -> res B) : (forall a, f a = g a) -> bind x f = bind x g.
Proof. intros H. destruct x; cbn [bind]; auto. Qed.
Lemma bind_Ok {A} (x : res A) : bind x Ok = x.
Proof. destruct x; reflexivity. Qed.

Lemma value_loc {B} l d (k : val * conf -> res B) : bind (value (OLoc l, d)) k = bind (load l d) (fun v => k (v, d)).
Proof. unfold value. cbn [fst snd]. rewrite bind_assoc. reflexivity. Qed.

Section Rules.
Context {A B : Type} (R : A -> B -> Prop) (M : res A).
Variable consts : string -> option val.
Variable globals : list string.
Variable call : string -> list val -> cstate -> res (val * cstate).
Variable n : nat.
Notation ev := (ev consts globals call).
Notation evs := (evs consts globals call).
Notation eval := (eval consts globals call).
Notation exec := (exec consts globals call n).
Notation test_of := (test_of consts globals call).
Notation good := (alike R M).

Lemma a_top (x : res B) : good (bind x Ok) -> good x.
Proof. rewrite bind_Ok. auto. Qed.
Lemma a_ok {T} (x : res T) a k : x = Ok a -> good (k a) -> good (bind x k).
Proof. intros -> H. exact H. Qed.
Lemma a_assoc {T U} (x : res T) (f : T -> res U) k : good (bind x (fun a => bind (f a) k)) -> good (bind (bind x f) k).
Proof. rewrite bind_assoc. auto. Qed.
Lemma a_no {T} (x : res T) m k : x = UB m -> good (UB m) -> good (bind x k).
Proof. intros -> H. exact H. Qed.
Lemma a_ub {T} m (k : T -> res B) : good (UB m) -> good (bind (UB m) k).
Proof. auto. Qed.
Lemma a_abort {T} m (k : T -> res B) : good (Abort m) -> good (bind (Abort m) k).
Proof. auto. Qed.

Lemma v_const x v c k : consts x = Some v -> good (k (v, c)) -> good (bind (eval (EId x) c) k).
Proof. intros H G. unfold RunSpec.eval. cbn [RunSpec.ev]. rewrite H. exact G. Qed.
Lemma v_local x v env s k : consts x = None -> TextSpec.find x env = Some v -> match v with VU => false | _ => true end = true -> good (k (v, (env, s))) -> good (bind (eval (EId x) (env, s)) k).
Proof. intros H E V G. unfold RunSpec.eval. cbn [RunSpec.ev fst snd]. rewrite H, E. unfold value, load. cbn [bind fst snd]. rewrite E. destruct v; try discriminate V; exact G. Qed.
Lemma v_glob x env s k : consts x = None -> TextSpec.find x env = None -> listed x globals = true -> good (k (s_glob s x, (env, s))) -> good (bind (eval (EId x) (env, s)) k).
Proof. intros H E V G. unfold RunSpec.eval. cbn [RunSpec.ev fst snd]. rewrite H, E, V. exact G. Qed.
Lemma v_fun x env s k : consts x = None -> TextSpec.find x env = None -> listed x globals = false -> good (k (VF x, (env, s))) -> good (bind (eval (EId x) (env, s)) k).
Proof. intros H E V G. unfold RunSpec.eval. cbn [RunSpec.ev fst snd]. rewrite H, E, V. exact G. Qed.
Lemma v_num z c k : good (k (VI z, c)) -> good (bind (eval (ENum z) c) k).
Proof. auto. Qed.
Lemma v_str c k : good (k (VX "string", c)) -> good (bind (eval EStr c) k).
Proof. auto. Qed.
Lemma v_size t c k : good (k (VT t, c)) -> good (bind (eval (ESize t) c) k).
Proof. auto. Qed.
Ltac ext := repeat first [reflexivity | rewrite !bind_assoc | apply bind_ext; intros ?].
Ltac by_cases G := refine (eq_ind _ good G _ _); unfold RunSpec.eval; cbn [RunSpec.ev String.eqb Ascii.eqb Bool.eqb orb]; rewrite ?bind_assoc; apply bind_ext; intros ?.
Lemma v_star a c k :
  good (bind (eval a c) (fun r => match fst r with VP p i => bind (load (LCell p i "") (snd r)) (fun v => k (v, snd r)) | VF f => k (VF f, snd r) | _ => UB "pointer" end)) ->
  good (bind (eval (EUn "*" a) c) k).
Proof. intros G. by_cases G. rewrite ?bind_assoc. apply bind_ext. intros [v d]. destruct v; cbn [fst snd bind]; rewrite ?value_loc, ?bind_assoc; reflexivity. Qed.
Lemma v_not a c k : good (bind (eval a c) (fun r => bind (truth (fst r)) (fun b => k (of_bool (negb b), snd r)))) -> good (bind (eval (EUn "!" a) c) k).
Proof. intros G. by_cases G. apply bind_ext. intros r. rewrite !bind_assoc. reflexivity. Qed.
Lemma v_neg a c k : good (bind (eval a c) (fun r => match fst r with VI z => bind (chk_int (- z)) (fun y => k (VI y, snd r)) | _ => UB "operand" end)) -> good (bind (eval (EUn "-" a) c) k).
Proof. intros G. by_cases G. apply bind_ext. intros [v d]. destruct v; cbn [fst snd bind]; rewrite ?value_loc, ?bind_assoc; reflexivity. Qed.
Lemma v_addr a c k :
  good (bind (ev a c) (fun r => match fst r with OLoc (LCell p i "") => k (VP p i, snd r) | OLoc (LVar x) => k (VX x, snd r) | _ => UB "address" end)) ->
  good (bind (eval (EUn "&" a) c) k).
Proof. intros G. by_cases G. destruct a0 as [[[x|x|o i [|? ?]]|v] d]; reflexivity. Qed.
Lemma v_and a b c k :
  good (bind (eval a c) (fun r => bind (truth (fst r)) (fun t => if t then bind (eval b (snd r)) (fun q => bind (truth (fst q)) (fun u => k (of_bool u, snd q))) else k (of_bool false, snd r)))) ->
  good (bind (eval (EBin "&&" a b) c) k).
Proof. intros G. by_cases G. apply bind_ext. intros r. rewrite !bind_assoc. apply bind_ext. intros [|]; cbn [Bool.eqb]; [|reflexivity]. ext. Qed.
Lemma v_or a b c k :
  good (bind (eval a c) (fun r => bind (truth (fst r)) (fun t => if t then k (of_bool true, snd r) else bind (eval b (snd r)) (fun q => bind (truth (fst q)) (fun u => k (of_bool u, snd q)))))) ->
  good (bind (eval (EBin "||" a b) c) k).
Proof. intros G. by_cases G. apply bind_ext. intros r. rewrite !bind_assoc. apply bind_ext. intros [|]; cbn [Bool.eqb]; [reflexivity|]. ext. Qed.
Lemma v_bin o a b c k : (String.eqb o "&&" || String.eqb o "||")%bool = false ->
  good (bind (eval a c) (fun r => bind (eval b (snd r)) (fun q => bind (arith o (fst r) (fst q)) (fun v => k (v, snd q))))) ->
  good (bind (eval (EBin o a b) c) k).
Proof.
  intros O G. refine (eq_ind _ good G _ _). unfold RunSpec.eval. cbn [RunSpec.ev]. rewrite O, !bind_assoc. apply bind_ext; intros x. rewrite ?bind_assoc. apply bind_ext. intros r.
  rewrite ?bind_assoc. ext.
Qed.
Lemma v_set a b c k :
  good (bind (eval b c) (fun r => bind (ev a (snd r)) (fun q => match fst q with OLoc l => bind (store l (fst r) (snd q)) (fun d => k (fst r, d)) | OVal _ => UB "place" end))) ->
  good (bind (eval (ESet "=" a b) c) k).
Proof.
  intros G. by_cases G. apply bind_ext. intros r. rewrite ?bind_assoc. apply bind_ext. intros [[l|v] d]; cbn [fst snd bind]; [|reflexivity]. rewrite ?bind_assoc. reflexivity.
Qed.
Lemma v_set_add a b c k :
  good (bind (eval b c) (fun r => bind (ev a (snd r)) (fun q => match fst q with OLoc l => bind (load l (snd q)) (fun u => bind (arith "+" u (fst r)) (fun v => bind (store l v (snd q)) (fun d => k (v, d)))) | OVal _ => UB "place" end))) ->
  good (bind (eval (ESet "+=" a b) c) k).
Proof.
  intros G. by_cases G. apply bind_ext. intros r. rewrite ?bind_assoc. apply bind_ext. intros [[l|v] d]; cbn [fst snd bind]; [|reflexivity]. rewrite ?bind_assoc. apply bind_ext. intros u. rewrite ?bind_assoc. apply bind_ext. intros v. rewrite ?bind_assoc. reflexivity.
Qed.
Lemma v_step o a c k :
  good (bind (ev a c) (fun q => match fst q with
    | OLoc l => bind (load l (snd q)) (fun v => bind (arith (if String.eqb o "++" then "+" else "-") v (VI 1)) (fun w => bind (store l w (snd q)) (fun d => k (v, d))))
    | OVal _ => UB "place" end)) ->
  good (bind (eval (EStep o a) c) k).
Proof.
  intros G. refine (eq_ind _ good G _ _). unfold RunSpec.eval. cbn [RunSpec.ev]. rewrite ?bind_assoc. apply bind_ext. intros [[l|v] d]; cbn [fst snd bind]; [|reflexivity].
  rewrite ?bind_assoc. apply bind_ext. intros v. rewrite ?bind_assoc. apply bind_ext. intros w. rewrite ?bind_assoc. reflexivity.
Qed.
Lemma v_idx a b c k :
  good (bind (eval a c) (fun r => bind (eval b (snd r)) (fun q => match fst r, fst q with VP p i, VI z => bind (load (LCell p (i + z) "") (snd q)) (fun v => k (v, snd q)) | _, _ => UB "index" end))) ->
  good (bind (eval (EIdx a b) c) k).
Proof.
  intros G. by_cases G. apply bind_ext. intros r. rewrite ?bind_assoc. apply bind_ext. intros p. rewrite ?bind_assoc. apply bind_ext. intros [v d].
  destruct (fst r); try reflexivity. destruct v; cbn [fst snd bind]; rewrite ?value_loc, ?bind_assoc; reflexivity.
Qed.
Lemma v_mem a f c k :
  good (bind (eval a c) (fun r => match fst r with VP p i => bind (load (LCell p i f) (snd r)) (fun v => k (v, snd r)) | _ => UB "pointer" end)) ->
  good (bind (eval (EMem a f) c) k).
Proof. intros G. by_cases G. rewrite ?bind_assoc. apply bind_ext. intros [v d]. destruct v; cbn [fst snd bind]; rewrite ?value_loc, ?bind_assoc; reflexivity. Qed.
Lemma v_call f l c k :
  good (bind (evs l c) (fun r => bind (eval f (snd r)) (fun q => match fst q with VF g => bind (call g (fst r) (snd (snd q))) (fun p => k (fst p, (fst (snd q), snd p))) | _ => UB "call" end))) ->
  good (bind (eval (ECall f l) c) k).
Proof.
  intros G. by_cases G. rewrite ?bind_assoc. apply bind_ext. intros x. rewrite ?bind_assoc. apply bind_ext. intros [v d]. destruct v; cbn [fst snd bind]; rewrite ?value_loc, ?bind_assoc; reflexivity.
Qed.

Lemma l_local x v env s k : consts x = None -> TextSpec.find x env = Some v -> good (k (OLoc (LVar x), (env, s))) -> good (bind (ev (EId x) (env, s)) k).
Proof. intros H E G. cbn [RunSpec.ev fst snd]. rewrite H, E. exact G. Qed.
Lemma l_glob x env s k : consts x = None -> TextSpec.find x env = None -> listed x globals = true -> good (k (OLoc (LGlob x), (env, s))) -> good (bind (ev (EId x) (env, s)) k).
Proof. intros H E V G. cbn [RunSpec.ev fst snd]. rewrite H, E, V. exact G. Qed.
Lemma l_star a c k :
  good (bind (eval a c) (fun r => match fst r with VP p i => k (OLoc (LCell p i ""), snd r) | VF f => k (OVal (VF f), snd r) | _ => UB "pointer" end)) ->
  good (bind (ev (EUn "*" a) c) k).
Proof. intros G. by_cases G. apply bind_ext. intros [v d]. destruct v; reflexivity. Qed.
Lemma l_idx a b c k :
  good (bind (eval a c) (fun r => bind (eval b (snd r)) (fun q => match fst r, fst q with VP p i, VI z => k (OLoc (LCell p (i + z) ""), snd q) | _, _ => UB "index" end))) ->
  good (bind (ev (EIdx a b) c) k).
Proof.
  intros G. by_cases G. apply bind_ext. intros r. rewrite ?bind_assoc. apply bind_ext. intros p. apply bind_ext. intros [v d].
  destruct (fst r); try reflexivity. destruct v; reflexivity.
Qed.
Lemma l_mem a f c k :
  good (bind (eval a c) (fun r => match fst r with VP p i => k (OLoc (LCell p i f), snd r) | _ => UB "pointer" end)) -> good (bind (ev (EMem a f) c) k).
Proof. intros G. by_cases G. apply bind_ext. intros [v d]. destruct v; reflexivity. Qed.

Lemma a_nil c k : good (k ([], c)) -> good (bind (evs ANil c) k).
Proof. auto. Qed.
Lemma a_cons e l c k : good (bind (eval e c) (fun p => bind (evs l (snd p)) (fun q => k (fst p :: fst q, snd q)))) -> good (bind (evs (ACons e l) c) k).
Proof. intros G. refine (eq_ind _ good G _ _). unfold RunSpec.eval. cbn [RunSpec.evs]. rewrite ?bind_assoc. apply bind_ext. intros x. apply bind_ext. intros p. rewrite ?bind_assoc. reflexivity. Qed.

Lemma x_skip c k : good (k (Next c)) -> good (bind (exec SSkip c) k).
Proof. auto. Qed.
Lemma x_seq a b c k : good (bind (exec a c) (fun r => match r with Next d => bind (exec b d) k | Return v d => k (Return v d) end)) -> good (bind (exec (SSeq a b) c) k).
Proof. intros G. refine (eq_ind _ good G _ _). cbn [RunSpec.exec]. rewrite bind_assoc. apply bind_ext. intros [d|v d]; reflexivity. Qed.
Lemma x_exp e c k : good (bind (eval e c) (fun r => k (Next (snd r)))) -> good (bind (exec (SExp e) c) k).
Proof. intros G. refine (eq_ind _ good G _ _). cbn [RunSpec.exec]. rewrite bind_assoc. reflexivity. Qed.
Lemma x_decl x env s k : good (k (Next ((x, VU) :: env, s))) -> good (bind (exec (SDecl x None) (env, s)) k).
Proof. auto. Qed.
Lemma x_init x e c k : good (bind (eval e c) (fun r => k (Next ((x, fst r) :: fst (snd r), snd (snd r))))) -> good (bind (exec (SDecl x (Some e)) c) k).
Proof. intros G. refine (eq_ind _ good G _ _). cbn [RunSpec.exec]. rewrite bind_assoc. reflexivity. Qed.
Lemma x_if e a b c k : good (bind (eval e c) (fun r => bind (truth (fst r)) (fun t => if t then bind (exec a (snd r)) k else bind (exec b (snd r)) k))) -> good (bind (exec (SIf e a b) c) k).
Proof.
  intros G. refine (eq_ind _ good G _ _). cbn [RunSpec.exec]. unfold RunSpec.test_of. rewrite ?bind_assoc. apply bind_ext. intros r. rewrite ?bind_assoc. apply bind_ext. intros [|]; reflexivity.
Qed.
Lemma x_while e a c k : good (bind (turns n (test_of e) (exec a) c) k) -> good (bind (exec (SWhile e a) c) k).
Proof. auto. Qed.
Lemma x_ret c k : good (k (Return VU c)) -> good (bind (exec (SRet None) c) k).
Proof. auto. Qed.
Lemma x_ret_val e c k : good (bind (eval e c) (fun r => k (Return (fst r) (snd r)))) -> good (bind (exec (SRet (Some e)) c) k).
Proof. intros G. refine (eq_ind _ good G _ _). cbn [RunSpec.exec]. rewrite bind_assoc. reflexivity. Qed.
Lemma x_test e c k : good (bind (eval e c) (fun r => bind (truth (fst r)) (fun b => k (b, snd r)))) -> good (bind (test_of e c) k).
Proof. intros G. refine (eq_ind _ good G _ _). unfold RunSpec.test_of. rewrite ?bind_assoc. apply bind_ext. intros r. rewrite ?bind_assoc. reflexivity. Qed.
End Rules.
Section Calls.
Context {A B : Type} (R : A -> B -> Prop) (M : res A).
Variable consts : string -> option val.
Variable globals : list string.
Variable outer : string -> list val -> cstate -> res (val * cstate).
Variable p : program.
Notation good := (alike R M).
Lemma c_prim d n f args s r k : prim f args s = Some r -> good (bind r k) -> good (bind (run consts globals outer p (Datatypes.S d) n f args s) k).
Proof. intros E G. cbn [run]. rewrite E. exact G. Qed.
Lemma c_fun d n f args s ps b k : prim f args s = None -> TextSpec.find f p = Some (mkF ps b) -> Nat.eqb (length args) (length ps) = true ->
  good (bind (exec consts globals (run consts globals outer p d n) n b (combine ps args, s)) (fun a => match a with Next c => k (VU, snd c) | Return v c => k (v, snd c) end)) ->
  good (bind (run consts globals outer p (Datatypes.S d) n f args s) k).
Proof. intros E F L G. cbn [run]. rewrite E, F. cbn [f_params f_body]. rewrite L, bind_assoc. refine (eq_ind _ good G _ _). apply bind_ext. intros [c|v c]; reflexivity. Qed.
Lemma c_outer d n f args s k : prim f args s = None -> TextSpec.find f p = None -> good (bind (outer f args s) k) -> good (bind (run consts globals outer p (Datatypes.S d) n f args s) k).
Proof. intros E F G. cbn [run]. rewrite E, F. exact G. Qed.
End Calls.
Lemma truth_of_bool b : truth (of_bool b) = Ok b.
Proof. destruct b; reflexivity. Qed.
Definition new_state (s : cstate) (t : string) : cstate := snd (new_object s t).
(** The tactic that follows a run: one rule at a time, as long as the next step does not depend on what is not known. *)
Ltac comp := lazy -[Z.eqb Z.ltb Z.leb Z.add Z.sub Z.mul Z.opp chk_int s_cell s_glob set_cell set_glob s_fresh s_junk new_object new_state drop_object there of_bool negb ptr l_head l_tail l_count it_data it_prev it_next lh_items lh_lists lh_itemcount lh_headcount lh_next lh_junk val_eqb]; reflexivity.
Ltac tidy := cbn [fst snd combine set_var String.eqb Ascii.eqb Bool.eqb]; try match goal with |- context [LCell _ (0 + ?x) _] => rewrite (Z.add_0_l x) end.
Ltac known_cell :=
  match goal with
  | H : s_cell ?s ?o ?i ?f = Some ?v |- match s_cell ?s ?o ?i ?f with _ => _ end = _ => rewrite H; reflexivity
  | H : s_cell ?s ?o ?i ?f = Some ?v |- load (LCell ?o ?i ?f) (_, ?s) = _ => unfold load; cbn [snd]; rewrite H; reflexivity
  | H : s_cell ?s ?o ?i ?f = Some ?v |- store (LCell ?o ?i ?f) _ (_, ?s) = _ => unfold store; cbn [snd fst]; rewrite H; reflexivity
  | H : s_cell ?s ?o ?i ?f = None |- load (LCell ?o ?i ?f) (_, ?s) = _ => unfold load; cbn [snd]; rewrite H; reflexivity
  | H : s_cell ?s ?o ?i ?f = None |- store (LCell ?o ?i ?f) _ (_, ?s) = _ => unfold store; cbn [snd fst]; rewrite H; reflexivity
  end.
Ltac by_lazy := comp.
Ltac step :=
  lazymatch goal with
  | |- alike _ _ (bind ?x _) =>
      lazymatch x with
      | Ok _ => cbn [bind]
      | UB _ => cbn [bind]
      | Abort _ => cbn [bind]
      | RunSpec.eval _ _ _ (EId _) _ => first [eapply v_const; [by_lazy|] | eapply v_local; [by_lazy|by_lazy|first [reflexivity | eassumption]|] | eapply v_glob; [by_lazy|by_lazy|by_lazy|] | eapply v_fun; [by_lazy|by_lazy|by_lazy|]]
      | RunSpec.eval _ _ _ (ENum _) _ => eapply v_num
      | RunSpec.eval _ _ _ EStr _ => eapply v_str
      | RunSpec.eval _ _ _ (ESize _) _ => eapply v_size
      | RunSpec.eval _ _ _ (EUn "*" _) _ => eapply v_star
      | RunSpec.eval _ _ _ (EUn "!" _) _ => eapply v_not
      | RunSpec.eval _ _ _ (EUn "-" _) _ => eapply v_neg
      | RunSpec.eval _ _ _ (EUn "&" _) _ => eapply v_addr
      | RunSpec.eval _ _ _ (EBin "&&" _ _) _ => eapply v_and
      | RunSpec.eval _ _ _ (EBin "||" _ _) _ => eapply v_or
      | RunSpec.eval _ _ _ (EBin _ _ _) _ => eapply v_bin; [reflexivity|]
      | RunSpec.eval _ _ _ (ESet "=" _ _) _ => eapply v_set
      | RunSpec.eval _ _ _ (ESet "+=" _ _) _ => eapply v_set_add
      | RunSpec.eval _ _ _ (EStep _ _) _ => eapply v_step
      | RunSpec.eval _ _ _ (EIdx _ _) _ => eapply v_idx
      | RunSpec.eval _ _ _ (EMem _ _) _ => eapply v_mem
      | RunSpec.eval _ _ _ (ECall _ _) _ => eapply v_call
      | RunSpec.ev _ _ _ (EId _) _ => first [eapply l_local; [by_lazy|by_lazy|] | eapply l_glob; [by_lazy|by_lazy|by_lazy|]]
      | RunSpec.ev _ _ _ (EUn "*" _) _ => eapply l_star
      | RunSpec.ev _ _ _ (EIdx _ _) _ => eapply l_idx
      | RunSpec.ev _ _ _ (EMem _ _) _ => eapply l_mem
      | RunSpec.evs _ _ _ ANil _ => eapply a_nil
      | RunSpec.evs _ _ _ (ACons _ _) _ => eapply a_cons
      | RunSpec.exec _ _ _ _ SSkip _ => eapply x_skip
      | RunSpec.exec _ _ _ _ (SSeq _ _) _ => eapply x_seq
      | RunSpec.exec _ _ _ _ (SExp _) _ => eapply x_exp
      | RunSpec.exec _ _ _ _ (SDecl _ None) _ => eapply x_decl
      | RunSpec.exec _ _ _ _ (SDecl _ (Some _)) _ => eapply x_init
      | RunSpec.exec _ _ _ _ (SIf _ _ _) _ => eapply x_if
      | RunSpec.exec _ _ _ _ (SWhile _ _) _ => eapply x_while
      | RunSpec.exec _ _ _ _ (SRet None) _ => eapply x_ret
      | RunSpec.exec _ _ _ _ (SRet (Some _)) _ => eapply x_ret_val
      | RunSpec.test_of _ _ _ _ _ => eapply x_test
      | truth (of_bool _) => eapply a_ok; [apply truth_of_bool|]
      | truth _ => eapply a_ok; [reflexivity|]
      | arith _ _ _ => first [eapply a_ok; [by_lazy|] | lazymatch goal with |- context [arith "+" (VI ?a) (VI ?b)] => change (arith "+" (VI a) (VI b)) with (bind (chk_int (a + b)) (fun z => Ok (VI z))); eapply a_assoc
                                                      | |- context [arith "-" (VI ?a) (VI ?b)] => change (arith "-" (VI a) (VI b)) with (bind (chk_int (a - b)) (fun z => Ok (VI z))); eapply a_assoc end]
      | load (LCell _ _ _) _ => first [eapply a_ok; [known_cell|] | eapply a_no; [known_cell|]]
      | load _ _ => eapply a_ok; [by_lazy|]
      | store (LCell _ _ _) _ _ => first [eapply a_ok; [known_cell|] | eapply a_no; [known_cell|]]
      | store _ _ _ => eapply a_ok; [by_lazy|]
      | RunSpec.run _ _ _ _ _ _ _ _ _ => first [eapply c_prim; [reflexivity|] | eapply c_fun; [reflexivity|reflexivity|reflexivity|] | eapply c_outer; [reflexivity|reflexivity|]]
      | chk_int _ => eapply a_ok; [apply chk_int_ok; unfold INT_MIN, INT_MAX in *; lia|]
      | bind _ _ => eapply a_assoc
      end
  | |- alike _ _ (RunSpec.run _ _ _ _ _ _ _ _ _) => apply a_top
  end; tidy.
Ltac split_if :=
  match goal with
  | |- alike _ _ (if ?b then _ else _) =>
      first [ let H := fresh in assert (H : b = true) by reflexivity; rewrite H; clear H
            | let H := fresh in assert (H : b = false) by reflexivity; rewrite H; clear H
            | match goal with H : b = true |- _ => rewrite H | H : b = false |- _ => rewrite H end
            | destruct b eqn:? ]
  end; cbv iota.

Lemma alike_bind {A B C D} (Q : A -> B -> Prop) (R : C -> D -> Prop) x y f g : alike Q x y -> (forall a b, Q a b -> alike R (f a) (g b)) -> alike R (bind x f) (bind y g).
Proof. destruct x, y; cbn [alike bind]; try contradiction; auto. Qed.
Lemma alike_bind_r {A B D} (Q : A -> B -> Prop) (R : A -> D -> Prop) x y g : alike Q x y -> (forall a b, Q a b -> alike R (Ok a) (g b)) -> alike R x (bind y g).
Proof. intros H G. rewrite <- (bind_Ok x). exact (alike_bind Q R x y Ok g H G). Qed.
Lemma alike_mono {A B} (Q R : A -> B -> Prop) x y : (forall a b, Q a b -> R a b) -> alike Q x y -> alike R x y.
Proof. destruct x, y; cbn [alike]; auto. Qed.
Lemma alike_value {B} (Q : unit -> B -> Prop) y : alike Q (Ok tt) y -> exists b, y = Ok b /\ Q tt b.
Proof. destruct y; cbn [alike]; try contradiction. eauto. Qed.

Lemma for_turns {T} (I : Z -> T -> conf -> Prop) (f : Z -> T -> res T) hi test body :
  (forall i st c, 0 <= i -> I i st c -> alike (fun _ r => r = (Z.ltb i hi, c)) (Ok tt) (test c)) ->
  (forall i st c, 0 <= i < hi -> I i st c -> alike (fun st' a => exists c', a = Next c' /\ I (i + 1) st' c') (f i st) (body c)) ->
  forall k i fuel st c, 0 <= i -> k = Z.to_nat (hi - i) -> (k < fuel)%nat -> I i st c ->
  alike (fun st' a => exists c' j, a = Next c' /\ I j st' c') (for_from k i f st) (turns fuel test body c).
Proof.
  intros Ht Hb. induction k as [|k IH]; intros i [|fuel] st c Hi Hk Hf H; try lia; cbn [turns for_from];
    destruct (alike_value _ _ (Ht i st c Hi H)) as (b & E & ->); rewrite E; cbn [bind fst snd].
  - destruct (Z.ltb_spec i hi); [lia|]. cbn [alike]. eauto.
  - destruct (Z.ltb_spec i hi); [|lia]. eapply alike_bind; [apply (Hb i st c); auto|]. intros st' a (c' & -> & H'). apply (IH (i + 1)); auto; lia.
Qed.
Lemma for_loop_turns {T} (I : Z -> T -> conf -> Prop) (f : Z -> T -> res T) hi test body fuel st c :
  (forall i st c, 0 <= i -> I i st c -> alike (fun _ r => r = (Z.ltb i hi, c)) (Ok tt) (test c)) ->
  (forall i st c, 0 <= i < hi -> I i st c -> alike (fun st' a => exists c', a = Next c' /\ I (i + 1) st' c') (f i st) (body c)) ->
  (Z.to_nat hi < fuel)%nat -> I 0 st c ->
  alike (fun st' a => exists c' j, a = Next c' /\ I j st' c') (for_loop 0 hi f st) (turns fuel test body c).
Proof. intros Ht Hb Hf H. unfold for_loop. eapply for_turns; eauto; lia. Qed.

Lemma set_cell_get s o i f v p j g : s_cell (set_cell s o i f v) p j g = if (Z.eqb p o && Z.eqb j i && String.eqb g f)%bool then v else s_cell s p j g.
Proof. reflexivity. Qed.
Lemma array_get s o l i : array s o l -> 0 <= i -> match arr_get l i with Ok z => s_cell s o i "" = Some (VI z) | UB _ => s_cell s o i "" = None | _ => False end.
Proof. intros H Hi. unfold arr_get. rewrite (H i). destruct (Z.ltb_spec i 0); [lia|]. destruct (nth_error l (Z.to_nat i)); reflexivity. Qed.
Lemma array_set s o l i z : array s o l -> 0 <= i ->
  match arr_set l i z with Ok l' => (exists w, s_cell s o i "" = Some w) /\ array (set_cell s o i "" (Some (VI z))) o l' | UB _ => s_cell s o i "" = None | _ => False end.
Proof.
  intros H Hi. unfold arr_set. pose proof (H i) as E. destruct (Z.ltb_spec i 0) as [?|_]; [lia|]. destruct (Z.ltb_spec i (Z.of_nat (length l))) as [L|L].
  - split.
    + rewrite E. destruct (nth_error l (Z.to_nat i)) eqn:N; [eexists; reflexivity|]. apply nth_error_None in N. lia.
    + intros j. rewrite set_cell_get, Z.eqb_refl, Base.list_upd_nth. cbn [andb]. destruct (Z.eqb_spec j i) as [->|D].
      * destruct (Z.ltb_spec i 0); [lia|]. rewrite Nat.eqb_refl. destruct (Nat.ltb_spec (Z.to_nat i) (length l)); [reflexivity|lia].
      * cbn [andb]. rewrite (H j). destruct (Z.ltb_spec j 0); [reflexivity|]. destruct (Nat.eqb_spec (Z.to_nat i) (Z.to_nat j)) as [X|X]; [lia|reflexivity].
  - rewrite E. destruct (nth_error l (Z.to_nat i)) eqn:N; [|reflexivity]. assert (Z.to_nat i < length l)%nat by (apply nth_error_Some; congruence). lia.
Qed.
Lemma array_other s o p l i f v : array s o l -> o <> p -> array (set_cell s p i f v) o l.
Proof. intros H D j. rewrite set_cell_get. destruct (Z.eqb_spec o p); [contradiction|]. apply H. Qed.
Lemma except_refl os s : except os s s.
Proof. unfold except; auto. Qed.
Lemma except_set os s t o i f v : In o os -> except os s t -> except os s (set_cell t o i f v).
Proof. intros H (C & G). split; [|exact G]. intros p j g D. rewrite set_cell_get. destruct (Z.eqb_spec p o) as [->|]; [contradiction|]. apply C, D. Qed.
