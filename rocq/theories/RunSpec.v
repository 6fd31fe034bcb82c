(** What C routines do when they run (C123, C124): statements and expressions read from the text of a routine, and a step by step meaning for them.

    A specification: it says what C says, for the part of it that the routines of list.c, group.c, cart.c and a few more use.  Simplifications: a pointer is an object and an
    index; an object has cells, one for each index and member; casts do nothing; of two operands the left one is evaluated first, of an assignment the value before the place;
    printing does nothing; malloc never fails; text outside this part of C is refused ([None]) or undefined ([UB]). *)
From Verif Require Import Base LinkModel ListModel TextModel TextSpec SourceSpec.
From Coq Require Import Ascii.
#[local] Open Scope string_scope.
#[local] Open Scope list_scope.

(** Tokens: two signs that stand next to each other are one where C has such a sign. *)
Inductive tk := TI (s : string) | TN (z : Z) | TO (s : string) | TS.
Definition single (w : nword) : tk :=
  match w with
  | N (C s) => match is_number s with Some z => TN z | None => TI s end
  | N (F a _) => TI a
  | G c => if Ascii.eqb c """" then TS else TO (String c EmptyString)
  end.
Definition pairs : list string := ["=="; "!="; "<="; ">="; "&&"; "||"; "->"; "++"; "--"; "+="; "-="; "<<"; ">>"].
Fixpoint tks (l : list nword) : list tk :=
  match l with
  | G a :: ((G b :: r) as r1) =>
      if listed (String a (String b EmptyString)) pairs then TO (String a (String b EmptyString)) :: tks r else single (G a) :: tks r1
  | w :: r => single w :: tks r
  | [] => []
  end.

(** Expressions and statements. *)
Inductive cexp :=
| EId (x : string) | ENum (z : Z) | EStr
| EUn (o : string) (e : cexp) | EBin (o : string) (a b : cexp) | ESet (o : string) (a b : cexp) | EStep (o : string) (e : cexp)
| EIdx (a b : cexp) | EMem (a : cexp) (f : string) | ESize (t : string) | ECall (f : cexp) (l : cargs)
with cargs := ANil | ACons (e : cexp) (l : cargs).
Inductive cstm :=
| SSkip | SSeq (a b : cstm) | SExp (e : cexp) | SDecl (x : string) (e : option cexp) | SIf (c : cexp) (a b : cstm) | SWhile (c : cexp) (a : cstm) | SRet (e : option cexp).

(** The types that stand in casts and declarations in these routines: C's own, list.h 19-20, listP.h 14-32, mpi.h 6-7, 66. *)
Definition types : list string := ["int"; "long"; "void"; "char"; "unsigned"; "pList"; "pListitem"; "List"; "Listitem"; "MPI_Aint"; "MPI_Comm"; "MPI_Group"; "MPI_Status"].
Definition is_type (t : tk) : bool := match t with TI s => listed s types | _ => false end.
(** The tokens of a cast after its parenthesis, up to the one that closes it. *)
Fixpoint after_cast (l : list tk) : option (list tk) :=
  match l with
  | TI s :: r => if listed s types then after_cast r else None
  | TO o :: r => if String.eqb o "*" then after_cast r else if String.eqb o ")" then Some r else None
  | _ => None
  end.
(** Operators that bind equally, the loosest first. *)
Definition operators (level : nat) : list string := nth level [["||"]; ["&&"]; ["|"]; ["&"]; ["=="; "!="]; ["<"; ">"; "<="; ">="]; ["<<"; ">>"]; ["+"; "-"]; ["*"; "/"]] [].
Fixpoint p_exp (fuel : nat) (l : list tk) : option (cexp * list tk) :=
  match fuel with
  | O => None
  | Datatypes.S f =>
      match p_bin f O l with
      | Some (a, TO o :: r) => if listed o ["="; "+="; "-="] then match p_exp f r with Some (b, r') => Some (ESet o a b, r') | None => None end else Some (a, TO o :: r)
      | x => x
      end
  end
with p_bin (fuel : nat) (level : nat) (l : list tk) : option (cexp * list tk) :=
  match fuel with
  | O => None
  | Datatypes.S f => if Nat.ltb level 9 then match p_bin f (Datatypes.S level) l with Some (a, r) => p_tail f level a r | None => None end else p_un f l
  end
with p_tail (fuel : nat) (level : nat) (a : cexp) (l : list tk) : option (cexp * list tk) :=
  match fuel with
  | O => None
  | Datatypes.S f =>
      match l with
      | TO o :: r => if listed o (operators level) then match p_bin f (Datatypes.S level) r with Some (b, r') => p_tail f level (EBin o a b) r' | None => None end else Some (a, l)
      | _ => Some (a, l)
      end
  end
with p_un (fuel : nat) (l : list tk) : option (cexp * list tk) :=
  match fuel with
  | O => None
  | Datatypes.S f =>
      match l with
      | TO o :: r =>
          if listed o ["*"; "&"; "!"; "-"] then match p_un f r with Some (a, r') => Some (EUn o a, r') | None => None end
          else if String.eqb o "(" then
            match r with
            | t :: _ => if is_type t then match after_cast r with Some r' => p_un f r' | None => None end
                        else match p_exp f r with Some (a, TO c :: r') => if String.eqb c ")" then p_post f a r' else None | _ => None end
            | [] => None
            end
          else None
      | TI s :: r =>
          if String.eqb s "sizeof" then
            match r with TO o :: TI t :: TO c :: r' => if (String.eqb o "(" && String.eqb c ")")%bool then Some (ESize t, r') else None | _ => None end
          else p_post f (EId s) r
      | TN z :: r => Some (ENum z, r)
      | TS :: TS :: r => p_un f (TS :: r)
      | TS :: r => Some (EStr, r)
      | [] => None
      end
  end
with p_post (fuel : nat) (a : cexp) (l : list tk) : option (cexp * list tk) :=
  match fuel with
  | O => None
  | Datatypes.S f =>
      match l with
      | TO o :: r =>
          if String.eqb o "[" then match p_exp f r with Some (b, TO c :: r') => if String.eqb c "]" then p_post f (EIdx a b) r' else None | _ => None end
          else if String.eqb o "->" then match r with TI m :: r' => p_post f (EMem a m) r' | _ => None end
          else if listed o ["++"; "--"] then p_post f (EStep o a) r
          else if String.eqb o "(" then match p_args f r with Some (b, r') => p_post f (ECall a b) r' | None => None end
          else Some (a, l)
      | _ => Some (a, l)
      end
  end
with p_args (fuel : nat) (l : list tk) : option (cargs * list tk) :=
  match fuel with
  | O => None
  | Datatypes.S f =>
      match l with
      | TO o :: r => if String.eqb o ")" then Some (ANil, r) else p_args1 f l
      | _ => p_args1 f l
      end
  end
with p_args1 (fuel : nat) (l : list tk) : option (cargs * list tk) :=
  match fuel with
  | O => None
  | Datatypes.S f =>
      match p_exp f l with
      | Some (e, TO o :: r) =>
          if String.eqb o ")" then Some (ACons e ANil, r)
          else if String.eqb o "," then match p_args1 f r with Some (es, r') => Some (ACons e es, r') | None => None end else None
      | _ => None
      end
  end.
(** Declarators after the words for the type. *)
Fixpoint skip_stars (l : list tk) : list tk := match l with TO o :: r => if String.eqb o "*" then skip_stars r else l | _ => l end.
Fixpoint p_decl (fuel : nat) (l : list tk) : option (cstm * list tk) :=
  match fuel with
  | O => None
  | Datatypes.S f =>
      match skip_stars l with
      | TI x :: TO o :: r =>
          if String.eqb o ";" then Some (SDecl x None, r)
          else if String.eqb o "," then match p_decl f r with Some (s, r') => Some (SSeq (SDecl x None) s, r') | None => None end
          else if String.eqb o "=" then
            match p_exp f r with
            | Some (e, TO c :: r') =>
                if String.eqb c ";" then Some (SDecl x (Some e), r')
                else if String.eqb c "," then match p_decl f r' with Some (s, r2) => Some (SSeq (SDecl x (Some e)) s, r2) | None => None end else None
            | _ => None
            end
          else None
      | _ => None
      end
  end.
Definition semi (p : option (cexp * list tk)) : option (cexp * list tk) :=
  match p with Some (e, TO o :: r) => if String.eqb o ";" then Some (e, r) else None | _ => None end.
Definition closed (p : option (cexp * list tk)) : option (cexp * list tk) :=
  match p with Some (e, TO o :: r) => if String.eqb o ")" then Some (e, r) else None | _ => None end.
Fixpoint p_stm (fuel : nat) (l : list tk) : option (cstm * list tk) :=
  match fuel with
  | O => None
  | Datatypes.S f =>
      match l with
      | TO o :: r => if String.eqb o "{" then p_block f r else match semi (p_exp f l) with Some (e, r') => Some (SExp e, r') | None => None end
      | TI w :: r =>
          if String.eqb w "if" then
            match r with
            | TO o :: r1 => if String.eqb o "(" then
                match closed (p_exp f r1) with
                | Some (c, r2) =>
                    match p_stm f r2 with
                    | Some (a, TI w2 :: r3) => if String.eqb w2 "else" then match p_stm f r3 with Some (b, r4) => Some (SIf c a b, r4) | None => None end else Some (SIf c a SSkip, TI w2 :: r3)
                    | Some (a, r3) => Some (SIf c a SSkip, r3)
                    | None => None
                    end
                | None => None
                end else None
            | _ => None
            end
          else if String.eqb w "while" then
            match r with
            | TO o :: r1 => if String.eqb o "(" then
                match closed (p_exp f r1) with Some (c, r2) => match p_stm f r2 with Some (a, r3) => Some (SWhile c a, r3) | None => None end | None => None end else None
            | _ => None
            end
          else if String.eqb w "for" then
            match r with
            | TO o :: r1 => if String.eqb o "(" then
                match semi (p_exp f r1) with
                | Some (i, r2) =>
                    match semi (p_exp f r2) with
                    | Some (c, r3) =>
                        match closed (p_exp f r3) with
                        | Some (u, r4) => match p_stm f r4 with Some (a, r5) => Some (SSeq (SExp i) (SWhile c (SSeq a (SExp u))), r5) | None => None end
                        | None => None
                        end
                    | None => None
                    end
                | None => None
                end else None
            | _ => None
            end
          else if String.eqb w "return" then
            match r with
            | TO o :: r1 => if String.eqb o ";" then Some (SRet None, r1) else match semi (p_exp f r) with Some (e, r2) => Some (SRet (Some e), r2) | None => None end
            | _ => match semi (p_exp f r) with Some (e, r2) => Some (SRet (Some e), r2) | None => None end
            end
          else if listed w types then p_decl f r
          else if listed w ["do"; "switch"; "case"; "default"; "break"; "continue"; "goto"; "else"] then None
          else match semi (p_exp f l) with Some (e, r') => Some (SExp e, r') | None => None end
      | _ => match semi (p_exp f l) with Some (e, r') => Some (SExp e, r') | None => None end
      end
  end
with p_block (fuel : nat) (l : list tk) : option (cstm * list tk) :=
  match fuel with
  | O => None
  | Datatypes.S f =>
      match l with
      | [] => None
      | TO o :: r => if String.eqb o "}" then Some (SSkip, r) else match p_stm f l with Some (a, r1) => match p_block f r1 with Some (b, r2) => Some (SSeq a b, r2) | None => None end | None => None end
      | _ => match p_stm f l with Some (a, r1) => match p_block f r1 with Some (b, r2) => Some (SSeq a b, r2) | None => None end | None => None end
      end
  end.
(** A routine as a program: parameters and body. *)
Record fdef := mkF { f_params : list string; f_body : cstm }.
Definition fdef_of (r : routine) : option fdef :=
  let l := tks (map snd (ro_body r)) in
  match p_block (20 * Datatypes.S (length l)) (l ++ [TO "}"]) with Some (s, []) => Some (mkF (map snd (hd_params (ro_head r))) s) | _ => None end.

(** Values: an int, a pointer to a place of an object, NULL, a routine, the size of a type, anything else, no value yet. *)
Inductive val := VI (z : Z) | VP (o i : Z) | VN | VF (f : string) | VT (t : string) | VX (s : string) | VU.
Definition val_eqb (a b : val) : bool :=
  match a, b with
  | VI x, VI y => Z.eqb x y | VP o i, VP p j => (Z.eqb o p && Z.eqb i j)%bool | VN, VN => true | VF f, VF g => String.eqb f g | VT f, VT g => String.eqb f g
  | VX f, VX g => String.eqb f g | VU, VU => true | _, _ => false
  end.
(** The cells of the objects, the static variables, the next object that malloc gives, and what is in it. *)
Record cstate := mkS { s_cell : Z -> Z -> string -> option val; s_glob : string -> val; s_fresh : Z; s_junk : Z -> string -> val }.
Definition set_cell (s : cstate) (o i : Z) (f : string) (v : option val) : cstate :=
  mkS (fun p j g => if (Z.eqb p o && Z.eqb j i && String.eqb g f)%bool then v else s_cell s p j g) (s_glob s) (s_fresh s) (s_junk s).
Definition set_glob (s : cstate) (x : string) (v : val) : cstate := mkS (s_cell s) (fun y => if String.eqb y x then v else s_glob s y) (s_fresh s) (s_junk s).
(** Structures and their members (listP.h 14-32, without CHECKS). *)
Definition members (t : string) : list string :=
  if String.eqb t "Listitem" then ["data"; "prev"; "next"] else if String.eqb t "List" then ["head"; "tail"; "count"] else [].
Definition new_object (s : cstate) (t : string) : val * cstate :=
  (VP (s_fresh s) 0,
   mkS (fun p j g => if Z.eqb p (s_fresh s) then (if (Z.eqb j 0 && listed g (members t))%bool then Some (s_junk s p g) else None) else s_cell s p j g) (s_glob s) (s_fresh s + 1) (s_junk s)).
Definition drop_object (s : cstate) (o : Z) : cstate := mkS (fun p j g => if Z.eqb p (o) then None else s_cell s p j g) (s_glob s) (s_fresh s) (s_junk s).
(** free needs a pointer to the beginning of an object that is there: one of the members of the two structures is. *)
Definition there (s : cstate) (o : Z) : bool :=
  match s_cell s o 0 "data", s_cell s o 0 "count" with None, None => false | _, _ => true end.

(** A place or a value; local variables are a list, the latest first. *)
Inductive loc := LVar (x : string) | LGlob (x : string) | LCell (o i : Z) (f : string).
Inductive opnd := OLoc (l : loc) | OVal (v : val).
Definition conf : Type := list (string * val) * cstate.
Fixpoint set_var (x : string) (v : val) (l : list (string * val)) : list (string * val) :=
  match l with [] => [] | (y, w) :: r => if String.eqb y x then (y, v) :: r else (y, w) :: set_var x v r end.
Definition load (l : loc) (c : conf) : res val :=
  match l with
  | LVar x => match find x (fst c) with Some VU => UB "no value" | Some v => Ok v | None => UB "no variable" end
  | LGlob x => Ok (s_glob (snd c) x)
  | LCell o i f => match s_cell (snd c) o i f with Some v => Ok v | None => UB "no cell" end
  end.
Definition store (l : loc) (v : val) (c : conf) : res conf :=
  match l with
  | LVar x => match find x (fst c) with Some _ => Ok (set_var x v (fst c), snd c) | None => UB "no variable" end
  | LGlob x => Ok (fst c, set_glob (snd c) x v)
  | LCell o i f => match s_cell (snd c) o i f with Some _ => Ok (fst c, set_cell (snd c) o i f (Some v)) | None => UB "no cell" end
  end.
Definition value (r : opnd * conf) : res (val * conf) :=
  match fst r with OVal v => Ok (v, snd r) | OLoc l => bind (load l (snd r)) (fun v => Ok (v, snd r)) end.
Definition truth (v : val) : res bool := match v with VI z => Ok (negb (Z.eqb z 0)) | VP _ _ => Ok true | VN => Ok false | _ => UB "no truth value" end.
Definition of_bool (b : bool) : val := VI (if b then 1 else 0).
(** Operators; int arithmetic that overflows is undefined. *)
Definition arith (o : string) (a b : val) : res val :=
  match a, b with
  | VI x, VI y =>
      if String.eqb o "+" then bind (chk_int (x + y)) (fun z => Ok (VI z))
      else if String.eqb o "-" then bind (chk_int (x - y)) (fun z => Ok (VI z))
      else if String.eqb o "*" then bind (chk_int (x * y)) (fun z => Ok (VI z))
      else if String.eqb o "<" then Ok (of_bool (Z.ltb x y))
      else if String.eqb o ">" then Ok (of_bool (Z.ltb y x))
      else if String.eqb o "<=" then Ok (of_bool (Z.leb x y))
      else if String.eqb o ">=" then Ok (of_bool (Z.leb y x))
      else if String.eqb o "==" then Ok (of_bool (Z.eqb x y))
      else if String.eqb o "!=" then Ok (of_bool (negb (Z.eqb x y)))
      else UB "operator"
  | _, _ =>
      if String.eqb o "==" then Ok (of_bool (val_eqb a b)) else if String.eqb o "!=" then Ok (of_bool (negb (val_eqb a b))) else UB "operands"
  end.

Section Run.
(** The constants that macros stand for, the variables of the file, and how routines are called.  A name is a macro, else a local variable, else one of the file, else a routine. *)
Variable consts : string -> option val.
Variable globals : list string.
Variable call : string -> list val -> cstate -> res (val * cstate).

Fixpoint ev (e : cexp) (c : conf) {struct e} : res (opnd * conf) :=
  match e with
  | EId x => match consts x with
             | Some v => Ok (OVal v, c)
             | None => match find x (fst c) with Some _ => Ok (OLoc (LVar x), c) | None => if listed x globals then Ok (OLoc (LGlob x), c) else Ok (OVal (VF x), c) end
             end
  | ENum z => Ok (OVal (VI z), c)
  | EStr => Ok (OVal (VX "string"), c)
  | ESize t => Ok (OVal (VT t), c)
  | EUn o a =>
      if String.eqb o "&" then
        bind (ev a c) (fun r => match fst r with OLoc (LCell p i "") => Ok (OVal (VP p i), snd r) | OLoc (LVar x) => Ok (OVal (VX x), snd r) | _ => UB "address" end)
      else bind (bind (ev a c) value) (fun r =>
        if String.eqb o "*" then match fst r with VP p i => Ok (OLoc (LCell p i ""), snd r) | VF f => Ok (OVal (VF f), snd r) | _ => UB "pointer" end
        else if String.eqb o "!" then bind (truth (fst r)) (fun b => Ok (OVal (of_bool (negb b)), snd r))
        else if String.eqb o "-" then match fst r with VI z => bind (chk_int (- z)) (fun y => Ok (OVal (VI y), snd r)) | _ => UB "operand" end
        else UB "operator")
  | EBin o a b =>
      if (String.eqb o "&&" || String.eqb o "||")%bool then
        bind (bind (ev a c) value) (fun r => bind (truth (fst r)) (fun t =>
          if Bool.eqb t (String.eqb o "||") then Ok (OVal (of_bool t), snd r)
          else bind (bind (ev b (snd r)) value) (fun q => bind (truth (fst q)) (fun u => Ok (OVal (of_bool u), snd q)))))
      else bind (bind (ev a c) value) (fun r => bind (bind (ev b (snd r)) value) (fun q => bind (arith o (fst r) (fst q)) (fun v => Ok (OVal v, snd q))))
  | ESet o a b =>
      bind (bind (ev b c) value) (fun r => bind (ev a (snd r)) (fun q =>
        match fst q with
        | OLoc l =>
            bind (if String.eqb o "=" then Ok (fst r) else bind (load l (snd q)) (fun v => arith (if String.eqb o "+=" then "+" else "-") v (fst r))) (fun v =>
            bind (store l v (snd q)) (fun d => Ok (OVal v, d)))
        | OVal _ => UB "place"
        end))
  | EStep o a =>
      bind (ev a c) (fun q =>
        match fst q with
        | OLoc l => bind (load l (snd q)) (fun v => bind (arith (if String.eqb o "++" then "+" else "-") v (VI 1)) (fun w => bind (store l w (snd q)) (fun d => Ok (OVal v, d))))
        | OVal _ => UB "place"
        end)
  | EIdx a b =>
      bind (bind (ev a c) value) (fun r => bind (bind (ev b (snd r)) value) (fun q =>
        match fst r, fst q with VP p i, VI k => Ok (OLoc (LCell p (i + k) ""), snd q) | _, _ => UB "index" end))
  | EMem a f => bind (bind (ev a c) value) (fun r => match fst r with VP p i => Ok (OLoc (LCell p i f), snd r) | _ => UB "pointer" end)
  | ECall f l =>
      bind (evs l c) (fun r => bind (bind (ev f (snd r)) value) (fun q =>
        match fst q with
        | VF g => bind (call g (fst r) (snd (snd q))) (fun p => Ok (OVal (fst p), (fst (snd q), snd p)))
        | _ => UB "call"
        end))
  end
with evs (l : cargs) (c : conf) {struct l} : res (list val * conf) :=
  match l with
  | ANil => Ok ([], c)
  | ACons e r => bind (bind (ev e c) value) (fun p => bind (evs r (snd p)) (fun q => Ok (fst p :: fst q, snd q)))
  end.
Definition eval (e : cexp) (c : conf) : res (val * conf) := bind (ev e c) value.

(** A statement goes on or returns.  [n] bounds the turns of each loop; what takes more is [Diverge]. *)
Inductive after := Next (c : conf) | Return (v : val) (c : conf).
Fixpoint turns (n : nat) (test : conf -> res (bool * conf)) (body : conf -> res after) (c : conf) : res after :=
  match n with
  | O => Diverge
  | Datatypes.S m =>
      bind (test c) (fun r => if fst r then bind (body (snd r)) (fun a => match a with Next d => turns m test body d | Return v d => Ok (Return v d) end) else Ok (Next (snd r)))
  end.
Definition test_of (e : cexp) (c : conf) : res (bool * conf) := bind (eval e c) (fun r => bind (truth (fst r)) (fun b => Ok (b, snd r))).
Variable n : nat.
Fixpoint exec (s : cstm) (c : conf) {struct s} : res after :=
  match s with
  | SSkip => Ok (Next c)
  | SSeq a b => bind (exec a c) (fun r => match r with Next d => exec b d | Return v d => Ok (Return v d) end)
  | SExp e => bind (eval e c) (fun r => Ok (Next (snd r)))
  | SDecl x None => Ok (Next ((x, VU) :: fst c, snd c))
  | SDecl x (Some e) => bind (eval e c) (fun r => Ok (Next ((x, fst r) :: fst (snd r), snd (snd r))))
  | SIf e a b => bind (test_of e c) (fun r => if fst r then exec a (snd r) else exec b (snd r))
  | SWhile e a => turns n (test_of e) (exec a) c
  | SRet None => Ok (Return VU c)
  | SRet (Some e) => bind (eval e c) (fun r => Ok (Return (fst r) (snd r)))
  end.
End Run.

(** Routines of the C library, and others given from outside. *)
Definition prim (f : string) (args : list val) (s : cstate) : option (res (val * cstate)) :=
  if String.eqb f "abort" then Some (Abort "abort")
  else if listed f ["fprintf"; "printf"; "perror"] then Some (Ok (VI 0, s))
  else if String.eqb f "malloc" then Some match args with [VT t] => Ok (new_object s t) | _ => UB "malloc" end
  else if String.eqb f "free" then Some match args with [VP o i] => if (Z.eqb i 0 && there s o)%bool then Ok (VU, drop_object s o) else UB "free" | [VN] => Ok (VU, s) | _ => UB "free" end
  else None.
Definition program : Type := list (string * fdef).
Section Program.
Variable consts : string -> option val.
Variable globals : list string.
Variable outer : string -> list val -> cstate -> res (val * cstate).
Variable p : program.
(** A call of a routine of the program: parameters are variables that get the arguments.  [depth] bounds how deep calls are nested. *)
Fixpoint run (depth : nat) (n : nat) (f : string) (args : list val) (s : cstate) {struct depth} : res (val * cstate) :=
  match depth with
  | O => Diverge
  | Datatypes.S d =>
      match prim f args s with
      | Some r => r
      | None =>
          match find f p with
          | Some x =>
              if Nat.eqb (length args) (length (f_params x)) then
                bind (exec consts globals (run d n) n (f_body x) (combine (f_params x) args, s)) (fun a => match a with Next c => Ok (VU, snd c) | Return v c => Ok (v, snd c) end)
              else UB "arguments"
          | None => outer f args s
          end
      end
  end.
End Program.
(** The routines of a file, read with no macros; those whose text has more than this part of C are left out. *)
Definition prog (text : list string) : program :=
  match read_file known (fun _ => false) text with
  | Some rs => flat_map (fun r => match fdef_of r with Some d => [(match hd_name (ro_head r) with C s => s | F a _ => a end, d)] | None => [] end) rs
  | None => []
  end.
(** Constants: NULL, the stream of stdio.h, the one of mpiP.h 76, and those that a header defines. *)
Definition constants (l : list (string * Z)) (x : string) : option val :=
  if String.eqb x "NULL" then Some VN else if String.eqb x "stderr" then Some (VX x) else if String.eqb x "MPI_GROUP_ONE" then Some (VI 1) else option_map VI (find x l).
Definition defined_in (text : list string) : list (string * Z) := match read_c true text with Some h => numbers_of h | None => [] end.
(** A routine that nothing is said about. *)
Definition unknown (f : string) (args : list val) (s : cstate) : res (val * cstate) := UB "unknown routine".
(** A routine of the text of a C file that calls nothing but what is in that file, the C library and the routines given, with the constants of mpi.h.  Calls are nested at most [d] deep, loops
    turn less than [n] times. *)
Definition runs_with (outer : string -> list val -> cstate -> res (val * cstate)) (text : list string) (globals : list string) (d n : nat) (f : string) (args : list val) (s : cstate) : res (val * cstate) :=
  run (constants (defined_in text_mpi_h)) globals outer (prog text) d n f args s.
Definition runs := runs_with unknown.
(** Outcomes of the same kind; values by [R]. *)
Definition alike {A B : Type} (R : A -> B -> Prop) (x : res A) (y : res B) : Prop :=
  match x, y with
  | Ok a, Ok b => R a b
  | Abort _, Abort _ => True
  | Exit c _, Exit d _ => c = d
  | UB _, UB _ => True
  | Diverge, Diverge => True
  | _, _ => False
  end.
(** An object that is an array of ints. *)
Definition array (s : cstate) (o : Z) (l : list Z) : Prop :=
  forall i, s_cell s o i "" = if Z.ltb i 0 then None else option_map VI (nth_error l (Z.to_nat i)).
(** States that differ at most in the given object. *)
Definition except (os : list Z) (s t : cstate) : Prop :=
  (forall o i f, ~ In o os -> s_cell t o i f = s_cell s o i f) /\ (forall x, s_glob t x = s_glob s x) /\ s_fresh t = s_fresh s /\ (forall o f, s_junk t o f = s_junk s o f).

(** A heap of the model of list.c, in memory: the members of items and lists, the two counters, and what malloc gives next; no object is both. *)
Definition ptr (p : option Z) : val := match p with Some i => VP i 0 | None => VN end.
Record rep (h : lheap val) (s : cstate) : Prop := mkRep {
  rp_data : forall i, s_cell s i 0 "data" = option_map (@it_data val) (lh_items h i);
  rp_prev : forall i, s_cell s i 0 "prev" = option_map (fun x => ptr (it_prev x)) (lh_items h i);
  rp_next : forall i, s_cell s i 0 "next" = option_map (fun x => ptr (it_next x)) (lh_items h i);
  rp_head : forall l, s_cell s l 0 "head" = option_map (fun x => ptr (l_head x)) (lh_lists h l);
  rp_tail : forall l, s_cell s l 0 "tail" = option_map (fun x => ptr (l_tail x)) (lh_lists h l);
  rp_count : forall l, s_cell s l 0 "count" = option_map (fun x => VI (l_count x)) (lh_lists h l);
  rp_itemcount : s_glob s "itemcount" = VI (lh_itemcount h);
  rp_headcount : s_glob s "headcount" = VI (lh_headcount h);
  rp_fresh : s_fresh s = lh_next h;
  rp_junk : forall i, s_junk s i "data" = it_data (lh_junk h i) /\ s_junk s i "prev" = ptr (it_prev (lh_junk h i)) /\ s_junk s i "next" = ptr (it_next (lh_junk h i));
  rp_kind : forall i, lh_items h i = None \/ lh_lists h i = None;
  rp_unused : forall i, lh_next h <= i -> lh_items h i = None /\ lh_lists h i = None
}.
(** The variables of list.c (21-22). *)
Definition counters : list string := ["itemcount"; "headcount"].
