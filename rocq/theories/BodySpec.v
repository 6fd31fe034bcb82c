(** What the bodies of routines say (C121, C122): return statements, what is stored through a parameter, the calls of the Fortran bindings, and the names used.

    A specification: it says what C says, for the part of it the files use. *)
From Verif Require Import Base BindModel RetModel LinkModel BuildModel NameModel TextSpec SourceSpec.
From Coq Require Import Ascii.
#[local] Open Scope string_scope.
#[local] Open Scope list_scope.

(** Return statements, and what is stored through a parameter: "return e;" and "*x = e;" after the start of the body, a semicolon, a brace, a
    parenthesis that closes (if), or else. *)
Fixpoint upto_semi (acc : list nword) (l : list (Z * nword)) : option (list nword) :=
  match l with [] => None | t :: r => if is_g ";" t then Some (rev acc) else upto_semi (snd t :: acc) r end.
Fixpoint returned (l : list (Z * nword)) : list (option (list nword)) :=
  match l with
  | [] => []
  | (_, N (C w)) :: r => if String.eqb w "return" then upto_semi [] r :: returned r else returned r
  | _ :: r => returned r
  end.
Definition starts (before : nword) : bool := match before with G c => has c [";"; "{"; "}"; ")"]%char | N (C w) => String.eqb w "else" | N _ => false end.
Fixpoint stored (x : string) (before : nword) (l : list (Z * nword)) : list (option (list nword)) :=
  match l with
  | [] => []
  | t :: r =>
      (match r with
       | (_, N (C y)) :: q :: r' => if (starts before && is_g "*" t && String.eqb x y && is_g "=" q)%bool then [upto_semi [] r'] else []
       | _ => []
       end) ++ stored x (snd t) r
  end.
(** An expression: MPI_SUCCESS, a number, a call of a routine, or anything else; parentheses around it do not matter. *)
Definition name_text (n : nm) : string := match n with C s => s | F l _ => l end.
Fixpoint close_at (depth : nat) (acc : list nword) (l : list nword) : option (list nword * list nword) :=
  match l with
  | [] => None
  | G c :: r => if Ascii.eqb c "(" then close_at (Datatypes.S depth) (G c :: acc) r
                else if Ascii.eqb c ")" then match depth with O => Some (rev acc, r) | Datatypes.S d => close_at d (G c :: acc) r end
                else close_at depth (G c :: acc) r
  | t :: r => close_at depth (t :: acc) r
  end.
Inductive value_kind := Succ | Num_value (z : Z) | Call_of (f : nm) (args : list nword) | Other (l : list nword).
Definition value_kind_of (l : list nword) : value_kind :=
  let e := match l with G o :: r => if Ascii.eqb o "(" then match close_at 0 [] r with Some (i, []) => i | _ => l end else l | _ => l end in
  match e with
  | [N (C w)] => if String.eqb w "MPI_SUCCESS" then Succ else match is_number w with Some z => Num_value z | None => Other e end
  | N f :: G o :: r => if Ascii.eqb o "(" then match close_at 0 [] r with Some (a, []) => Call_of f a | _ => Other e end else Other e
  | _ => Other e
  end.
(** Arguments of a call: *x, x, helper(x), each perhaps after a cast to a pointer. *)
Fixpoint commas (depth : nat) (acc : list nword) (l : list nword) : list (list nword) :=
  match l with
  | [] => [rev acc]
  | G c :: r => if (Ascii.eqb c "," && Nat.eqb depth 0)%bool then rev acc :: commas 0 [] r
                else commas (if Ascii.eqb c "(" then Datatypes.S depth else if Ascii.eqb c ")" then Nat.pred depth else depth) (G c :: acc) r
  | t :: r => commas depth (t :: acc) r
  end.
Definition uncast (l : list nword) : list nword :=
  match l with
  | G o :: r => if Ascii.eqb o "(" then match close_at 0 [] r with
                                        | Some (i, ((N _ :: _) as e)) => if match rev i with G s :: _ => Ascii.eqb s "*" | _ => false end then e else l
                                        | _ => l end else l
  | _ => l
  end.
Definition arg_of (l : list nword) : option arg :=
  match uncast l with
  | [N (C x)] => Some (Same x)
  | [G s; N (C x)] => if Ascii.eqb s "*" then Some (Deref x) else None
  | [N (C h); G o; N (C x); G c] =>
      if (Ascii.eqb o "(" && Ascii.eqb c ")")%bool then
        if String.eqb h "mpi_c_status" then Some (CStatus x) else if String.eqb h "mpi_c_statuses" then Some (CStatuses x)
        else if String.eqb h "mpi_c_in_place" then Some (CInPlace x) else None
      else None
  | _ => None
  end.
Definition args_of (l : list nword) : option (list arg) := match l with [] => Some [] | _ => all_some arg_of (commas 0 [] l) end.

(** "return v;" where v is given its value once in the body, "v = e;", and nothing else is done with it. *)
Fixpoint given (x : string) (before : nword) (l : list (Z * nword)) : list (option (list nword)) :=
  match l with
  | [] => []
  | (_, N (C y)) :: r =>
      (match r with q :: r' => if (starts before && String.eqb x y && is_g "=" q)%bool then [upto_semi [] r'] else [] | [] => [] end) ++ given x (N (C y)) r
  | t :: r => given x (snd t) r
  end.
Definition occurrences (x : string) (l : list (Z * nword)) : nat :=
  length (filter (fun t => match snd t with N (C y) => String.eqb x y | _ => false end) l).
Definition rexpr_of (body : list (Z * nword)) (e : list nword) : option rexpr :=
  match value_kind_of e with
  | Succ => Some Success
  | Num_value z => Some (Value z)
  | Call_of f _ => Some (Of (name_text f))
  | Other [N (C v)] =>
      match given v (G ";"%char) body with
      | [Some e'] => if Nat.eqb (occurrences v body) 3 then match value_kind_of e' with Call_of f _ => Some (Of (name_text f)) | _ => None end else None
      | _ => None
      end
  | Other _ => None
  end.
Definition name_of (r : routine) : string := name_text (hd_name (ro_head r)).
(** What a routine returns, one entry for each return statement. *)
Definition returns_in (r : routine) : option (list rexpr) :=
  all_some (fun e => match e with Some e => rexpr_of (ro_body r) e | None => None end) (returned (ro_body r)).
Definition last_param (r : routine) : string := match rev (hd_params (ro_head r)) with (_, n) :: _ => n | [] => "" end.
(** What it stores in its last argument, if it does so once. *)
Definition stores_in (r : routine) : option rexpr :=
  match stored (last_param r) (G ";"%char) (ro_body r) with [Some e] => rexpr_of (ro_body r) e | _ => None end.

(** The call a binding makes: the one whose value it stores, or the first statement of the body when it stores MPI_SUCCESS. *)
Definition call_in (r : routine) : option (nm * list nword) :=
  match stored (last_param r) (G ";"%char) (ro_body r) with
  | [Some e] => match value_kind_of e with
                | Call_of f a => Some (f, a)
                | Succ => match upto_semi [] (ro_body r) with Some e' => match value_kind_of e' with Call_of f a => Some (f, a) | _ => None end | None => None end
                | _ => None end
  | _ => None
  end.
(** Types of parameters: the typedefs of mpi.h replaced by what they stand for; int x[][3] is a pointer to int (group.c 52, 60). *)
Definition kind_of (b : string) : option kind :=
  let b' := match find b typedefs with Some x => x | None => b end in
  if String.eqb b' "int" then Some Kint else if String.eqb b' "long" then Some Klong else if String.eqb b' "unsigned long" then Some Kaint
  else if String.eqb b' "void" then Some Kvoid else if String.eqb b' "char" then Some Kchar
  else if String.eqb b' "MPI_Status" then Some Kstatus else if String.eqb b' "MPI_User_function" then Some Kfun else None.
Definition prm_of (t : ctype) : option prm :=
  match kind_of (fst t), snd t with Some k, O => Some (Val k) | Some k, Datatypes.S O => Some (Ptr k) | Some Kint, Datatypes.S (Datatypes.S O) => Some (Ptr Kint) | _, _ => None end.
Definition binding_in (r : routine) : option bind_text :=
  match hd_name (ro_head r), call_in r, all_some (fun p => option_map (fun k => (snd p, k)) (prm_of (fst p))) (hd_params (ro_head r)) with
  | F a b, Some (f, e), Some ps => option_map (fun l => mkB a b ps (name_text f) l (last_param r)) (args_of e)
  | _, _, _ => None
  end.

(** Words of C, and numbers. *)
Definition c_words : list string :=
  ["break"; "case"; "char"; "const"; "continue"; "default"; "do"; "double"; "else"; "float"; "for"; "goto"; "if"; "int"; "long"; "return"; "short"; "signed";
   "sizeof"; "static"; "struct"; "switch"; "unsigned"; "void"; "while"].
Definition type_words : list string := ["char"; "const"; "double"; "float"; "int"; "long"; "short"; "signed"; "static"; "struct"; "unsigned"; "void"].
Definition numeral (w : string) : bool := match w with String c _ => digit c | EmptyString => false end.
(** A declaration stands where a statement can begin: words, the first a word for types or no word of C, then a name, perhaps after stars.  The names it declares:
    one for each part between commas, the last of the words of the first part or the word after the stars. *)
Fixpoint upto_end (depth : nat) (acc : list (Z * nword)) (l : list (Z * nword)) : list (Z * nword) :=
  match l with
  | [] => rev acc
  | t :: r => if is_g "{" t then upto_end (Datatypes.S depth) (t :: acc) r else if is_g "}" t then upto_end (Nat.pred depth) (t :: acc) r
              else if (is_g ";" t && Nat.eqb depth 0)%bool then rev acc else upto_end depth (t :: acc) r
  end.
Definition is_type_word (w : string) : bool := (listed w type_words || (negb (listed w c_words) && negb (numeral w)))%bool.
Definition declares (l : list (Z * nword)) : list string :=
  match words_first l with
  | (w :: ws, r) =>
      if is_type_word w then
        match ws, stars_first r with
        | _ :: _, (O, _) => last ws "" :: flat_map (fun p => match words_first (snd (stars_first p)) with (x :: _, _) => [x] | _ => [] end) (tl (at_commas 0 [] (upto_end 0 [] l)))
        | _, (Datatypes.S _, (_, N (C n)) :: _) => n :: flat_map (fun p => match words_first (snd (stars_first p)) with (x :: _, _) => [x] | _ => [] end) (tl (at_commas 0 [] (upto_end 0 [] l)))
        | _, _ => []
        end
      else []
  | _ => []
  end.
(** The words of a body that stand for something outside it: not words of C, numbers, parameters, or variables declared before in a block that is still open.
    A word after a dot or an arrow is a member and is written with a dot; so is the argument of the macro verify_field (mpi.c 112-113). *)
Fixpoint outside (scopes : list (list string)) (before before2 : nword) (l : list (Z * nword)) : list (Z * string) :=
  match l with
  | [] => []
  | (n, G c) :: r =>
      outside (if Ascii.eqb c "{" then [] :: scopes else if Ascii.eqb c "}" then tl scopes else scopes) (G c) before r
  | (n, N (F a b)) :: r => (n, a) :: outside scopes (N (F a b)) before r
  | (n, N (C w)) :: r =>
      let scopes' := match before with
                     | G c => if has c [";"; "{"; "}"]%char then match scopes with s :: ss => (declares l ++ s) :: ss | [] => [declares l] end else scopes
                     | _ => scopes
                     end in
      let member := match before, before2 with
                    | G c, G d => (Ascii.eqb c "." || (Ascii.eqb c ">" && Ascii.eqb d "-"))%bool
                    | G c, N (C m) => (Ascii.eqb c "." || (Ascii.eqb c "(" && String.eqb m "verify_field"))%bool
                    | G c, _ => Ascii.eqb c "."
                    | _, _ => false
                    end in
      (if member then [(n, String.append "." w)]
       else if (listed w c_words || numeral w || existsb (listed w) scopes')%bool then [] else [(n, w)]) ++ outside scopes' (N (C w)) before r
  end.
Definition words_outside (r : routine) : list (Z * string) :=
  outside [[]; map snd (hd_params (ro_head r))] (G ";"%char) (G ";"%char) (ro_body r).
(** The names of the table of C116 for a file, with the line where they are first used or defined and the macros that this depends on. *)
Definition row_name (i : NameModel.item) : list string := match i with Macro n _ | Def n | Use n => [n] | Incl _ | Stop => [] end.
Definition in_table (on : string -> bool) (f : string) (line : Z) (w : string) : bool :=
  match NameModel.text_of f with
  | Some rows => existsb (fun x => (Z.leb (r_line x) line && readb on (r_when x) && listed w (row_name (r_item x)))%bool) rows
  | None => false
  end.

(** The routines with an int result that is no error code (list.c 73, 192, 276, 330, 343, 478, 563, probe.c 4, recv.c 13, send.c 11,
    type.c 46, 68; with LISTMAIN list.c 594; with INFO recv.c 147, 154),
    and the one that returns a variable that is 0 by then (mpi.c 153-155). *)
Definition other_ints : list string :=
  ["AP_listitem_verify"; "AP_list_size"; "AP_list_delete"; "AP_list_head"; "AP_list_tail"; "AP_list_next"; "AP_list_apply"; "main"; "mpi_match_send"; "print_item";
   "print_list"; "mpi_match_recv"; "calc_padding"; "Simpletype_length"; "mpi_init_fort"].
Definition returns_int (r : routine) : Prop := hd_ret (ro_head r) = ("int", O).
(** A name of a routine, of the files or of the C library. *)
Definition of_routine (w : string) : bool := listed w (map name_text known).
(** The types in the head of a routine that are not C's own. *)
Definition own_type (t : string) : bool := (negb (listed t ["int"; "char"; "void"; "double"; "long"; "unsigned long"; "long long"]) && negb (has "(" (chars t)))%bool.
Definition types_in (r : routine) : list string := filter own_type (fst (hd_ret (ro_head r)) :: map (fun p => fst (fst p)) (hd_params (ro_head r))).
(** A name stands in a line of a file; a member is written without its dot there. *)
Definition bare (w : string) : string := match w with String c r => if Ascii.eqb c "." then r else w | EmptyString => w end.
Definition stands_in (lines : list (list ltok)) (line : Z) (w : string) : bool :=
  existsb (existsb (fun t => (Z.eqb (fst t) line && is_word (bare w) (snd t))%bool)) lines.
