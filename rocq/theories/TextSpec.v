(** How a compiler reads the text of a header (C118, C119): Fortran in free form, Fortran in fixed form, and C.

    This is a specification: it says what the languages say, for the part of them that headers use.  Text outside that part is refused ([None]),
    so a reading that succeeds has understood every character. *)
From Verif Require Import Base.
From Coq Require Import Ascii.
#[local] Open Scope string_scope.
#[local] Open Scope list_scope.

(** Characters. *)
Definition in_range (lo hi : ascii) (c : ascii) : bool :=
  (Nat.leb (nat_of_ascii lo) (nat_of_ascii c) && Nat.leb (nat_of_ascii c) (nat_of_ascii hi))%bool.
Definition digit (c : ascii) : bool := in_range "0" "9" c.
Definition word_char (c : ascii) : bool := (digit c || in_range "a" "z" c || in_range "A" "Z" c || Ascii.eqb c "_")%bool.
Definition blank (c : ascii) : bool := Ascii.eqb c " ".
Definition tab : ascii := ascii_of_nat 9.
Definition quotes (c : ascii) : bool := (Ascii.eqb c """" || Ascii.eqb c "'")%bool.
Definition upper_char (c : ascii) : ascii := if in_range "a" "z" c then ascii_of_nat (nat_of_ascii c - 32) else c.
Fixpoint chars (s : string) : list ascii := match s with EmptyString => [] | String c r => c :: chars r end.
Fixpoint text_of (l : list ascii) : string := match l with [] => EmptyString | c :: r => String c (text_of r) end.
Definition capitals (l : list ascii) : list ascii := map upper_char l.
Definition has (c : ascii) (l : list ascii) : bool := existsb (Ascii.eqb c) l.

(** Words and signs. *)
Inductive tok := W (s : string) | S (c : ascii).
Fixpoint toks (word : list ascii) (l : list ascii) : list tok :=
  let flush := match word with [] => [] | _ => [W (text_of (rev word))] end in
  match l with
  | [] => flush
  | c :: r => if word_char c then toks (c :: word) r
              else if (blank c || Ascii.eqb c tab)%bool then flush ++ toks [] r
              else flush ++ S c :: toks [] r
  end.
Fixpoint number_of (acc : Z) (l : list ascii) : option Z :=
  match l with
  | [] => Some acc
  | c :: r => if digit c then number_of (10 * acc + (Z.of_nat (nat_of_ascii c) - 48)) r else None
  end.
Definition is_number (s : string) : option Z := match chars s with [] => None | l => number_of 0 l end.
Fixpoint find (n : string) {A} (l : list (string * A)) : option A :=
  match l with [] => None | (m, a) :: r => if String.eqb n m then Some a else find n r end.
Definition listed (n : string) (l : list string) : bool := existsb (String.eqb n) l.
Definition is_word (s : string) (t : tok) : bool := match t with W x => String.eqb x s | _ => false end.
Definition is_sign (c : ascii) (t : tok) : bool := match t with S x => Ascii.eqb x c | _ => false end.

(** Statements of a Fortran header. *)
Inductive expr := Num (z : Z) | Name (n : string) | Int_kind (z : Z).
Inductive stmt :=
| Integer (names : list (string * list tok))     (* with the bounds of an array *)
| Double (name : string)
| External (name : string)
| Constant (values : list (string * expr))
| Common (block : string) (names : list string)
| Save (block : string).

(** Lists of names, with bounds or not. *)
Fixpoint upto (acc : list tok) (l : list tok) : option (list tok * list tok) :=
  match l with [] => None | t :: r => if is_sign ")" t then Some (rev acc, r) else if is_sign "(" t then None else upto (t :: acc) r end.
Fixpoint names_of (fuel : nat) (l : list tok) : option (list (string * list tok)) :=
  match fuel, l with
  | Datatypes.S f, W x :: r =>
      match is_number x with Some _ => None | None =>
      match r with
      | [] => Some [(x, [])]
      | t :: r' =>
          if is_sign "," t then option_map (cons (x, [])) (names_of f r')
          else if is_sign "(" t then
            match upto [] r' with
            | Some (b, []) => Some [(x, b)]
            | Some (b, u :: r'') => if is_sign "," u then option_map (cons (x, b)) (names_of f r'') else None
            | None => None
            end
          else None
      end end
  | _, _ => None
  end.
(** name = value, ... ) *)
Definition expr_of (l : list tok) : option (expr * list tok) :=
  match l with
  | W f :: S o :: W n :: S c :: r =>
      if (String.eqb f "SELECTED_INT_KIND" && Ascii.eqb o "(" && Ascii.eqb c ")")%bool then option_map (fun z => (Int_kind z, r)) (is_number n)
      else match is_number f with Some z => Some (Num z, S o :: W n :: S c :: r) | None => Some (Name f, S o :: W n :: S c :: r) end
  | S m :: W n :: r => if Ascii.eqb m "-" then option_map (fun z => (Num (- z), r)) (is_number n) else None
  | W n :: r => match is_number n with Some z => Some (Num z, r) | None => Some (Name n, r) end
  | _ => None
  end.
Fixpoint values_of (fuel : nat) (l : list tok) : option (list (string * expr)) :=
  match fuel, l with
  | Datatypes.S f, W x :: e :: r =>
      if is_sign "=" e then
        match expr_of r with
        | Some (v, t :: r') =>
            if is_sign ")" t then match r' with [] => Some [(x, v)] | _ => None end
            else if is_sign "," t then option_map (cons (x, v)) (values_of f r') else None
        | _ => None
        end
      else None
  | _, _ => None
  end.
Definition stmt_of (l : list tok) : option stmt :=
  match l with
  | W k :: r =>
      if String.eqb k "INTEGER" then option_map Integer (names_of (length r) r)
      else if String.eqb k "PARAMETER" then match r with t :: r' => if is_sign "(" t then option_map Constant (values_of (length r') r') else None | [] => None end
      else if String.eqb k "EXTERNAL" then match r with [W x] => Some (External x) | _ => None end
      else if String.eqb k "DOUBLE" then match r with [W p; W x] => if String.eqb p "PRECISION" then Some (Double x) else None | _ => None end
      else if String.eqb k "COMMON" then
        match r with
        | a :: W b :: c :: r' => if (is_sign "/" a && is_sign "/" c)%bool then
            match names_of (length r') r' with
            | Some l => if forallb (fun x => match snd x with [] => true | _ => false end) l then Some (Common b (map fst l)) else None
            | None => None
            end else None
        | _ => None
        end
      else if String.eqb k "SAVE" then match r with [a; W b; c] => if (is_sign "/" a && is_sign "/" c)%bool then Some (Save b) else None | _ => None end
      else None
  | _ => None
  end.

(** Free form: a line has at most 132 characters; what follows an exclamation mark is comment; blanks separate words.  Continued lines, several
    statements in a line, and character constants are outside the part. *)
Fixpoint before_mark (l : list ascii) : list ascii := match l with [] => [] | c :: r => if Ascii.eqb c "!" then [] else c :: before_mark r end.
Definition odd_char (c : ascii) : bool := (quotes c || Ascii.eqb c "&" || Ascii.eqb c ";" || Ascii.eqb c tab)%bool.
(** The statement in a line, as words and signs; none in a line of comment. *)
Definition free_line (s : string) : option (list tok) :=
  let l := before_mark (chars s) in
  if (Nat.leb (String.length s) 132 && negb (existsb odd_char l))%bool then Some (toks [] (capitals l)) else None.
Fixpoint all_some {A B} (f : A -> option B) (l : list A) : option (list B) :=
  match l with [] => Some [] | x :: r => match f x, all_some f r with Some y, Some ys => Some (y :: ys) | _, _ => None end end.
Definition nonempty {A} (l : list A) : bool := match l with [] => false | _ => true end.
Definition free (text : list string) : option (list stmt) :=
  match all_some free_line text with Some ls => all_some stmt_of (filter nonempty ls) | None => None end.

(** Fixed form: a line whose first character is C, * or an exclamation mark, a line whose first character that is not blank is an exclamation
    mark, unless in column 6, and a blank line are comment.  In other lines columns 1 to 5 hold a label or blanks, column 6 a blank or a zero, or
    another character, by which the line continues the one before; columns 7 to 72 hold the statement, in which blanks mean nothing.
    Labels are outside the part. *)
Inductive fixed_kind := Comment | Initial (l : list ascii) | Continued (l : list ascii) | Wrong.
Fixpoint first_mark (col : nat) (l : list ascii) : option nat :=
  match l with [] => Some 0%nat | c :: r => if blank c then first_mark (Datatypes.S col) r else if Ascii.eqb c "!" then Some col else None end.
Definition fixed_line (s : string) : fixed_kind :=
  let l := chars s in
  let comment := match l with c :: _ => (Ascii.eqb c "!" || Ascii.eqb c "*" || Ascii.eqb (upper_char c) "C")%bool | [] => true end in
  if comment then Comment
  else match first_mark 1 l with
       | Some col => if Nat.eqb col 6 then Continued (before_mark (firstn 66 (skipn 6 l))) else Comment
       | None =>
           let stmt := filter (fun c => negb (blank c)) (before_mark (firstn 66 (skipn 6 l))) in
           if (forallb blank (firstn 5 l) && negb (existsb odd_char stmt))%bool then
             match nth_error l 5 with
             | Some c => if (blank c || Ascii.eqb c "0")%bool then Initial stmt else Continued stmt
             | None => Wrong
             end
           else Wrong
       end.
(** The statements, continued lines joined to the one before. *)
Fixpoint join (open : option (list ascii)) (lines : list fixed_kind) : option (list (list ascii)) :=
  let close := match open with Some l => [l] | None => [] end in
  match lines with
  | [] => Some close
  | Comment :: r => join open r
  | Initial l :: r => option_map (app close) (join (Some l) r)
  | Continued l :: r => match open with Some o => join (Some (o ++ l)) r | None => None end
  | Wrong :: _ => None
  end.
(** Without blanks the first word ends where its keyword ends. *)
Definition keywords : list (string * list tok) :=
  [("INTEGER", [W "INTEGER"]); ("PARAMETER", [W "PARAMETER"]); ("DOUBLEPRECISION", [W "DOUBLE"; W "PRECISION"]); ("EXTERNAL", [W "EXTERNAL"]);
   ("COMMON", [W "COMMON"]); ("SAVE", [W "SAVE"])].
Fixpoint keyword (ks : list (string * list tok)) (l : list ascii) : option (list tok) :=
  match ks with
  | [] => None
  | (k, ts) :: r => if String.prefix k (text_of l) then Some (ts ++ toks [] (skipn (String.length k) l)) else keyword r l
  end.
Definition fixed (text : list string) : option (list stmt) :=
  match join None (map fixed_line text) with
  | Some ls => match all_some (fun l => keyword keywords (capitals l)) ls with Some ts => all_some stmt_of ts | None => None end
  | None => None
  end.

(** What the statements mean in a program unit with IMPLICIT NONE: the integers, the other names, the constants, the common blocks.  A name has at most
    31 characters and one type, given before its value; a constant has one value, made from ones known before; a common block holds variables. *)
Inductive value := Int (z : Z) | Kind_of (z : Z).
Record header := mkH { h_integers : list (string * list tok); h_others : list string; h_values : list (string * value); h_common : list (string * list string); h_saved : list string }.
Definition value_of (h : header) (e : expr) : option value :=
  match e with Num z => Some (Int z) | Int_kind z => Some (Kind_of z) | Name n => find n (h_values h) end.
Definition bounds_ok (h : header) (b : list tok) : bool :=
  forallb (fun t => match t with W n => match is_number n with Some _ => true | None => match find n (h_values h) with Some (Int _) => true | _ => false end end | S c => Ascii.eqb c "," end) b.
Definition in_common (h : header) (n : string) : bool := existsb (fun b => listed n (snd b)) (h_common h).
Definition untyped (h : header) (n : string) : bool := (Nat.leb (String.length n) 31 && negb (listed n (map fst (h_integers h) ++ h_others h)))%bool.
Fixpoint declare (h : header) (l : list (string * list tok)) : option header :=
  match l with
  | [] => Some h
  | (n, b) :: r => if (untyped h n && bounds_ok h b)%bool
                   then declare (mkH (h_integers h ++ [(n, b)]) (h_others h) (h_values h) (h_common h) (h_saved h)) r else None
  end.
Fixpoint define (h : header) (l : list (string * expr)) : option header :=
  match l with
  | [] => Some h
  | (n, e) :: r =>
      match find n (h_integers h), find n (h_values h), value_of h e with
      | Some [], None, Some v => if in_common h n then None else define (mkH (h_integers h) (h_others h) (h_values h ++ [(n, v)]) (h_common h) (h_saved h)) r
      | _, _, _ => None
      end
  end.
Fixpoint put_common (b : string) (ns : list string) (l : list (string * list string)) : list (string * list string) :=
  match l with [] => [(b, ns)] | (c, ms) :: r => if String.eqb b c then (c, ms ++ ns) :: r else (c, ms) :: put_common b ns r end.
Fixpoint share (h : header) (b : string) (ns : list string) : option header :=
  match ns with
  | [] => Some h
  | n :: r => match find n (h_integers h), find n (h_values h) with
              | Some _, None => if in_common h n then None else share (mkH (h_integers h) (h_others h) (h_values h) (put_common b [n] (h_common h)) (h_saved h)) b r
              | _, _ => None
              end
  end.
Definition step (h : header) (s : stmt) : option header :=
  match s with
  | Integer l => declare h l
  | Double n => if untyped h n then Some (mkH (h_integers h) (h_others h ++ [n]) (h_values h) (h_common h) (h_saved h)) else None
  | External n => if listed n (h_others h) then Some h else None
  | Constant l => define h l
  | Common b ns => share h b ns
  | Save b => if listed b (map fst (h_common h)) then Some (mkH (h_integers h) (h_others h) (h_values h) (h_common h) (h_saved h ++ [b])) else None
  end.
Fixpoint meaning (h : header) (l : list stmt) : option header :=
  match l with [] => Some h | s :: r => match step h s with Some h' => meaning h' r | None => None end end.
Definition start : header := mkH [] [] [] [] [].
(** The constants that are numbers, and the kinds. *)
Definition integers_of (h : header) : list (string * Z) := flat_map (fun x => match snd x with Int z => [(fst x, z)] | Kind_of _ => [] end) (h_values h).
Definition kinds_of (h : header) : list (string * Z) := flat_map (fun x => match snd x with Kind_of z => [(fst x, z)] | Int _ => [] end) (h_values h).

(** What follows for a header that has a meaning. *)
Definition sound (h : header) : Prop :=
  NoDup (map fst (h_integers h) ++ h_others h) /\ NoDup (map fst (h_values h)) /\
  (forall n v, In (n, v) (h_values h) -> In (n, []) (h_integers h)) /\
  (forall b ns n, In (b, ns) (h_common h) -> In n ns -> In n (map fst (h_integers h)) /\ ~ In n (map fst (h_values h))).
(** A statement written from column 7 on. *)
Definition moved_line (s : string) : string := text_of (repeat " "%char 6 ++ filter (fun c => negb (blank c)) (before_mark (chars s))).

(** C: comments become a blank; one that begins with two slashes is a comment since C99 only ([c99]).  Character constants and continued lines are outside
    the part. *)
Fixpoint strip (c99 : bool) (fuel : nat) (inside : bool) (l : list ascii) : list ascii * bool :=
  match fuel, l with
  | Datatypes.S f, a :: r =>
      if inside then
        match r with b :: r' => if (Ascii.eqb a "*" && Ascii.eqb b "/")%bool then let '(x, i) := strip c99 f false r' in (" "%char :: x, i) else strip c99 f true r | [] => ([], true) end
      else
        match r with
        | b :: r' => if (Ascii.eqb a "/" && Ascii.eqb b "*")%bool then strip c99 f true r'
                     else if (c99 && Ascii.eqb a "/" && Ascii.eqb b "/")%bool then ([], false)
                     else let '(x, i) := strip c99 f false r in (a :: x, i)
        | [] => ([a], false)
        end
  | _, _ => ([], inside)
  end.
Fixpoint c_lines (c99 : bool) (inside : bool) (text : list string) : option (list (list tok)) :=
  match text with
  | [] => if inside then None else Some []
  | s :: r =>
      let l := chars s in
      let '(x, i) := strip c99 (Datatypes.S (length l)) inside l in
      if existsb (fun c => (quotes c || Ascii.eqb c "\")%bool) x then None else option_map (cons (toks [] x)) (c_lines c99 i r)
  end.
(** The lines of the preprocessor, and the rest. *)
Definition directive (l : list tok) : bool := match l with S c :: _ => Ascii.eqb c "#" | _ => false end.
(** #ifndef G, #define G, ..., #endif around everything: the definitions between. *)
Definition define_of (l : list tok) : option (string * list tok) :=
  match l with S _ :: W d :: W n :: body => if String.eqb d "define" then Some (n, body) else None | _ => None end.
Definition guarded (lines : list (list tok)) : option (string * list (list tok)) :=
  match filter nonempty lines with
  | [S a; W i; W g] :: [S b; W d; W g'] :: r =>
      match rev r with
      | [S c; W e] :: m => if (String.eqb i "ifndef" && String.eqb d "define" && String.eqb e "endif" && String.eqb g g' && Ascii.eqb a "#" && Ascii.eqb b "#" && Ascii.eqb c "#")%bool
                           then Some (g, rev m) else None
      | _ => None
      end
  | _ => None
  end.

(** Declarations: the rest, cut at the semicolons outside braces. *)
Fixpoint cut (depth : nat) (acc : list tok) (l : list tok) : option (list (list tok)) :=
  match l with
  | [] => match acc, depth with [], O => Some [] | _, _ => None end
  | t :: r =>
      if is_sign "{" t then cut (Datatypes.S depth) (t :: acc) r
      else if is_sign "}" t then match depth with O => None | Datatypes.S d => cut d (t :: acc) r end
      else if (is_sign ";" t && Nat.eqb depth 0)%bool then option_map (cons (rev acc)) (cut 0 [] r)
      else cut depth (t :: acc) r
  end.
(** A type: words, then stars. *)
Definition ctype : Type := string * nat.
Definition int_words : list string := ["unsigned"; "signed"; "short"; "long"; "int"; "char"].
(** unsigned long int is unsigned long. *)
Definition base_of (ws : list string) : option string :=
  match ws with
  | [w] => Some w
  | _ => if forallb (fun w => listed w int_words) ws then
           let ws' := match rev ws with w :: r => if String.eqb w "int" then rev r else ws | [] => ws end in
           Some (String.concat " " ws')
         else None
  end.
Fixpoint leading_words (l : list tok) : list string * list tok := match l with W w :: r => let '(ws, x) := leading_words r in (w :: ws, x) | _ => ([], l) end.
Fixpoint leading_stars (l : list tok) : nat * list tok := match l with t :: r => if is_sign "*" t then let '(n, x) := leading_stars r in (Datatypes.S n, x) else (O, l) | [] => (O, l) end.
(** [n], [] after a name. *)
Fixpoint brackets (l : list tok) : option nat :=
  match l with
  | [] => Some O
  | a :: r => if is_sign "[" a then
                match r with
                | b :: r' => if is_sign "]" b then option_map Datatypes.S (brackets r')
                             else match b, r' with W n, c :: r'' => if is_sign "]" c then match is_number n with Some _ => option_map Datatypes.S (brackets r'') | None => None end else None | _, _ => None end
                | [] => None
                end
              else None
  end.
(** One declared thing: its type, its name, and how many brackets follow. *)
Definition declarator (l : list tok) : option (ctype * string * nat) :=
  let '(ws, r) := leading_words l in
  let '(st, r') := leading_stars r in
  match st, rev ws with
  | O, n :: ws' => match base_of (rev ws'), brackets r' with Some b, Some k => match ws' with [] => None | _ => Some ((b, O), n, k) end | _, _ => None end
  | _, _ => match r' with W n :: r'' => match base_of ws, brackets r'' with Some b, Some k => match ws with [] => None | _ => Some ((b, st), n, k) end | _, _ => None end | _ => None end
  end.
(** Parameters: brackets count as stars. *)
Fixpoint cut_commas (acc : list tok) (l : list tok) : list (list tok) :=
  match l with [] => [rev acc] | t :: r => if is_sign "," t then rev acc :: cut_commas [] r else cut_commas (t :: acc) r end.
Definition param (l : list tok) : option ctype := option_map (fun d => let '((b, s), _, k) := d in (b, (s + k)%nat)) (declarator l).
Definition params (l : list tok) : option (list ctype) :=
  match l with [W v] => if String.eqb v "void" then Some [] else None | _ => all_some param (cut_commas [] l) end.
(** type name ( parameters ) *)
Definition prototype (l : list tok) : option (string * ctype * list ctype) :=
  let '(ws, r) := leading_words l in
  match rev ws, r with
  | n :: ws', o :: r' =>
      if is_sign "(" o then
        match upto [] r' with Some (ps, []) => match base_of (rev ws'), params ps with Some b, Some p => Some (n, (b, O), p) | _, _ => None end | _ => None end
      else None
  | _, _ => None
  end.
Inductive decl :=
| Typedef (n : string) (t : ctype)
| Struct (n : string) (members : list (string * ctype))
| Funtype (n : string) (r : ctype) (p : list ctype)
| Routine (n : string) (r : ctype) (p : list ctype).
Definition member (l : list tok) : option (string * ctype) := match declarator l with Some (t, n, O) => Some (n, t) | _ => None end.
Definition decl_of (l : list tok) : option decl :=
  match l with
  | W k :: r =>
      if String.eqb k "extern" then option_map (fun x => let '(n, t, p) := x in Routine n t p) (prototype r)
      else if String.eqb k "typedef" then
        match r with
        | W s :: o :: r' =>
            if (String.eqb s "struct" && is_sign "{" o)%bool then
              match rev r' with
              | W n :: c :: b => if is_sign "}" c then
                  match cut 0 [] (rev b) with Some ms => option_map (Struct n) (all_some member ms) | None => None end else None
              | _ => None
              end
            else match declarator r with
                 | Some (t, n, O) => Some (Typedef n t)
                 | Some _ => None
                 | None => option_map (fun x => let '(n, t, p) := x in Funtype n t p) (prototype r)
                 end
        | _ => None
        end
      else None
  | _ => None
  end.
Definition base_types : list string := ["int"; "char"; "void"; "double"; "long"; "unsigned long"; "long long"].
(** The sizes of the types of mpi.h on LP64. *)
Definition base_size (t : string) : option Z :=
  find t [("int", 4); ("char", 1); ("double", 8); ("long", 8); ("unsigned long", 8); ("long long", 8)].
(** Every type is known where it is used, every name is declared once. *)
Definition decl_name (d : decl) : string := match d with Typedef n _ | Struct n _ | Funtype n _ _ | Routine n _ _ => n end.
Definition decl_types (d : decl) : list string :=
  match d with Typedef _ t => [fst t] | Struct _ ms => map (fun m => fst (snd m)) ms | Funtype _ r p | Routine _ r p => fst r :: map fst p end.
Fixpoint decls_ok (known names : list string) (l : list decl) : bool :=
  match l with
  | [] => true
  | d :: r =>
      (forallb (fun t => listed t known) (decl_types d) && negb (listed (decl_name d) names) &&
       decls_ok (match d with Routine _ _ _ => known | _ => decl_name d :: known end) (decl_name d :: names) r)%bool
  end.

(** What a macro stands for: a number, or a number made a pointer. *)
Inductive cvalue := Number (z : Z) | Pointer (t : string) (z : Z).
Definition size_of (l : list decl) (t : string) : option Z :=
  match base_size t with
  | Some z => Some z
  | None =>
      let alias := flat_map (fun d => match d with Typedef n (b, O) => [(n, b)] | _ => [] end) l in
      let one b := match find b alias with Some c => base_size c | None => base_size b end in
      let structs := flat_map (fun d => match d with Struct n ms => [(n, ms)] | _ => [] end) l in
      match find t structs with
      | Some ms => (* members of one size, so that nothing lies between them *)
          match all_some (fun m => match snd m with (b, O) => one b | _ => None end) ms with
          | Some (z :: zs) => if forallb (Z.eqb z) zs then Some (z * Z.of_nat (length ms)) else None
          | _ => None
          end
      | None => one t
      end
  end.
(** Expressions of macros: numbers, parentheses, minus, casts, sizeof, macros, one division of two of these. *)
Fixpoint prim (macros : list (string * list tok)) (ds : list decl) (fuel : nat) (l : list tok) : option (cvalue * list tok) :=
  match fuel, l with
  | Datatypes.S f, S m :: r =>
      if Ascii.eqb m "-" then match prim macros ds f r with Some (Number z, x) => Some (Number (- z), x) | _ => None end
      else if Ascii.eqb m "(" then
        match r with
        | W t :: c :: r' =>
            if (is_sign ")" c && listed t (map decl_name ds))%bool then match prim macros ds f r' with Some (Number z, x) => Some (Number z, x) | _ => None end
            else match r' with
                 | p :: r'' => if (is_sign "*" c && is_sign ")" p)%bool then match prim macros ds f r'' with Some (Number z, x) => Some (Pointer t z, x) | _ => None end else paren macros ds f r
                 | [] => paren macros ds f r
                 end
        | _ => paren macros ds f r
        end
      else None
  | Datatypes.S f, W n :: r =>
      match is_number n with
      | Some z => Some (Number z, r)
      | None =>
          if String.eqb n "sizeof" then
            match r with
            | a :: W t :: b :: r' => if (is_sign "(" a && is_sign ")" b)%bool then option_map (fun z => (Number z, r')) (size_of ds t) else None
            | _ => None
            end
          else match find n macros with Some body => match prim macros ds f body with Some (v, []) => Some (v, r) | _ => None end | None => None end
      end
  | _, _ => None
  end
with paren (macros : list (string * list tok)) (ds : list decl) (fuel : nat) (l : list tok) : option (cvalue * list tok) :=
  match fuel with
  | Datatypes.S f =>
      match prim macros ds f l with
      | Some (v, t :: r) =>
          if is_sign ")" t then Some (v, r)
          else if is_sign "/" t then
            match v, prim macros ds f r with
            | Number a, Some (Number b, c :: r') => if (is_sign ")" c && negb (Z.eqb b 0))%bool then Some (Number (a / b), r') else None
            | _, _ => None
            end
          else None
      | _ => None
      end
  | O => None
  end.
(** A macro in parentheses is one operand wherever it is used. *)
Fixpoint matching (depth : nat) (l : list tok) : option (list tok) :=
  match l with
  | [] => None
  | t :: r => if is_sign "(" t then matching (Datatypes.S depth) r
              else if is_sign ")" t then match depth with O => None | Datatypes.S O => Some r | Datatypes.S d => matching d r end else matching depth r
  end.
Definition one_operand (body : list tok) : bool :=
  match body with
  | [W _] => true
  | t :: _ => (is_sign "(" t && match matching 0 body with Some [] => true | _ => false end)%bool
  | [] => false
  end.
Record c_header := mkC { c_guard : string; c_macros : list (string * list tok); c_values : list (string * cvalue); c_decls : list decl }.
Definition read_c (c99 : bool) (text : list string) : option c_header :=
  match c_lines c99 false text with
  | Some lines =>
      match guarded lines with
      | Some (g, inner) =>
          match all_some define_of (filter directive inner), cut 0 [] (concat (filter (fun l => negb (directive l)) inner)) with
          | Some ms, Some cs =>
              match all_some decl_of cs with
              | Some ds =>
                  match all_some (fun m => match prim ms ds 9 (snd m) with Some (v, []) => Some (fst m, v) | _ => None end) ms with
                  | Some vs => (* declarations in which a macro would be replaced are outside the part *)
                      if (decls_ok base_types (map fst ms) ds && forallb (fun m => negb (existsb (is_word (fst m)) (concat cs))) ms)%bool
                      then Some (mkC g ms vs ds) else None
                  | None => None
                  end
              | None => None
              end
          | _, _ => None
          end
      | None => None
      end
  | None => None
  end.
Definition numbers_of (h : c_header) : list (string * Z) := flat_map (fun x => match snd x with Number z => [(fst x, z)] | Pointer _ _ => [] end) (c_values h).
Definition pointers_of (h : c_header) : list (string * string * Z) := flat_map (fun x => match snd x with Pointer t z => [(fst x, t, z)] | Number _ => [] end) (c_values h).
Definition routines_of (h : c_header) : list (string * ctype * list ctype) := flat_map (fun d => match d with Routine n r p => [(n, r, p)] | _ => [] end) (c_decls h).
Definition aliases_of (h : c_header) : list (string * string) := flat_map (fun d => match d with Typedef n (b, O) => [(n, b)] | _ => [] end) (c_decls h).
Definition members_of (h : c_header) (s : string) : list (string * ctype) :=
  flat_map (fun d => match d with Struct n ms => if String.eqb n s then ms else [] | _ => [] end) (c_decls h).
