(** How a C file is read (C120): comments and literals, the lines of the preprocessor, routines and what they use, with the lines they stand in.

    A specification: it says what C says, for the part of it the files use.  Text outside that part is refused ([None]). *)
From Verif Require Import Base LinkModel BuildModel TextSpec.
From Coq Require Import Ascii.
#[local] Open Scope string_scope.
#[local] Open Scope list_scope.

(** Characters of names and numbers. *)
Definition word_character (c : ascii) : bool :=
  let n := N_of_ascii c in
  ((N.leb 48 n && N.leb n 57) || (N.leb 65 n && N.leb n 90) || (N.leb 97 n && N.leb n 122) || N.eqb n 95)%bool.

(** A line without comments, [inside] telling whether a comment is open at its beginning and at its end; a literal is reduced to one quote. *)
Fixpoint literal (q : ascii) (l : list ascii) : option (list ascii) :=
  match l with
  | [] => None
  | a :: r => if Ascii.eqb a q then Some r else if Ascii.eqb a "\" then match r with _ :: r' => literal q r' | [] => None end else literal q r
  end.
Fixpoint clean (fuel : nat) (inside : bool) (l : list ascii) : option (list ascii * bool) :=
  match fuel with
  | O => None
  | Datatypes.S f =>
    match l with
    | [] => Some ([], inside)
    | a :: r =>
      if inside then
        match r with b :: r' => if (Ascii.eqb a "*" && Ascii.eqb b "/")%bool then option_map (fun p => (" "%char :: fst p, snd p)) (clean f false r') else clean f true r | [] => Some ([], true) end
      else if quotes a then
        match literal a r with Some r' => option_map (fun p => (a :: fst p, snd p)) (clean f false r') | None => None end
      else
        match r with
        | b :: r' => if (Ascii.eqb a "/" && Ascii.eqb b "*")%bool then clean f true r'
                     else if (Ascii.eqb a "/" && Ascii.eqb b "/")%bool then Some ([], false)
                     else option_map (fun p => (a :: fst p, snd p)) (clean f false r)
        | [] => Some ([a], false)
        end
    end
  end.
(** Words and signs, each with its line. *)
Definition ltok : Type := Z * tok.
Fixpoint ltoks (n : Z) (word : list ascii) (l : list ascii) : list ltok :=
  let flush := match word with [] => [] | _ => [(n, W (text_of (rev word)))] end in
  match l with
  | [] => flush
  | c :: r => if word_character c then ltoks n (c :: word) r
              else if (blank c || Ascii.eqb c tab)%bool then flush ++ ltoks n [] r
              else flush ++ (n, S c) :: ltoks n [] r
  end.
Fixpoint lines_of (n : Z) (inside : bool) (text : list string) : option (list (list ltok)) :=
  match text with
  | [] => if inside then None else Some []
  | s :: r =>
      let l := chars s in
      match clean (Datatypes.S (length l)) inside l with
      | Some (x, i) => option_map (cons (ltoks n [] x)) (lines_of (n + 1) i r)
      | None => None
      end
  end.
(** A line that ends in a backslash goes on in the next one. *)
Definition goes_on (l : list ltok) : bool := match rev l with (_, S c) :: _ => Ascii.eqb c "\" | _ => false end.
Fixpoint splice (open : list ltok) (lines : list (list ltok)) : option (list (list ltok)) :=
  match lines with
  | [] => match open with [] => Some [] | _ => None end
  | l :: r => if goes_on l then splice (open ++ removelast l) r else option_map (cons (open ++ l)) (splice [] r)
  end.
Definition logical_lines (text : list string) : option (list (list ltok)) :=
  match lines_of 1 false text with Some ls => splice [] ls | None => None end.

(** The preprocessor: what is left when the macros in [on] are given to the compiler, and the macros defined in the file.  [stack]: for every #ifdef that is open,
    whether its text is read, and whether its #else is still to come.  #include lines are left out: headers define no routines. *)
Definition macro : Type := string * list tok.
Definition defined (on : string -> bool) (ms : list macro) (n : string) : bool := (on n || listed n (map fst ms))%bool.
Definition active (stack : list (bool * bool)) : bool := forallb fst stack.
Fixpoint select (on : string -> bool) (stack : list (bool * bool)) (ms : list macro) (lines : list (list ltok)) : option (list ltok * list macro) :=
  match lines with
  | [] => match stack with [] => Some ([], ms) | _ => None end
  | l :: r =>
      match l with
      | (_, S h) :: rest =>
          if Ascii.eqb h "#" then
            match rest with
            | [(_, W k); (_, W n)] =>
                if String.eqb k "ifdef" then select on ((defined on ms n, true) :: stack) ms r
                else if String.eqb k "ifndef" then select on ((negb (defined on ms n), true) :: stack) ms r
                else if String.eqb k "define" then (if active stack then select on stack ((n, []) :: ms) r else select on stack ms r) else None
            | [(_, W k)] =>
                if String.eqb k "endif" then match stack with _ :: st => select on st ms r | [] => None end
                else if String.eqb k "else" then match stack with (b, true) :: st => select on ((negb b, false) :: st) ms r | _ => None end else None
            | (_, W k) :: (_, W n) :: body =>
                if String.eqb k "define" then (if active stack then select on stack ((n, map snd body) :: ms) r else select on stack ms r) else None
            | (_, W k) :: _ => if String.eqb k "include" then select on stack ms r else None
            | _ => None
            end
          else if active stack then option_map (fun p => (l ++ fst p, snd p)) (select on stack ms r) else select on stack ms r
      | _ => if active stack then option_map (fun p => (l ++ fst p, snd p)) (select on stack ms r) else select on stack ms r
      end
  end.
(** The macros that a file asks about. *)
Definition asked (lines : list (list ltok)) : list string :=
  flat_map (fun l => match l with [(_, S h); (_, W k); (_, W n)] => if (Ascii.eqb h "#" && (String.eqb k "ifdef" || String.eqb k "ifndef"))%bool then [n] else [] | _ => [] end) lines.

(** The rest is a row of declarations, each ending in a semicolon, and routines, each a head that ends in a parenthesis and a body in braces. *)
Inductive item := Declared (l : list ltok) | Defined (head body : list ltok) (last : Z).
Inductive mode := Top | Data (depth : nat) | Body (depth : nat).
Fixpoint items (m : mode) (parens : nat) (head body : list ltok) (l : list ltok) : option (list item) :=
  match l with
  | [] => match m, head, parens with Top, [], O => Some [] | _, _, _ => None end
  | t :: r =>
      let p' := if is_sign "(" (snd t) then Some (Datatypes.S parens)
                else if is_sign ")" (snd t) then match parens with O => None | Datatypes.S p => Some p end else Some parens in
      match p' with
      | None => None
      | Some p =>
        match m with
        | Top =>
            if is_sign "{" (snd t) then
              match p, head with
              | O, h :: _ => if is_sign ")" (snd h) then items (Body 0) O head [] r else items (Data 0) O (t :: head) [] r
              | _, _ => None
              end
            else if is_sign "}" (snd t) then None
            else if (is_sign ";" (snd t) && Nat.eqb p 0)%bool then option_map (cons (Declared (rev head))) (items Top O [] [] r)
            else items Top p (t :: head) [] r
        | Data d =>
            if is_sign "{" (snd t) then items (Data (Datatypes.S d)) p (t :: head) [] r
            else if is_sign "}" (snd t) then match d with O => items Top p (t :: head) [] r | Datatypes.S d' => items (Data d') p (t :: head) [] r end
            else items (Data d) p (t :: head) [] r
        | Body d =>
            if is_sign "{" (snd t) then match p with O => items (Body (Datatypes.S d)) p head (t :: body) r | _ => None end
            else if is_sign "}" (snd t) then
              match p, d with
              | O, O => option_map (cons (Defined (rev head) (rev body) (fst t))) (items Top O [] [] r)
              | O, Datatypes.S d' => items (Body d') p head (t :: body) r
              | _, _ => None
              end
            else items (Body d) p head (t :: body) r
        end
      end
  end.

(** FC_FUNC(a,A) is a name; the other words are names of C. *)
Inductive nword := N (n : nm) | G (c : ascii).
Fixpoint names (l : list ltok) : list (Z * nword) :=
  match l with
  | (n, W w) :: r =>
      match r with
      | (_, S o) :: (_, W a) :: (_, S c) :: (_, W b) :: (_, S e) :: r' =>
          if (String.eqb w "FC_FUNC" && Ascii.eqb o "(" && Ascii.eqb c "," && Ascii.eqb e ")")%bool then (n, N (F a b)) :: names r' else (n, N (C w)) :: names r
      | _ => (n, N (C w)) :: names r
      end
  | (n, S c) :: r => (n, G c) :: names r
  | [] => []
  end.
Definition is_g (c : ascii) (x : Z * nword) : bool := match snd x with G d => Ascii.eqb c d | _ => false end.
(** Up to the parenthesis that closes. *)
Fixpoint closing (depth : nat) (acc : list (Z * nword)) (l : list (Z * nword)) : option (list (Z * nword) * list (Z * nword)) :=
  match l with
  | [] => None
  | t :: r => if is_g "(" t then closing (Datatypes.S depth) (t :: acc) r
              else if is_g ")" t then match depth with O => Some (rev acc, r) | Datatypes.S d => closing d (t :: acc) r end
              else closing depth (t :: acc) r
  end.
Fixpoint at_commas (depth : nat) (acc : list (Z * nword)) (l : list (Z * nword)) : list (list (Z * nword)) :=
  match l with
  | [] => [rev acc]
  | t :: r => if (is_g "," t && Nat.eqb depth 0)%bool then rev acc :: at_commas 0 [] r
              else at_commas (if is_g "(" t then Datatypes.S depth else if is_g ")" t then Nat.pred depth else depth) (t :: acc) r
  end.
Fixpoint words_first (l : list (Z * nword)) : list string * list (Z * nword) :=
  match l with (_, N (C w)) :: r => let '(ws, x) := words_first r in (w :: ws, x) | _ => ([], l) end.
Fixpoint stars_first (l : list (Z * nword)) : nat * list (Z * nword) :=
  match l with t :: r => if is_g "*" t then let '(n, x) := stars_first r in (Datatypes.S n, x) else (O, l) | [] => (O, l) end.
Fixpoint bracket_pairs (l : list (Z * nword)) : option nat :=
  match l with
  | [] => Some O
  | a :: r => if is_g "[" a then match r with
                                 | b :: r' => if is_g "]" b then option_map Datatypes.S (bracket_pairs r')
                                              else match b, r' with (_, N (C n)), c :: r'' => if (is_g "]" c && match is_number n with Some _ => true | None => false end)%bool then option_map Datatypes.S (bracket_pairs r'') else None | _, _ => None end
                                 | [] => None
                                 end else None
  end.
(** A parameter: type and name. *)
Definition plain (l : list (Z * nword)) : option (ctype * string) :=
  let '(ws, r) := words_first l in
  let '(st, r') := stars_first r in
  match st, rev ws with
  | O, n :: (_ :: _) as ws' => match base_of (rev (tl (rev ws))), bracket_pairs r' with Some b, Some k => Some ((b, k), n) | _, _ => None end
  | Datatypes.S _, _ :: _ => match r' with (_, N (C n)) :: r'' => match base_of ws, bracket_pairs r'' with Some b, Some k => Some ((b, (st + k)%nat), n) | _, _ => None end | _ => None end
  | _, _ => None
  end.
Fixpoint stars (n : nat) : string := match n with O => "" | Datatypes.S m => String.append "*" (stars m) end.
(** A parameter that is a routine, type ( * name ) ( parameters ), is written as one base type. *)
Definition routine_param (l : list (Z * nword)) : option (ctype * string) :=
  let '(ws, r) := words_first l in
  match r with
  | a :: b :: (_, N (C n)) :: c :: d :: r' =>
      if (is_g "(" a && is_g "*" b && is_g ")" c && is_g "(" d)%bool then
        match closing 0 [] r', base_of ws with
        | Some (ps, []), Some t =>
            match all_some plain (at_commas 0 [] ps) with
            | Some l => Some ((String.append t (String.append "(" (String.append (String.concat "," (map (fun p => String.append (fst (fst p)) (stars (snd (fst p)))) l)) ")")), 1%nat), n)
            | None => None
            end
        | _, _ => None
        end
      else None
  | _ => None
  end.
Definition parameter (l : list (Z * nword)) : option (ctype * string) := match plain l with Some x => Some x | None => routine_param l end.
Definition parameters (l : list (Z * nword)) : option (list (ctype * string)) :=
  match l with
  | [] => Some []
  | [(_, N (C w))] => if String.eqb w "void" then Some [] else None
  | _ => all_some parameter (at_commas 0 [] l)
  end.
(** A head: static or not, type of the result, name, parameters. *)
Record head := mkHead { hd_static : bool; hd_ret : ctype; hd_name : nm; hd_params : list (ctype * string) }.
Definition head_of (l : list (Z * nword)) : option head :=
  let '(st, l') := match l with (_, N (C w)) :: r => if String.eqb w "static" then (true, r) else (false, l) | _ => (false, l) end in
  let '(ws, r) := words_first l' in
  let '(k, r') := stars_first r in
  let found (ws : list string) (n : nm) (rest : list (Z * nword)) :=
    match rest with
    | o :: rest' => if is_g "(" o then
        match closing 0 [] rest', base_of ws with
        | Some (ps, []), Some b => option_map (fun p => mkHead st (b, k) n p) (parameters ps)
        | _, _ => None
        end else None
    | [] => None
    end in
  match r' with
  | (_, N (F a b)) :: rest => found ws (F a b) rest
  | (_, N (C w)) :: rest => found ws (C w) rest
  | _ => match k, rev ws with O, n :: _ => found (removelast ws) (C n) r' | _, _ => None end
  end.

(** What a body uses: the words that are names of routines.  A word before a parenthesis has to be one of these, a word of C, a parameter, or a macro; a macro
    stands for what its own text uses, in the line of its use. *)
Definition c_words : list string := ["if"; "while"; "for"; "switch"; "return"; "sizeof"].
Definition name_eqb (a b : nm) : bool := match a, b with C x, C y => String.eqb x y | F x y, F z w => (String.eqb x z && String.eqb y w)%bool | _, _ => false end.
Definition is_known (known : list nm) (n : nm) : bool := existsb (name_eqb n) known.
Fixpoint uses_in (known : list nm) (extra : list string) (ms : list (string * list nm)) (l : list (Z * nword)) : option (list (Z * nm)) :=
  match l with
  | [] => Some []
  | (k, N n) :: r =>
      let rest := uses_in known extra ms r in
      if is_known known n then option_map (cons (k, n)) rest
      else match n with
           | C w => match TextSpec.find w ms with
                    | Some us => option_map (app (map (fun u => (k, u)) us)) rest
                    | None => match r with
                              | o :: _ => if (is_g "(" o && negb (listed w (c_words ++ extra)))%bool then None else rest
                              | [] => rest
                              end
                    end
           | F _ _ => None
           end
  | _ :: r => uses_in known extra ms r
  end.
(** The parameters of a macro, if any, are left out of its text. *)
Definition macro_text (b : list tok) : list (Z * nword) := names (map (fun t => (0, t)) b).
Fixpoint macro_uses (known : list nm) (ms : list macro) : option (list (string * list nm)) :=
  match ms with
  | [] => Some []
  | (n, b) :: r =>
      match macro_uses known r with
      | Some us => match uses_in known [] us (macro_text b) with Some u => Some ((n, map snd u) :: us) | None => None end
      | None => None
      end
  end.

(** A routine: head, body, first and last line, uses. *)
Record routine := mkRoutine { ro_head : head; ro_body : list (Z * nword); ro_first : Z; ro_last : Z; ro_uses : list (Z * nm) }.
Definition routine_of (known : list nm) (us : list (string * list nm)) (h b : list ltok) (last : Z) : option routine :=
  match head_of (names h), h with
  | Some hd, (first, _) :: _ =>
      option_map (mkRoutine hd (names b) first last) (uses_in known (map snd (hd_params hd)) us (names b))
  | _, _ => None
  end.
Fixpoint routines (known : list nm) (us : list (string * list nm)) (l : list item) : option (list routine) :=
  match l with
  | [] => Some []
  | Declared _ :: r => routines known us r
  | Defined h b last :: r => match routine_of known us h b last, routines known us r with Some x, Some xs => Some (x :: xs) | _, _ => None end
  end.
Definition read_lines (known : list nm) (on : string -> bool) (lines : list (list ltok)) : option (list routine) :=
  match select on [] [] lines with
  | Some (l, ms) =>
      match items Top 0 [] [] l, macro_uses known ms with
      | Some its, Some us => routines known us its
      | _, _ => None
      end
  | None => None
  end.
Definition read_file (known : list nm) (on : string -> bool) (text : list string) : option (list routine) :=
  match logical_lines text with Some lines => read_lines known on lines | None => None end.

(** What the tables of BuildModel and LinkModel say of a file. *)
Definition holds (on : string -> bool) (w : option string) : bool := match w with Some m => on m | None => true end.
Definition where_it_stands : Type := nm * Z * Z * list (Z * nm).
Definition stands (r : routine) : where_it_stands := (hd_name (ro_head r), ro_first r, ro_last r, ro_uses r).
Definition in_places (on : string -> bool) (f : string) : list where_it_stands :=
  map (fun p => (p_name p, p_first p, p_last p, map (fun u => (u_line u, u_name u)) (filter (fun u => holds on (u_when u)) (p_uses p))))
      (filter (fun p => (String.eqb (p_file p) f && holds on (p_when p))%bool) places).
Definition heading : Type := nm * bool * cty * list cty.
Definition heads (r : routine) : heading := (hd_name (ro_head r), hd_static (ro_head r), hd_ret (ro_head r), map fst (hd_params (ro_head r))).
Definition in_library (l : list fn) (f : string) : list heading :=
  map (fun x => (fn_name x, fn_static x, fn_ret x, fn_params x)) (filter (fun x => String.eqb (fn_file x) f) l).
(** The heads of the tables: those of the library, and with TEST_INTERNAL those of the internal tests. *)
Definition in_tables (on : string -> bool) (f : string) : list heading :=
  in_library library f ++ if on "TEST_INTERNAL" then in_library internal f else [].
Definition nm_eqb (a b : nm) : bool :=
  match a, b with C x, C y => String.eqb x y | F x y, F z w => (String.eqb x z && String.eqb y w)%bool | _, _ => false end.
Definition has_head (r : routine) : bool := existsb (nm_eqb (hd_name (ro_head r))) (map fn_name (library ++ internal)).
(** The routines there are: those of the files, and those of the C library. *)
Definition known : list nm := map p_name places ++ map fn_name library ++ map C standard ++ [C "fflush"].
