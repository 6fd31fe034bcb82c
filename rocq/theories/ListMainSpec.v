(** What deleting on the way should leave and show, and what the test program of list.c should print: sequences only. *)
From Verif Require Import Base ListModel PrintModel PrintSpec.
Local Open Scope string_scope.

(** The elements from position [i] on that are not chosen. *)
Fixpoint kept (sel : Z -> Z -> bool) (i : Z) (xs : list (Z * Z)) : list (Z * Z) :=
  match xs with [] => [] | x :: r => if sel i (snd x) then kept sel (i + 1) r else x :: kept sel (i + 1) r end.
Fixpoint weed_text (sel : Z -> Z -> bool) (i : Z) (ds : list Z) : list shown :=
  match ds with
  | [] => []
  | d :: r => [Text "  Got item "; Num (to_s32 d); Text (if sel i d then " - deleted\n" else "\n")] ++ weed_text sel (i + 1) r
  end.

(** A list and its reverse. *)
Definition twice (str rstr : string) (ds : list Z) : list shown := (list_text str ds ++ list_text rstr (rev ds))%list.
Definition items_text (ds : list Z) : list shown := flat_map (fun d => [Text "  Got item "; Num d; Text "\n"]) ds.
(** 9 8 ... 1 10 11 12 13 14 without 5, 9, 14 and 2. *)
Definition rest : list Z := [8; 7; 6; 4; 3; 1; 10; 11; 12; 13].
Definition listmain_text : list shown :=
  (flat_map (twice "current" "    rev") [[1]; [2;1]; [3;2;1]; [4;3;2;1]; [5;4;3;2;1]; [6;5;4;3;2;1]; [7;6;5;4;3;2;1]; [8;7;6;5;4;3;2;1]; [9;8;7;6;5;4;3;2;1]]
   ++ [Text "Size "; Num 9; Text "\n"]
   ++ flat_map (twice "new" "    rev") [[9;8;7;6;5;4;3;2;1;10]; [9;8;7;6;5;4;3;2;1;10;11]; [9;8;7;6;5;4;3;2;1;10;11;12];
        [9;8;7;6;5;4;3;2;1;10;11;12;13]; [9;8;7;6;5;4;3;2;1;10;11;12;13;14]]
   ++ twice "less 5" "  rev" [9;8;7;6;4;3;2;1;10;11;12;13;14] ++ twice "less 9" "  rev" [8;7;6;4;3;2;1;10;11;12;13;14]
   ++ twice "less 14" "  rev" [8;7;6;4;3;2;1;10;11;12;13] ++ twice "less 2" "  rev" rest
   ++ [Text "(did not delete 0)\n"] ++ twice "less 0" "  rev" rest
   ++ [Text "Found 4\n"; Text "Did not find 9\n"]
   ++ [Text "Traversal by AP_list_next()\n"] ++ items_text rest
   ++ [Text "Traversal by AP_listitem_next()\n"] ++ items_text rest
   ++ twice "Original list" "  rev" rest ++ twice "Duplicate    " "  rev" rest ++ twice "Dup add 99   " "  rev" (rest ++ [99])
   ++ [Text "Traversal by AP_listitem_next(), deleting\n"]
   ++ flat_map (fun p => [Text "  Got item "; Num (fst p); Text "\n"; Text "  Got item "; Num (snd p); Text " - deleted\n"]) [(8,7); (6,4); (3,1); (10,11); (12,13)]
   ++ [Text "  Got item "; Num 99; Text "\n"]
   ++ list_text "After delete-traversal" [8;6;3;10;12;99]
   ++ twice "After del    " "  rev" [8;6;3;10;12;99])%list.
