(** The test programs run on the model. *)
From Verif Require Import Base ListModel HandleModel TypeModel CopyModel SysModel CollModel CtestModel FtestModel.
Local Open Scope string_scope.

(** Program start: any junk in fresh storage, with [ol] and [ou] in the two override words of every datatype; any memory that has
    the frame. *)
Definition at_start (hj : Z -> Z -> hitem obj) (lj : Z -> item slot) (rj : Z -> req_obj) (ol ou : Z) (jp : Z -> Z -> typepair) (g : Z -> Z) (other : mem) : sys :=
  sys_start hj lj rj (fun k => mkJunk ol ou (jp k)) (fun a => if (frame <=? a)%Z && (a <? frame + 1200)%Z then Some (g a) else other a).
(** What a program reports. *)
Definition report {A} (e : M A) (s : sys) : res A := do (r, _) <- e s; Ok r.

Theorem C102_ctest_lemma r d tc st hj lj rj jp g other :
  report (ctest (mkCfg r d tc) (SAt st)) (at_start hj lj rj 0 0 jp g other) = Ok [].
Proof. destruct tc; vm_compute; reflexivity. Qed.
Theorem C102_ftest_lemma tc hj lj rj jp g other :
  report (ftest (mkCfg 4 8 tc)) (at_start hj lj rj 0 0 jp g other) = Ok [].
Proof. destruct tc; vm_compute; reflexivity. Qed.
Theorem C102_ctest_bad_lemma r d tc st hj lj rj jp g other :
  report (ctest (mkCfg r d tc) (SAt st)) (at_start hj lj rj 1 0 jp g other) = Ok ["test_indexed_struct"; "test_multiple_struct"] /\
  report (ctest (mkCfg r d tc) (SAt st)) (at_start hj lj rj 0 1 jp g other) = Ok ["test_indexed_struct"; "test_multiple_struct"].
Proof. destruct tc; split; vm_compute; reflexivity. Qed.
Theorem C102_ftest_bad_lemma tc hj lj rj jp g other :
  report (ftest (mkCfg 4 8 tc)) (at_start hj lj rj 1 1 jp g other) = UB "signed long overflow".
Proof. destruct tc; vm_compute; reflexivity. Qed.
Theorem C102_old_lemma r d tc hj lj rj ol ou jp g other s0 s1 s2 s3 s4 s5 s6 s7 s8 s9 :
  report (ctest_old (mkCfg r d tc) [s0; s1; s2; s3; s4; s5; s6; s7; s8; s9]) (at_start hj lj rj ol ou jp g other) =
    Ok ([], [100; 101; 102; 103; 104], [100; 101; 102; 103; 104], [100; 101; 102; 103; 104]) /\
  report (ftest_old (mkCfg r d tc) [s0; s1; s2; s3; s4; s5; s6; s7; s8; s9]) (at_start hj lj rj ol ou jp g other) =
    Ok ([], [(0, 101); (0, 102); (0, 103); (0, 104); (0, 105)], [(0, 1101); (0, 1102); (0, 1103); (0, 1104); (0, 1105)]).
Proof. destruct tc; split; vm_compute; reflexivity. Qed.
