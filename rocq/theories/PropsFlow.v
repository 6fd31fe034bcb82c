(** Property theorems about what results can depend on: C86 and C87. *)
From Verif Require Import Base HandleModel ListModel TypeModel TypeFinal CopyModel CopyEx SysModel CollModel SysCalls SysSpec SysEx FlowSpec FlowFacts StaleFacts FlowEx.

(** C86: the library moves bytes without looking at them.  Take any relation between bytes, any library state (reachable or
    not) with two memories related by it, and any program, whatever its arguments.  Both runs give the same outputs and end the
    same way (with the same diagnostic, even where the behaviour is undefined), in the same library state and with related memories. *)
Theorem C86_bytes_are_moved_blindly :
  forall (R : Z -> Z -> Prop) (c : cfg) (ks ks' : list call) (s s' : sys),
    Forall2 (calls R) ks ks' -> states R s s' ->
    fst (run c ks s) = fst (run c ks' s') /\ ends (states R) (snd (run c ks s)) (snd (run c ks' s')).
Proof. exact blind_run. Qed.
Print Assumptions C86_bytes_are_moved_blindly.
(** In particular the contents of memory have no influence on outputs, outcome or library state. *)
Theorem C86_contents_do_not_matter :
  forall (c : cfg) (ks : list call) (s : sys) (m' : mem), Forall no_store ks -> same_layout (s_mem s) m' ->
    fst (run c ks s) = fst (run c ks (set_mem s m')) /\
    ends (fun t t' => t' = set_mem t (s_mem t') /\ same_layout (s_mem t) (s_mem t')) (snd (run c ks s)) (snd (run c ks (set_mem s m'))).
Proof. exact C86_contents_lemma. Qed.
Print Assumptions C86_contents_do_not_matter.
(** Recoding all bytes before the program is the same as recoding them after it. *)
Theorem C86_recoding :
  forall (c : cfg) (f : Z -> Z) (ks : list call) (s : sys),
    fst (run c (map (recoded_call f) ks) (set_mem s (recoded f (s_mem s)))) = fst (run c ks s) /\
    ends (fun t t' => t' = set_mem t (s_mem t') /\ forall a, s_mem t' a = recoded f (s_mem t) a)
      (snd (run c ks s)) (snd (run c (map (recoded_call f) ks) (set_mem s (recoded f (s_mem s))))).
Proof. exact C86_recoding_lemma. Qed.
Print Assumptions C86_recoding.
(** The library never makes up a byte: whatever holds of all bytes of memory still does after any calls. *)
Theorem C86_no_byte_invented :
  forall (c : cfg) (ks : list call) (s t : sys) (P : Z -> Prop),
    Forall no_store ks -> (forall a b, s_mem s a = Some b -> P b) -> snd (run c ks s) = Ok t -> forall a b, s_mem t a = Some b -> P b.
Proof. exact C86_no_byte_invented_lemma. Qed.
Print Assumptions C86_no_byte_invented.
(** Eight calls with traffic on two communicators: the outputs, and the bytes received with either memory. *)
Example C86_ex : Forall no_store h_flow /\ same_layout ex_mem other_mem /\
  fst (run default_cfg h_flow ex_start) =
    [VUnit; VInt 2; VInt 3; VWait 0 (SAt (mkStatus 0 5 13 14)); VInt 0; VInt 3; VInt 2; VStatus (SAt (mkStatus 0 9 13 1))] /\
  seen [500; 501; 600] (run default_cfg h_flow ex_start) = Ok [Some 188; Some 195; Some 120] /\
  fst (run default_cfg h_flow (set_mem ex_start other_mem)) = fst (run default_cfg h_flow ex_start) /\
  seen [500; 501; 600] (run default_cfg h_flow (set_mem ex_start other_mem)) = Ok [Some 211; Some 161; Some 91].
Proof.
  split; [repeat constructor|]. split; [intros a; unfold other_mem; destruct (ex_mem a); split; discriminate || reflexivity|].
  do 3 (split; [vm_compute; reflexivity|]). vm_compute; reflexivity.
Qed.

(** C87 is false as it stands: the extent of a struct type of a double and a char is 16 or 9, depending on what malloc returned. *)
Theorem C87_derived_types_refuted :
  exists tj tj' : Z -> tjunk, forall hj lj rj,
    all_along default_cfg tj (legal default_cfg tj) h_struct (a_start ex_mem) /\ all_along default_cfg tj' (legal default_cfg tj') h_struct (a_start ex_mem) /\
    fst (run default_cfg h_struct (sys_start hj lj rj tj ex_mem)) = [VUnit; VInt 2; VInt 16] /\
    fst (run default_cfg h_struct (sys_start hj lj rj tj' ex_mem)) = [VUnit; VInt 2; VInt 9].
Proof.
  exists (fun _ => junk0 0 0), (fun _ => junk0 0 1). intros hj lj rj.
  split; [apply alongb_legal; vm_compute; reflexivity|]. split; [apply alongb_legal; vm_compute; reflexivity|]. split; vm_compute; reflexivity.
Qed.
Print Assumptions C87_derived_types_refuted.
(** Missing: programs that make derived datatypes, whose bounds come from uninitialised storage.  What does hold for programs that
    make none, with any contents of fresh storage: the outputs, the way the program ends and the final memory are the same,
    as long as no call reports on a completed send. *)
Theorem C87_uninitialised_storage_partial :
  forall (c : cfg) (tj tj' : Z -> tjunk) hj lj rj hj' lj' rj' (m : mem) (ks : list call),
    Forall no_new_type ks -> all_along c tj (fun k a => legal c tj k a /\ no_send_reported k a) ks (a_start m) ->
    let x := run c ks (sys_start hj lj rj tj m) in
    let y := run c ks (sys_start hj' lj' rj' tj' m) in
    fst x = fst y /\ ends (fun s s' => s_mem s = s_mem s') (snd x) (snd y).
Proof. exact C87_basic_lemma. Qed.
Print Assumptions C87_uninitialised_storage_partial.
(** With derived datatypes: the same, if only the storage of datatypes holds the same. *)
Theorem C87_with_derived_types :
  forall (c : cfg) (tj : Z -> tjunk) hj lj rj hj' lj' rj' (m : mem) (ks : list call),
    all_along c tj (fun k a => legal c tj k a /\ no_send_reported k a) ks (a_start m) ->
    let x := run c ks (sys_start hj lj rj tj m) in
    let y := run c ks (sys_start hj' lj' rj' tj m) in
    fst x = fst y /\ ends (fun s s' => s_mem s = s_mem s') (snd x) (snd y).
Proof. exact C87_exact_lemma. Qed.
Print Assumptions C87_with_derived_types.
(** For all legal programs: the outputs are the same except for the sources and tags in statuses; nothing is undefined. *)
Theorem C87_up_to_statuses :
  forall (c : cfg) (tj : Z -> tjunk) hj lj rj hj' lj' rj' (m : mem) (ks : list call),
    all_along c tj (legal c tj) ks (a_start m) ->
    let x := run c ks (sys_start hj lj rj tj m) in
    let y := run c ks (sys_start hj' lj' rj' tj m) in
    map bare_out (fst x) = map bare_out (fst y) /\ ends (fun s s' => s_mem s = s_mem s') (snd x) (snd y) /\ defined (snd x).
Proof. exact C87_lemma. Qed.
Print Assumptions C87_up_to_statuses.
(** The condition on completed sends is needed: their status holds what was in fresh storage (MPI leaves it undefined). *)
Theorem C87_send_status_is_stale :
  all_along default_cfg ex_tj (legal default_cfg ex_tj) h_sent (a_start ex_mem) /\
  fst (run default_cfg h_sent ex_start) = [VUnit; VInt 2; VInt 3; VWait 0 (SAt (mkStatus 2 3 13 14))] /\
  fst (run default_cfg h_sent other_start) = [VUnit; VInt 2; VInt 3; VWait 0 (SAt (mkStatus 8 7 13 14))].
Proof. split; [apply alongb_legal; vm_compute; reflexivity|]. split; vm_compute; reflexivity. Qed.
Print Assumptions C87_send_status_is_stale.
Example C87_ex : Forall no_new_type h_flow /\
  all_along default_cfg ex_tj (fun k a => legal default_cfg ex_tj k a /\ no_send_reported k a) h_flow (a_start ex_mem) /\
  fst (run default_cfg h_flow ex_start) = fst (run default_cfg h_flow other_start) /\
  seen [500; 501; 600] (run default_cfg h_flow other_start) = Ok [Some 188; Some 195; Some 120].
Proof.
  split; [repeat constructor|]. split; [apply (alongb_ok _ _ (fun k a => negb (reportsb k a)) _ reportsb_ok); vm_compute; reflexivity|].
  split; vm_compute; reflexivity.
Qed.
