(** Concrete runs: the hypotheses of the theorems are met, and witnesses against the properties that fail. *)
From Verif Require Import Base ListModel HandleModel HandleExact TypeModel TypeSpec TypeFinal CopyModel CopyEx SysModel CollModel SysCalls SysSpec SysLog SysReach.

(** A program: the calls one after the other, and what they return. *)
Fixpoint runs (c : cfg) (ks : list call) (s : sys) : res (list out * sys) :=
  match ks with [] => Ok ([], s) | k :: r => do (o, s) <- exec c k s; do (os, s) <- runs c r s; Ok (o :: os, s) end.
Definition outs (x : res (list out * sys)) : res (list out) := do (os, _) <- x; Ok os.
Definition bytes_at (l : list Z) (x : res (list out * sys)) : res (list (option Z)) := do (_, s) <- x; Ok (map (s_mem s) l).

(** Program start with some junk in fresh storage; 1000 bytes of memory, byte [a] holding 7a mod 256. *)
Definition ex_tj : Z -> tjunk := fun _ => junk0 0 0.
Definition ex_start : sys :=
  sys_start (fun _ _ => mkHitem 77 (Some (5, 5)) ORaw) (fun _ => ListModel.mkItem (9, 9) (Some 3) None) (fun _ => mkReq None 1 2 3 4 5 6) ex_tj ex_mem.
Definition ex_run (ks : list call) : res (list out * sys) := runs default_cfg ks ex_start.
Definition INTT : Z := -3.   (* MPI_INT *)
Definition st0 : status := mkStatus 11 12 13 14.

(** A sufficient test for legal calls. *)
Definition definedb {A} (r : res A) : bool := match r with UB _ | Diverge => false | _ => true end.
Lemma definedb_ok {A} (r : res A) : definedb r = true -> defined r.
Proof. destruct r; cbn; congruence || exact (fun _ => Logic.I). Qed.
Definition someb {A} (o : option A) : bool := match o with Some _ => true | None => false end.
Section Legalb.
Variable c : cfg.
Variable tj : Z -> tjunk.
Definition knownb (a : astate) (h : Z) : bool := (h =? 0) || someb (a_obj a h).
Definition roomb (a : astate) : bool := a_items a <? INT_MAX.
Definition room_commb (a : astate) : bool := (a_heads a + 2 <=? INT_MAX) && (a_made a <? INT_MAX).
Definition isendb (buf count ty dest tag comm : Z) (a : astate) : bool :=
  knownb a comm &&
  (negb (dest =? 0) || match comm_at a comm with
     | Some k => roomb a && match first_such (fun p => accepts (p_tag p) tag) (k_recvs k) with
                            | Some (_, p, _) => definedb (xfer_res c a buf count ty (p_buf p) (p_count p) (p_type p)) | None => true end
     | None => false end).
Definition irecvb (buf count ty source tag comm : Z) (a : astate) : bool :=
  knownb a comm &&
  (negb ((source =? 0) || (source =? MPI_ANY_SOURCE)) || match comm_at a comm with
     | Some k => roomb a && match first_such (fun p => accepts tag (p_tag p)) (k_sends k) with
                            | Some (_, p, _) => definedb (xfer_res c a (p_buf p) count ty buf count ty) | None => true end
     | None => false end).
Definition reqb (r : Z) (a : astate) : bool := (r =? MPI_REQUEST_NULL) || someb (req_at a r).
Fixpoint nodupb (l : list Z) : bool := match l with [] => true | x :: r => negb (existsb (Z.eqb x) r) && nodupb r end.
Definition reqsb (n : Z) (rs : list Z) (a : astate) : bool :=
  (n <=? Z.of_nat (length rs)) && (n <=? INT_MAX) && forallb (fun r => reqb r a) (firstn (Z.to_nat n) rs) &&
  nodupb (filter (fun r => negb (r =? MPI_REQUEST_NULL)) (firstn (Z.to_nat n) rs)).
Definition stsb (n : Z) (sts : sargs) : bool := match sts with SSIgnore => n <=? 1 | SSAt l => n <=? Z.of_nat (length l) end.
Definition stb (st : sarg) : bool := match st with SBad => false | _ => true end.
Definition legalb (k : call) (a : astate) : bool :=
  match k with
  | KInit | KInitThread _ | KCommDup _ | KCommCreate _ _ | KCommSplit _ _ _ | KIntercomm _ _ => room_commb a
  | KFinalize | KInitialized | KUser _ => true
  | KCommFree h => someb (comm_at a h)
  | KIsend b n t d g cm | KIrsend b n t d g cm | KSend b n t d g cm | KSsend b n t d g cm | KRsend b n t d g cm => isendb b n t d g cm a
  | KIrecv b n t d g cm => irecvb b n t d g cm a
  | KRecv b n t d g cm st => irecvb b n t d g cm a && stb st
  | KTest r st | KWait r st => reqb r a && stb st
  | KTestany n rs _ st | KWaitany n rs _ st => reqsb n rs a && stb st
  | KTestall n rs sts | KWaitall n rs sts => reqsb n rs a && stsb n sts
  | KTestsome n rs _ sts | KWaitsome n rs _ sts => reqsb n rs a && stsb n sts
  | KRequestFree r => complete a r
  | KTypeCreate k => definedb (make_type c tj a k)
  | KTypeCommit h => someb (type_at c a h)
  | KTypeFree h => match a_obj a h with Some (AType _) => true | _ => false end
  | KPack ib n t ob sz p cm => knownb a cm && definedb (pack_res c ib n t ob sz p a)
  | KUnpack ib sz p ob n t cm => knownb a cm && definedb (unpack_res c ib sz p ob n t a)
  | KColl k => definedb (coll_res c k a)
  | KCartCreate _ n dims _ _ => (n <=? Z.of_nat (length dims)) && room_commb a
  | _ => false
  end.

Lemma someb_ok {A} (o : option A) : someb o = true -> exists x, o = Some x.
Proof. destruct o; [eauto|discriminate]. Qed.
Lemma knownb_ok a h : knownb a h = true -> known a h.
Proof. unfold knownb. rewrite orb_true_iff, Z.eqb_eq. intros [H|H]; [left; auto|right]. apply someb_ok in H. destruct H as [x H]. unfold live. congruence. Qed.
Lemma roomb_ok a : roomb a = true -> room a.
Proof. apply Z.ltb_lt. Qed.
Lemma room_commb_ok a : room_commb a = true -> room_comm a.
Proof. unfold room_commb. rewrite andb_true_iff, Z.leb_le, Z.ltb_lt. exact (fun H => H). Qed.
Lemma isendb_ok b n t d g cm a : isendb b n t d g cm a = true -> legal_isend c b n t d g cm a.
Proof.
  unfold isendb. rewrite andb_true_iff, orb_true_iff. intros [H1 H2]. split; [apply knownb_ok; auto|]. intros ->.
  destruct H2 as [H2|H2]; [discriminate|]. destruct (comm_at a cm) as [k|]; [|discriminate]. apply andb_true_iff in H2. destruct H2 as [H2 H3].
  exists k. split; auto. split; [apply roomb_ok; auto|]. intros x p e E. rewrite E in H3. apply definedb_ok. exact H3.
Qed.
Lemma irecvb_ok b n t d g cm a : irecvb b n t d g cm a = true -> legal_irecv c b n t d g cm a.
Proof.
  unfold irecvb. rewrite andb_true_iff, orb_true_iff. intros [H1 H2]. split; [apply knownb_ok; auto|]. intros Hd.
  destruct H2 as [H2|H2]; [destruct Hd as [->| ->]; discriminate|]. destruct (comm_at a cm) as [k|]; [|discriminate].
  apply andb_true_iff in H2. destruct H2 as [H2 H3].
  exists k. split; auto. split; [apply roomb_ok; auto|]. intros x p e E. rewrite E in H3. apply definedb_ok. exact H3.
Qed.
Lemma reqb_ok r a : reqb r a = true -> legal_req r a.
Proof. unfold reqb. rewrite orb_true_iff, Z.eqb_eq. intros [H|H]; [left; auto|right; apply someb_ok; auto]. Qed.
Lemma nodupb_ok l : nodupb l = true -> NoDup l.
Proof.
  induction l as [|x l IH]; [constructor|]. cbn [nodupb]. rewrite andb_true_iff, negb_true_iff. intros [H1 H2]. constructor; auto.
  intros H. assert (existsb (Z.eqb x) l = true); [|congruence]. apply existsb_exists. exists x. rewrite Z.eqb_refl. auto.
Qed.
Lemma reqsb_ok n rs a : reqsb n rs a = true -> legal_reqs n rs a.
Proof.
  unfold reqsb. rewrite !andb_true_iff, !Z.leb_le, forallb_forall. intros [[[H1 H2] H3] H4].
  split; auto. split; auto. split; [intros; apply reqb_ok; auto|apply nodupb_ok; auto].
Qed.
Lemma stsb_ok n sts : stsb n sts = true -> legal_sts n sts.
Proof. destruct sts; apply Z.leb_le. Qed.
Lemma stb_ok st : stb st = true -> st <> SBad.
Proof. destruct st; cbn; congruence. Qed.
Lemma legalb_ok k a : legalb k a = true -> legal c tj k a.
Proof.
  destruct k; cbn [legalb legal]; try discriminate; try (exact (fun H => H)); try exact (fun _ => Logic.I);
    try apply room_commb_ok; try apply isendb_ok; try apply irecvb_ok; try apply someb_ok; try apply definedb_ok;
    try (intros H; right; apply room_commb_ok; exact H); try (intros H; right; right; apply room_commb_ok; exact H);
    try (rewrite andb_true_iff; intros [H1 H2]; split; first [apply stb_ok; assumption|apply irecvb_ok; assumption|apply reqb_ok; assumption|apply reqsb_ok; assumption|apply stsb_ok; assumption]).
  - destruct (a_obj a h) as [[]|]; try discriminate. eauto.
  - rewrite andb_true_iff. intros [H1 H2]. split; [apply knownb_ok; exact H1|apply definedb_ok; exact H2].
  - rewrite andb_true_iff. intros [H1 H2]. split; [apply knownb_ok; exact H1|apply definedb_ok; exact H2].
  - rewrite andb_true_iff, Z.leb_le. intros [H1 H2]. split; [exact H1|apply room_commb_ok; exact H2].
Qed.

(** The states after a program; the first call that is not legal or does not return stops it. *)
Fixpoint go (ks : list call) (s : sys) (a : astate) : option (list out * sys * astate) :=
  match ks with
  | [] => Some ([], s, a)
  | k :: r =>
      if legalb k a then
        match exec c k s, spec c tj k a with
        | Ok (o, s), Ret _ a => match go r s a with Some (os, s, a) => Some (o :: os, s, a) | None => None end
        | _, _ => None
        end
      else None
  end.
Lemma go_reach : forall ks ks0 s a os s' a', reach_by c tj ks0 s a -> go ks s a = Some (os, s', a') ->
  reach_by c tj (ks0 ++ ks) s' a' /\ runs c ks s = Ok (os, s').
Proof.
  induction ks as [|k ks IH]; intros ks0 s a os s' a' R G; cbn [go runs] in *.
  - injection G as <- <- <-. rewrite app_nil_r. auto.
  - destruct (legalb k a) eqn:L; [|discriminate]. destruct (exec c k s) as [[o s1]| | | |] eqn:E; try discriminate.
    destruct (spec c tj k a) as [Q a1| |] eqn:Es; try discriminate. destruct (go ks s1 a1) as [[[os1 s2] a2]|] eqn:G1; [|discriminate].
    injection G as <- <- <-. destruct (IH (ks0 ++ [k]) s1 a1 os1 s2 a2) as [X Y]; auto.
    { eapply reach_by_call; eauto. apply legalb_ok. auto. }
    rewrite <- app_assoc in X. split; auto. cbn [bind]. rewrite Y. reflexivity.
Qed.
End Legalb.

(** The states after a program that starts in [ex_start]. *)
Definition ex_go (ks : list call) := go default_cfg ex_tj ks ex_start (a_start ex_mem).
Definition ex_s (ks : list call) : sys := match ex_go ks with Some (_, s, _) => s | None => ex_start end.
Definition ex_a (ks : list call) : astate := match ex_go ks with Some (_, _, a) => a | None => a_start ex_mem end.
Definition ex_o (ks : list call) : list out := match ex_go ks with Some (o, _, _) => o | None => [] end.
Definition ex_ok (ks : list call) : bool := someb (ex_go ks).
Lemma ex_by ks : ex_ok ks = true -> reach_by default_cfg ex_tj ks (ex_s ks) (ex_a ks).
Proof.
  unfold ex_ok, ex_s, ex_a. destruct (ex_go ks) as [[[o s] a]|] eqn:E; [|discriminate]. intros _.
  apply (go_reach _ _ ks [] _ _ _ _ _ (reach_by_start _ _ _ _ _ _) E).
Qed.
Definition ex_reach ks (H : ex_ok ks = true) : reach default_cfg ex_tj (ex_s ks) (ex_a ks) := ltac:(
  exact (let fix F ks s a (R : reach_by default_cfg ex_tj ks s a) : reach default_cfg ex_tj s a :=
    match R with
    | reach_by_start _ _ hj lj rj m => reach_start _ _ hj lj rj m
    | reach_by_call _ _ ks s a k o s' Q a' R L E1 E2 => reach_call _ _ _ _ _ _ _ _ _ (F _ _ _ R) L E1 E2
    end in F _ _ _ (ex_by ks H))).
Definition okb {A} (r : res A) : bool := match r with Ok _ => true | _ => false end.
Lemma okb_ok {A} (r : res A) : okb r = true -> exists x, r = Ok x.
Proof. destruct r; try discriminate. eauto. Qed.
