(** Concrete programs for C86 and C87. *)
From Verif Require Import Base HandleModel ListModel TypeModel TypeFinal CopyModel CopyEx SysModel CollModel SysCalls SysSpec SysEx FlowSpec.

(** A sufficient test for [all_along] of legal calls. *)
Definition legal_tooB (c : cfg) (tj : Z -> tjunk) (k : call) (a : astate) : bool :=
  match k with
  | KTypeExtent h => match type_at c a h with Some t => definedb (Type_extent c t) | None => false end
  | _ => legalb c tj k a
  end.
Definition send_doneb (a : astate) (r : Z) : bool := match req_at a r with Some (QSent _) | Some QNullSend => true | _ => false end.
Definition reportsb (k : call) (a : astate) : bool :=
  match k with
  | KTest r _ | KWait r _ => send_doneb a r
  | KTestany n rs _ _ | KWaitany n rs _ _ | KTestall n rs _ | KWaitall n rs _ | KTestsome n rs _ _ | KWaitsome n rs _ _ =>
      existsb (send_doneb a) (firstn (Z.to_nat n) rs)
  | _ => false
  end.
Fixpoint alongb (c : cfg) (tj : Z -> tjunk) (B : call -> astate -> bool) (ks : list call) (a : astate) : bool :=
  match ks with
  | [] => true
  | k :: r => if legal_tooB c tj k a then if B k a then match spec c tj k a with Ret _ a => alongb c tj B r a | _ => true end else false else false
  end.
Lemma legal_tooB_ok c tj k a : legal_tooB c tj k a = true -> legal c tj k a.
Proof.
  destruct k; try apply legalb_ok. cbn. unfold legal_query. destruct (type_at c a h) as [t|]; [|discriminate].
  intros H. exists t. split; [reflexivity|apply definedb_ok, H].
Qed.
Lemma send_doneb_ok a r : send_doneb a r = false -> ~ send_done a r.
Proof. unfold send_doneb, send_done. destruct (req_at a r) as [[]|]; auto; discriminate. Qed.
Lemma reportsb_ok k a : negb (reportsb k a) = true -> no_send_reported k a.
Proof.
  rewrite negb_true_iff. destruct k; cbn; try exact (fun _ => Logic.I); try apply send_doneb_ok; intros H r I; apply send_doneb_ok;
  destruct (send_doneb a r) eqn:E; try reflexivity; exfalso; enough (existsb (send_doneb a) (firstn (Z.to_nat count) reqs) = true) by congruence;
  apply existsb_exists; eauto.
Qed.
Lemma alongb_ok c tj B (P : call -> astate -> Prop) : (forall k a, B k a = true -> P k a) -> forall ks a,
  alongb c tj B ks a = true -> all_along c tj (fun k a => legal c tj k a /\ P k a) ks a.
Proof.
  intros H. induction ks as [|k ks IH]; cbn; [auto|]. intros a. destruct (legal_tooB c tj k a) eqn:L; [|discriminate].
  destruct (B k a) eqn:E; [|discriminate]. intros X. split; [split; [apply legal_tooB_ok, L|apply H, E]|]. destruct (spec c tj k a); auto.
Qed.
Lemma alongb_legal c tj ks a : alongb c tj (fun _ _ => true) ks a = true -> all_along c tj (legal c tj) ks a.
Proof.
  intros H. apply (alongb_ok c tj _ (fun _ _ => True)) in H; [|auto]. revert a H. induction ks as [|k ks IH]; cbn; [auto|].
  intros a [[A _] B]. split; [exact A|]. destruct (spec c tj k a); auto.
Qed.

(** Program start with other junk in fresh storage. *)
Definition other_start : sys :=
  sys_start (fun _ _ => mkHitem 3 None ORaw) (fun _ => ListModel.mkItem (1, 2) None (Some 8)) (fun _ => mkReq (Some 4) 9 8 7 0 5 4) ex_tj ex_mem.
(** Memory with other contents. *)
Definition other_mem : mem := fun a => match ex_mem a with Some _ => Some (a * a mod 251) | None => None end.
(** Two ints go from 100 to 500, the request of the send is given back; one int goes from 200 to 600 on another communicator. *)
Definition h_flow : list call :=
  [KInit; KIrecv 500 2 INTT 0 5 1; KIsend 100 2 INTT 0 5 1; KWait 2 (SAt st0); KRequestFree 3; KCommDup 1; KIsend 200 1 INTT 0 9 3;
   KRecv 600 1 INTT (-1) (-1) 3 (SAt st0)].
(** The status of a completed send. *)
Definition h_sent : list call := [KInit; KIrecv 500 2 INTT 0 5 1; KIsend 100 2 INTT 0 5 1; KWait 3 (SAt st0)].
(** The extent of struct {double; char}. *)
Definition h_struct : list call := [KInit; KTypeCreate (TStruct 2 [1; 1] [0; 8] [-10; -1]); KTypeExtent 2].
(** Memory of a run, at some addresses. *)
Definition seen (l : list Z) (x : list out * res sys) : res (list (option Z)) := do s <- snd x; Ok (map (s_mem s) l).
