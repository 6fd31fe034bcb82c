(** What a receive that finds its message already sent delivers (C32, C33, C44): the sender's count and datatype play no part. *)
From Coq Require Import Lia.
From Verif Require Import Base HandleSpec HandleExact TypeModel TypeSpec TypeProofs TypeCons CopyModel CopySpec CopyProofs CopyFinal SysModel CollModel SysCalls SysSpec SysLog SysReach SysInv SysAbs SysSim SysSim2 SysSim3 SysHist SysFacts SysFacts2 SysFacts3 SysFacts6.

Section First.
Context {c : cfg} {tj : Z -> tjunk}.
Notation reach := (SysReach.reach c tj).
Notation does := (SysReach.does c tj).

Lemma same_agree n t : 0 <= n -> types_agree n t n t.
Proof. intros H. replace n with (n + 0) at 1 by lia. apply agree_prefix; lia. Qed.
Theorem C32_first_lemma s a b n t td ed so g cm k bf p e : reach s a -> has_handle a -> room a -> comm_at a cm = Some k -> so = 0 \/ so = MPI_ANY_SOURCE ->
  earliest Rcv g k bf p e -> cfg_ok c -> mem_ok (s_mem s) -> type_at c a t = Some td ->
  transfer c n td ed n td ed -> offsets_fit n ed (typemap td) ->
  let S := layout c (p_buf p) n ed (typemap td) in let D := layout c b n ed (typemap td) in
  buffers_ok (s_mem s) S D ->
  exists m', same_domain (s_mem s) m' /\ copied (s_mem s) m' S D /\
    (exists h s' a', does s a (KIrecv b n t so g cm) (VInt h) s' a' /\ s_mem s' = m' /\ paired Rcv a cm k (a_clock a) h g bf p e m' a') /\
    (forall st, st <> SBad -> exists s' a' st', does s a (KRecv b n t so g cm st) (VStatus (with_count st' n)) s' a' /\ s_mem s' = m' /\
       wrote st (Write (Some 0) (Some (p_tag p))) st' /\ absorbed Rcv a cm k (a_clock a) g bf p e m' a').
Proof.
  intros R H Rm Ek So Ea CO MO E1 T F S D B. rewrite (ab_mem (reach_abs _ _ R)) in *. pose proof (tr_nd _ _ _ _ _ _ _ T) as N0.
  destruct (xfer_copy a (p_buf p) n t td ed b n t td ed CO MO E1 E1 T (fun _ => same_agree n td N0) F F B) as (m' & Ex & SD & Cp).
  exists m'. split; auto. split; auto. split.
  - destruct (C09_lemma s a b n t so g cm k R H Rm Ek So) as [X _]. destruct (X _ _ _ _ Ea Ex) as (h & s' & a' & Do & P). exists h, s', a'. split; auto. split; [rewrite (does_mem _ _ _ _ _ _ Do); apply P|exact P].
  - intros st Ns. destruct (C21_lemma s a b n t so g cm k st R H Rm Ek So Ns) as [X _]. destruct (X _ _ _ Ea) as [Y _]. destruct (Y _ Ex) as (s' & a' & st' & Do & W & P).
    exists s', a', st'. split; auto. split; [rewrite (does_mem _ _ _ _ _ _ Do); apply P|]. split; [exact W|exact P].
Qed.

(** *** The two orders, for any two datatypes whose layouts coincide as far as the receive goes. *)
Lemma layout_prefix_reads S1 S2 D r : S2 = S1 ++ r -> length S1 = length D -> reads S2 D = reads S1 D.
Proof. intros -> L. unfold reads. rewrite combine_prefix by exact L. reflexivity. Qed.
Theorem C32_layouts_lemma s1 a1 s2 a2 src sn ts es sty dst n td ed ty so sg rg cm k1 bf1 p1 e1 k2 bf2 p2 e2 r :
  reach s1 a1 -> reach s2 a2 -> (forall x, s_mem s2 x = s_mem s1 x) -> has_handle a1 -> has_handle a2 -> room a1 -> room a2 ->
  comm_at a1 cm = Some k1 -> earliest Rcv rg k1 bf1 p1 e1 -> p_buf p1 = src -> p_count p1 = sn -> p_type p1 = sty -> p_tag p1 = sg ->
  comm_at a2 cm = Some k2 -> earliest Snd sg k2 bf2 p2 e2 -> p_buf p2 = dst -> p_count p2 = n -> p_type p2 = ty -> p_tag p2 = rg ->
  so = 0 \/ so = MPI_ANY_SOURCE -> type_at c a1 ty = Some td -> type_at c a2 ty = Some td -> type_at c a2 sty = Some ts ->
  cfg_ok c -> mem_ok (s_mem s1) -> transfer c sn ts es n td ed -> (type_checking c = true -> types_agree sn ts n td) ->
  offsets_fit sn es (typemap ts) -> offsets_fit n ed (typemap td) ->
  let S := layout c src sn es (typemap ts) in let D := layout c dst n ed (typemap td) in
  buffers_ok (s_mem s1) S D ->
  S = layout c src n ed (typemap td) ++ r ->
  exists h1 s1' a1' h2 s2' a2', does s1 a1 (KIrecv dst n ty so rg cm) (VInt h1) s1' a1' /\ does s2 a2 (KIsend src sn sty 0 sg cm) (VInt h2) s2' a2' /\
    (forall x, s_mem s1' x = s_mem s2' x) /\ copied (s_mem s1) (s_mem s1') S D /\ copied (s_mem s2) (s_mem s2') S D.
Proof.
  intros R1 R2 M H1 H2 Rm1 Rm2 Ek1 Ea1 P1 P2 P3 P4 Ek2 Ea2 P5 P6 P7 P8 So T1 T2 T3 CO MO T TA F1 F2 S D B ES.
  set (S1 := layout c src n ed (typemap td)) in *.
  assert (LL : length S1 = length D) by apply layout_len.
  assert (RE : reads S D = reads S1 D) by (eapply layout_prefix_reads; eauto).
  assert (B1 : buffers_ok (s_mem s1) S1 D) by (unfold buffers_ok in *; rewrite RE in B; exact B).
  assert (MO2 : mem_ok (s_mem s2)) by (intros x; rewrite M; apply MO).
  assert (B2 : buffers_ok (s_mem s2) S D). { destruct B as (X1 & X2 & X3). split; [intros q x Hq Hx; rewrite M; eapply X1; eauto|]. split; [intros q x Hq Hx; rewrite M; eapply X2; eauto|auto]. }
  assert (T' : transfer c n td ed n td ed).
  { destruct T. constructor; auto; lia. }
  subst src dst n ty.
  destruct (C32_first_lemma s1 a1 (p_buf p2) (p_count p2) (p_type p2) td ed so rg cm k1 bf1 p1 e1 R1 H1 Rm1 Ek1 So Ea1 CO MO T1 T' F2 B1) as (m1 & _ & C1 & (h1 & s1' & a1' & D1 & M1 & _) & _).
  destruct (C31_lemma s2 a2 (p_buf p1) sn sty ts es sg cm k2 bf2 p2 e2 td ed R2 H2 Rm2 Ek2 Ea2 CO MO2 T3 T2 T TA F1 F2 B2) as (m2 & _ & C2 & (h2 & s2' & a2' & D2 & M2 & _) & _).
  exists h1, s1', a1', h2, s2', a2'. split; [exact D1|]. split; [exact D2|]. rewrite M1, M2.
  assert (C1' : copied (s_mem s1) m1 S D).
  { destruct C1 as [X Y]. split; [|exact Y]. intros i q d j Eq Ed Hj. rewrite ES in Eq. rewrite nth_error_app1 in Eq by (rewrite LL; apply nth_error_Some; congruence). apply (X i q d j Eq Ed Hj). }
  split; [|split; [exact C1'|exact C2]].
  assert (C3 : copied (s_mem s1) m2 S D).
  { destruct C2 as [X Y]. split; intros; [rewrite <- M; eapply X; eauto|rewrite <- M; apply Y; auto]. }
  eapply (copied_same _ m1 m2 S S D); [|exists []; rewrite app_nil_r; reflexivity|exact C1'|exact C3]. rewrite ES, app_length, LL. lia.
Qed.
End First.
