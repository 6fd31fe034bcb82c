(** Facts for C79 (each entry point), C94 and C96. *)
From Verif Require Import Base TypeModel CopyModel SysModel CollModel SysCalls FortModel FortSpec FortFacts.

(** [e] stores the result [r] of a call as 64 bits at its argument: two INTEGERs. *)
Definition writes_wide (e : Z -> M unit) (r : M Z) : Prop :=
  forall a v s s1, r s = Ok (v, s1) -> (forall k, 0 <= k < 8 -> s_mem s1 (a + k) <> None) ->
    exists m', e a s = Ok (tt, set_mem s1 m') /\ integer_at m' a (to_s32 v) /\ integer_at m' (a + 4) (to_s32 (to_u64 v / 2 ^ 32)) /\
      forall x, ~ a <= x < a + 8 -> m' x = s_mem s1 x.
Lemma u64_range v : 0 <= to_u64 v < TWO64. Proof. unfold to_u64, TWO64. apply Z.mod_pos_bound. lia. Qed.
Lemma u64_twice v : to_u64 (to_u64 v) = to_u64 v. Proof. apply to_u64_id. apply u64_range. Qed.
Lemma wide_store (r : M Z) : writes_wide (store_result r) r.
Proof.
  intros a v s s1 E AL. destruct (C79_result_lemma (fun _ => Ok (to_u64 v, s1)) a (to_u64 v) s s1 eq_refl (u64_range v) AL) as (m' & X & B & C & D).
  exists m'. rewrite to_s32_u64 in B. split; [|auto]. rewrite <- X. unfold store_result, mbind. rewrite E. cbn [bind]. unfold store8. rewrite u64_twice. reflexivity.
Qed.
Lemma wide_twice loc : writes_wide (mpi_address loc) (ret loc).
Proof.
  intros a v s s1 E AL. unfold ret in E. injection E as <- <-.
  destruct (wide_store (ret loc) a loc s s eq_refl AL) as (m1 & X1 & A1 & B1 & C1).
  assert (AL2 : forall k, 0 <= k < 8 -> s_mem (set_mem s m1) (a + k) <> None).
  { intros k K. cbn [s_mem set_mem]. destruct A1 as [_ A1]. destruct B1 as [_ B1].
    destruct (Z_lt_le_dec k 4) as [L|L]; [rewrite A1 by lia; discriminate|]. replace (a + k) with (a + 4 + (k - 4)) by lia. rewrite B1 by lia. discriminate. }
  destruct (wide_store (ret loc) a loc (set_mem s m1) (set_mem s m1) eq_refl AL2) as (m2 & X2 & A2 & B2 & C2).
  exists m2. split.
  - unfold mpi_address, mbind. rewrite X1. cbn [bind]. rewrite X2. destruct s; reflexivity.
  - split; [exact A2|]. split; [exact B2|]. intros x N. rewrite C2 by exact N. cbn [s_mem set_mem]. apply C1, N.
Qed.
Theorem C79_each_lemma c n ty cm loc :
  writes_wide (mpi_pack_size c n ty cm) (MPI_Pack_size c n ty cm) /\ writes_wide (mpi_type_extent c ty) (MPI_Type_extent c ty) /\
  writes_wide (mpi_type_lb c ty) (MPI_Type_lb c ty) /\ writes_wide (mpi_type_ub c ty) (MPI_Type_ub c ty) /\
  writes_wide (mpi_get_address loc) (ret loc) /\ writes_wide (mpi_address loc) (ret loc).
Proof. repeat (split; [apply wide_store|]). apply wide_twice. Qed.

(** *** Freeing *)
Lemma comm_free_null h s x s' : MPI_Comm_free h s = Ok (x, s') -> fst (fst x) = MPI_COMM_NULL.
Proof.
  unfold MPI_Comm_free, mbind.
  repeat (match goal with |- bind ?r _ = _ -> _ => lazymatch r with ret _ _ => fail | _ => destruct r as [[? ?]| | | |]; cbn [bind]; try discriminate end end).
  unfold ret. intros X. injection X as <- _. reflexivity.
Qed.
Lemma request_free_null h s x s' : MPI_Request_free h s = Ok (x, s') -> x = MPI_REQUEST_NULL.
Proof. unfold MPI_Request_free, mbind. destruct (release h s) as [[? ?]| | | |]; cbn [bind]; try discriminate. unfold ret. intros X. injection X as <- _. reflexivity. Qed.
Theorem C94_frees_lemma c s :
  (forall h o s', exec c (KCommFree h) s = Ok (o, s') -> exists ws wr, o = VFree MPI_COMM_NULL ws wr) /\
  (forall h o s', exec c (KRequestFree h) s = Ok (o, s') -> o = VInt MPI_REQUEST_NULL) /\
  (forall g, MPI_Group_free g = MPI_GROUP_NULL).
Proof.
  split; [|split]; [| |reflexivity].
  - intros h o s'. cbn [exec]. unfold mmap. unfold mbind at 1. destruct (MPI_Comm_free h s) as [[x t]| | | |] eqn:E; cbn [bind]; try discriminate.
    apply comm_free_null in E. destruct x as [[cm ws] wr]. cbn in E. subst cm. unfold ret. intros X. injection X as <- _. eauto.
  - intros h o s'. cbn [exec]. unfold mmap. unfold mbind at 1. destruct (MPI_Request_free h s) as [[x t]| | | |] eqn:E; cbn [bind]; try discriminate.
    apply request_free_null in E. subst x. unfold ret. intros X. injection X as <- _. reflexivity.
Qed.
Lemma type_free_keeps c h s x s' : MPI_Type_free c h s = Ok (x, s') -> x = h.
Proof.
  unfold MPI_Type_free, mbind. destruct (get_type c h s) as [[[p t] u]| | | |]; cbn [bind fst]; try discriminate. destruct p; [|discriminate].
  cbn [bind]. match goal with |- bind ?r _ = _ -> _ => destruct r as [[? ?]| | | |]; cbn [bind]; try discriminate end.
  unfold ret. intros X. injection X as <- _. reflexivity.
Qed.
Theorem C94_type_lemma c s h o s' : exec c (KTypeFree h) s = Ok (o, s') -> o = VInt h.
Proof.
  cbn [exec]. unfold mmap. unfold mbind at 1. destruct (MPI_Type_free c h s) as [[x t]| | | |] eqn:E; cbn [bind]; try discriminate.
  apply type_free_keeps in E. subst x. unfold ret. intros X. injection X as <- _. reflexivity.
Qed.
