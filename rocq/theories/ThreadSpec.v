(** Specification for two threads allocating a handle: schedules, and what "as some sequential order" means. *)
From Verif Require Import Base HandleModel.
Set Implicit Arguments.

Section ThreadSpec.
Variable D : Type.
(** Two entries are free: [p], then [q]. *)
Definition two_free (t : htab D) (p q : Z * Z) (ip iq : hitem D) : Prop :=
  ht_need_init t = false /\ ht_nextfree t = Some p /\ h_get t p = Ok ip /\ hi_next ip = Some q /\ h_get t q = Ok iq /\ p <> q.

(** The place in the schedule of the [n]th step of a thread. *)
Fixpoint place (who : bool) (n : nat) (sch : list bool) : nat :=
  match sch with
  | [] => O
  | w :: r => if Bool.eqb w who then match n with S (S m) => S (place who (S m) r) | _ => 1%nat end else S (place who n r)
  end.
(** Each thread reads nextfree in its second step and moves it in its third. *)
Definition both_read_first (sch : list bool) : bool :=
  (place false 2 sch <? place true 3 sch)%nat && (place true 2 sch <? place false 3 sch)%nat.
Definition false_first (sch : list bool) : bool := (place false 3 sch <? place true 3 sch)%nat.
Definition five_each (sch : list bool) : Prop := count_occ Bool.bool_dec sch false = 5%nat /\ count_occ Bool.bool_dec sch true = 5%nat.
Definition same_tab (t t' : htab D) : Prop :=
  ht_nblocks t = ht_nblocks t' /\ ht_need_init t = ht_need_init t' /\ ht_nextfree t = ht_nextfree t' /\ forall b i, ht_item t b i = ht_item t' b i.

End ThreadSpec.
