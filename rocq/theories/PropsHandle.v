(** Property theorems about handles.c: C01 to C04. *)
From Verif Require Import Base HandleModel HandleSpec HandleProofs.

(** In each theorem [hafter] says, for every history [ops] of legal calls from program start with
    arbitrary uninitialised storage [junk], that every call returns and acts as the set-of-live-handles
    specification [hstep] says (an allocation aborting exactly at capacity), and that the final
    predicate holds where the history ends. *)

(** C01: the next creation never returns 0, a negative handle or a live handle. *)
Theorem C01_fresh_handles :
  forall (D : Type) (junk : Z -> Z -> hitem D) (ops : list (hop D)),
    hafter D ops (htab_init junk) (mkHstate D [] 0)
      (fun t a => forall h t', hexec (HAlloc D) t = Ok (HHandle D h, t') ->
         1 <= h <= CAPACITY /\ hlook D h (hs_live D a) = None).
Proof. exact (fun D junk ops => hafter_init D junk ops _ (habs_fresh D)). Qed.
Print Assumptions C01_fresh_handles.

(** C02: a live handle leads to what was last stored behind it ([hs_live] changes at [h] only by
    stores to [h], by freeing [h], or by destroying the table). *)
Theorem C02_lookup_is_stable :
  forall (D : Type) (junk : Z -> Z -> hitem D) (ops : list (hop D)),
    hafter D ops (htab_init junk) (mkHstate D [] 0)
      (fun t a => forall h d, hlook D h (hs_live D a) = Some d ->
         hexec (HLoad D h) t = Ok (HData d, t) /\
         (forall op out t' a', hexec op t = Ok (out, t') -> hstep D a op out a' ->
            op <> HFree D h -> (forall e, op <> HStore h e) -> op <> HDestroy D ->
            hlook D h (hs_live D a') = Some d)).
Proof. exact (fun D junk ops => hafter_init D junk ops _ (habs_stable D)). Qed.
Print Assumptions C02_lookup_is_stable.

(** C03: creation succeeds iff fewer than 262143 handles are live, and aborts otherwise. *)
Theorem C03_capacity :
  forall (D : Type) (junk : Z -> Z -> hitem D) (ops : list (hop D)),
    hafter D ops (htab_init junk) (mkHstate D [] 0)
      (fun t a => nlive D a <= CAPACITY /\ NoDup (map fst (hs_live D a)) /\
         (nlive D a < CAPACITY <-> exists h t', hexec (HAlloc D) t = Ok (HHandle D h, t')) /\
         (nlive D a = CAPACITY <-> exists m, hexec (HAlloc D) t = Abort m)).
Proof. exact (fun D junk ops => hafter_init D junk ops _ (habs_capacity D)). Qed.
Print Assumptions C03_capacity.

(** C04: the handle just freed is the next one created; and the table holds the smallest number of
    256-entry blocks that fits the high-water mark (entry 0 is never used). *)
Theorem C04_lifo_and_high_water :
  forall (D : Type) (junk : Z -> Z -> hitem D) (ops : list (hop D)),
    hafter D ops (htab_init junk) (mkHstate D [] 0)
      (fun t a =>
         (forall h d, hlook D h (hs_live D a) = Some d ->
            exists t1 t2, hexec (HFree D h) t = Ok (HUnit D, t1) /\
                          hexec (HAlloc D) t1 = Ok (HHandle D h, t2)) /\
         (ht_need_init t = true \/
          (256 * ht_nblocks t >= hs_high D a + 1 /\ 256 * (ht_nblocks t - 1) < hs_high D a + 1))).
Proof. exact (fun D junk ops => hafter_init D junk ops _ (habs_lifo_high D)). Qed.
Print Assumptions C04_lifo_and_high_water.

(** Non-vacuity: a concrete history with creation, stores, frees and reuse. *)
Definition exh_junk : Z -> Z -> hitem Z := fun b i => mkHitem 99 None (b * 1000 + i).
Fixpoint hexec_all (ops : list (hop Z)) (t : htab Z) : res (list (hout Z) * htab Z) :=
  match ops with
  | [] => Ok ([], t)
  | op :: r => do (o, t) <- hexec op t; do (os, t) <- hexec_all r t; Ok (o :: os, t)
  end.
Example exh_outputs :
  (do (os, t) <- hexec_all
     [HAlloc Z; HAlloc Z; HStore 1 11; HStore 2 22; HAlloc Z; HFree Z 2; HAlloc Z; HLoad Z 1; HLoad Z 2]
     (htab_init exh_junk); Ok os) =
  Ok [HHandle Z 1; HHandle Z 2; HUnit Z; HUnit Z; HHandle Z 3; HUnit Z; HHandle Z 2; HData 11; HData 22].
Proof. vm_compute. reflexivity. Qed.
(** A second block is opened for the 256th live handle. *)
Example exh_second_block :
  (do (os, t) <- hexec_all (repeat (HAlloc Z) 256) (htab_init exh_junk); Ok (last os (HUnit Z), ht_nblocks t))
  = Ok (HHandle Z 256, 2).
Proof. vm_compute. reflexivity. Qed.
Example exh_legal : hlegal Z (mkHstate Z [(2, 22); (1, 11)] 2) (HFree Z 2) /\
  hlook Z 1 (hs_live Z (mkHstate Z [(2, 22); (1, 11)] 2)) = Some 11.
Proof. split; [simpl; discriminate|reflexivity]. Qed.
