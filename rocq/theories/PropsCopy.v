(** Property theorems about typed copies and packing: C48 to C55 (and the data part of C43). *)
From Verif Require Import Base TypeModel TypeSpec TypeFinal CopyModel CopySpec CopyFinal CopyEx.

(** C48: the copy moves the k-th source element to the k-th destination element, for every k, and nothing else.
    [layout] is the list of (address, size) of the basic elements, computed from the typemap and the extent;
    offsets stay in the 32-bit range (beyond: C50).  When type checking is compiled in, the element types must agree. *)
Theorem C48_typed_copy :
  forall (c : cfg) (m : mem) (source ns : Z) (ts : typestruct) (es dest nd : Z) (td : typestruct) (ed : Z),
    cfg_ok c -> mem_ok m -> transfer c ns ts es nd td ed ->
    (type_checking c = true -> types_agree ns ts nd td) ->
    offsets_fit ns es (typemap ts) -> offsets_fit nd ed (typemap td) ->
    let S := layout c source ns es (typemap ts) in
    let D := layout c dest nd ed (typemap td) in
    buffers_ok m S D ->
    exists m', Pcopy_data2 c m source ns ts dest nd td = Ok m' /\ same_domain m m' /\ copied m m' S D.
Proof. exact (fun c m s ns ts es d nd td ed CO => C48_lemma c CO m s ns ts es d nd td ed). Qed.
Print Assumptions C48_typed_copy.

(** C49: copying A (any type) to B (any type with the same element sizes, e.g. contiguous) and back restores A,
    whatever happened to memory outside B in between. *)
Theorem C49_round_trip :
  forall (c : cfg) (m : mem) (a na : Z) (ta : typestruct) (ea b nb : Z) (tb : typestruct) (eb : Z) (m1 : mem),
    cfg_ok c -> mem_ok m -> transfer c na ta ea nb tb eb -> transfer c nb tb eb na ta ea ->
    (type_checking c = true -> types_agree na ta nb tb) ->
    offsets_fit na ea (typemap ta) -> offsets_fit nb eb (typemap tb) ->
    let A := layout c a na ea (typemap ta) in
    let B := layout c b nb eb (typemap tb) in
    map snd A = map snd B -> live m A -> live m B -> all_apart A B -> pairwise_apart A -> pairwise_apart B ->
    Pcopy_data2 c m a na ta b nb tb = Ok m1 ->
    forall m2, same_domain m1 m2 -> bytes m2 B = bytes m1 B ->
    exists m3, Pcopy_data2 c m2 b nb tb a na ta = Ok m3 /\ bytes m3 A = bytes m A /\
      (forall x, (forall r, In r A -> ~ inside r x) -> m3 x = m2 x).
Proof. exact (fun c m a na ta ea b nb tb eb m1 CO => C49_lemma c CO m a na ta ea b nb tb eb m1). Qed.
Print Assumptions C49_round_trip.

(** C50, full statement: C48 without the two [offsets_fit] hypotheses.  It is false: a committed type holding one char at
    displacement 2^31 is copied from 2^31 bytes before the buffer instead. *)
Theorem C50_large_offsets_refuted :
  exists (t : typestruct) (ext : Z) (m m' : mem) (source dest : Z),
    build default_cfg (fun _ => junk0 0 0) (EStruct [(1, 2147483648, EPre (-1))]) = Ok t /\
    mem_ok m /\ transfer default_cfg 1 (Type_commit t) ext 1 ex_char 1 /\
    let S := layout default_cfg source 1 ext (typemap (Type_commit t)) in
    let D := layout default_cfg dest 1 1 (typemap ex_char) in
    S = [(source + 2147483648, 1)] /\ D = [(dest, 1)] /\ buffers_ok m S D /\
    Pcopy_data2 default_cfg m source 1 (Type_commit t) dest 1 ex_char = Ok m' /\
    m (source + 2147483648) = Some 7 /\ m' dest = Some 1 /\ ~ copied m m' S D.
Proof. exact C50_refuted_lemma. Qed.
Print Assumptions C50_large_offsets_refuted.

(** What does hold for every offset: the copy is exact for the layout whose offsets are reduced to 32 bits.
    Missing: that this is the layout the caller asked for, which is false. *)
Theorem C50_large_offsets_partial :
  forall (c : cfg) (m : mem) (source ns : Z) (ts : typestruct) (es dest nd : Z) (td : typestruct) (ed : Z),
    cfg_ok c -> mem_ok m -> transfer c ns ts es nd td ed ->
    (type_checking c = true -> types_agree ns ts nd td) ->
    let S := layout32 c source ns es (typemap ts) in
    let D := layout32 c dest nd ed (typemap td) in
    buffers_ok m S D ->
    exists m', Pcopy_data2 c m source ns ts dest nd td = Ok m' /\ same_domain m m' /\ copied m m' S D.
Proof. exact (fun c m s ns ts es d nd td ed CO => C50_lemma c CO m s ns ts es d nd td ed). Qed.
Print Assumptions C50_large_offsets_partial.

(** C51: with type checking compiled in, agreeing transfers behave exactly as without it, whatever memory is like; any
    disagreeing pair ends the program. *)
Theorem C51_type_checking :
  forall (c : cfg) (m : mem) (source ns : Z) (ts : typestruct) (es dest nd : Z) (td : typestruct) (ed : Z),
    cfg_ok c -> type_checking c = true -> transfer c ns ts es nd td ed ->
    (types_agree ns ts nd td ->
       Pcopy_data2 c m source ns ts dest nd td = Pcopy_data2 (unchecked c) m source ns ts dest nd td) /\
    (~ types_agree ns ts nd td -> mem_ok m ->
       buffers_ok m (layout32 c source ns es (typemap ts)) (layout32 c dest nd ed (typemap td)) ->
       Pcopy_data2 c m source ns ts dest nd td = Exit 1 "copy_data: Types don't match.").
Proof.
  exact (fun c m s ns ts es d nd td ed CO TC T =>
    conj (C51_accept c m s ns ts es d nd td ed T)
         (fun NA MO B => C51_reject c CO m s ns ts es d nd td ed TC MO T NA B)).
Qed.
Print Assumptions C51_type_checking.

(** C52: unpacking what was packed restores the data, even if memory outside the packed bytes changed in between. *)
Theorem C52_pack_unpack :
  forall (c : cfg) (m : mem) (inbuf n : Z) (t : typestruct) (ext buf size position outbuf : Z),
    cfg_ok c -> typed c t ext ->
    let A := layout c inbuf n ext (typemap t) in
    let B := layout c outbuf n ext (typemap t) in
    pack_ok m A buf size position -> position + total_size A <= size ->
    exists m1 p1, Pack c m inbuf n t buf size position = Ok (m1, p1) /\
      forall m2, same_domain m1 m2 -> bytes m2 [(buf + position, total_size A)] = bytes m1 [(buf + position, total_size A)] ->
        pack_ok m2 B buf size position -> pairwise_apart B ->
        exists m3, Unpack c m2 buf size position outbuf n t = Ok (m3, p1) /\ bytes m3 B = bytes m A.
Proof. exact (fun c m i n t e b s p o CO => C52_lemma c CO m i n t e b s p o). Qed.
Print Assumptions C52_pack_unpack.

(** C53: bounds.  The packed range is [position, position + total); it is written completely and nothing else is; the
    program ends exactly when it does not fit.  Then the same for unpacking. *)
Theorem C53_pack_bounds :
  forall (c : cfg) (m : mem) (inbuf n : Z) (t : typestruct) (ext outbuf outsize position : Z),
    cfg_ok c -> typed c t ext ->
    let U := layout c inbuf n ext (typemap t) in
    pack_ok m U outbuf outsize position ->
    let run := Pack c m inbuf n t outbuf outsize position in
    if position + total_size U <=? outsize then
      exists m', run = Ok (m', position + total_size U) /\ same_domain m m' /\
        bytes m' [(outbuf + position, total_size U)] = bytes m U /\
        (forall a, ~ inside (outbuf + position, total_size U) a -> m' a = m a)
    else run = Exit 1 "MPI_Pack: data exceeds buffer size".
Proof. exact (fun c m i n t e o s p CO => C53_pack_lemma c CO m i n t e o s p). Qed.
Print Assumptions C53_pack_bounds.

Theorem C53_unpack_bounds :
  forall (c : cfg) (m : mem) (inbuf insize position outbuf n : Z) (t : typestruct) (ext : Z),
    cfg_ok c -> typed c t ext ->
    let U := layout c outbuf n ext (typemap t) in
    pack_ok m U inbuf insize position -> pairwise_apart U ->
    let run := Unpack c m inbuf insize position outbuf n t in
    if position + total_size U <=? insize then
      exists m', run = Ok (m', position + total_size U) /\ same_domain m m' /\
        bytes m' U = bytes m [(inbuf + position, total_size U)] /\
        (forall a, (forall r, In r U -> ~ inside r a) -> m' a = m a)
    else run = Exit 1 "MPI_Unpack: Data exceeds buffer size".
Proof. exact (fun c m i s p o n t e CO => C53_unpack_lemma c CO m i s p o n t e). Qed.
Print Assumptions C53_unpack_bounds.

(** [total_size] of a message is count times the type size, so "position advances by count*size". *)
Theorem C53_total :
  forall (c : cfg) (base n ext : Z) (tm : list elem), 0 <= n ->
    total_size (layout c base n ext tm) = n * map_size c tm.
Proof. exact total_layout_lemma. Qed.
Print Assumptions C53_total.

(** C54: MPI_Pack_size is exact. *)
Theorem C54_pack_size :
  forall (c : cfg) (n : Z) (t : typestruct) (ext : Z),
    cfg_ok c -> typed c t ext -> 0 <= n -> n * map_size c (typemap t) < TWO64 ->
    Pack_size c n t = Ok (n * map_size c (typemap t)) /\
    forall m inbuf outbuf outsize position,
      pack_ok m (layout c inbuf n ext (typemap t)) outbuf outsize position ->
      ((exists st, Pack c m inbuf n t outbuf outsize position = Ok st) <-> n * map_size c (typemap t) <= outsize - position) /\
      ((exists st, Pack c m inbuf n t outbuf outsize position = Ok st) \/
       Pack c m inbuf n t outbuf outsize position = Exit 1 "MPI_Pack: data exceeds buffer size").
Proof. exact (fun c n t e CO => C54_lemma c CO n t e). Qed.
Print Assumptions C54_pack_size.

(** C55: any sequence of items packs consecutively, and unpacking in the same order (to other places) recovers each. *)
Theorem C55_pack_sequences :
  forall (c : cfg) (its its' : list item) (m : mem) (buf size position : Z),
    cfg_ok c ->
    Forall (fun it => typed c (it_type it) (it_ext it)) its -> Forall (fun it => typed c (it_type it) (it_ext it)) its' ->
    let A := items_layout c its in let B := items_layout c its' in
    map (fun it => (it_count it, it_type it, it_ext it)) its = map (fun it => (it_count it, it_type it, it_ext it)) its' ->
    pack_ok m A buf size position -> position + total_size A <= size ->
    exists m1, pack_all c its buf size m position = Ok (m1, position + total_size A) /\ same_domain m m1 /\
      bytes m1 [(buf + position, total_size A)] = flat_map (fun it => bytes m (item_layout c it)) its /\
      (forall a, ~ inside (buf + position, total_size A) a -> m1 a = m a) /\
      forall m2, same_domain m1 m2 -> bytes m2 [(buf + position, total_size A)] = bytes m1 [(buf + position, total_size A)] ->
        pack_ok m2 B buf size position -> pairwise_apart B ->
        exists m3, unpack_all c its' buf size m2 position = Ok (m3, position + total_size A) /\
          Forall2 (fun it it' => bytes m3 (item_layout c it') = bytes m (item_layout c it)) its its' /\
          (forall a, (forall r, In r B -> ~ inside r a) -> m3 a = m2 a).
Proof. exact (fun c its its' m b s p CO => C55_lemma c CO its its' m b s p). Qed.
Print Assumptions C55_pack_sequences.

(** C43, data part: communicating a type without elements moves nothing. *)
Theorem C43_empty_moves_nothing :
  forall (c : cfg) (m : mem) (source ns : Z) (ts : typestruct) (es dest nd : Z) (td : typestruct) (ed : Z),
    typed c ts es -> typed c td ed -> ts_committed ts <> 0 -> ts_committed td <> 0 ->
    0 <= ns -> 0 <= nd -> nelems ns ts <= INT_MAX -> typemap td = [] ->
    Pcopy_data2 c m source ns ts dest nd td = Ok m.
Proof. exact C43_data_lemma. Qed.
Print Assumptions C43_empty_moves_nothing.

(** Copy level of C44 and C33: uncommitted types and over-receives end the program before anything moves. *)
Theorem C44_copy_uncommitted :
  forall (c : cfg) (m : mem) (source ns : Z) (ts : typestruct) (dest nd : Z) (td : typestruct),
    ts_committed ts = 0 \/ ts_committed td = 0 ->
    Pcopy_data2 c m source ns ts dest nd td = Exit (-1) "Type not committed".
Proof. exact C44_copy_lemma. Qed.
Print Assumptions C44_copy_uncommitted.
Theorem C33_copy_over_receive :
  forall (c : cfg) (m : mem) (source ns : Z) (ts : typestruct) (es dest nd : Z) (td : typestruct) (ed : Z),
    typed c ts es -> typed c td ed -> ts_committed ts <> 0 -> ts_committed td <> 0 ->
    is_int (nelems ns ts) -> is_int (nelems nd td) -> nelems ns ts < nelems nd td ->
    Pcopy_data2 c m source ns ts dest nd td = Exit 1 "copy_data: Trying to over-receive".
Proof. exact C33_copy_lemma. Qed.
Print Assumptions C33_copy_over_receive.

(** *** The hypotheses are met by concrete cases. *)
(** Three copies of vector(2 ints, stride 2) at address 100 against three copies of contiguous(2 ints) at 500. *)
Example ex_copy_case : mem_ok ex_mem /\ offsets_fit 3 12 (typemap ex_vec) /\ offsets_fit 3 8 (typemap ex_con) /\
  let A := layout default_cfg 100 3 12 (typemap ex_vec) in let B := layout default_cfg 500 3 8 (typemap ex_con) in
  A = [(100, 4); (108, 4); (112, 4); (120, 4); (124, 4); (132, 4)] /\
  B = [(500, 4); (504, 4); (508, 4); (512, 4); (516, 4); (520, 4)] /\
  buffers_ok ex_mem A B /\ live ex_mem A /\ all_apart A B /\ pairwise_apart A /\ map snd A = map snd B /\
  types_agree 3 ex_vec 3 ex_con.
Proof. exact ex_copy. Qed.
Example ex_transfer_case : transfer default_cfg 3 ex_vec 12 3 ex_con 8 /\ transfer default_cfg 3 ex_con 8 3 ex_vec 12.
Proof. exact ex_transfer. Qed.
Example ex_copy_runs :
  match Pcopy_data2 default_cfg ex_mem 100 3 ex_vec 500 3 ex_con with
  | Ok m' => (m' 504, m' 508, m' 100, m' 524) | _ => (None, None, None, None) end
  = (ex_mem 108, ex_mem 112, ex_mem 100, ex_mem 524).
Proof. vm_compute. reflexivity. Qed.
(** C51: two ints to two floats. *)
Example ex_check_case : let S := layout32 ex_chk 100 2 4 (typemap (pre1 4 2)) in let D := layout32 ex_chk 500 2 4 (typemap (pre1 4 8)) in
  cfg_ok ex_chk /\ transfer ex_chk 2 (pre1 4 2) 4 2 (pre1 4 8) 4 /\ ~ types_agree 2 (pre1 4 2) 2 (pre1 4 8) /\ buffers_ok ex_mem S D.
Proof. exact ex_check. Qed.
Example ex_pack_case : let U := layout default_cfg 100 3 12 (typemap ex_vec) in
  pack_ok ex_mem U 500 40 5 /\ total_size U = 24 /\ pairwise_apart U.
Proof. exact ex_pack. Qed.
Example ex_items_case : Forall (fun it => typed default_cfg (it_type it) (it_ext it)) ex_items /\
  Forall (fun it => typed default_cfg (it_type it) (it_ext it)) ex_items' /\
  map (fun it => (it_count it, it_type it, it_ext it)) ex_items = map (fun it => (it_count it, it_type it, it_ext it)) ex_items' /\
  pack_ok ex_mem (items_layout default_cfg ex_items) 500 50 5 /\ pack_ok ex_mem (items_layout default_cfg ex_items') 500 50 5 /\
  5 + total_size (items_layout default_cfg ex_items) <= 50 /\ pairwise_apart (items_layout default_cfg ex_items').
Proof. exact ex_items_ok. Qed.
