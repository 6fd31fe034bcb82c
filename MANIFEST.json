{
 "claims": [
  {
   "property": "C01",
   "status": "proved",
   "theorems": [
    "C01_fresh_handles"
   ],
   "note": "All histories of handle-table calls from program start, arbitrary uninitialised storage."
  },
  {
   "property": "C02",
   "status": "proved",
   "theorems": [
    "C02_lookup_is_stable"
   ],
   "note": ""
  },
  {
   "property": "C03",
   "status": "proved",
   "theorems": [
    "C03_capacity"
   ],
   "note": ""
  },
  {
   "property": "C04",
   "status": "proved",
   "theorems": [
    "C04_lifo_and_high_water"
   ],
   "note": ""
  },
  {
   "property": "C05",
   "status": "proved",
   "theorems": [
    "C05_init",
    "C05_start",
    "C05_finalize",
    "C05_initialized",
    "C05_no_live_handle_refuted"
   ],
   "note": "Wording refined: the earlier condition (no live handle) is refuted in both directions; the exact condition is proved."
  },
  {
   "property": "C06",
   "status": "proved",
   "theorems": [
    "C06_lists_are_sequences"
   ],
   "note": "Refinement of sequences by the pointer-level list heap, any number of lists."
  },
  {
   "property": "C07",
   "status": "proved",
   "theorems": [
    "C07_accounting"
   ],
   "note": ""
  },
  {
   "property": "C08",
   "status": "proved",
   "theorems": [
    "C08_total_and_safe"
   ],
   "note": ""
  },
  {
   "property": "C09",
   "status": "proved",
   "theorems": [
    "C09_receive_takes_earliest_matching_send"
   ],
   "note": "Every reachable state; a copy that ends the program is covered by C20, C21, C33, C44."
  },
  {
   "property": "C10",
   "status": "proved",
   "theorems": [
    "C10_send_satisfies_earliest_matching_receive"
   ],
   "note": ""
  },
  {
   "property": "C11",
   "status": "proved",
   "theorems": [
    "C11_no_matching_pair_pending"
   ],
   "note": ""
  },
  {
   "property": "C12",
   "status": "proved",
   "theorems": [
    "C12_sends_do_not_overtake",
    "C12_receives_do_not_overtake"
   ],
   "note": ""
  },
  {
   "property": "C13",
   "status": "proved",
   "theorems": [
    "C13_queues_hold_the_unmatched",
    "C13_matched_at_most_once"
   ],
   "note": "Requests of pending operations are not freed (see C29)."
  },
  {
   "property": "C14",
   "status": "proved",
   "theorems": [
    "C14_communicators_isolate"
   ],
   "note": ""
  },
  {
   "property": "C15",
   "status": "proved",
   "theorems": [
    "C15_isend_to_proc_null",
    "C15_irecv_from_proc_null",
    "C15_send_to_proc_null",
    "C15_recv_from_proc_null",
    "C23_ready_send_to_proc_null"
   ],
   "note": ""
  },
  {
   "property": "C16",
   "status": "proved",
   "theorems": [
    "C16_send_to_other_rank",
    "C16_receive_from_other_rank",
    "C16_probe_of_other_rank"
   ],
   "note": ""
  },
  {
   "property": "C17",
   "status": "proved",
   "theorems": [
    "C17_status_of_a_completed_receive",
    "C17_requests_persist",
    "C21_blocking_receive",
    "C22_sendrecv_to_self"
   ],
   "note": ""
  },
  {
   "property": "C18",
   "status": "proved",
   "theorems": [
    "C18_test",
    "C18_test_null"
   ],
   "note": ""
  },
  {
   "property": "C19",
   "status": "proved",
   "theorems": [
    "C19_wait",
    "C19_wait_null"
   ],
   "note": ""
  },
  {
   "property": "C20",
   "status": "proved",
   "theorems": [
    "C20_blocking_send",
    "C15_send_to_proc_null"
   ],
   "note": ""
  },
  {
   "property": "C21",
   "status": "proved",
   "theorems": [
    "C21_blocking_receive",
    "C15_recv_from_proc_null"
   ],
   "note": ""
  },
  {
   "property": "C22",
   "status": "proved",
   "theorems": [
    "C22_sendrecv_to_self"
   ],
   "note": ""
  },
  {
   "property": "C23",
   "status": "proved",
   "theorems": [
    "C23_ready_send",
    "C23_ready_send_to_proc_null"
   ],
   "note": ""
  },
  {
   "property": "C24",
   "status": "proved",
   "theorems": [
    "C24_probe"
   ],
   "note": ""
  },
  {
   "property": "C25",
   "status": "partial",
   "theorems": [
    "C25_waitall_partial",
    "C25_statuses_ignore_refuted",
    "C25_any_statuses"
   ],
   "note": "False for MPI_STATUSES_IGNORE with two or more requests (witness); everything else proved, and what happens with every statuses argument is stated exactly."
  },
  {
   "property": "C26",
   "status": "partial",
   "theorems": [
    "C26_testall_partial",
    "C26_testall_all_or_nothing_refuted",
    "C26_any_statuses"
   ],
   "note": "The flag is right; but with flag 0 complete requests are completed (witness). Stated exactly for every statuses argument."
  },
  {
   "property": "C27",
   "status": "partial",
   "theorems": [
    "C27_testany_waitany_partial",
    "C27_index_refuted",
    "C27_index_is_never_written"
   ],
   "note": "The index is never written (witness, and proved for every call); the rest proved."
  },
  {
   "property": "C28",
   "status": "partial",
   "theorems": [
    "C28_testsome_waitsome_partial",
    "C28_waitsome_refuted",
    "C28_any_statuses",
    "C28_positions_are_never_written",
    "C28_waitsome_is_testsome"
   ],
   "note": "Positions never written and Waitsome never aborts (witness, and proved for every call); the rest proved for every statuses argument."
  },
  {
   "property": "C29",
   "status": "partial",
   "theorems": [
    "C29_request_free_partial",
    "C29_null_request_partial",
    "C29_pending_request_refuted"
   ],
   "note": "Finished and null requests proved; false for pending ones (witness: one receive gets two messages)."
  },
  {
   "property": "C30",
   "status": "proved",
   "theorems": [
    "C30_comm_free"
   ],
   "note": ""
  },
  {
   "property": "C31",
   "status": "proved",
   "theorems": [
    "C31_payload_when_receive_is_first"
   ],
   "note": "Element offsets in the int range."
  },
  {
   "property": "C32",
   "status": "partial",
   "theorems": [
    "C32_order_partial",
    "C32_order_refuted",
    "C32_orders_agree_partial",
    "C33_send_first_exact"
   ],
   "note": "Proved when both sides use the same datatype, and for any two datatypes when the layout of the send begins with that of the receive; false otherwise (witness)."
  },
  {
   "property": "C33",
   "status": "partial",
   "theorems": [
    "C33_over_receive_partial",
    "C33_send_first_refuted",
    "C33_send_first_exact"
   ],
   "note": "Detected when the receive is posted first; undetected otherwise (witness): then the count and datatype of the sender play no part at all (proved)."
  },
  {
   "property": "C34",
   "status": "partial",
   "theorems": [
    "C34_recv_count_partial",
    "C34_count_refuted",
    "C34_only_recv_sets_the_count"
   ],
   "note": "Only MPI_Recv sets the count (proved for every call), and to the count asked for (witnesses)."
  },
  {
   "property": "C35",
   "status": "proved",
   "theorems": [
    "C35_struct_typemap"
   ],
   "note": "Type_struct at structure level for arbitrary old types, arbitrary uninitialised storage."
  },
  {
   "property": "C36",
   "status": "proved",
   "theorems": [
    "C36_constructor_typemaps"
   ],
   "note": "All six constructors."
  },
  {
   "property": "C37",
   "status": "partial",
   "theorems": [
    "C37_bounds_partial",
    "C37_reported_bounds",
    "C37_bounds_refuted"
   ],
   "note": "Holds for one constructor step over types without overridden bounds and for whole nested expressions when the uninitialised override words are zero; false for nested types otherwise (witness)."
  },
  {
   "property": "C38",
   "status": "proved",
   "theorems": [
    "C38_extent"
   ],
   "note": ""
  },
  {
   "property": "C39",
   "status": "partial",
   "theorems": [
    "C39_extent_determined_refuted",
    "C39_extent_determined_partial"
   ],
   "note": "False: o_lb/o_ub uninitialised (witness 16 vs 9). Proved: exactly which two values are possible and when."
  },
  {
   "property": "C40",
   "status": "partial",
   "theorems": [
    "C40_markers_refuted",
    "C40_markers_partial"
   ],
   "note": "False for nonnegative UB and negative LB displacements (witnesses). Proved: complete description of what markers do, and the property on the displacements where it holds."
  },
  {
   "property": "C41",
   "status": "proved",
   "theorems": [
    "C41_size"
   ],
   "note": ""
  },
  {
   "property": "C42",
   "status": "partial",
   "theorems": [
    "C42_constants_partial",
    "C42_constants_refuted"
   ],
   "note": "All constants except MPI_INTEGER16, MPI_SIGNED_CHAR, MPI_WCHAR, MPI_LB, MPI_UB, which are shown unusable."
  },
  {
   "property": "C43",
   "status": "partial",
   "theorems": [
    "C43_empty_types_partial",
    "C43_empty_types_refuted",
    "C43_empty_moves_nothing"
   ],
   "note": "Size 0 and no data moved proved; bounds and extent are not 0 (witness)."
  },
  {
   "property": "C44",
   "status": "partial",
   "theorems": [
    "C44_uncommitted_send_partial",
    "C44_uncommitted_receive_partial",
    "C44_commit",
    "C44_predefined",
    "C44_send_first_refuted",
    "C33_send_first_exact"
   ],
   "note": "The sender's type is not checked when the send is posted first (witness); the rest proved."
  },
  {
   "property": "C45",
   "status": "proved",
   "theorems": [
    "C45_types_are_independent"
   ],
   "note": ""
  },
  {
   "property": "C46",
   "status": "partial",
   "theorems": [
    "C46_type_free_partial",
    "C46_type_free_refuted"
   ],
   "note": "The handle is released; the variable is not nulled and pending receives are left with a freed type (witnesses)."
  },
  {
   "property": "C47",
   "status": "partial",
   "theorems": [
    "C47_dup_refuted",
    "C47_dup_partial"
   ],
   "note": "False: Type_dup overruns its allocation for every type. Had it enough storage, everything but the count would be copied; the result is equal only if the storage already holds the count."
  },
  {
   "property": "C48",
   "status": "proved",
   "theorems": [
    "C48_typed_copy"
   ],
   "note": "Pcopy_data2, all typemaps with element offsets in the int range."
  },
  {
   "property": "C49",
   "status": "proved",
   "theorems": [
    "C49_round_trip"
   ],
   "note": ""
  },
  {
   "property": "C50",
   "status": "partial",
   "theorems": [
    "C50_large_offsets_refuted",
    "C50_large_offsets_partial"
   ],
   "note": "False: offsets are truncated to int (witness at 2^31). Proved: the copy is exact for the truncated layout."
  },
  {
   "property": "C51",
   "status": "proved",
   "theorems": [
    "C51_type_checking"
   ],
   "note": ""
  },
  {
   "property": "C52",
   "status": "proved",
   "theorems": [
    "C52_pack_unpack"
   ],
   "note": ""
  },
  {
   "property": "C53",
   "status": "proved",
   "theorems": [
    "C53_pack_bounds",
    "C53_unpack_bounds",
    "C53_total"
   ],
   "note": "Side condition: position plus data size representable in int."
  },
  {
   "property": "C54",
   "status": "proved",
   "theorems": [
    "C54_pack_size"
   ],
   "note": ""
  },
  {
   "property": "C55",
   "status": "proved",
   "theorems": [
    "C55_pack_sequences"
   ],
   "note": ""
  },
  {
   "property": "C56",
   "status": "proved",
   "theorems": [
    "C56_reductions",
    "C56_operations_opaque"
   ],
   "note": "Reduce (root 0), Allreduce, Scan, Reduce_scatter; element offsets in the int range. MPI_IN_PLACE is C58, other roots C59."
  },
  {
   "property": "C57",
   "status": "partial",
   "theorems": [
    "C57_plain",
    "C57_alltoallw",
    "C57_displaced_partial",
    "C57_displacement_refuted"
   ],
   "note": "Proved for every displacement of less than 2^31 bytes; false beyond (witness)."
  },
  {
   "property": "C58",
   "status": "partial",
   "theorems": [
    "C58_in_place_partial",
    "C58_marker_is_no_buffer",
    "C58_in_place_refuted"
   ],
   "note": "From C, gather(v), allgather(v), scatter(v), allreduce; false for reduce, reduce_scatter, scan, alltoall (witnesses)."
  },
  {
   "property": "C59",
   "status": "partial",
   "theorems": [
    "C59_root_partial",
    "C59_root_refuted"
   ],
   "note": "False for Reduce with MPI_ROOT and for calls with MPI_IN_PLACE (witnesses); the rest proved."
  },
  {
   "property": "C60",
   "status": "proved",
   "theorems": [
    "C60_barrier_bcast"
   ],
   "note": ""
  },
  {
   "property": "C61",
   "status": "proved",
   "theorems": [
    "C61_groups_are_sets",
    "C61_null_group"
   ],
   "note": ""
  },
  {
   "property": "C62",
   "status": "partial",
   "theorems": [
    "C62_incl_partial",
    "C62_range_incl_partial",
    "C62_null_group",
    "C62_inclusion_refuted"
   ],
   "note": "False for the empty group and for ranges with first <> last (witnesses); the rest proved."
  },
  {
   "property": "C63",
   "status": "proved",
   "theorems": [
    "C63_translate_ranks",
    "C63_null_group"
   ],
   "note": ""
  },
  {
   "property": "C64",
   "status": "proved",
   "theorems": [
    "C64_communicator_constructors"
   ],
   "note": ""
  },
  {
   "property": "C65",
   "status": "proved",
   "theorems": [
    "C65_size_rank_group"
   ],
   "note": ""
  },
  {
   "property": "C66",
   "status": "partial",
   "theorems": [
    "C66_cart_create",
    "C66_cart_get_partial",
    "C66_cart_coords",
    "C66_dims_create",
    "C64_communicator_constructors",
    "C66_periods_refuted"
   ],
   "note": "MPI_Cart_get never writes the periods (witness); the rest proved."
  },
  {
   "property": "C67",
   "status": "partial",
   "theorems": [
    "C67_intercomm_merge_refuted"
   ],
   "note": "False: the output variable is never written."
  },
  {
   "property": "C68",
   "status": "proved",
   "theorems": [
    "C68_error_string",
    "C68_distinct"
   ],
   "note": ""
  },
  {
   "property": "C69",
   "status": "proved",
   "theorems": [
    "C69_processor_name",
    "C69_library_version",
    "C69_fortran_version"
   ],
   "note": ""
  },
  {
   "property": "C70",
   "status": "partial",
   "theorems": [
    "C70_bindings_partial",
    "C70_remaining_cases",
    "C70_in_place_refuted"
   ],
   "note": "Holds except for MPI_IN_PLACE as send buffer of reduce, allreduce, reduce_scatter, scan, alltoall, alltoallv and alltoallw, which pass its address on (witness)."
  },
  {
   "property": "C71",
   "status": "proved",
   "theorems": [
    "C71_init_fort",
    "C71_shipped",
    "C71_not_compared"
   ],
   "note": ""
  },
  {
   "property": "C72",
   "status": "proved",
   "theorems": [
    "C72_wtime_monotone",
    "C72_bound_is_sharp"
   ],
   "note": "IEEE binary64 as in the standard library's SpecFloat; the bound is sharp (witness)."
  },
  {
   "property": "C73",
   "status": "partial",
   "theorems": [
    "C73_reports_what_is_asked",
    "C73_serialized_partial",
    "C73_all_schedules",
    "C73_thread_multiple_refuted"
   ],
   "note": "False for MPI_THREAD_MULTIPLE: of the schedules of two concurrent handle allocations exactly those in which both threads read the free list first hand out one handle twice (witness)."
  },
  {
   "property": "C74",
   "status": "proved",
   "theorems": [
    "C74_every_return_is_success",
    "C74_every_ierror_is_success",
    "C74_every_routine_can_return"
   ],
   "note": "Over a table of every return statement of every routine that returns a code."
  },
  {
   "property": "C75",
   "status": "proved",
   "theorems": [
    "C75_handle_order"
   ],
   "note": ""
  },
  {
   "property": "C76",
   "status": "proved",
   "theorems": [
    "C76_every_history_acts_as_specified"
   ],
   "note": "Legal: arguments denote live objects of the right kind, copies are defined, pending requests are not freed."
  },
  {
   "property": "C77",
   "status": "partial",
   "theorems": [
    "C69_fortran_version",
    "C77_fortran_strings_refuted"
   ],
   "note": "False for mpi_error_string and mpi_get_processor_name, which leave a NUL (witnesses); holds for mpi_get_library_version."
  },
  {
   "property": "C78",
   "status": "proved",
   "theorems": [
    "C78_headers_agree"
   ],
   "note": "Over tables of all integer constants of both headers."
  },
  {
   "property": "C79",
   "status": "partial",
   "theorems": [
    "C79_results_partial",
    "C79_overrun",
    "C79_hvector_partial",
    "C79_displacements_partial",
    "C79_neighbour_refuted",
    "C79_stride_refuted",
    "C79_each_entry_point",
    "C79_two_names"
   ],
   "note": "False: eight bytes are read or written (witnesses); what happens is stated exactly."
  },
  {
   "property": "C80",
   "status": "partial",
   "theorems": [
    "C80_arguments_partial",
    "C80_statuses",
    "C80_names",
    "C80_upper_case_refuted"
   ],
   "note": "False with upper case symbols: two routines share MPI_ADDRESS (witness). Not for the two bindings that read a long (C79)."
  },
  {
   "property": "C81",
   "status": "proved",
   "theorems": [
    "C81_accounting",
    "C81_history"
   ],
   "note": "For every call of the system model and every history."
  },
  {
   "property": "C82",
   "status": "partial",
   "theorems": [
    "C82_history_partial",
    "C82_call_partial",
    "C82_finalize",
    "C82_finalize_refuted"
   ],
   "note": "False at MPI_Finalize, which gives no queue storage back (witness: MPI_Init, MPI_Finalize); proved for all histories before it."
  },
  {
   "property": "C83",
   "status": "partial",
   "theorems": [
    "C83_told_apart_partial",
    "C83_values",
    "C83_all_constants",
    "C83_used_as_declared",
    "C83_errors_refuted",
    "C83_operations_refuted"
   ],
   "note": "False for error classes (all -1) and operations (all MPI_OP_NULL): witnesses; proved for all other kinds, in both headers."
  },
  {
   "property": "C84",
   "status": "partial",
   "theorems": [
    "C84_conversions",
    "C84_constants",
    "C84_objects_partial",
    "C84_codes",
    "C84_created_refuted",
    "C84_handler_has_no_effect",
    "C84_errors_return_refuted",
    "C84_info_set"
   ],
   "note": "Conversions proved. False for created operations and info objects (the null handle) and for MPI_ERRORS_RETURN (ignored): witnesses."
  },
  {
   "property": "C85",
   "status": "proved",
   "theorems": [
    "C85_accuracy",
    "C85_resolution",
    "C85_bound_is_sharp"
   ],
   "note": "The bound of 2^33 seconds is sharp (witness)."
  },
  {
   "property": "C86",
   "status": "proved",
   "theorems": [
    "C86_bytes_are_moved_blindly",
    "C86_contents_do_not_matter",
    "C86_recoding",
    "C86_no_byte_invented"
   ],
   "note": "For all states and arguments, legal or not."
  },
  {
   "property": "C87",
   "status": "partial",
   "theorems": [
    "C87_derived_types_refuted",
    "C87_uninitialised_storage_partial",
    "C87_with_derived_types",
    "C87_up_to_statuses",
    "C87_send_status_is_stale"
   ],
   "note": "False for derived datatypes (extents come from malloc contents: witness) and the status of completed sends (undefined in MPI). Proved for all other legal programs."
  },
  {
   "property": "C88",
   "status": "proved",
   "theorems": [
    "C88_bytes_written",
    "C88_silent_calls",
    "C88_protected_bytes",
    "C88_bytes_of_a_message"
   ],
   "note": "Source and destination bytes are given as relations over typemap elements; KUser (the program storing itself) is excluded."
  },
  {
   "property": "C89",
   "status": "proved",
   "theorems": [
    "C89_types_well_formed",
    "C89_extent_implies_well_formed",
    "C89_exact_typemaps",
    "C89_negative_block_length"
   ],
   "note": "The condition on block lengths is needed: C89_negative_block_length shows the type a negative one gives."
  },
  {
   "property": "C90",
   "status": "proved",
   "theorems": [
    "C90_equivalent_constructors"
   ],
   "note": "Extents of the two types are the subject of C37 to C39."
  },
  {
   "property": "C91",
   "status": "proved",
   "theorems": [
    "C91_kth_send_meets_kth_receive",
    "C91_what_is_left",
    "C91_complete_iff_balanced"
   ],
   "note": "An example shows that the condition on wildcards is needed."
  },
  {
   "property": "C92",
   "status": "partial",
   "theorems": [
    "C92_lists_printed",
    "C92_lists_printed_in_C",
    "C92_list_printing_refuted",
    "C92_walks",
    "C92_braindead_walk",
    "C92_braindead_walk_partial",
    "C92_braindead_walk_refuted",
    "C92_queues_printed",
    "C92_types_printed"
   ],
   "note": "The contents shown are right; but %d is given long and pointer arguments (undefined in C) by all printouts except those of the queues, and the braindead walk stops at a NULL datum."
  },
  {
   "property": "C93",
   "status": "partial",
   "theorems": [
    "C93_true_extent",
    "C93_true_extent_partial",
    "C93_true_extent_refuted",
    "C93_far_displacements_refuted"
   ],
   "note": "The code rounds the span up to the largest element; it is exact precisely when that divides the span, and wrong for displacements that are no ints."
  },
  {
   "property": "C94",
   "status": "partial",
   "theorems": [
    "C94_freed_is_null_partial",
    "C94_nulls_of_the_headers",
    "C94_datatype_variable_kept",
    "C94_freed_is_null_refuted"
   ],
   "note": "MPI_Type_free never changes the caller's variable; all others do."
  },
  {
   "property": "C95",
   "status": "partial",
   "theorems": [
    "C95_own_exits",
    "C95_programs_partial",
    "C95_abort",
    "C95_abort_refuted"
   ],
   "note": "Every exit of the library itself is nonzero for the parent; MPI_Abort with a multiple of 256 looks like success."
  },
  {
   "property": "C96",
   "status": "partial",
   "theorems": [
    "C96_version_partial",
    "C96_version_refuted"
   ],
   "note": "mpif.h agrees; mpi.h has no version constants."
  },
  {
   "property": "C97",
   "status": "partial",
   "theorems": [
    "C97_handle_checks_silent",
    "C97_verify",
    "C97_handle_checks_catch_partial",
    "C97_handle_checks_refuted",
    "C97_list_checks_partial",
    "C97_list_checks_refuted"
   ],
   "note": "The handle tests are silent on correct use but miss use after free and one double free; the list tests abort a legal deletion from a duplicated list, because AP_list_duplicate never sets the owner."
  },
  {
   "property": "C98",
   "status": "partial",
   "theorems": [
    "C98_no_memory_lists",
    "C98_no_memory_handles",
    "C98_enough_memory",
    "C98_no_memory_types_refuted"
   ],
   "note": "Lists and handles test the result of malloc; Type_struct does not and uses the NULL pointer."
  },
  {
   "property": "C99",
   "status": "proved",
   "theorems": [
    "C99_exchange",
    "C99_ordered",
    "C99_one_result"
   ],
   "note": "No wildcard tags. C99_ordered has C99_exchange as the special case of different tags."
  },
  {
   "property": "C100",
   "status": "proved",
   "theorems": [
    "C100_positions",
    "C100_init",
    "C100_sentinels",
    "C100_known",
    "C100_before"
   ],
   "note": ""
  },
  {
   "property": "C101",
   "status": "proved",
   "theorems": [
    "C101_delete_while_walking",
    "C101_test_program"
   ],
   "note": ""
  },
  {
   "property": "C102",
   "status": "partial",
   "theorems": [
    "C102_constants",
    "C102_make_check_partial",
    "C102_make_check_refuted",
    "C102_old_programs"
   ],
   "note": "False when the uninitialised override words o_lb, o_ub of fresh datatypes are not 0: test_indexed_struct and test_multiple_struct fail, test_complex_indexed of ftest.F90 overflows. Proved when they are 0, for any other junk."
  },
  {
   "property": "C103",
   "status": "partial",
   "theorems": [
    "C103_isend_traced_partial",
    "C103_irecv_traced_partial",
    "C103_irsend_traced_partial",
    "C103_send_traced_partial",
    "C103_recv_traced_partial",
    "C103_sendrecv_traced_partial",
    "C103_comm_dup_traced",
    "C103_new_blocks_reported",
    "C103_debug_refuted",
    "C103_info_refuted"
   ],
   "note": "False as stated: DEBUG reads an int at the buffer, past the end of a shorter message; INFO reads the communicator also where the plain call does not. Proved for communicators that exist and, with DEBUG, readable buffers. With INFO probe.c does not compile (undeclared names)."
  },
  {
   "property": "C104",
   "status": "proved",
   "theorems": [
    "C104_any_program",
    "C104_moved",
    "C104_rule",
    "C104_only",
    "C104_completion"
   ],
   "note": "A send that waits is read with the count and datatype of the receive (taken in PairSpec; see C33). C104_only: the rule determines the pairing, so the function couples is not part of what has to be trusted."
  },
  {
   "property": "C105",
   "status": "partial",
   "theorems": [
    "C105_closed",
    "C105_once_partial",
    "C105_once_refuted",
    "C105_declared_partial",
    "C105_declared_refuted",
    "C105_public",
    "C105_bindings",
    "C105_tables",
    "C105_tests_partial",
    "C105_tests_refuted",
    "C105_internal_partial",
    "C105_internal_refuted"
   ],
   "note": "The code violates it: mpi.h declares MPI_Type_dup, which is not defined; with FORTRAN_CAPS_ MPI_ADDRESS is defined twice and MPI_GET_ADDRESS not at all (type.c 767); five routines are not in mpi.h; ftest.F90 298 and ftest_old.F90 136 give a wrong number of arguments; with TEST_INTERNAL the test programs do not link. Everything else is proved."
  },
  {
   "property": "C106",
   "status": "proved",
   "theorems": [
    "C106_no_recursion",
    "C106_depth",
    "C106_stop",
    "C106_pointers"
   ],
   "note": "Calls through pointers are taken to reach every routine that is passed anywhere."
  },
  {
   "property": "C107",
   "status": "proved",
   "theorems": [
    "C107_can",
    "C107_direct"
   ],
   "note": "Calls through pointers are taken to reach every routine that is passed anywhere; the text is the one compiled without INFO, DEBUG, CHECKS and HANDLE_INFO."
  },
  {
   "property": "C108",
   "status": "proved",
   "theorems": [
    "C108_goes",
    "C108_stops",
    "C108_memory",
    "C108_standing",
    "C108_aside"
   ],
   "note": "The data of every pair can be moved; one request variable per operation, named once in an array; MPI_Request_free only for an operation that has its partner."
  },
  {
   "property": "C109",
   "status": "partial",
   "theorems": [
    "C109_declared_partial",
    "C109_declared_refuted",
    "C109_lines",
    "C109_same",
    "C109_macros",
    "C109_types",
    "C109_when",
    "C109_regions"
   ],
   "note": "The code violates it: with INFO, recv.c 102 and send.c 91 use print_list, which nothing declares; with TEST_INTERNAL, type.c 840 uses Pprint_typemap. Everything else is proved."
  },
  {
   "property": "C110",
   "status": "partial",
   "theorems": [
    "C110_sources",
    "C110_headers",
    "C110_once",
    "C110_read",
    "C110_installed",
    "C110_dist_refuted"
   ],
   "note": "The code violates it: make dist leaves out mpiP.h, type.h, list.h, listP.h and listops.h, and names COPYING, ChangeLog, INSTALL, NEWS and mpi.mod, which are not there. Everything else is proved."
  },
  {
   "property": "C111",
   "status": "partial",
   "theorems": [
    "C111_names_partial",
    "C111_names_refuted",
    "C111_by_hand",
    "C111_once_partial",
    "C111_once_refuted"
   ],
   "note": "The code violates it: with a compiler that adds a second underscore no name is right, since FC_FUNC is used and not FC_FUNC_; in upper case MPI_GET_ADDRESS is called MPI_ADDRESS and clashes. Everything else is proved."
  },
  {
   "property": "C112",
   "status": "proved",
   "theorems": [
    "C112_pairs",
    "C112_left",
    "C112_same_op",
    "C112_stable",
    "C112_run"
   ],
   "note": "For nonblocking operations, as C104. With different layouts on the two sides the pairs are the same but the data are not (C112_layouts_ex, C32)."
  },
  {
   "property": "C113",
   "status": "partial",
   "theorems": [
    "C113_listed_partial",
    "C113_refuted",
    "C113_complete_partial",
    "C113_targets_partial"
   ],
   "note": "The code violates it: mpi_type_dup is declared and not defined, mpi_type_contigious is misspelt, mpi_init_thread and mpi_info_free are not declared, mpi_errhandler_set and mpi_intercomm_merge cannot be called from Fortran, eight routines are not listed; make tests does nothing and make examples is an error. Everything else is proved."
  },
  {
   "property": "C114",
   "status": "partial",
   "theorems": [
    "C114_sizes",
    "C114_init",
    "C114_wanted_partial",
    "C114_said",
    "C114_nothing_else",
    "C114_refuted",
    "C114_no_number",
    "C114_seen",
    "C114_lines"
   ],
   "note": "The code violates it: --disable-X turns X on as well, and --disable-fort-real or a missing size defines a size that is no number. Everything else is proved."
  },
  {
   "property": "C115",
   "status": "partial",
   "theorems": [
    "C115_one",
    "C115_any_partial",
    "C115_refuted",
    "C115_found",
    "C115_tests_partial"
   ],
   "note": "The code violates it: no rule makes mpi.mod, so make -j ends with an error if it looks for mpi.mod before mpif.F90 has been compiled; called from another directory, make check does not find mpi.h. Everything else is proved."
  },
  {
   "property": "C116",
   "status": "proved",
   "theorems": [
    "C116_defined",
    "C116_once",
    "C116_error",
    "C116_includes",
    "C116_tests",
    "C116_variables",
    "C116_types"
   ],
   "note": "Proved for all C files and all sets of macros; that the table of uses is complete is checked against the tables of C105, C109 and C110 only."
  },
  {
   "property": "C117",
   "status": "partial",
   "theorems": [
    "C117_header",
    "C117_names_partial",
    "C117_names_refuted",
    "C117_clear",
    "C117_clash_refuted",
    "C117_replaced_partial",
    "C117_replaced_refuted"
   ],
   "note": "The code violates it: 92 names are not MPI's (Pack, Type_size, TSint, ...). A program that calls MPI_Init and defines one of them does not link, but for six; with its own copy_data2 or simpletypes it links, and the library uses the program's. Programs that keep off the names of the library are proved to be undisturbed."
  },
  {
   "property": "C118",
   "status": "partial",
   "theorems": [
    "C118_free_partial",
    "C118_meaning",
    "C118_fixed_refuted",
    "C118_kind_refuted"
   ],
   "note": "The code violates it: no statement of mpif.h is one in fixed form, so no program in fixed form can include it; MPI_ADDRESS_KIND is only in module mpi. Free form is proved, and the constants of HeaderModel are derived from the text."
  },
  {
   "property": "C119",
   "status": "partial",
   "theorems": [
    "C119_reads_partial",
    "C119_names",
    "C119_status",
    "C119_agree",
    "C119_operands_refuted",
    "C119_c90_refuted"
   ],
   "note": "The code violates it in two places: comments with two slashes are not C90, and MPI_IN_PLACE is a cast without parentheses around it. The rest is proved from the text of the headers."
  },
  {
   "property": "C120",
   "status": "proved",
   "theorems": [
    "C120_routines",
    "C120_files",
    "C120_macros"
   ],
   "note": ""
  },
  {
   "property": "C121",
   "status": "proved",
   "theorems": [
    "C121_returns",
    "C121_stores",
    "C121_bindings",
    "C121_prototypes",
    "C121_rows"
   ],
   "note": "The value that mpi_init_fort returns (a variable that is 0 by then) is left to C34 and C74."
  },
  {
   "property": "C122",
   "status": "partial",
   "theorems": [
    "C122_names_partial",
    "C122_words",
    "C122_info_refuted",
    "C122_rows"
   ],
   "note": "The code violates it: with INFO, MPI_Iprobe in probe.c uses two names that nothing declares, so probe.c does not compile then. Proved in all other cases, with INFO too for all other routines."
  },
  {
   "property": "C123",
   "status": "proved",
   "theorems": [
    "C123_union",
    "C123_intersection",
    "C123_difference",
    "C123_free",
    "C123_incl",
    "C123_range_incl",
    "C123_translate",
    "C123_coords",
    "C123_dims",
    "C123_cart_get",
    "C123_op_create",
    "C123_op_free",
    "C123_info_create",
    "C123_info_free",
    "C123_info_set",
    "C123_errhandler",
    "C123_merge",
    "C123_handles",
    "C123_count"
   ],
   "note": "The text is read with no macro defined. RunSpec fixes an order of evaluation; loops are given more turns than they need."
  },
  {
   "property": "C124",
   "status": "proved",
   "theorems": [
    "C124_malloc",
    "C124_item_free",
    "C124_verify",
    "C124_item",
    "C124_new",
    "C124_free",
    "C124_read",
    "C124_ends",
    "C124_add",
    "C124_delete_item",
    "C124_search",
    "C124_delete",
    "C124_next",
    "C124_duplicate",
    "C124_search_func",
    "C124_apply"
   ],
   "note": "The text is read with no macro defined (no CHECKS). AP_list_braindead_next, the printing routines and main are not part of the statement."
  },
  {
   "property": "C125",
   "status": "proved",
   "theorems": [
    "C125_history",
    "C125_call"
   ],
   "note": "The loops of a call may turn once more than there ever were objects. Traversals that print are left out; AP_list_next is in."
  }
 ]
}