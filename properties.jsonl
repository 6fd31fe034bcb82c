{"id": "C01", "title": "Fresh handles are nonzero and never alias a live handle", "statement": "Whatever has been created and freed before, the handle returned by the next call that creates a communicator, request or datatype is positive (never MPI_COMM_NULL/MPI_REQUEST_NULL/MPI_DATATYPE_NULL) and different from every handle that is currently live.", "quantifier": "every sequence of handle creations and of frees of live handles, of any length, including those that force the table to grow", "why_tests_cant": "Aliasing would only show up after a particular interleaving of creations and frees; the table has 262143 slots and its histories are unbounded.", "anchors": ["handles.c: mpi_alloc_handle, mpi_free_handle, init_block, init_handles, HANDLE"]}
{"id": "C02", "title": "A handle always leads back to the object it was created for", "statement": "As long as a handle is live, looking it up yields the storage it was created with, and creating or freeing any number of other handles does not change the object stored behind it.", "quantifier": "every live handle, every history of creations/frees of other handles, every stored object", "why_tests_cant": "Requires all pairs of handles over unbounded histories; block/index encode-decode must be inverse on the whole range.", "anchors": ["handles.c: mpi_handle_to_ptr, HANDLE_TO_BLOCK, HANDLE_TO_INDEX, mpi_alloc_handle, mpi_free_handle"]}
{"id": "C03", "title": "Handle capacity is exactly 262143 live objects and frees are never lost", "statement": "A creation call succeeds if and only if fewer than 262143 handles are live at that moment (otherwise the program aborts with a message); every free makes room for one more creation, so no history of balanced create/free leaks capacity.", "quantifier": "every history of creations and frees of live handles", "why_tests_cant": "A leak of one slot per million operations, or an off-by-one at the 1024x256 boundary, is out of reach of tests.", "anchors": ["handles.c: mpi_alloc_handle, mpi_free_handle, BLOCK_ITEMS, MAX_BLOCKS"]}
{"id": "C04", "title": "Handle reuse is last-freed-first and table storage only grows to the high-water mark", "statement": "Immediately after a live handle is freed the next creation returns that same handle; the number of 256-entry blocks held is always the smallest one that fits the largest number of simultaneously live handles since the last (re)initialisation.", "quantifier": "every history of creations and frees of live handles", "why_tests_cant": "High-water behaviour is a property of the whole history, not of a state.", "anchors": ["handles.c: mpi_free_handle, mpi_alloc_handle (CAVEAT comment)"]}
{"id": "C05", "title": "MPI_Init / MPI_Finalize / MPI_Initialized life cycle", "statement": "MPI_Init succeeds and makes MPI_COMM_WORLD (=1) a usable, empty communicator exactly when 1 is the handle that is next in turn (as at program start and again after every MPI_Finalize); otherwise it aborts. MPI_Finalize releases every handle. MPI_Initialized reports true exactly between a successful MPI_Init and the next MPI_Finalize.", "quantifier": "every history of library calls before the MPI_Init / MPI_Initialized call", "why_tests_cant": "Quantifies over all prior histories, including creating datatypes before MPI_Init and repeated init/finalize cycles.", "anchors": ["mpi.c: MPI_Init, MPI_Init_thread, MPI_Finalize, MPI_Initialized", "comm.c: mpi_comm_new", "handles.c: mpi_destroy_handles"]}
{"id": "C06", "title": "The pending-message list is a faithful sequence", "statement": "After any sequence of prepend, append, delete (by value or by item), search, duplicate and traversal operations on any number of lists, each list contains exactly the data items in the order an ordinary sequence would, forwards and backwards, with no item lost, duplicated or moved to another list.", "quantifier": "all sequences of list operations over all lists, all data values", "why_tests_cant": "Doubly linked pointer surgery fails only for specific positions (head, tail, single element) in specific histories.", "anchors": ["list.c: AP_list_new, AP_list_prepend, AP_list_append, AP_list_delete, AP_list_delete_item, AP_list_search, AP_list_search_func, AP_list_next, AP_list_duplicate, AP_list_apply"]}
{"id": "C07", "title": "List size and outstanding-storage accounting are exact", "statement": "AP_list_size always equals the number of items reachable by traversal, freeing a list never trips its count-mismatch abort, and AP_listitem_verify reports 'nothing outstanding' exactly when every list created has been freed.", "quantifier": "all sequences of list operations", "why_tests_cant": "The counters are updated in eight places; a miss is only visible after the matching free.", "anchors": ["list.c: AP_list_size, AP_list_free, AP_listitem_verify, itemcount, headcount"]}
{"id": "C08", "title": "List traversals always terminate and never touch freed storage", "statement": "No list operation applied to a live list loops forever, dereferences NULL or touches a freed item, whatever operations came before.", "quantifier": "all sequences of list operations that pass live lists/items", "why_tests_cant": "Termination and memory safety over all histories.", "anchors": ["list.c: AP_list_search, AP_list_search_func, AP_list_delete_item, AP_list_free, AP_list_apply"]}
{"id": "C09", "title": "A receive takes the earliest pending send that matches", "statement": "MPI_Irecv on a communicator completes immediately if some pending send on that communicator has a matching tag (equal, or MPI_ANY_TAG requested) and then consumes the earliest-posted such send and no other; otherwise the receive is queued behind all earlier pending receives.", "quantifier": "every reachable state, every tag (including MPI_ANY_TAG), any number of pending operations", "why_tests_cant": "Order matters only with several pending messages; all queue contents must be covered.", "anchors": ["recv.c: MPI_Irecv, mpi_match_send", "list.c: AP_list_search_func, AP_list_append"]}
{"id": "C10", "title": "A send satisfies the earliest pending receive that matches", "statement": "MPI_Isend completes immediately if some pending receive on the communicator accepts its tag and then completes the earliest-posted such receive and no other; otherwise the send is queued behind all earlier pending sends.", "quantifier": "every reachable state, every tag, any number of pending operations", "why_tests_cant": "Order matters only with several pending receives mixing wildcards and tags.", "anchors": ["send.c: MPI_Isend, mpi_match_recv"]}
{"id": "C11", "title": "No matching send/receive pair is ever left pending", "statement": "At every moment, for every communicator, no pending send could be received by any pending receive on the same communicator.", "quantifier": "every state reachable by any sequence of library calls", "why_tests_cant": "This progress invariant must survive every interleaving of sends, receives, tests, frees.", "anchors": ["send.c: MPI_Isend", "recv.c: MPI_Irecv", "req.c: MPI_Test"]}
{"id": "C12", "title": "Messages with the same tag are non-overtaking", "statement": "If two messages are sent on the same communicator with the same tag, the one sent first is matched first; likewise two receives that both accept a given message are satisfied in the order they were posted.", "quantifier": "all histories, all pairs of sends / receives", "why_tests_cant": "A history property over unbounded traces.", "anchors": ["send.c: MPI_Isend", "recv.c: MPI_Irecv"]}
{"id": "C13", "title": "Every message is delivered at most once and every receive is filled at most once", "statement": "A pending operation disappears from its queue exactly when it is matched, it is matched with exactly one partner on the same communicator, and it is never matched again; sends and receives are never lost while their communicator is alive.", "quantifier": "all histories of sends, receives, tests and waits", "why_tests_cant": "Conservation over unbounded histories.", "anchors": ["send.c: MPI_Isend", "recv.c: MPI_Irecv", "list.c: AP_list_delete_item"]}
{"id": "C14", "title": "Communicators isolate traffic", "statement": "An operation on one communicator never completes, consumes, reorders or otherwise affects operations pending on a different communicator, including duplicates of it.", "quantifier": "all reachable states, all pairs of distinct live communicators", "why_tests_cant": "All pairs and all queue contents.", "anchors": ["comm.c: mpi_comm_new, MPI_Comm_dup, MPI_Comm_split, MPI_Comm_create", "send.c", "recv.c"]}
{"id": "C15", "title": "MPI_PROC_NULL operations complete at once with no effect", "statement": "A send to or receive from MPI_PROC_NULL returns a request that is already complete, moves no data, matches nothing, leaves every queue unchanged, and the receive's status reports source MPI_PROC_NULL and tag MPI_ANY_TAG.", "quantifier": "all states, buffers, counts, types, tags, communicators", "why_tests_cant": "Must hold in the presence of arbitrary matching pending traffic.", "anchors": ["send.c: MPI_Isend", "recv.c: MPI_Irecv"]}
{"id": "C16", "title": "Ranks other than 0 are rejected", "statement": "A send to any destination other than 0 / MPI_PROC_NULL, and a receive from any source other than 0 / MPI_ANY_SOURCE / MPI_PROC_NULL, aborts before touching any queue, request or buffer.", "quantifier": "all integer ranks, all states", "why_tests_cant": "All integers.", "anchors": ["send.c: MPI_Isend", "recv.c: MPI_Irecv", "probe.c: MPI_Iprobe"]}
{"id": "C17", "title": "Completed receives report the right source and tag", "statement": "When a receive completes, the status returned by Test/Wait/Recv reports source 0 and the tag actually carried by the matched message (even if MPI_ANY_TAG was requested), however much other traffic occurred in between.", "quantifier": "all histories between posting, matching and completion", "why_tests_cant": "The tag is stored in a recyclable slot; interference only shows with specific histories.", "anchors": ["send.c: MPI_Isend", "recv.c: MPI_Irecv, MPI_Recv", "req.c: MPI_Test, MPI_Wait"]}
{"id": "C18", "title": "MPI_Test completes a request exactly once", "statement": "MPI_Test reports flag=1 exactly when the operation has been matched (or was to/from MPI_PROC_NULL), in which case the request variable becomes MPI_REQUEST_NULL and its handle is released; if flag=0 nothing at all changes. Testing MPI_REQUEST_NULL reports flag=1 with source MPI_ANY_SOURCE and tag MPI_ANY_TAG and changes nothing else.", "quantifier": "all reachable states and requests", "why_tests_cant": "State space.", "anchors": ["req.c: MPI_Test"]}
{"id": "C19", "title": "MPI_Wait never hangs: it returns for complete requests and aborts on deadlock", "statement": "MPI_Wait returns exactly when the request is null or complete, with the same effect as MPI_Test; on a pending request it aborts with a deadlock diagnostic instead of blocking.", "quantifier": "all reachable states and requests", "why_tests_cant": "Non-termination cannot be tested.", "anchors": ["req.c: MPI_Wait, MPI_Test"]}
{"id": "C20", "title": "Blocking send succeeds iff a matching receive is already posted", "statement": "MPI_Send (and MPI_Ssend, MPI_Rsend) returns exactly when the destination is MPI_PROC_NULL or a matching receive is pending on the communicator; it then completes the earliest such receive and leaves no request allocated. In every other case with destination 0 it aborts with a deadlock diagnostic.", "quantifier": "all reachable states, tags, buffers", "why_tests_cant": "iff over all queue contents.", "anchors": ["send.c: MPI_Send, MPI_Ssend, MPI_Rsend, MPI_Isend", "req.c: MPI_Wait"]}
{"id": "C21", "title": "Blocking receive succeeds iff a matching send is already posted", "statement": "MPI_Recv returns exactly when the source is MPI_PROC_NULL or a matching send is pending; it then consumes the earliest such send and leaves no request allocated; otherwise it aborts with a deadlock diagnostic.", "quantifier": "all reachable states, tags, buffers", "why_tests_cant": "iff over all queue contents.", "anchors": ["recv.c: MPI_Recv, MPI_Irecv", "req.c: MPI_Wait"]}
{"id": "C22", "title": "MPI_Sendrecv to self exchanges the buffer when the tags agree", "statement": "On a communicator with no pending traffic, MPI_Sendrecv with source/dest 0 (or MPI_ANY_SOURCE) succeeds exactly when the send tag matches the receive tag; it then delivers the send buffer into the receive buffer, reports source 0 and the send tag, and leaves the communicator idle and no request allocated.", "quantifier": "all tags, buffers, counts, types, all states of other communicators", "why_tests_cant": "All tag combinations and all surrounding states.", "anchors": ["send.c: MPI_Sendrecv"]}
{"id": "C23", "title": "Ready-mode nonblocking send requires a posted receive", "statement": "MPI_Irsend returns a completed request if a matching receive is pending (or the destination is MPI_PROC_NULL) and aborts otherwise.", "quantifier": "all reachable states", "why_tests_cant": "iff over all queue contents.", "anchors": ["send.c: MPI_Irsend"]}
{"id": "C24", "title": "Probe is accurate and non-destructive", "statement": "MPI_Iprobe reports flag=1 exactly when a pending send on the communicator matches the tag, reports source 0 and the tag of the earliest one, changes no state, and an immediately following receive with the same tag consumes exactly that message. MPI_Probe returns in exactly those cases and aborts otherwise.", "quantifier": "all reachable states, tags", "why_tests_cant": "All queue contents.", "anchors": ["probe.c: MPI_Iprobe, MPI_Probe, mpi_match_send"]}
{"id": "C25", "title": "MPI_Waitall completes every request or aborts", "statement": "MPI_Waitall on an array of distinct requests returns exactly when every entry is null or complete; then all entries become MPI_REQUEST_NULL, all their handles are released and each status is that of the corresponding request. MPI_STATUSES_IGNORE must be accepted for any array length.", "quantifier": "all array lengths and contents, all reachable states", "why_tests_cant": "Unbounded array length; the ignore sentinel only fails from the second element on.", "anchors": ["req.c: MPI_Waitall, MPI_Test"]}
{"id": "C26", "title": "MPI_Testall reports flag=1 iff all requests are complete, and is all-or-nothing", "statement": "MPI_Testall sets flag to 1 exactly when every entry is null or complete; when flag is 0 no request is completed or modified.", "quantifier": "all array lengths and contents, all reachable states", "why_tests_cant": "Unbounded arrays; mixed complete/pending contents.", "anchors": ["req.c: MPI_Testall"]}
{"id": "C27", "title": "MPI_Waitany / MPI_Testany complete exactly one request and say which", "statement": "They complete exactly the first null-or-complete entry, leave every other entry untouched, report its status and store its position in *index; if none is complete Testany reports flag=0 and changes nothing and Waitany aborts.", "quantifier": "all array lengths and contents, all reachable states", "why_tests_cant": "Unbounded arrays.", "anchors": ["req.c: MPI_Testany, MPI_Waitany"]}
{"id": "C28", "title": "MPI_Testsome / MPI_Waitsome report the completed requests", "statement": "They complete exactly the complete entries, store their number in *outcount and their positions in array_of_indices, and MPI_Waitsome aborts (deadlock) if there is none.", "quantifier": "all array lengths and contents, all reachable states", "why_tests_cant": "Unbounded arrays.", "anchors": ["req.c: MPI_Testsome, MPI_Waitsome"]}
{"id": "C29", "title": "Freeing a request does not disturb other operations", "statement": "MPI_Request_free releases the request and sets the variable to MPI_REQUEST_NULL without changing any other request, communicator queue or buffer, also when the operation is still pending.", "quantifier": "all reachable states, pending or complete requests, all later operations", "why_tests_cant": "Damage appears only when the slot is recycled and the stale queue entry is matched.", "anchors": ["req.c: MPI_Request_free", "handles.c: mpi_free_handle"]}
{"id": "C30", "title": "Freeing a communicator affects only that communicator", "statement": "MPI_Comm_free succeeds for every live communicator, sets the variable to MPI_COMM_NULL, releases its handle and its two queues, warns about still-pending operations, and leaves all other communicators, requests and datatypes unchanged; requests pending on it can never complete afterwards.", "quantifier": "all reachable states", "why_tests_cant": "All queue contents.", "anchors": ["comm.c: MPI_Comm_free", "list.c: AP_list_free"]}
{"id": "C31", "title": "Payload delivery when the receive is posted first", "statement": "When a send matches an already posted receive, the elements described by the send (buffer, count, datatype) are copied in order into the elements described by the receive, byte for byte; every byte of memory outside the receive's elements is unchanged.", "quantifier": "all buffers, counts, datatypes (built-in or derived), memory contents", "why_tests_cant": "All layouts and contents.", "anchors": ["send.c: MPI_Isend", "copy.c: copy_data2, Pcopy_data2"]}
{"id": "C32", "title": "Payload delivery does not depend on which side is posted first", "statement": "The bytes delivered by a matched send/receive pair are the same whether the send or the receive was posted first; in particular the sender's own count and datatype determine what is read from its buffer.", "quantifier": "all pairs of (count, datatype) on both sides, both posting orders", "why_tests_cant": "Needs differing send/receive datatypes in both orders for all layouts.", "anchors": ["recv.c: MPI_Irecv (copy_data2 with receiver's count/type on both sides)", "send.c: MPI_Isend (does not save count/type)"]}
{"id": "C33", "title": "Receiving more than was sent is detected", "statement": "If the receive asks for more basic elements than the matched send provides, the program exits with the over-receive diagnostic and never reads past the sender's data.", "quantifier": "all counts and datatypes, both posting orders", "why_tests_cant": "Boundary over all counts, and both orders.", "anchors": ["copy.c: Pcopy_data2", "recv.c: MPI_Irecv"]}
{"id": "C34", "title": "MPI_Get_count / MPI_Get_elements report the amount received", "statement": "After a completed receive, MPI_Get_count on its status gives the number of elements received, whichever of Recv, Irecv+Wait/Test, Sendrecv was used; MPI_Get_elements gives that number times the number of basic elements of the datatype.", "quantifier": "all receives, counts, types and completion routes", "why_tests_cant": "The status field is only written on one route.", "anchors": ["getcount.c: MPI_Get_count, MPI_Get_elements", "recv.c: MPI_Recv", "req.c: MPI_Test"]}
{"id": "C35", "title": "MPI_Type_struct builds the flattened typemap of the standard", "statement": "The typemap of the new type is, for each block i in order and each repetition j < blocklens[i] in order, the typemap of oldtypes[i] displaced by displacements[i] + j*extent(oldtypes[i]), MPI_LB/MPI_UB blocks contributing nothing; negative displacements work.", "quantifier": "all counts, block lengths, displacements (with sums representable in 64 bits), nested old types", "why_tests_cant": "Unbounded nesting and sizes; unsigned/signed conversions.", "anchors": ["type.c: Type_struct, Copy_type, Type_extent"]}
{"id": "C36", "title": "contiguous / vector / hvector / indexed / hindexed / indexed_block typemaps", "statement": "Each constructor yields exactly the typemap the MPI standard gives for it: contiguous places copies one extent apart, vector places blocks stride extents apart, hvector stride bytes apart, indexed displaces by multiples of the extent, hindexed by bytes, indexed_block uses one block length for all.", "quantifier": "all counts, block lengths, strides, displacements, old types (no 64-bit overflow)", "why_tests_cant": "Unbounded sizes and nesting.", "anchors": ["type.c: Type_contiguous, Type_hvector, Type_vector, Type_hindexed, Type_indexed, Type_create_indexed_block"]}
{"id": "C37", "title": "Lower and upper bounds of a marker-free type", "statement": "For a derived type with a nonempty typemap and no MPI_LB/MPI_UB, MPI_Type_lb is the smallest displacement and MPI_Type_ub the largest displacement plus size of its element.", "quantifier": "all typemaps with displacements in the 32-bit range", "why_tests_cant": "All typemaps; narrowing through int.", "anchors": ["type.c: calc_lb, calc_ub, Type_struct, MPI_Type_lb, MPI_Type_ub"]}
{"id": "C38", "title": "Extent is the span rounded up to the largest element", "statement": "For a type without overridden bounds MPI_Type_extent returns the smallest multiple of the size of its largest basic element that is at least ub-lb.", "quantifier": "all typemaps", "why_tests_cant": "All typemaps.", "anchors": ["type.c: Type_extent, calc_padding"]}
{"id": "C39", "title": "Type bounds and extent are determined by the constructor arguments", "statement": "Building the same derived type twice with the same arguments gives the same MPI_Type_extent, independent of previous heap activity.", "quantifier": "all constructor arguments, all prior heap contents", "why_tests_cant": "Depends on uninitialised memory, invisible to tests that happen to get zeroed pages.", "anchors": ["type.c: Type_struct (o_lb/o_ub never initialised when not overridden), Type_extent"]}
{"id": "C40", "title": "MPI_LB and MPI_UB markers set the bounds", "statement": "When a struct type contains MPI_LB (MPI_UB) blocks, its lower (upper) bound is the smallest (largest) marker displacement, for positive and negative displacements, and its extent is their difference.", "quantifier": "all marker displacements", "why_tests_cant": "Signedness: works for one half of the integers only.", "anchors": ["type.c: Type_struct (MPI_Aint new_lb=LONG_MAX, new_ub=LONG_MIN)", "mpi.h: typedef unsigned long int MPI_Aint"]}
{"id": "C41", "title": "MPI_Type_size is the sum of the basic element sizes", "statement": "MPI_Type_size equals the number of significant bytes: blocklength-weighted sum of the old types' sizes for every constructor, independent of displacements, gaps and markers.", "quantifier": "all derived types", "why_tests_cant": "All nestings.", "anchors": ["type.c: Type_size, Simpletype_length"]}
{"id": "C42", "title": "Predefined datatype constants denote types of the right size", "statement": "Every predefined datatype constant in mpi.h is usable and has the size, extent and typemap of the C/Fortran type it is named after.", "quantifier": "every predefined constant, every configured Fortran REAL/DOUBLE size", "why_tests_cant": "Needs every constant against every build configuration.", "anchors": ["mpi.h", "type_const.c: simpletypes[]", "type.c: Simpletype_length, mpi_handle_to_datatype"]}
{"id": "C43", "title": "Zero-length derived types", "statement": "A derived type with no elements has size 0, its bounds and extent are 0, and communicating it moves nothing.", "quantifier": "all constructors with count 0 or all block lengths 0", "why_tests_cant": "Corner case times all constructors.", "anchors": ["type.c: calc_lb, calc_ub, calc_padding, Type_extent"]}
{"id": "C44", "title": "Only committed datatypes can be communicated", "statement": "Any data transfer using an uncommitted derived datatype exits with a diagnostic without moving a byte; MPI_Type_commit makes exactly that type usable, is idempotent, and predefined types are always committed.", "quantifier": "all transfers, all types, all orders of commit", "why_tests_cant": "All histories of commit and use.", "anchors": ["copy.c: Pcopy_data2", "type.c: MPI_Type_commit, Type_struct"]}
{"id": "C45", "title": "Derived types are independent of the types they were built from", "statement": "Freeing or committing a datatype never changes the typemap, bounds, size or commit state of any other live datatype, in particular of types built from it.", "quantifier": "all construction DAGs, all free/commit orders", "why_tests_cant": "All construction histories.", "anchors": ["type.c: Type_struct, Copy_type, MPI_Type_free, MPI_Type_commit"]}
{"id": "C46", "title": "MPI_Type_free releases exactly the given derived type", "statement": "MPI_Type_free releases the handle of a live derived type, sets the caller's variable to MPI_DATATYPE_NULL, and pending receives that still use the type complete normally.", "quantifier": "all live types, all pending operations", "why_tests_cant": "Use-after-free only shows with particular histories.", "anchors": ["type.c: MPI_Type_free"]}
{"id": "C47", "title": "MPI_Type_dup yields an equal type", "statement": "Duplicating a datatype yields a new type with the same typemap, bounds, extent and commit state.", "quantifier": "all types", "why_tests_cant": "All types; heap overflow is silent.", "anchors": ["type.c: Type_dup", "mpi.h: MPI_Type_dup (declared, not defined)"]}
{"id": "C48", "title": "Typed copy moves exactly the selected elements and nothing else", "statement": "Copying (source, count, type) to (dest, count, type) with non-overlapping memory sets the k-th destination element to the k-th source element for every k and leaves every byte outside the destination elements unchanged.", "quantifier": "all committed types whose destination elements are disjoint, all counts, all memories, element offsets below 2^31 (larger offsets: C50)", "why_tests_cant": "All layouts and contents.", "anchors": ["copy.c: Pcopy_data2"]}
{"id": "C49", "title": "Scatter-gather round trip", "statement": "Sending data described by a derived type into a contiguous buffer and sending it back with the roles exchanged restores the original selected bytes.", "quantifier": "all derived types with disjoint elements, all contents", "why_tests_cant": "All layouts.", "anchors": ["copy.c: Pcopy_data2"]}
{"id": "C50", "title": "Transfers larger than 2 GiB are addressed correctly", "statement": "Element offsets beyond 2^31-1 bytes are computed correctly by the typed copy.", "quantifier": "all element indices and extents with 64-bit representable offsets", "why_tests_cant": "Needs multi-gigabyte buffers.", "anchors": ["copy.c: Pcopy_data2 (int soffset, doffset)"]}
{"id": "C51", "title": "Optional type checking rejects exactly mismatched signatures", "statement": "When built with --enable-type-checking, a transfer is rejected if and only if some transferred element pair has different basic types; otherwise the behaviour is the same as without checking.", "quantifier": "all type pairs and counts", "why_tests_cant": "All signatures.", "anchors": ["copy.c: Pcopy_data2 (TYPE_CHECKING)"]}
{"id": "C52", "title": "Pack followed by unpack restores the data", "statement": "Unpacking what was packed, with the same type and count and starting at the same position, reproduces every selected byte in the output buffer and leaves both positions equal.", "quantifier": "all types, counts, positions, contents", "why_tests_cant": "All layouts.", "anchors": ["pack.c: Pack, Unpack"]}
{"id": "C53", "title": "Pack and unpack never run past the packed buffer", "statement": "MPI_Pack writes only to bytes [position, position + incount*size) of the output buffer and exits with a diagnostic if and only if that range does not fit in outsize; position advances by exactly incount*size. The same holds for the reads of MPI_Unpack.", "quantifier": "all sizes, positions, types, counts", "why_tests_cant": "Boundary over all sizes.", "anchors": ["pack.c: Pack, Unpack"]}
{"id": "C54", "title": "MPI_Pack_size is exact", "statement": "MPI_Pack_size returns incount times the type size, and a buffer with exactly that much room left always suffices for MPI_Pack while one byte less never does (for nonempty data).", "quantifier": "all types and counts", "why_tests_cant": "All types and counts.", "anchors": ["pack.c: Pack_size, Pack"]}
{"id": "C55", "title": "Packing composes", "statement": "Packing several items one after another with the same position variable lays them out consecutively, and unpacking them in the same order recovers each of them.", "quantifier": "all sequences of items", "why_tests_cant": "Unbounded sequences.", "anchors": ["pack.c: Pack, Unpack"]}
{"id": "C56", "title": "Reductions over one process return the input, whatever the operation", "statement": "MPI_Reduce (root 0), MPI_Allreduce, MPI_Scan and MPI_Reduce_scatter copy the contribution to the result for every predefined or user-defined operation, which is never invoked.", "quantifier": "all operations, datatypes, counts, contents", "why_tests_cant": "All ops and layouts.", "anchors": ["collective.c: MPI_Reduce, MPI_Allreduce, MPI_Scan, MPI_Reduce_scatter", "op.c"]}
{"id": "C57", "title": "Gather/scatter/all-to-all over one process copy the send data to the right place", "statement": "Gather, Allgather, Scatter and Alltoall deliver the send elements into the receive elements; the v/w variants apply displacement 0-th entry times the extent (bytes for Alltoallw) on the corresponding side.", "quantifier": "all counts, displacements, types, contents", "why_tests_cant": "All layouts.", "anchors": ["collective.c: MPI_Gather, MPI_Gatherv, MPI_Allgather, MPI_Allgatherv, MPI_Scatter, MPI_Scatterv, MPI_Alltoall, MPI_Alltoallv, MPI_Alltoallw"]}
{"id": "C58", "title": "MPI_IN_PLACE leaves the buffer as is", "statement": "Every collective that accepts MPI_IN_PLACE (gather(v), allgather(v), scatter(v), reduce, allreduce, reduce_scatter, scan, alltoall) returns with the data buffer unchanged when it is used, from C and from Fortran.", "quantifier": "all collectives, buffers, counts, types", "why_tests_cant": "Each collective in each language binding.", "anchors": ["collective.c", "mpi.c: mpi_c_in_place"]}
{"id": "C59", "title": "Collective root arguments are validated", "statement": "Rooted collectives accept root 0, return without moving data for MPI_ROOT, and abort for every other root before moving any byte.", "quantifier": "all integer roots, all other arguments", "why_tests_cant": "All integers.", "anchors": ["collective.c: MPI_Bcast, MPI_Gather, MPI_Gatherv, MPI_Scatter, MPI_Scatterv, MPI_Reduce"]}
{"id": "C60", "title": "Barrier and broadcast change nothing", "statement": "MPI_Barrier and MPI_Bcast (root 0) return success and leave all buffers and all library state unchanged.", "quantifier": "all states and arguments", "why_tests_cant": "Universal.", "anchors": ["collective.c: MPI_Barrier, MPI_Bcast"]}
{"id": "C61", "title": "Groups behave as subsets of {0}", "statement": "For valid groups, union, intersection and difference are set union, intersection and difference of the rank sets; a null group aborts.", "quantifier": "all pairs of groups", "why_tests_cant": "Algebraic laws over all inputs incl. null.", "anchors": ["group.c: MPI_Group_union, MPI_Group_intersection, MPI_Group_difference"]}
{"id": "C62", "title": "Group inclusion", "statement": "MPI_Group_incl / MPI_Group_range_incl with valid ranks select exactly the listed ranks, yield the empty group for an empty list, and abort on ranks that are not in the group.", "quantifier": "all rank lists / ranges, all groups", "why_tests_cant": "All lists.", "anchors": ["group.c: MPI_Group_incl, MPI_Group_range_incl"]}
{"id": "C63", "title": "Rank translation", "statement": "MPI_Group_translate_ranks maps every rank 0 of group1 to rank 0 of group2, or to MPI_UNDEFINED if group2 is empty, for every position of the array, and aborts on any invalid input rank.", "quantifier": "all array lengths and contents, all groups", "why_tests_cant": "Unbounded arrays.", "anchors": ["group.c: MPI_Group_translate_ranks"]}
{"id": "C64", "title": "Communicator constructors give MPI_COMM_NULL or a fresh empty communicator", "statement": "MPI_Comm_dup, MPI_Comm_create, MPI_Comm_split, MPI_Cart_create and MPI_Intercomm_create return MPI_COMM_NULL exactly when the MPI rules say this process is not in the result (null/empty group, MPI_UNDEFINED color, both inputs null), otherwise a fresh communicator with no pending traffic, and never disturb existing ones.", "quantifier": "all arguments, all states", "why_tests_cant": "All states.", "anchors": ["comm.c: MPI_Comm_dup, MPI_Comm_create, MPI_Comm_split, MPI_Intercomm_create, MPI_Comm_group", "cart.c: MPI_Cart_create"]}
{"id": "C65", "title": "Every communicator has size 1 and this process has rank 0", "statement": "MPI_Comm_size is 1 and MPI_Comm_rank is 0 for every communicator, and MPI_Comm_group of it is the one-process group (null for MPI_COMM_NULL).", "quantifier": "all communicator values", "why_tests_cant": "All values.", "anchors": ["comm.c: MPI_Comm_size, MPI_Comm_rank, MPI_Comm_group"]}
{"id": "C66", "title": "Cartesian topology of one process", "statement": "MPI_Cart_create aborts exactly when some dimension exceeds 1; MPI_Cart_get / MPI_Cart_coords / MPI_Dims_create fill exactly the first maxdims/ndims entries with dimension 1 and coordinate 0 and abort on rank != 0 / more than one node; MPI_Cart_get also returns the periods given at creation.", "quantifier": "all dimension counts and arrays", "why_tests_cant": "Unbounded arrays.", "anchors": ["cart.c"]}
{"id": "C67", "title": "MPI_Intercomm_merge returns a usable communicator", "statement": "After MPI_Intercomm_merge the output variable holds a valid communicator.", "quantifier": "all inputs and previous values of the output variable", "why_tests_cant": "Output silently keeps its old value.", "anchors": ["ic_merge.c: MPI_Intercomm_merge"]}
{"id": "C68", "title": "Error strings are well formed and distinct", "statement": "MPI_Error_string produces, for every error code, a NUL-terminated string no longer than MPI_MAX_ERROR_STRING whose length is returned in resultlen, and different codes give different strings.", "quantifier": "all 2^32 codes", "why_tests_cant": "All codes.", "anchors": ["mpi.c: MPI_Error_string"]}
{"id": "C69", "title": "Processor name and library version are always terminated and fit", "statement": "MPI_Get_processor_name and MPI_Get_library_version always leave a NUL-terminated string shorter than their documented maximum and return its exact length, whatever gethostname does; the Fortran version binding blank-pads the whole 80 characters.", "quantifier": "all gethostname outcomes (success, truncation, failure), all prior buffer contents", "why_tests_cant": "gethostname outcomes cannot be provoked.", "anchors": ["mpi.c: MPI_Get_processor_name, MPI_Get_library_version, mpi_get_library_version"]}
{"id": "C70", "title": "Fortran bindings are the C calls with sentinels translated", "statement": "Each Fortran entry point behaves as the C routine on the same arguments, with the Fortran MPI_STATUS_IGNORE, MPI_STATUSES_IGNORE and MPI_IN_PLACE variables recognised by address and translated to the C sentinels.", "quantifier": "all arguments, all addresses of the sentinels", "why_tests_cant": "All bindings and addresses.", "anchors": ["mpi.c: mpi_c_status, mpi_c_statuses, mpi_c_in_place, mpi_save_fort_pointers", "collective.c", "req.c", "recv.c", "probe.c"]}
{"id": "C71", "title": "Fortran initialisation accepts exactly matching headers", "statement": "With type constants that name predefined types, Fortran MPI_INIT succeeds exactly when every checked constant, every status field position and the size of every checked Fortran type agree with the C side, and aborts otherwise; the shipped mpif.h values with default types of the usual sizes are accepted. (MPI_REAL, MPI_LOGICAL and MPI_COMPLEX are checked by size only.)", "quantifier": "all combinations of constants and sizes passed from Fortran", "why_tests_cant": "All mismatches.", "anchors": ["mpi.c: mpi_init_fort", "mpif.h", "fort.F90: mpi_init"]}
{"id": "C72", "title": "MPI_Wtime never runs backwards when the system clock does not", "statement": "If the system time of day does not decrease between two calls, the floating point result of MPI_Wtime does not decrease, for every clock reading from 2^53 seconds before the epoch (285 million years) up to the largest representable second; further back it can decrease.", "quantifier": "all pairs of clock readings with tv_sec in [-2^53, 2^63) and tv_usec in [0, 10^6)", "why_tests_cant": "Floating point rounding over all pairs.", "anchors": ["time.c: MPI_Wtime"]}
{"id": "C73", "title": "Granted thread level is honoured", "statement": "MPI_Init_thread reports a thread level at which the library is actually safe to use: with MPI_THREAD_MULTIPLE concurrent calls from two threads behave as some sequential order.", "quantifier": "all interleavings of two threads", "why_tests_cant": "Schedules.", "anchors": ["mpi.c: MPI_Init_thread", "handles.c: mpi_alloc_handle (no locking)"]}
{"id": "C74", "title": "Every call that returns reports MPI_SUCCESS", "statement": "Library routines either return MPI_SUCCESS or terminate the program with a diagnostic; no error code is ever returned.", "quantifier": "all calls, arguments, states", "why_tests_cant": "Universal.", "anchors": ["mpi.h: Return codes comment", "all *.c"]}
{"id": "C75", "title": "Handles are handed out in an exact order", "statement": "The next handle handed out is the most recently freed one that is not in use again or, if there is none, the smallest handle not used since the table was initialised; creation aborts exactly when there is neither.", "quantifier": "every history of creations, frees and uses of live handles and of table resets, of any length, and every content of uninitialised storage", "why_tests_cant": "The order is a function of the whole history; tests see a few short histories only.", "anchors": ["handles.c: mpi_alloc_handle, mpi_free_handle, init_block, mpi_destroy_handles"]}
{"id": "C76", "title": "Every history of library calls acts as a small abstract machine says", "statement": "From program start every history of legal calls (life cycle, communicators, point-to-point, requests, probes, datatypes, collectives, pack and unpack, topologies) gives exactly the outputs, memory contents, aborts and exits of the abstract machine whose state is: live handles, two message queues per communicator, datatypes and memory.", "quantifier": "every finite history of legal calls with any arguments, interleaved with arbitrary changes of memory by the program, and every content of uninitialised storage", "why_tests_cant": "Unbounded histories; the junk left in reused request slots depends on the whole past.", "anchors": ["send.c", "recv.c", "req.c", "probe.c", "comm.c", "mpi.c", "type.c", "handles.c", "list.c", "collective.c", "pack.c", "cart.c"]}
{"id": "C77", "title": "Fortran character results are blank padded", "statement": "Every Fortran entry point with a character result leaves the text followed by blanks only, with no NUL character in the variable.", "quantifier": "all error codes, all host names, all variables of the maximal length", "why_tests_cant": "All codes and names, and the test program's trim() hides the NUL.", "anchors": ["mpi.c: mpi_error_string, mpi_get_processor_name, mpi_get_library_version"]}
{"id": "C78", "title": "The C and the Fortran header agree", "statement": "Every constant defined in both mpi.h and mpif.h has the same value in both, no header defines a constant twice, and the values are those on which the predefined datatypes and the checks at initialisation rest.", "quantifier": "all constants of both headers", "why_tests_cant": "Tests compare the few constants that mpi_init_fort happens to check; a wrong value of any other one goes unnoticed until it is used.", "anchors": ["mpi.h", "mpif.h", "mpi.c: mpi_init_fort"]}
{"id": "C79", "title": "Fortran INTEGER arguments are read and written as INTEGERs", "statement": "A Fortran entry point whose argument is an INTEGER (or INTEGER array) in the MPI-1 Fortran interface reads or writes exactly the four bytes of each INTEGER, whatever stands beside it in memory.", "quantifier": "all entry points with a displacement, stride, extent, bound, size or address argument, all values, all contents of the neighbouring memory", "why_tests_cant": "Whether the neighbouring word matters depends on where the compiler places the variables; tests pass when it happens to be zero or unused.", "anchors": ["type.c: mpi_type_hvector, mpi_type_hindexed, mpi_type_struct, mpi_type_extent, mpi_type_lb, mpi_type_ub, mpi_address, mpi_get_address", "pack.c: mpi_pack_size"]}
{"id": "C80", "title": "Fortran bindings pass exactly their own arguments", "statement": "Every Fortran entry point calls the C routine of its own name with its own arguments in order, each INTEGER by value where C wants a value and by address where C wants a pointer, and stores the C return code in its last argument; and under each supported symbol naming no two entry points share a name.", "quantifier": "all Fortran entry points, all argument addresses and contents, all symbol naming conventions", "why_tests_cant": "A swapped or repeated argument is invisible whenever the two values agree, and a test build uses one compiler with one naming convention.", "anchors": ["every *.c file: the functions wrapped in FC_FUNC", "mpiP.h", "config.h.in"]}
{"id": "C81", "title": "Every handle is accounted for", "statement": "Each library call other than MPI_Finalize changes the set of handles in use exactly by the handles it returns (which were not in use) and the handles it nulls or was asked to free (which were in use); so after any history the handles in use are those opened and not yet closed, and a new object can be made exactly if fewer than 262143 handles are in use.", "quantifier": "all configurations, all histories of legal calls of any length and all their results", "why_tests_cant": "A leaked or twice-freed handle shows only after hundreds of thousands of calls, in a combination of calls no test repeats that often.", "anchors": ["handles.c: mpi_alloc_handle, mpi_free_handle", "req.c: MPI_Test, MPI_Waitany, MPI_Testall, MPI_Request_free", "send.c", "recv.c", "comm.c: MPI_Comm_free", "type.c: MPI_Type_free"]}
{"id": "C82", "title": "Queue storage is counted exactly and given back", "statement": "The item and list counters of the list package always equal the number of operations waiting in the queues and twice the number of communicators; and after MPI_Finalize both are zero, so that AP_listitem_verify reports no outstanding storage.", "quantifier": "all configurations, all histories of legal calls of any length", "why_tests_cant": "A leak of one list entry in a rare combination of calls has no visible effect in a short run.", "anchors": ["list.c: itemcount, headcount, AP_listitem_verify", "mpi.c: MPI_Finalize", "comm.c: mpi_comm_new, MPI_Comm_free", "send.c", "recv.c"]}
{"id": "C83", "title": "Constants that must differ do differ", "statement": "In each of mpi.h and mpif.h, two constants of the same kind (datatypes, special ranks, tags, thread levels, communicators, groups, error handlers, open modes, status fields, error classes, reduction operations) have different values unless they are documented synonyms; no error class equals MPI_SUCCESS; special ranks and MPI_ANY_TAG are negative, predefined datatypes are negative, and the thread levels increase. The library's calls compare their arguments with exactly these values.", "quantifier": "all pairs of integer constants of one kind in both headers", "why_tests_cant": "A clash between two rarely used constants shows only in a program that uses both and compares them.", "anchors": ["mpi.h: 10-245", "mpif.h: 7-344"]}
{"id": "C84", "title": "Handle conversions are inverse, and opaque stubs give usable handles", "statement": "MPI_Comm/Group/Request/Op _f2c and _c2f are inverse to each other on every integer and keep the constants shared by the two headers; MPI_Op_create and MPI_Info_create give a handle different from MPI_OP_NULL and MPI_INFO_NULL, and freeing it leaves the null handle; after MPI_Errhandler_set(comm, MPI_ERRORS_RETURN) an erroneous call returns a code instead of ending the program.", "quantifier": "all handle values, all states, all calls", "why_tests_cant": "The conversions must be inverse for every handle value ever handed out; error paths end the test program.", "anchors": ["collective.c: MPI_Op_f2c, MPI_Op_c2f", "comm.c: MPI_Comm_f2c, MPI_Comm_c2f", "group.c: MPI_Group_f2c, MPI_Group_c2f", "req.c: MPI_Request_f2c, MPI_Request_c2f", "op.c", "info.c", "error.c"]}
{"id": "C85", "title": "MPI_Wtime resolves every microsecond", "statement": "For every clock reading less than 2^33 seconds (until the year 2242) away from the epoch, the floating point result of MPI_Wtime is less than half a microsecond away from the reading, and two different readings give different results, in the same order.", "quantifier": "all clock readings and pairs of readings with |tv_sec| < 2^33 and tv_usec in [0, 10^6)", "why_tests_cant": "Two roundings over about 10^16 readings; a test samples a few around the current date.", "anchors": ["time.c: MPI_Wtime"]}
{"id": "C86", "title": "The library moves data without looking at it", "statement": "No result, outcome, diagnostic or library state depends on the contents of memory: for any relation between bytes, two runs of the same program from the same library state with related memories give the same outputs, end the same way, in the same library state, with related memories. In particular recoding all bytes before the program or after it is the same, and no byte value appears in memory that was not there before.", "quantifier": "all programs (sequences of MPI calls, legal or not), all library states, all memories and all relations between bytes", "why_tests_cant": "Independence from all message contents is a statement about pairs of runs over all memories and all call sequences.", "anchors": ["copy.c: Pcopy_data2", "pack.c: Pack, Unpack", "send.c", "recv.c", "collective.c"]}
{"id": "C87", "title": "Uninitialised storage never influences results", "statement": "The contents of freshly allocated storage (handle blocks, list nodes, requests, datatypes) have no influence on the outputs, the way a legal program ends, or user memory.", "quantifier": "all legal programs, all pairs of contents of fresh storage", "why_tests_cant": "malloc usually returns the same contents in every test run; the property compares runs with all possible contents.", "anchors": ["handles.c: mpi_alloc_handle", "send.c: MPI_Isend", "recv.c: MPI_Irecv", "type.c: Type_struct, calc_bounds", "list.c"]}
{"id": "C88", "title": "A call writes only the bytes it is responsible for, and only with bytes it is asked to move", "statement": "After a legal MPI call every byte of user memory is as before, or is a byte of a receive, reduction, collective or unpack buffer named by the call (or of a pending receive that a send matches) and has been taken from a byte of the corresponding send buffer. Calls that move no data leave memory alone, and a byte that none of the calls of a program may write keeps its value. The bytes of a buffer are exactly those of the elements of its datatype.", "quantifier": "all reachable states, all legal calls and programs, all datatypes and memories", "why_tests_cant": "A stray write is visible only where a test looks; the statement is about every byte of memory, every pending receive and every datatype.", "anchors": ["copy.c: Pcopy_data2", "pack.c: Pack, Unpack", "send.c: MPI_Isend", "recv.c: MPI_Irecv", "collective.c"]}
{"id": "C89", "title": "Every datatype a program has is well formed and has the standard's typemap", "statement": "In every reachable state of a program whose constructor calls use nonnegative block lengths, every datatype object is well formed (count between 0 and INT_MAX and no more than the pairs stored, element types with known sizes, displacements in range), and every constructor call that returns has built the typemap the MPI standard prescribes, with displacements modulo 2^64.", "quantifier": "all legal programs with nonnegative block lengths, all datatypes built in them, nested to any depth, all contents of fresh storage", "why_tests_cant": "A test builds finitely many types; the statement covers arbitrary nesting, zero counts, markers, negative displacements and wrap-around.", "anchors": ["type.c: Type_struct", "type.c: Type_contiguous, Type_hvector, Type_vector, Type_hindexed, Type_indexed, Type_create_indexed_block", "type_const.c"]}
{"id": "C90", "title": "Equivalent datatype constructors build equal typemaps", "statement": "Constructor calls that the standard defines in terms of one another (contiguous as vector, dense vector as contiguous, vector as hvector or indexed block, indexed block as indexed, indexed as hindexed, hindexed as struct, and chains of these) build datatypes with equal typemaps whenever both return.", "quantifier": "all reachable states, counts, strides, block lengths, displacement arrays and old types", "why_tests_cant": "The equations hold for all arguments; tests compare a few.", "anchors": ["type.c: Type_contiguous", "type.c: Type_vector, Type_hvector", "type.c: Type_indexed, Type_hindexed, Type_create_indexed_block", "type.c: Type_struct"]}
{"id": "C91", "title": "Without wildcard tags the k-th send meets the k-th receive", "statement": "As long as no receive with MPI_ANY_TAG has been posted on a communicator, the k-th send posted with a tag is matched with the k-th receive posted with that tag and with nothing else, in that order; what waits in the queues is exactly the surplus of one side; so nothing is pending exactly when for every tag as many sends as receives have been posted.", "quantifier": "all histories of legal calls, all communicators and tags, all interleavings of sends, receives and other calls", "why_tests_cant": "Tests run a few interleavings; the pairing is claimed for every one.", "anchors": ["send.c: MPI_Isend", "recv.c: MPI_Irecv", "send.c: mpi_match_recv", "recv.c: mpi_match_send", "list.c: AP_list_search_func"]}
{"id": "C92", "title": "The printouts and walks show lists, queues and typemaps as they are", "statement": "AP_list_print and AP_list_revprint show the number of items and the data in order and in reverse; the item-wise walks see every datum once in order; the INFO printouts show a communicator's number and the tags of its pending requests in order; Pprint_typemap shows count, bounds, extent, padding and the typemap in order; and all this is defined behaviour.", "quantifier": "all list histories, all starting items, all reachable states and communicators, all well-formed datatypes", "why_tests_cant": "Tests look at the output of a few lists; a format that does not fit its argument happens to work on the test machine, and a NULL datum is not tried.", "anchors": ["list.c: AP_list_print, AP_list_revprint, AP_list_braindead_next, AP_listitem_next, AP_listitem_prev, AP_listitem_data", "recv.c: print_list, print_item", "send.c: MPI_Isend (INFO)", "type.c: Pprint_typemap"]}
{"id": "C93", "title": "The true extent is the span of the data, whatever the markers say", "statement": "Type_get_true_extent returns the distance from the lowest displacement to the highest end of the data of a datatype, independently of MPI_LB and MPI_UB.", "quantifier": "all well-formed datatypes with nonempty typemap", "why_tests_cant": "No public routine calls it, and the result is right for the types usually tried: the padding and the int in calc_lb show only for uneven types and far displacements.", "anchors": ["type.c: Type_get_true_extent", "type.c: calc_lb", "type.c: calc_ub", "type.c: calc_padding"]}
{"id": "C94", "title": "A freed handle variable becomes the null handle", "statement": "After MPI_Comm_free, MPI_Request_free, MPI_Type_free, MPI_Group_free, MPI_Op_free or MPI_Info_free returns, the caller's variable holds the null handle of its kind, with the value the headers give it.", "quantifier": "all states of the library in which the call returns, all handles", "why_tests_cant": "Tests rarely look at the variable afterwards; the defect shows only when a stale handle is used again.", "anchors": ["comm.c: MPI_Comm_free", "req.c: MPI_Request_free", "type.c: MPI_Type_free", "group.c: MPI_Group_free", "op.c: MPI_Op_free", "info.c: MPI_Info_free"]}
{"id": "C95", "title": "A program the library ends early looks failed", "statement": "Whenever a call ends the program through exit(), the status the parent process sees is not 0, that of success; MPI_Abort ends the program with the given code in every state.", "quantifier": "all calls, all states (also unreachable ones), all programs, all error codes", "why_tests_cant": "There is no finite list of the ways to fail; exit codes are cut to eight bits, which shows only for particular codes.", "anchors": ["mpi.c: MPI_Abort", "copy.c: Pcopy_data2", "pack.c: Pack, Unpack", "type.c: Simpletype_length"]}
{"id": "C96", "title": "The version reported at run time is the one in the headers", "statement": "MPI_Get_version reports the values of MPI_VERSION and MPI_SUBVERSION in mpi.h and mpif.h.", "quantifier": "both headers", "why_tests_cant": "A test of the run-time values passes; that mpi.h lacks the constants shows only in programs that use them.", "anchors": ["mpi.c: MPI_Get_Version", "mpif.h: MPI_VERSION", "mpi.h"]}
{"id": "C97", "title": "The consistency tests compiled in by CHECKS are silent on correct use and catch misuse", "statement": "Compiling handles.c and list.c with CHECKS changes nothing for correct programs: no history of legal calls is aborted by a test. Use or free of a handle that is not live, and deletion of an item through a list it is not in, end the program with a message.", "quantifier": "all histories of legal calls of any length, all handles, all lists and items, all contents of fresh storage", "why_tests_cant": "The tests fire only in particular states (e.g. a full block, or a list made by duplication), and what they fail to catch shows much later.", "anchors": ["handles.c: mpi_verify_handle, mpi_handle_to_ptr, mpi_free_handle (228-300)", "list.c: AP_list_prepend, AP_list_append (216-218, 250-252)", "list.c: AP_list_delete_item (294-300)", "list.c: AP_list_duplicate (528-559)"]}
{"id": "C98", "title": "Running out of memory ends the program with a message", "statement": "When malloc fails, the call that needed the storage ends the program with a message; no NULL pointer is used. A handle is allocated without asking for storage as long as one is free in the open blocks. When malloc succeeds, the tests change nothing.", "quantifier": "all histories of legal list and handle calls, any malloc call failing, all datatype constructions", "why_tests_cant": "Tests do not run out of memory, and cannot choose which malloc call fails.", "anchors": ["list.c: AP_listitem_malloc (32-46), AP_list_new (123-141), AP_list_duplicate (528-559)", "handles.c: mpi_malloc (79-92), mpi_alloc_handle (178-225)", "type.c: Type_struct (311), Type_dup (672)"]}
{"id": "C99", "title": "A whole exchange delivers every message, in whatever order it is posted", "statement": "Any number of messages, each sent by MPI_Isend and received by MPI_Irecv on one communicator, and then completed by one MPI_Waitall: no call fails, every receive buffer holds exactly the elements of its send buffer, no other byte changes, and the library's objects are as before. The calls may come in any order if the tags are different; messages with equal tags have to be received in the order in which they are sent, their calls interleaved in any way. The resulting memory does not depend on the order.", "quantifier": "all reachable states, all numbers of messages, all datatypes and counts, all orders of the calls (for equal tags: all interleavings of the sends and the receives), all pending other traffic that does not match", "why_tests_cant": "The orders of n sends and receives grow like (2n)!, and tests use few messages, types and orders.", "anchors": ["send.c: MPI_Isend", "recv.c: MPI_Irecv", "req.c: MPI_Waitall", "copy.c: Pcopy_data2", "list.c", "handles.c"]}
{"id": "C100", "title": "Fortran initialisation passes the right variables and learns the sentinels", "statement": "The arguments fort.F90 passes to mpi_init_fort and to mpi_save_fort_pointers correspond by position to the parameters of the same meaning. Hence MPI_INIT and MPI_INIT_THREAD called from Fortran succeed, with the state MPI_Init leaves and the required thread level provided, exactly if INTEGER, LOGICAL, REAL, DOUBLE PRECISION and COMPLEX have the configured sizes, and abort otherwise, wherever the compiler puts the variables. From the first initialisation on the addresses of MPI_STATUS_IGNORE, MPI_STATUSES_IGNORE and MPI_IN_PLACE, and no others, are taken for the respective sentinel.", "quantifier": "all states in which MPI_Init succeeds, all addresses of the variables and of the common block, all element sizes, all histories of calls", "why_tests_cant": "A test uses one compiler, one layout and one place of the common block.", "anchors": ["fort.F90: mpi_init, mpi_init_thread, mpi_get_fort_pointers", "mpi.c: mpi_init_fort, mpi_save_fort_pointers, mpi_c_status, mpi_c_statuses, mpi_c_in_place", "mpif.h: common /mpiserial/"]}
{"id": "C101", "title": "Deleting while walking a list; the test program of list.c", "statement": "A walk over a list with AP_list_head_item and AP_listitem_next that reads the successor before it deletes the current item with AP_list_delete_item visits every item once, in order, without undefined behaviour, whichever items it deletes; afterwards the list holds exactly the others in order, and all further calls behave as on sequences. The test program in list.c (LISTMAIN) runs to its end, prints what sequences say, and leaves nothing allocated; by the letter of C it is undefined at the first AP_list_print, which shows a pointer with %d.", "quantifier": "all histories of list calls before and after, all lists, all choices of items by position and datum, all contents of fresh storage", "why_tests_cant": "The test program walks one list with one choice, and its output is not compared with anything.", "anchors": ["list.c: main (LISTMAIN), AP_list_head_item, AP_listitem_next, AP_listitem_data, AP_list_delete_item, AP_listitem_verify"]}
{"id": "C102", "title": "The test programs report no error", "statement": "ctest.c and ftest.F90, which make check runs, report no failed test; neither do ctest_old.c and (up to its call of mpi_unpack without ierror) ftest_old.F90, which print the tags of the receives in order.", "quantifier": "all contents of fresh storage, of uninitialised variables and of the rest of memory, with and without TYPE_CHECKING; one placement of the variables", "why_tests_cant": "The programs pass on a fresh heap, which is zeroed. What they report when the allocator hands out used storage is not tested, and depends on words the library never writes.", "anchors": ["tests/ctest.c", "tests/ftest.F90", "tests/ctest_old.c", "tests/ftest_old.F90", "type.c: Type_struct"]}
{"id": "C103", "title": "Tracing changes nothing but the output", "statement": "Compiled with INFO or DEBUG, MPI_Isend, MPI_Irecv, MPI_Irsend, MPI_Send, MPI_Recv, MPI_Sendrecv and MPI_Comm_dup return the same values, leave the same state and end the program in the same cases as without, and print: the communicator's number and the arguments; if the operation has to wait, the tags now waiting in order; if it meets its partner, the int at the buffer and the tag of the message. Compiled with HANDLE_INFO, mpi_alloc_handle reports each block of handles added after the first.", "quantifier": "all states reachable by legal calls, all legal calls, all combinations of the symbols", "why_tests_cant": "The symbols are off in every build, and the reads they add (of the communicator, of four bytes of the buffer) fail only for messages shorter than an int at the end of their storage, or calls whose communicator is not otherwise used.", "anchors": ["send.c:45-49,77-80,90-92,116-119", "recv.c:50-54,88-91,101-103,128-131,145-166", "comm.c:136-139", "handles.c:219-223", "probe.c:31-35"]}
{"id": "C104", "title": "Any program of nonblocking sends and receives is matched by the rule of MPI", "statement": "Any number of MPI_Isend and MPI_Irecv calls on any communicators, in any order, with any tags and with MPI_ANY_TAG in any receive: no call fails; sends and receives are paired as MPI's matching rule demands (a pair fits, nobody is overtaken, no two operations that fit are both left waiting) and this pairing is the only one the rule allows; the pairs move their data one after the other, in the order in which they meet, and nothing else changes memory; if no receive buffer overlaps another buffer, every receive of a pair holds exactly its send's elements; the unpaired ones wait on their communicator, in the order of the program, behind what waited before; every request is new and reports the state of its operation; nothing else in the library changes. MPI_Waitall for all of them succeeds, and the library is as before, exactly if none is left over.", "quantifier": "all reachable states, all programs of nonblocking sends and receives of any length on any communicators, all counts, datatypes and buffers for which the data of each pair can be moved (buffers of different pairs may overlap), all tags, any number of wildcards, all pending other traffic that does not match", "why_tests_cant": "The number of programs is exponential in their length and which operations meet depends on the whole history; tests use a few fixed sequences, and wildcards hardly at all.", "anchors": ["send.c: MPI_Isend, mpi_match_recv", "recv.c: MPI_Irecv, mpi_match_send", "list.c: AP_list_search_func, AP_list_delete_item", "handles.c", "copy.c: copy_data2"]}
{"id": "C105", "title": "The library links and is what its headers declare", "statement": "Every name a routine of the library calls or passes on stands for exactly one routine (of the library or of the C library), whichever way Fortran names are made; no two routines have the same name for the linker; every routine declared in mpi.h, mpiP.h, type.h and list.h is defined with the same types; every MPI routine of the library is declared in mpi.h and has a Fortran routine with one parameter more; the test programs link, and their calls and those of fort.F90 give Fortran routines as many arguments as they have parameters.", "quantifier": "all 255 routines (258 with TEST_INTERNAL), all 136 declarations, the four ways of making Fortran names, all calls of the test programs", "why_tests_cant": "A test program only links what it uses, with the one naming scheme of the compiler at hand; a routine declared and never defined, or a clash of names under another scheme, is not seen, and no compiler checks the number of arguments between Fortran and C.", "anchors": ["mpi.h 255-444", "mpiP.h: FC_FUNC", "type.h", "list.h", "type.c 767", "tests/"]}
{"id": "C106", "title": "No routine calls itself, and which routines can end the program", "statement": "No routine of the library calls itself, directly, through others or through a pointer; at most nine are active at a time; through pointers only the two tag comparisons are called, never a function of the program; the routines of MPI from which no chain of calls leads to abort() or exit() are exactly 34.", "quantifier": "all routines, all chains of calls, the four ways of making Fortran names, with and without TEST_INTERNAL", "why_tests_cant": "A test run follows a few chains of calls only.", "anchors": ["all .c files", "fort.F90", "list.c: AP_list_search_func, AP_list_apply"]}
{"id": "C107", "title": "What each routine of MPI can do through the routines it calls", "statement": "Exactly 23 routines of MPI (those that make a communicator, a request or a datatype) can allocate storage or make a handle, 16 can end a handle, 11 can release storage, 23 can copy data, and a fixed list can write to the terminal: for every other routine no sequence of calls leads to mpi_alloc_handle or malloc, mpi_free_handle, free, memcpy, or printf, fprintf and perror. For each name called anywhere in the library the routines that call it are exactly those listed; so storage is allocated in five places and released in four.", "quantifier": "all routines of the library, all chains of calls of any length, all four ways to form Fortran names", "why_tests_cant": "Tests run some paths through some routines; that no path of a routine reaches an allocation or a copy is a statement about all paths.", "anchors": ["handles.c: mpi_alloc_handle, mpi_free_handle, mpi_malloc, mpi_free", "list.c: AP_listitem_malloc, AP_list_new, AP_list_free", "copy.c: Pcopy_data2", "type.c: Type_struct, MPI_Type_free"]}
{"id": "C108", "title": "A program of point-to-point calls runs to its end, or stops at the first call without a partner", "statement": "Any program of MPI_Isend, MPI_Irsend, MPI_Irecv, MPI_Send, MPI_Ssend, MPI_Rsend, MPI_Recv, MPI_Sendrecv, MPI_Probe, MPI_Iprobe, MPI_Wait, MPI_Test, MPI_Request_free, MPI_Waitall, MPI_Testall, MPI_Waitany, MPI_Testany, MPI_Waitsome and MPI_Testsome on any communicators, with any tags and wildcards, and with other calls that start and release nothing (collective calls, MPI_Pack, MPI_Unpack, questions about datatypes) and anything the program does to its own memory in between, started while other operations wait there (which it may meet, wait for and release): if each call that must wait comes when the operation it waits for has met its partner (by MPI's rule, which only the program's text decides; for MPI_Probe: when a fitting send waits), then every call succeeds, the tests say which operations have their partner, a probe tells of the oldest waiting send that fits, the status of a receive gives the sender and the tag of the message, a request already released answers with the empty status, the pairs move their data in the order in which they meet, each other call does there what it does alone, nothing else changes memory, and when every request has been released, every handle means what it meant before, and nothing waits any more. Otherwise the program runs up to the first such call and ends there with that call's message about a deadlock (MPI_Wait, MPI_Waitall, MPI_Waitany, MPI_Probe or MPI_Irsend); it never hangs.", "quantifier": "all reachable states, all programs of any length, all counts, datatypes and buffers for which the data of each pair can be moved (a message may be received into a buffer and sent on from it), all tags, any number of wildcards, repeated waits and tests included, all pending traffic, matching or not, all changes the program makes to its memory between the calls", "why_tests_cant": "A test fixes one order of calls; here the outcome of every order is decided, including those that end the program, which a test cannot survive.", "anchors": ["send.c: MPI_Isend, MPI_Send, MPI_Ssend, MPI_Rsend, MPI_Irsend, MPI_Sendrecv", "recv.c: MPI_Irecv, MPI_Recv", "probe.c: MPI_Iprobe, MPI_Probe", "req.c: MPI_Test, MPI_Wait, MPI_Waitany, MPI_Testany, MPI_Testall, MPI_Waitall, MPI_Testsome, MPI_Waitsome, MPI_Request_free", "handles.c: mpi_alloc_handle, mpi_free_handle"]}
{"id": "C109", "title": "Every name is declared before it is used", "statement": "Whatever of INFO, DEBUG, CHECKS, HANDLE_INFO, TYPE_CHECKING, TEST_INTERNAL and LISTMAIN is defined, each routine a line of the library calls or passes on has been declared before that line, in the file or in a header it includes; a prototype in a C file agrees with the routine, a routine passed to the lists has the type they call; routines do not overlap in their files, and their uses are those of the table of C105; the macros for messages add only calls for output, those for checks only calls that report and end the program.", "quantifier": "all routines of all C files with all #ifdefs, every line on which one uses another, every set of macros", "why_tests_cant": "A build compiles one choice of macros; a compiler that accepts implicit declarations hides the error.", "anchors": ["recv.c: MPI_Irecv", "send.c: MPI_Isend", "type.c: FC_FUNC(print_typemap)", "copy.c: Pcopy_data2", "mpiP.h", "configure.ac"]}
{"id": "C110", "title": "The files belong together", "statement": "The makefile compiles the file of every routine and every C and Fortran file; every header included is there, made by configure or one of C; no header of the library is read twice in one compilation; the installed headers need nothing that is not installed; a distribution made by make dist contains what the library needs and names only files that exist.", "quantifier": "all files, all chains of includes of any length, all routines", "why_tests_cant": "A build in the source directory finds headers that a distribution lacks.", "anchors": ["Makefile.am", "Makefile.in", "mpiP.h", "type.h", "listops.h"]}
{"id": "C111", "title": "Fortran routines have the names the Fortran compiler uses", "statement": "For every way a Fortran compiler forms names (upper or lower case, underscore or not, a second one or not), the macro of config.h gives each Fortran routine of the library exactly the name by which a Fortran program calls it, and no two routines the same; so do the four ways that can be defined by hand.", "quantifier": "all Fortran routines, all eight ways of configure, all four ways of mpiP.h", "why_tests_cant": "A test has one Fortran compiler.", "anchors": ["mpiP.h: FC_FUNC", "configure: AC_FC_WRAPPERS", "type.c: FC_FUNC(mpi_get_address)"]}
{"id": "C112", "title": "Which send meets which receive does not depend on how sends and receives are interleaved", "statement": "Take two programs of nonblocking sends and receives that start the same sends in the same order and the same receives in the same order on each communicator, but interleave sends and receives (and communicators) in different ways, with any tags and wildcards. Then the same sends meet the same receives and the same operations are left over. The pairing is the only one in which a send and a receive that fit are together, unless the send is with an earlier receive or the receive with an earlier send. If moreover the two sides of each pair describe the send's buffer alike (otherwise C32) and no receive buffer overlaps another buffer, both programs end with the same memory, the same operations waiting in the same order, and requests that report the same.", "quantifier": "all reachable states, all programs of any length, all interleavings, all tags and wildcards, any number of communicators, all counts, datatypes and buffers for which the data of each pair can be moved whichever comes first", "why_tests_cant": "The number of interleavings grows exponentially with the length of the program, and with wildcards a test of a few of them says nothing about the others.", "anchors": ["send.c: MPI_Isend, mpi_match_recv", "recv.c: MPI_Irecv, mpi_match_send", "list.c: AP_list_search_func"]}
{"id": "C113", "title": "README names what is there", "statement": "Every call README lists as supported has a routine of C that mpi.h declares and, unless it exists for C only, one for Fortran; README lists all routines of the library; the targets README names for make have rules.", "quantifier": "all names in README's list, all routines of the library, all targets", "why_tests_cant": "The tests call a small part of the list, and never one that is missing, since they would not link.", "anchors": ["README", "mpi.h", "Makefile.in"]}
{"id": "C114", "title": "configure does what its options say", "statement": "Whatever options are on the command line and in which order, the last --enable-fort-real=N and --enable-fort-double=N decide the sizes of MPI_REAL and MPI_DOUBLE_PRECISION, which are 4 and 8 without them, and a Fortran program can start exactly if these are the sizes of its compiler; --enable-X defines X's macro, no other option does; every line that asks for one of these macros sees config.h before.", "quantifier": "all command lines made of --enable and --disable options, all sizes, all compilers, all lines of all files", "why_tests_cant": "Unbounded command lines; a build uses one of them, and a header that is read too late goes unnoticed.", "anchors": ["configure.ac", "configure", "type.h: FSIZE_REAL, FSIZE_DPRECISION", "copy.c: Pcopy_data2 (TYPE_CHECKING)", "fort.F90: MPI_INIT"]}
{"id": "C115", "title": "make builds the library in any order and any directory", "statement": "Once configure has run, make builds the library and the Fortran module whatever the order in which its jobs end, from the directory of the sources or another one; the tests find what they include.", "quantifier": "all orders of the 53 steps that the rules allow, all contents of the directory with the sources in it, both kinds of directories", "why_tests_cant": "A build shows one order of jobs; the number of orders is astronomical.", "anchors": ["Makefile.am", "Makefile.in: all-am, libmpi-serial.a", "mpif.F90", "tests/Makefile.am"]}
{"id": "C116", "title": "Every macro, type, variable and member is defined before it is used", "statement": "Whichever macros are defined, every C file of the library can be read together with the headers it includes, and each macro (with the macros in its body), type, variable and structure member it uses has been defined before the place of use, and none is defined twice; the #error of mpiP.h is reached exactly if there is neither a config.h nor a macro for the Fortran names.", "quantifier": "all C files, all sets of macros given to the compiler or defined by config.h, all places of use", "why_tests_cant": "A build sees one set of macros; there are 2^15 sets of those that are tested.", "anchors": ["mpiP.h", "type.h", "listops.h", "listP.h", "mpi.h", "all C files: #include, #define, typedef"]}
{"id": "C117", "title": "The library takes only names of MPI from a program", "statement": "Every name that mpi.h defines and every name that the library gives to the linker begins with MPI_ or mpi_, so that a program that defines no such name links with the library and calls of the library reach its own routines.", "quantifier": "all programs (names defined and names used), all files of the library, all four ways of making Fortran names", "why_tests_cant": "The tests define few names of their own; the number of programs is unbounded.", "anchors": ["mpi.h", "copy.c: copy_data2", "type_const.c: simpletypes", "type.c", "pack.c", "list.c", "Makefile.am"]}
{"id": "C118", "title": "mpif.h can be included in free and in fixed form", "statement": "A Fortran program in free form and one in fixed form can include mpif.h; both get the same declarations, every name has one type given before its value, and the constants are those of C78; what module mpi offers besides is in mpif.h as well.", "quantifier": "all lines of mpif.h, all programs around the include line", "why_tests_cant": "The tests are all in free form, and a test that includes the header shows only that its own compiler and form accept it.", "anchors": ["mpif.h", "mpif.F90"]}
{"id": "C119", "title": "The text of mpi.h says what programs rely on", "statement": "mpi.h can be read by the rules of C in every standard of C. It gives the constants of C78, the prototypes of C105 and the names of C116, each name once and each type before its use; the members of MPI_Status are at the places that mpif.h names; a constant in both headers has one value; every macro is one operand in whatever expression it is used.", "quantifier": "all lines of mpi.h and mpif.h, all constants, prototypes, types and macros", "why_tests_cant": "A test includes the header and uses a few of its names; it does not say what the text means as a whole nor under another standard of C.", "anchors": ["mpi.h", "mpif.h"]}
{"id": "C120", "title": "The C files hold the routines of the tables whatever macros are defined", "statement": "Whatever macros are defined, each C file of the library can be read by the rules of C: comments, literals, conditionals, parentheses and braces are closed. It then holds exactly the routines of C105 and C109, in their order, each with the first and last line, the result, the parameters, and the uses of other routines line by line that the tables give for these macros.", "quantifier": "all sets of macros, all C files of the library, all routines and uses in them", "why_tests_cant": "A build reads the files under one set of macros and says nothing about the others or about what the tables of this verification leave out.", "anchors": ["cart.c", "collective.c", "comm.c", "copy.c", "error.c", "getcount.c", "group.c", "handles.c", "ic_merge.c", "info.c", "list.c", "mpi.c", "op.c", "pack.c", "probe.c", "recv.c", "req.c", "send.c", "time.c", "type.c", "type_const.c"]}
{"id": "C121", "title": "Return statements and Fortran bindings are those of the tables", "statement": "Whatever macros are defined, the return statements of every routine with an error code are those of C74, every Fortran entry point stores its code once in its last argument and calls the C routine with the arguments that the table of bindings gives, and the routines called have the parameters of that table; every row of the tables comes from the text.", "quantifier": "all sets of macros, all routines with an int result, all Fortran entry points, all rows of the tables", "why_tests_cant": "A test sees the codes and the effect of the calls it makes, and most bindings are called by no test.", "anchors": ["cart.c", "collective.c", "comm.c", "group.c", "info.c", "mpi.c", "op.c", "pack.c", "probe.c", "recv.c", "req.c", "send.c", "type.c"]}
{"id": "C122", "title": "Every name in a routine is declared", "statement": "Whatever macros are defined, every name used in a routine is a word of C, a parameter, a variable declared before in a block that is still open, a routine, or a macro, type, variable or member that C116 accounts for, first used no earlier than the table of C116 says and under the same macros.", "quantifier": "all sets of macros, all C files of the library, all words of all routines", "why_tests_cant": "A build with one set of macros compiles only the lines that these select; the trace output is compiled by no test.", "anchors": ["probe.c:24-36", "recv.c", "send.c", "handles.c", "mpi.c", "mpiP.h", "type.h"]}
{"id": "C123", "title": "Running the text of simple routines gives what the model says", "statement": "Run statement by statement from the text of the C file, with C's meaning for the statements, MPI_Group_union, intersection, difference, free, incl, range_incl and translate_ranks, MPI_Cart_coords, MPI_Dims_create, MPI_Cart_get, the routines of op.c, info.c, error.c and ic_merge.c, the conversions of handles and MPI_Get_count have the outcome that the model gives: the same result, the same cells written and no other, the same aborts and the same undefined behaviour.", "quantifier": "all handles, all arrays of ranks and coordinates of any length, all numbers of dimensions, all memories", "why_tests_cant": "The test programs call few of these, with arrays of one or two entries and never with groups or arrays that make them abort.", "anchors": ["group.c", "cart.c", "op.c", "info.c", "error.c", "ic_merge.c", "getcount.c", "comm.c", "req.c", "collective.c"]}
{"id": "C124", "title": "Running the text of list.c gives what the model says", "statement": "In any memory that represents a heap of the model, a routine of list.c run from its text has the outcome that the model gives: the same result, the same abort, the same undefined behaviour or endless loop, and a memory that represents the heap that the model leaves. This holds for every routine that makes, frees, changes, searches or reads lists and items; AP_list_braindead_next, printing and main are left out.", "quantifier": "all heaps, well formed or not, all lists, items and data, all routines given as arguments that change nothing", "why_tests_cant": "The program in list.c runs one sequence of calls; lists that are damaged or empty, items of another list and counters that overflow are in none.", "anchors": ["list.c:32-581", "listP.h:14-32"]}
{"id": "C125", "title": "The text of list.c keeps sequences", "statement": "From a memory as it is when a program starts, in every history of legal list calls run from the text of list.c each call returns, and its value and what it stores in the caller's variables are those that the specification of lists as sequences allows; in any memory that represents a heap a single call, legal or not, has the outcome of the model.", "quantifier": "all histories of calls on any number of lists, all data, all contents of fresh storage", "why_tests_cant": "The program in list.c runs one history with a handful of items.", "anchors": ["list.c:32-581", "list.h:19-45", "listP.h:14-32"]}
