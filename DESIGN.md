# Design: a Rocq/Coq model of mpi-serial

Target: `/repo` (ESMCI/mpi-serial, C). The code is never built or run here; the
model is a reading of the text. Every model definition cites the file and lines
it models, and states its simplifications in the same comment.

## 1. What the model looks like

* **Outcomes.** Every modelled function returns `res A`:
  `Ok a` (returned), `Abort msg` (`abort()`), `Exit code msg` (`exit()`),
  `UB msg` (undefined behaviour: NULL/dangling dereference, out-of-bounds access,
  signed overflow, write through a bad pointer, reading an object as the wrong
  union member) and `Diverge` (fuel exhausted; theorems show it does not happen).
* **Integers.** `Z` with explicit range checks (`int` 32 bit, `long` 64 bit) and
  explicit wraps for unsigned/truncating conversions wherever the code has them.
  Platform: LP64, gcc, two's complement, little endian.
* **Pointers.** List items, lists, handle slots and datatype objects live in
  finite-map heaps; pointers are identifiers, `NULL` is separate. `malloc` never
  fails (except in `AllocModel.v`, C98) and never hands out a live identifier.
  Uninitialised memory is an *oracle* argument: theorems quantify over it.
* **User memory.** `Z -> option Z` (address to byte; `None` = not allocated). Library
  storage is disjoint from it. `memcpy` on unallocated or overlapping ranges is `UB`.
* **Junk.** Fields the C code never writes (e.g. `o_lb`, `o_ub`, `Req.source` of a
  send, output arguments) keep an arbitrary value.

### Files (under `rocq/theories/`)

| file | models |
|---|---|
| `Base.v` | outcomes, C integers, loops, arrays |
| `ListModel.v` | `list.c` at pointer level |
| `HandleModel.v` | `handles.c` |
| `TypeModel.v` | `type.c`, `type_const.c`, `type.h` |
| `CopyModel.v` | user memory, `copy.c`, `pack.c` |
| `SysModel.v` | whole-library state; `comm.c`, `send.c`, `recv.c`, `req.c`, `probe.c`, `getcount.c`, `mpi.c` life cycle |
| `CollModel.v` | `collective.c`, `op.c`, the entry points of `pack.c`, `cart.c`, `ic_merge.c`, `group.c` |
| `SysCalls.v` | one constructor per library call, and histories of calls |
| `MiscModel.v` | error string, processor name, version strings, and their Fortran bindings |
| `WtimeModel.v` | `time.c`: MPI_Wtime in binary64 (the standard library's SpecFloat) |
| `RetModel.v` | every return statement of every routine that returns a code, and what each Fortran binding stores in ierror (198 and 88 entries) |
| `ThreadModel.v` | `mpi_alloc_handle` run by two threads, statement by statement |
| `HeaderModel.v` | all integer constants of `mpi.h` and `mpif.h` |
| `FortModel.v` | `mpi_init_fort`, the Fortran sentinels, the bindings that translate them, and those that read or write 8 bytes |
| `StubModel.v` | `info.c`, `op.c`, `error.c`, the f2c/c2f conversions |
| `BindModel.v` | the Fortran bindings as text: parameters, routine called, arguments passed, where the code is stored (87 entries), and the C prototypes |
| `PrintModel.v` | the printing routines of `list.c`, `recv.c` and `type.c`, the list walks, and the true extent |
| `CheckModel.v` | `handles.c` and `list.c` compiled with CHECKS |
| `TraceModel.v` | the calls compiled with INFO, DEBUG or HANDLE_INFO |
| `ListMainModel.v` | the test program of `list.c` (LISTMAIN) |
| `CtestModel.v`, `FtestModel.v` | the test programs of `tests/` (without TEST_INTERNAL) |
| `BuildModel.v` | where the routines stand and use each other, with all `#ifdef`s; includes, makefile, file list; how configure names Fortran routines |
| `ConfModel.v` | README's list of calls, the options of configure, the rules of make, where files are looked for |
| `NameModel.v` | the C files and headers as the preprocessor reads them: includes, macros, types, variables, members, uses; what the linker takes from the library |
| `TextModel.v` | the text of `mpi.h`, `mpif.h` and `mpif.F90`, line by line |
| `SourceModel.v` | the text of the 21 C files, line by line |
| `LinkModel.v` | all routines of the library, what they call, the declarations in the headers, and what the test programs call |
| `AllocModel.v` | the calls of malloc and what follows when one fails |
| `FinitModel.v` | `fort.F90` and the common block of `mpif.h` |
| `*Spec.v`, `SysLog.v`, `SysReach.v` | small independent specifications (sequences, typemaps, abstract message-passing machine, histories, what C says of text and statements) |
| `*Proofs.v`, `*Refine.v`, `SysInv.v`, `SysAbs.v`, `SysSim*.v`, `SysHist.v`, `SysFacts*.v`, ... | lemmas |
| `*Ex.v` | concrete runs used by the non-vacuity examples and by the witnesses |
| `Props*.v` | property theorems only, each closed by `exact lemma`, with `Print Assumptions` and a non-vacuity `Example` |

## 2. Specification style

* List and handle properties: refinement of abstract sequences / sets.
* Datatypes: typemaps in unbounded `Z` written from the MPI standard text.
* Copy/pack: post-memory described pointwise (which byte comes from where, frame).
* Point to point: an abstract machine whose state is, per communicator, the pending
  sends and receives in posting order, plus a request table and datatype table.
  It never mentions list items, list pointers or handle slots. A simulation theorem
  shows that every library call on every reachable state gives exactly the outcome the
  abstract machine gives (including which calls abort), and traces of any length
  follow. Property theorems are stated on traces of API calls and this machine.

When the faithful model violates a property, the property is marked `partial` with
a `..._refuted` theorem (a concrete witness) and a `..._partial` theorem proving what
does hold; the note says what is missing.

## 3. Plan per property

C01-C04 handles: model of the block table and free list with the real bit encoding;
invariant "live set and free chain partition 1..256*nblocks-1"; induction over
operation sequences; capacity, LIFO and high-water facts follow from the invariant.
C05 init life cycle: `MPI_Init` on the handle model and on whole traces; the first wording ("no handle is live") is refuted
and the exact condition proved. C75 the exact order of handles. C76 the refinement theorem itself.

C06-C08 list: pointer-level heap; representation predicate for a doubly linked list;
each operation refines the sequence operation, preserves all other lists and
the counters; fuelled loops are shown never to run out.

C09-C14 matching: simulation with the abstract machine; "no matchable pair"
invariant; non-overtaking, exactly-once and isolation proved on traces.
C15, C16 `MPI_PROC_NULL` and bad ranks: direct, for every state.
C17-C19 status, Test, Wait: from the simulation.
C20-C24 blocking calls, Sendrecv, Irsend, probes: as compositions, as in the C code.
C25 Waitall: `MPI_STATUSES_IGNORE` with more than one completing request computes
`&NULL[i]` and writes there: refuted; the rest proved (`_partial`).
C26 Testall: the loop tests the pointer `flag`, not `*flag`, so completed requests
are consumed although flag=0: refuted; flag value proved.
C27 any: `*index` never written: refuted; rest proved.
C28 some: indices never written, `!outcount` tests a pointer so Waitsome never aborts:
refuted; outcount and effect proved.
C29 Request_free of a pending request leaves its slot queued: refuted; complete
requests proved.
C25, C26 and C28 are also stated exactly for every statuses argument (`MPI_STATUSES_IGNORE`, too few or enough statuses), by
`StsFacts.v`; that the index (C27), the positions (C28) and the count of a status (C34) are written by no call but `MPI_Recv` is
proved for every program in `CountFacts.v`.
C30 Comm_free: simulation.
C31 receive first: copy specification. C32 send first uses the receiver's count/type
for both sides: refuted; equal count/type proved. C33 over-receive: receive-first proved;
send-first refuted, and when the send is first nothing of what the sender said about its data plays a part (`C33_send_first_exact`);
the two orders agree for any two datatypes when the layout of the send begins with that of the receive (`C32_orders_agree_partial`). C34 get_count: only `MPI_Recv` sets it: refuted; Recv and
Get_elements proved.

C35, C36 constructors vs. typemap specification, with the 64-bit no-overflow
side conditions made explicit. C37, C38 bounds and extent for marker-free types.
C39 `o_lb/o_ub` uninitialised: refuted; extent is a function of the
arguments and the two junk words, proved. C40 markers: refuted for non-negative UB
and negative LB displacements; the half that works proved. C41 size. C42 constants:
`MPI_INTEGER16`, `MPI_SIGNED_CHAR`, `MPI_WCHAR`, `MPI_LB`, `MPI_UB` fail: refuted; all the others
proved by a complete finite sweep for every configured size. C43 empty types: bounds refuted; size 0
and no data moved proved. C44 commit. C45 independence. C46 type_free: variable
not nulled and pending receives dangle: refuted; rest proved. C47 dup: heap overflow
(`UB`) for every type: refuted; with enough storage everything but the count is copied: proved.

C48-C51 typed copy; C50 offsets are `int`: refuted; correct below 2^31 proved.
C52-C55 pack/unpack. C56-C60 collectives: each is zero or one typed copy; the simulation covers them, so they also occur
in the histories of C76 (with pack, unpack and MPI_Cart_create). C57 offsets of 2^31 bytes or more wrap: refuted; below proved.
C58 in-place refuted for the routines that do not check it, proved for those that do. C59 Reduce ignores MPI_ROOT, and
MPI_IN_PLACE skips the root check: refuted; rest proved.

C61-C67 groups, communicators, cartesian, merge. C62: empty group and ranges with first <> last: refuted, rest proved. C66: `periods` never written:
refuted, rest proved; C67 output never written: refuted.
C68, C69 strings: exact contents. C72, C85 use the standard library's SpecFloat (IEEE-754 binary64); rounding is
proved correct in integers counted in units of 2^-1074 (`DoubleFacts.v`), without real numbers.
C70: bindings equal the C calls with sentinels translated, except seven collectives that do not translate MPI_IN_PLACE: refuted there.
C71: `mpi_init_fort` accepts exactly the agreeing headers and type sizes. C78: the two headers agree (complete comparison).
C79: bindings that store or load 8 bytes at an INTEGER: refuted; what they do is stated exactly.
C80: arguments passed by the bindings: a complete sweep over the table; upper-case names clash: refuted.
C81: handles in use after a history, from the specification's steps and the exact handle table. C82: list package counters against
the queues of the specification: proved up to MPI_Finalize, refuted there.
C83: constants told apart by kind, a complete sweep of both headers; the constants the calls use are those of the headers; error classes and operations: refuted. C84: conversions are the
identity; created info and operation handles are null and error handlers are ignored: refuted.
C86: relational parametricity of every model function in the byte values, by one walk over the monadic definitions, for all states and
arguments. C87: from the refinement of C76, whose specification mentions only datatype junk and the stale status of a send: refuted for
derived datatypes, proved for programs without them or with equal datatype storage, away from statuses of completed sends.
C88: every step of the specification either leaves memory alone or is one run of the copy, pack or unpack loop; the loops are followed
byte by byte from an `Ok` outcome, so no condition on datatypes is needed.
C89: loop invariants read off an `Ok` outcome of `Type_struct`, then induction over programs; no size condition. C90: equality of the
specification's maps in unbounded integers, then C89.
C91: invariant on the log (matches of a tag = sends zipped with receives), kept by every step of the specification.
C92: PrintModel (output as texts and numbers, `strict` = printf as C defines it); loops by induction over the list segments
of ListProofs, queues through the relation of SysAbs, typemap by loop unrolling.
C93: calc_lb/calc_ub/calc_padding as folds (TypeProofs), then rounding; refuted against the standard's unpadded true extent.
C94: unfolding of the free calls.  C95: a walk through every call (ExitFacts, like FlowFacts) showing which exit() can occur.
C96: look-up in the header tables.
C97: the checked functions equal the ordinary ones under the invariants of HandleProofs/ListProofs plus an owner map for list
items; refuted for freed handles and for lists made by AP_list_duplicate.
C99: induction over the posted calls with an invariant on both queues, memory and requests (for every tag the queue holds
what one side is ahead of the other); each step is C09, C10, C31 or C33_send_first_exact.
C100: the argument and parameter lists of `mpi_init_fort` as data, looked up by position; then C71.
C101: induction along the walk with the relation of ListRefine; the test program by computation, for every junk.
C102: the four programs of `tests/` written as histories of calls with the comparisons they make, run by `vm_compute` with symbolic junk.
C103: the traced calls are the plain ones followed by their text (by unfolding); the text from the invariant of C76 and C92; refuted for short
messages (DEBUG) and unused communicators (INFO).
C104: the program is run step by step along `couples` (PairSpec) with an invariant on queues, memory and requests; each step is C09, C10, C31 or
C32. That `couples` obeys the rule, and alone does, by induction over the program.
C108: the invariant of C104 with the set of operations whose request has been released; each call is composed from the steps of C104, the test of a request (C18) and the probe (C24). What waits already on the program's communicators is the beginning of the program: the invariant holds there for the state without it (`before`), because operations that wait do not fit each other (C11) and have requests of their own; C108_standing: every state can be read so. Another call (`Aside`) may come between if in every later state it is legal, changes memory only and does what it is said to do (`aside_ok`); C108_aside: the questions about a datatype, MPI_Pack, MPI_Unpack and the collective calls are such, with the effect that C41, C54, C52-C53 and C56-C58 give them.
C105, C106, C107: finite checks of the tables of LinkModel by `vm_compute`, each with a lemma that the check says what the specification says;
refuted for MPI_Type_dup, for `FORTRAN_CAPS_` and for TEST_INTERNAL.
C109, C110, C111: the same for the tables of BuildModel: declared before use (refuted for three uses under INFO and TEST_INTERNAL), files and
includes (refuted for `make dist`), Fortran names under configure (refuted for compilers that add a second underscore, since `FC_FUNC` is used
and not `FC_FUNC_`, and for MPI_GET_ADDRESS in upper case).

C112: the pairing of C104 is stable (MixSpec: no send and receive that fit would both rather have each other), which follows from the rule; two stable
pairings of programs with the same sends and the same receives in order are the same, by induction on the places of a pair; the rest follows from C104.
C113: finite checks of README's list against the tables of LinkModel; refuted for mpi_type_dup. C114: the variable of an option is the value of the last option for
it, by induction over the command line; sizes by DecimalString; MPI_INIT by C100; refuted for `--disable-X`. C115: whether a sequence of steps works depends only
on what is made before each look; every proper sequence looks only for sources, what configure made and mpi.mod; refuted for `make -j`.
C116: the files are read once with the tests left open; a use is covered if its tests imply those of a definition, with case distinction; sound for every set of macros. C117: finite
reachability in the graph of files and names without the program's name; refuted for 92 names.
C118, C119: TextSpec reads text as Fortran in free and fixed form and as C; reading the two headers gives the tables of HeaderModel, the part of LinkModel for mpi.h and the
names of NameModel, by computation; what a header with a meaning is like is proved for all statements; refuted for fixed form, for MPI_ADDRESS_KIND and for C90.
C120, C121, C122: SourceSpec reads a C file under a set of macros (comments, literals, conditionals, routines, heads, uses) and BodySpec reads the bodies (returns, stores, calls
of bindings, scopes of names); that only the macros a file asks about matter is proved for all texts, and every subset of these is computed; C122 is refuted for probe.c with INFO.
C123, C124: RunSpec parses the bodies that SourceSpec reads into expressions and statements and gives these a meaning step by step over a memory of objects with cells; one rule for each
form (RunFacts) takes a run along the text, beside the model's function, up to outcomes of the same kind; loops by induction on their turns. For list.c a relation between heaps of the
model and memories (`rep`) is kept by every store. C125: the calls of C124 put together with the refinement behind C06.
C98: case analysis at each malloc call under the same invariants; refuted for Type_struct.
C73: statement-level interleaving model of `mpi_alloc_handle` for two threads: refuted for overlapping calls; all 252 schedules
of two calls are classified, for every table with two free entries;
C74: a table of all return statements, closed under "return the value of that call"; C77: refuted for two of three bindings.

Not modelled at all: the MPI-2 one-sided/IO declarations without definitions,
`printf` output other than termination messages, C92, C101 and C103, configure and the makefiles except for C110, C111 and C114 to C122, `tests/ftest_internal.F90` (but see C105).

## 4. Trusted base

* The Coq 8.16.1 kernel (and `vm_compute`).
* Axioms: none (section 5).
* That the model reads the C text correctly (citations are beside each definition; for the tables of the headers C118 and C119 check it, for the tables of routines, uses, returns, bindings and
  names C120 to C122; these take the text in TextModel and SourceModel as copied from `/repo` and the readers in TextSpec, SourceSpec and BodySpec as what Fortran and C say;
  for list.c, group.c and a few more C123 and C124 check the functions of the model too, with RunSpec as what C says that statements do), and
  the platform assumptions above.
* Not modelled: concurrency (except C73), signals, `malloc` failure (except C98), stack
  exhaustion, strict-aliasing effects, compiler behaviour after undefined behaviour.

## 5. Axioms actually used

Every theorem in every `Props*.v` file: `Closed under the global context` (no axioms).
(Printed by the build; kept current as theorems are added.)
`coqchk -o` also names seven constants of the standard library's `Coq.ssr.ssrunder.Under_rel` (`Under_rel`, `Under_relE`, `Under_rel_from_rel`,
`under_rel_done`, `Over_rel`, `over_rel`, `over_rel_done`): they come with loaded library files, and no theorem here depends on them.
