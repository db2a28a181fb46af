# Formal model of bdlib: design

Everything in `rocq/theories` is checked by Coq 8.16.1. The code in `/repo` is never run; the only tie between
theorem and code is the reading of the source, so every model definition cites file and lines.

## Trusted base

* Coq's kernel. No axiom is declared in this development, no kernel check is switched off, nothing is admitted.
* `Print Assumptions` stands below every theorem of the `Props*.v` files. All print
  "Closed under the global context", except `C14_factor`, `C14_append_double` and `C82_build_double`, which use the real numbers
  through Flocq and therefore list the standard library's `ClassicalDedekindReals.sig_not_dec`,
  `ClassicalDedekindReals.sig_forall_dec`, `FunctionalExtensionality.functional_extensionality_dep` and
  `Classical_Prop.classic`.
* The faithfulness of the model to the source text. The head of every `*Model.v` file lists its simplifications;
  they are repeated below.
* Models of things outside the repository: the C library (`memcmp`, `memmem`, `strlen`, `vsnprintf`, `malloc`), the
  C++ library (`std::istream` extraction, `std::unordered_map`, `std::hash` as an arbitrary function, allocation
  failing as an arbitrary oracle says), system calls (failing as an oracle says), the Tcl library (a record of
  functions and what is assumed of them, with an instance showing the assumptions can be met).
* Build configuration modelled: default (with or without `NDEBUG`: the field `d_debug` of a class description says whether
  `assert` checks, the theorems hold for both, and a failing assertion is the outcome `Undef Asserted`; `CPPUNIT_VERSION` not
  defined, so moved-from objects keep stale `offset/sublen/my_hash`; `HAVE_MMAP` (except in `StdioModel`) and `HAVE_MEMMEM` defined;
  LP64: `size_t` 64 bit, `int` 32 bit, `char` signed).

## How outcomes are modelled

Every modelled function returns one of (`Base.v`, `res`): normal result, C++ exception (with the state it leaves
behind), `std::terminate`/`exit`, undefined behaviour (`Undef` with the kind), or out of fuel for loops without
structural bound. Memory accesses check bounds and liveness and yield `Undef` when they fail. Fixed-width arithmetic
is `Z` with explicit wrap (`u64`, `s64`, `i32`). A theorem that gives the outcome `Ok` therefore says "no undefined
behaviour" as part of the functional claim. Non-termination is stated for all amounts of fuel.

## Reading guide

For a subject `X`: `XModel.v` is the code, `XSpec.v` says what is meant without using the model's helpers,
`XProof.v` (and further files) hold the proofs, `PropsX.v` holds only property theorems, each closed by `exact`
(or by computation for witnesses), with `Print Assumptions` and an `Example` meeting the hypotheses.
A property that does not hold as one would wish is stated with the exact conditions under which it holds, and every
condition has a witness `..._refuted` showing that it is needed.

## What is modelled, by source file

| source | modelled in | functions |
|--------|-------------|-----------|
| `ReferenceCountedArray.h` | `RcaModel`, `RcaExec`, `CntModel` (the counter as an `int`), `NestModel` (elements that are Strings), `AliasModel` (items by reference) | `ArrayRef` (allocation, growth, compaction, release), all constructors, copy, move, `operator=`, `swap`, `COW`, `AboutToModify`, `getOwnCopy`, `Detach`, `CheckDeallocRef`, `reserve`, `resize`, `insert`, `append`, `push_back`, `replace`, `slice`/`Slice`, `find`, `rfind`, `at`, `read`, `write`, `Cref`, iterators as positions, `hash` with its cache, `clear`, destructor |
| `String.h`, `String.cpp` | `RcaModel` (virtual `reserve`, `c_str`, `~String`), `CleanseModel` (bytes written by `cleanse`), `StrModel` (algorithms on contents), `AlgModel` (the same on buffers), `NestAlgModel` (split into an Array in memory), `IsModel` (`operator>>`, `getline`), `IshModel` (the same on buffers), `OsModel` (`operator<<`), `ExpModel` (`dup`, `copy`, `std::string`) | `compare`, relational operators, `find`, `rfind`, `ifind`, `rifind`, `split`, `sub`, `subst`, `trim`, `chomp`, `newsplit`, `operator*`, `printf`, `operator+=` and friends |
| `Array.h` | `NestAlgModel` (join and == on Strings in memory), `RcaExec`, `ArrModel`, `OperModel`, `StrModel` and `AlgModel` (`join`) | `push_front`, `shift`, `pop` (also of temporaries), `subarray`, `equals`, `join`, `++`, `--`, `<<`, `>>`, `+`, `+=` (items; not `Array&&`, which does not compile when used, nor `Array(const_pointer)`) |
| element lifetimes (`ReferenceCountedArray.h`, `Array.h`) | `LifeModel` | construction, copying, moving and destruction of elements of class type in all calls above except the searches, with exceptions from any of them |
| growth factor | `GrowModel`, `GrowFloat`, `QueueModel`, `BuildModel` | the allocations made and elements moved by appending, with `size_t(size * 1.5)` computed in doubles |
| `HashTable.h` | `HashModel`, `HsModel`, `HtModel`, `PtModel` and `LibModel` (Strings on the heap) | all members except `operator=(initializer_list)`, which cannot be instantiated |
| `base64.cpp`, `base64.h` | `B64Model`, `B64hModel` (on buffers) | `b64enc_buf`, `b64dec_buf`, `b64enc`, `b64dec`, `base64Encode`, `base64Decode` |
| `Cstrings.cpp` | `CstrModel` | `strlcpy`, `strlcat`, `strdup`, `strldup`, `str_redup`, `calloc`, `realloc` |
| `Stream.h`, `Stream.cpp` | `StreamModel`, `StdioModel`, `MstModel` | all of `Stream`; several Streams over one heap in `MstModel`; files with mmap in `StreamModel`, without in `StdioModel` |
| `AtomicFile.h`, `AtomicFile.cpp` | `AtomicModel` | all |
| `ScriptInterpTCL.*`, `ScriptInterpTCLCallbacks.h`, `indices.h` | `ScriptModel` (conversions, dispatch, `loadScript`), `RegModel` (command registry), `VarModel` (linked variables), `CallModel` (`eval`, callbacks), `TobModel` (references to Tcl objects) | see the heads of the files |
| threads | `ConModel` | counter and buffer accesses of construction, copy, move, assignment, reading, element writes, `clear`, `substring`, shortening, `c_str`, destruction |

Simplifications, by model:

* `RcaModel`: elements are pure values and copying one neither throws nor has side effects (`LifeModel` lifts this); the counter is an
  unbounded integer (`CntModel` has the `int` and says when they agree); `size_t(size * 1.5)` is an arbitrary function (made concrete in `GrowFloat`); addresses are
  never reused, so access to released memory is visible.
* `LifeModel`: moving an element does not throw if the class has move operations, otherwise it is a copy; destructors
  do not throw; item arguments lie outside the array; sizes are not wrapped; no hash cache.
* `StrModel`: strings are lists of bytes; memory does not run out here (`AlgModel` lifts both); character classes are
  those of the C locale.
* `AlgModel`: loops that only read take the contents as a list; an `Array<String>` is a sequence of variables, and an
  oracle says when growing it fails; assertions are on or off as `d_debug` says (they never fail).
* `IsModel`: `std::istream` as the standard describes extraction of one character, putback and the sentry.
* `OsModel`: formatted insertion of one character as in the standard and libstdc++; `exceptions()` is not used; whether
  the sentry of a stream that is not good sets failbit is a parameter.
* `ExpModel`: a `std::string` is the list of its characters; memory outside Strings is a list and is not freed.
* `B64hModel`: memory after a String is readable up to the first indeterminate byte of its buffer.
* `CleanseModel`: the compiler keeps the stores.
* `CstrModel`: flat memory, pointers without provenance.
* `B64Model`: `malloc` succeeds (`B64hModel` lifts this); a right shift of a negative number is an arithmetic shift.
* `StreamModel`: no class derived from `Stream`; a file is its bytes.
* `AtomicModel`: no other process touches the files; the caller appends to `fd()`.
* `HashModel`: bucket contents are lists; a moved-from map is empty; moved-from keys are not followed (they are in `HsModel`).
* `HsModel`: the Strings are on the heap, the nodes and the bucket array are not (their allocation may fail); a new entry is made before the buckets grow, as libstdc++ does; variables for new Strings are chosen unused.
* `HtModel`: libstdc++'s assignment (`_M_assign_elements`, `_M_assign`, node reuse) and insertion from a range; a move leaves the other table empty with one bucket; self-move-assignment is not modelled.
* `ScriptModel`, `RegModel`: doubles are opaque; Tcl objects have no identity or reference count (they do in `TobModel`); only the global
  namespace.
* `AliasModel`: items of a plain or class type with values as elements; rvalue items are not followed.
* `LibModel`: an array is a length, element k of array j is the String `el j k`, where `el j` is any injection (so that elements can be used like other Strings); arrays are not shared with each other, nor changed as arrays except at their end; locals get names above all in use; base64Decode only on encodings with the standard alphabet.
* `TioModel`: text streams are string streams, which always have memory, with width 0, skipws set and `exceptions()` unused; what isspace says of bytes from 128 to 254 is a parameter; a word with such a byte is read only if it is no white space.
* `PtModel`: as `HsModel` and `HtModel`; the program's String x is the heap's `str x`, the nodes get the other names; c_str() is not among the calls; in a call on a value the value is called 1.
* `MstModel`: Stream k holds String k; `k = std::move(j)` is ambiguous between the two assignment operators and does not compile, so only copies are assigned; the parameter of operator=(Stream) is a name of its own.
* `SaveModel`: the Stream is its data (C40 and C59 have the heap model of writeFile); memcpy stores in ascending order; a store for which there is no room kills the process, which is a stop; without mmap the descriptor is at the end of the file, as it is after open; fclose after an error tries once to write what is left.
* `NestAlgModel`: the initializer list `{a}` is a reservation and an append; split's assertions about reference counts are those of `AlgModel` (C56).
* `NestModel`: the slots a loop visits are computed before it starts; items are Strings outside the arrays, or elements of them by const reference; `resize(n, value)` and the fill constructor (C52), `hash()` and inserting an array into itself are left out; a call on an element may not be `c_str()` or work on a moved-from String.
* `TobModel`: an object is a text or a list, and the text of a list an arbitrary function of those of its elements; numbers are objects with their text; memory does not run out; the conversions from Tcl only read texts.
* `VarModel`: Tcl variables are global scalars with traces (most recent first, stopped by the first error, not run
  while they run); hooks only look at their arguments; buffers are arrays of `char`.
* `CallModel`: Tcl is an arbitrary function from script and state to success, result and state; `CallSpec` has its own
  parser for scripts without substitution.
* `ConModel`: sequentially consistent interleaving; copying or erasing a buffer is one step, overlapping accesses are
  told apart by `conflict`; an object belongs to one thread; memory that is not initialized holds 0; growing or shifting an
  unshared buffer is one step; `substring` gets arguments in range.

## Properties

| id | modelled as | proof |
|----|-------------|-------|
| C01-C05 | heap model, op language over any number of variables, failure oracle | invariant + refinement by induction over op lists |
| C06-C09, C13, C15, C16 | per-operation functions of the heap model | per-operation refinement lemmas; `_refuted` witnesses by computation |
| C10 | `o_hash` cache field in the heap model | part of the invariant |
| C11, C26 | find/rfind loops | induction against "least/greatest index such that" |
| C12 | public `reserve` | refinement when unshared and `n >= length`; `_refuted` otherwise |
| C14 | growth sequence of capacities | potential-function induction; the factor computed in binary64 with Flocq |
| C17 | `c_str` in heap model | refinement + `_refuted` for exact-capacity constructors |
| C18, C19 | compare functions with `i32` result conversion | lexicographic spec, order laws |
| C20-C25, C27 | value-level loops | induction on the remaining string; non-termination shown for all fuel |
| C28 | cleanse loop over (counter, address, length) | the bytes and the counter left, in closed form; independence of contents; witnesses for the other release paths |
| C29 | istream as remaining bytes + state flags | induction |
| C30 | equals loop | induction |
| C31 | bucketed table with arbitrary hash vs finite map | refinement by induction over op lists |
| C32-C34 | encoder/decoder over byte lists with explicit buffers | induction by blocks, finite sweep over 6-bit values lifted by lemma |
| C35-C37 | C loops over byte memory with bounds check | induction |
| C38-C40 | stream state machine over the heap model of String | refinement, induction |
| C41, C42 | file system state + crash after any step + failing syscalls | case analysis over steps, invariant over traces |
| C43, C44, C46 | conversions, argument dispatch, suffix test | arithmetic, induction |
| C45 | registry with nested calls (functions that run programs) | refinement to a map from names, by induction over programs |
| C47, C48 | interleaving semantics of counter and buffer accesses | invariant (counter = owners + destructors under way) over all schedules; witness schedules, also for `c_str` on substrings |
| C49 | traces, trace data, hook table, C++ objects | refinement to a map from names to objects, by induction over programs; witnesses for untidy programs |
| C50 | join, printf and C strings composed | induction over the parser of Tcl words; witnesses |
| C51 | recursion with fuel over an arbitrary interpreter | case analysis, induction on fuel for the endless case |
| C52, C53 | buffers of slots, raw or holding an object, counters of constructions and destructions, oracle for exceptions | invariant over programs that catch exceptions (every slot of a buffer holds an object); what an array shows after an edit that returned (`LifeLeaves`, `LifeKeep`, `LifeShow`); witnesses |
| C54, C55 | the heap model driven by the algorithms, with locals, temporaries and unwinding | Hoare-style rules from the refinement of each member function; loop invariants reuse the value-level proofs |
| C56 | number of owners of a buffer | a second logic that follows who shares the buffer through each call |
| C57 | `replace` called by `Slice` | refinement; put-get and get-put laws; witnesses |
| C58 | raw pointers (`ptr_to`, `ptr_read`) over `RcaExec` programs | invariant: as long as an undisturbed object holds the buffer, its counter covers all holders, and unshared writers are elsewhere; witnesses for `c_str()` and append |
| C59 | `StdioModel`: `load_stdio`, `write_stdio` on `StreamModel`, with a count of open descriptors; files, pipes and devices as bytes with an oracle for failures | induction on the blocks for loading, element-wise description of the file for writing, round trip; witnesses for read errors, leaked descriptors and stale tails |
| C60 | `OperModel`: operators of `Array` and `String` composed from `RcaExec.exec`, with locals destroyed at the end of their scope | composition of the refinement lemmas for the calls (`OperMeet.gives`, `makes`); witnesses for empty arrays, stolen elements and elements lost on `bad_alloc` |
| C61 | `HsModel`: `HashTable<String, String>` with the Strings of its nodes as variables of the heap model; hashing and comparing run on the heap | invariant `HsMeet.tab` relating buckets, ownership and a finite map, kept by every call (`HsProof`, on top of `HashProof` and the refinement of `RcaExec`); frame lemmas for all else; induction over sequences of calls; a witness for the lost key |
| C62 | `IshModel`: `operator>>` and `getline` with the String a variable of the heap model, the stream as in `IsModel` | simulation (`IshProof.agree`): each run is that of `IsModel` for some choice of the point where memory runs out, then the theorems of `IsProof`; induction over words and lines for the loops |
| C63 | `OsModel`: both `operator<<` on a model of `std::ostream` (output so far, flags, width, fill, a device that may refuse) | induction over the characters; round trip by composing with C62 (`OsBack`); witnesses for widths and for the assertion |
| C64 | `ExpModel`: `dup`, `copy`, the conversions from and to `std::string`, construction from `c_str()`, `<=` and `<` with a C string | composition of C01-C10's step lemmas with the contents; witnesses for NULs and for the `noexcept` comparison |
| C65 | `CntModel`: every function of `RcaModel` that reaches `incRef` or `decRef`, over a counter given as a parameter, and its instance with a wrapping `int` | relation between the two instances, function by function (counters grow by at most one per call); witnesses by induction over the number of copies |
| C66 | `B64hModel`: `base64Encode`, `base64Decode` on heap Strings, reading the memory at `cbegin()`; a counter of malloc'ed blocks | C32-C34 carried over: more readable memory changes nothing (monotonicity), nor does the content of fresh memory; witnesses for slices, null and the lost block |
| C67 | `HtModel`: copy assignment with the node reuse of libstdc++, move construction and assignment, swap, construction from a list, on top of `HsModel` | `HtMeet.all`: any number of tables, each `tab`, apart from one another; kept by every call (`HtProof`), by induction over sequences of calls; a witness for the emptied target |
| C68 | `TobModel`: Tcl objects on a heap with reference counts, `Tcl_DecrRefCount` with the release of what a freed list refers to, `c_to_tcl_cast`, results, traces, arguments; scripts that hold, store and drop references | `TobMeet.sound`: counts are numbers of references, lists acyclic; kept by every call, induction over sequences; nothing left by the rank of objects; a witness for the null result |
| C69 | `NestModel`: the functions of `ReferenceCountedArray` and `Array` for elements that are Strings; a buffer is a list of slots, a slot a String on the heap of `RcaModel`; loops over elements call String's modelled member functions | `NestAbs.rel`: slots are distinct live Strings, and reading them gives a state of `RcaModel` at element type "text"; every function simulates its counterpart there (`NestCalls`), so `exec_meets` gives the values; an item that is an element stays in its slot (`NestNames`); induction over programs; witnesses for `resize` and for items from the same array |
| C70 | `AliasModel` and `RcaModel.insert_ref`: items as pointers into buffers, read after the array has prepared its own | elsewhere: the invariant of C58 over the calls up to the read; in the own buffer: its content after `reserve` and the shift, computed; `AliasSpec` says which element that is; witnesses |
| C71 | `NestAlgModel`: split, join and == run as sequences of the calls of C69, with unwinding | `NestAlgRules`: a rule per call from C69, frames as sets of names; loops by induction to the values of `StrModel`, and from there C19-C21 |
| C72 | `SaveModel`: writeFile(fd), both builds, as system calls and single stores on the file system of `AtomicModel`; a caller with open, writeFile, commit and the destructor | invariant of C41 carried through the stores, what is seen at the target followed to every stop; C40 for loading |
| C73 | `MstModel`: a table of Streams over one heap of Strings; constructors, assignment, swap, destruction and the calls of `StreamModel` | refinement to texts and cursors per name, induction on programs; framing by the names a call mentions |
| C74 | `PtModel`: programs over tables and Strings by name, on top of `HsModel` and `HtModel`; every call with its own pattern of refused memory; String calls on values through `NestModel.ren` | refinement to maps and texts (`PtMeet.prel`: `HtMeet.all` with the nodes under names of their own), call by call, then induction on programs; `PtFlags`: what is specified does not depend on unspecified flags; `PtQuiet`: table functions make no Strings for the program |
| C75 | `LibModel`: programs over Strings, tables and arrays by name, on top of `PtModel`, `AlgModel` and `B64hModel`; every call with its own pattern of refused memory; arrays are not shared with each other, and the moved-from element that `pop` leaves behind the end is destroyed at once; `shift` is not among the calls | refinement to texts, maps and lists (`LibMeet.lrel`), call by call from the lemmas behind C54-C57, C66 and C74, then induction on programs; `apart` is read off the specification |
| C76 | `RcaModel`, in which `d_debug` says whether assertions are checked; `DbgMeet.build` gives both builds of a class | simulation of every call (`DbgProof.exec_sim`), with C01's refinement excluding the failing assertion; induction over programs |
| C77 | `IterModel`: iterators as pointers into the heap of `RcaModel`, algorithms as well-founded trees of reads and writes (`IterSpec.alg`), which may depend on what they read, and of moves (`malg`) | induction over the algorithm: after begin() and end() the array owns its buffer, each write equals the call `Write` (C16), other ranges stay valid (C58); moves by simulation of the run in which nothing is moved |
| C78 | `MfModel`: the Streams and Strings of `MstModel` with a map of files and a count of descriptors; loadFile and writeFile by name through `StreamModel` (mmap) or `StdioModel` (no mmap); failing system calls chosen anew for every call; names are compared as bytes (no links, no directories) | refinement `frel` to texts, cursors and a map of files, induction over programs; exact rules for both loaders (`MfLoad`); round trip from the refinement and the frame rule; leak of descriptors and names with NUL as refutations |
| C79 | `AppModel`: the calls of `LibModel` (C75) and of `MfModel` (C78) over one heap, one map of Streams, one map of files; names of Strings and Streams as in `PtModel`, temporaries of Stream calls under a new name; a Stream is not used where a String is expected except through the calls of `MstSpec` | refinement `arel`; the calls of C78 are carried over by renaming (`AppSim`: the specification commutes with injective renaming, up to the names outside), those of C75 by its frame rule; induction over programs; encode/save and load/decode (`AppStore`) from the refinement |
| C80 | `TioModel`: the calls of `AppModel` (C79), and reading and writing text streams as in `IshModel` (C62) and `OsModel` (C63), over one heap; a program is a tree whose next call depends on what was returned or thrown | refinement `trel` over `arel`; reading at the frame of C62, its result related to the specification `reads`, which is total and deterministic (C80_reads); induction over the program; the round trip of lines (`TioBack`) from the refinement |
| C81 | `RcaModel`; elements moved as in `GrowModel` (C14), counted over rounds of shift or pop and push_back (`QueueModel`) | invariant: the array owns a buffer of fixed capacity, and its offset after k rounds is (o+k) mod (c-n+1); that the calls return: the path taken asks for no memory, and the refinement (C01) excludes everything else |
| C82 | `RcaModel`; the elements moved by AboutToModify are counted from the state before each call (`BuildModel`); pieces of the array itself are left out | potential argument as for C14, with growth to max(1.5 c, size wanted): sums of the released capacities at most 3 times the capacity and 4 times the length; that the calls return: refinement (C05) |

## Mutation tests

`seeded/LOG.jsonl` lists edits of the model as a realistic bug would make them, tried in a scratch copy, with the
theorems that stop being provable. To find these, proofs that fail are admitted one after the other in the scratch
copy until it builds, and `Print Assumptions` of the property theorems shows which of them are affected.

## What is not modelled

Performance (except C14, C81, C82), other locales, element types whose move operations or destructors throw, iostreams other than
what `IsModel` and `OsModel` say of them, the Tcl library itself (only the glue), weak memory orders, compiler behaviour, `make_unique.h`,
`stdio-gets-hack.h`, `Script.h` (an interface), `src/tests`.
