# Formal model of FlameTeamIt/Libs in Rocq (Coq 8.16.1)

The source in `/repo` is read as text; it is never built or run. The model is a set of
total, computable Gallina definitions that follow the C++ function by function, each
with a comment naming the file and lines it models. The theorems are about these
definitions.

## Layout

For each area `X` there are up to four files in `rocq/theories/`:

* `XModel.v`  - the model of the code (no proofs);
* `XSpec.v`   - a small independent specification, written without the model (only where
  the specification is not just a standard list / integer function);
* `XProofs.v` - lemmas;
* `XProps.v`  - the property theorems, each beside an `Example` that shows a concrete
  non-trivial case meeting its hypotheses, and `Print Assumptions`.

## Modelling conventions

* Undefined behaviour is a distinct outcome. `Base.v` defines
  `outcome A := Ok a | UB | Diverge`; reading, assigning or destroying a cell without a
  live object, constructing over a live object, access outside a buffer, and null or
  dangling dereference give `UB`; unbounded recursion gives `Diverge`
  (fuelled functions return it when the fuel runs out, and the theorems show for which
  inputs no fuel suffices).
* Machine integers are `Z` or `N` with explicit `mod 2^w` where the code can wrap.
* Element types are abstract (`A : Type`); where the code compares elements a decidable
  equality is a parameter of the theorem.
* Containers are modelled down to cells of raw storage (`option A`), so that lifetimes
  of elements are observable.
* Loops are modelled as recursive functions over the same index ranges as the C++ loops.
* Every property that is false of the code has a theorem `..._refuted` (for all states or inputs of some kind, with a
  concrete case beside it), and where useful a theorem ending in `_partial` for the part that
  does hold.

## Plan per property

| id | model | proof |
|----|-------|-------|
| C01, C02 | `ByteOrder`: the mask/shift expressions on `Z` with wrap-around | bitwise reasoning; memory bytes of the result = reversed memory bytes |
| C03, C04 | `Serialization`: buffer = list of bytes, offset; `Serializer`/`Deserializer` call operators | induction on the sequence of values |
| C05 | `Serialization`: `SpecializedValue` slices | list arithmetic on byte lists |
| C06, C07 | `StaticVector`: cells + tail index, loops of insert/erase cell by cell | refinement to bounded lists, induction on histories |
| C08 | `StaticVector` equality loop | refuted by witness; partial theorem for what it decides |
| C09 | `StaticArray` assignment, clone, equality | refuted; equality proved |
| C10-C12, C55 | `CircularArray`: buffer cells, head, tail | simulation to a bounded FIFO; const traversal refuted, partial for unpopped states, and exactly what it shows after any history (CircularConst); lifetimes refuted for clean and copies |
| C13-C16, C56, C57 | `Vector`: buffer of cells, tail, capacity; recursion of pushBack/resize with fuel | refinement; the end of every history (C13); refutations for capacity 1, moved-from, assignment |
| C17-C19, C58 | `DList`: heap of nodes, head/tail pointers, sentinels | heap invariant; refutations on empty/drained lists; C17_exact: how every history of documented calls goes (ListNextSpec) |
| C20, C21, C59 | `String`: buffer of characters, capacity | invariant; refutations of off-by-one |
| C22, C23 | `ToString`: digit counting and conversion | arithmetic; refutation for minimum values and one digit numbers |
| C24 | `Pointers`: heap of objects, any number of UniquePointers | invariant over histories |
| C25 | `Pointers`: counter | refuted; exact characterisation |
| C26-C29, C60, C61 | `Variant`: index + storage cell with a log of constructions/destructions | invariant over histories, refutations |
| C30, C31 | `Optional` | same |
| C32, C33, C62, C63 | `Expected` (Common and Templates) | refutation, handler theorems |
| C34, C35 | `Object`: storage, callback, address | invariant; exact account for every program (ObjectExactProps.v); refutation with addresses |
| C36-C38, C64, C65, C68 | `Utils`: isEqual, copy, alignedPointer, maximum | induction, arithmetic |
| C39, C40 | `Iterators`: reverse comparison, circular arithmetic | arithmetic, refutations |
| C41, C66 | `AsIntegral` | arithmetic, refutations |
| C42 | `Bits` | computation over all constants |
| C43-C45 | `Ipv4Model`: text = list of characters in memory | done; C43, C44 refuted with exact partial theorems, C45 proved |
| C46, C50, C67 | `ConcModel` (threads, one spin lock, signals), `QueueModel` | done; C46 by a generic linearizability theorem, C50 and C67 refuted with partial theorems |
| C47, C69-C71 | `LockModel`: any number of threads, locks and nested scopes | done; invariant over schedules; C69 and C70 refuted with partial theorems |
| C48 | `UniqueLockerModel` on the locks of `LockModel` | done; balance invariant for proper histories, five refutations; exact ledger of acquisitions and releases for all histories, misuse included, and exactly which calls are undefined or wait |
| C49, C72 | `SocketModel`: objects and the set of open descriptors of the process | done; ownership invariant over histories; four refutations of C49; C72 exact for TcpServer, refuted for the others |
| C73-C76 | `NetIoModel`: address bytes, polls, UDP queues | done; exact partial theorems and refutations |
| C51 | `RegistrarModel` over the queue model | done; exact content after clear, refutation for marker values |
| C52 | `HybridVectorModel` on top of StaticVector and Vector | done; refinement over histories with the place of the elements tracked; the end of every history with valid positions (contents, place, capacity, UB or no return); six refutations |
| C53 | `StreamModel`: RamStream on top of `VectorModel`, ranges of the caller's memory | done; simulation of a queue of bytes |
| C54 | `StreamModel`: `getContiniousRanges` | done; exact for ranges that wrap, refuted for all others |
| C77, C78, C79 | `FileIoModel`: the file behind a descriptor is its unread bytes, its written bytes and the answers the system will give | done; linear ranges right, circular ones exact conditions and refutations |
| C80 | `FileOwnerModel`: stream objects and the open descriptors of the process | done; responsibility invariant over histories; three refutations |
| C81, C82 | `FileOwnerModel`: named pipe writers, names of files; NamedPipeStream | done; for every program, what is left as a function of the calls made (`PipeFilesSpec`); refutations |
| C83 | `CounterModel` on `ConcModel` | done; generic linearizability theorem |
| C84-C87 | `CondVarModel`: a step machine for wait, tryWait, notify on any kind of lock | done; joint-state invariants, liveness under fair schedules, refutations |
| C88 | `WinLockModel`: the interlocked operations of the Windows spin lock | done; sequential behaviour by induction, exclusion refuted |
| C89, C90 | `WinLockModel`: the system count and the copy of the library | done; sums over threads as invariants; refutations; WinTokens: the tokens after any schedule, exactly |
| C91-C95 | `ThreadModel`: thread objects, threads of the system and the progress of their bodies; two choices POSIX leaves to the system | done; responsibility invariant over histories; exact account of every history, undefined ones and lost threads included (`ThreadExactSpec`); refutations |
| C96, C97 | `LockObjectModel`: lock objects and the objects of the system at their addresses | done; simulation without moves, exact for any history without assignments; moves refuted |
| C98 | `LockObjectModel`: answers of the try functions | done; case analysis over all answers |
| C99, C100 | `WideIntModel`: the bytes of a wide integer, written by assignment and construction | done; proved for the widths and values that work, refuted for all others |
| C101 | `WideIntModel`: conversion to the integer types | done; unsigned completely, signed except negative to wider |
| C102, C103 | `WideIntModel`: the operators | done; complement right but changes its operand; the others are refuted |
| C104 | `LibraryModel`: assembly of the path on `StaticVectorModel` and `StringModel` | done; from C06 and C20, all lengths |
| C105, C106 | `LibraryModel`: Library objects, blocks of memory, the open count of the loader | done; exact counts by an invariant; leaks refuted |
| C107, C108 | `LibraryModel`: moved-from objects and symbol search | done; in every reachable state |
| C109 | `Pkcs11Model`: Pkcs11Library and Slot against a module that may answer anything | done; invariant over histories |
| C110 | the same; errors pass through `templates::Expected` | done; refuted (follows from C62: assigned errors are lost) |
| C111, C112 | the same, with the log of calls the module sees | done; partial by invariants on the log, refuted after finalize and after a failing C_GetInfo; which histories keep to C112, exactly |
| C113 | the same, on `VectorModel` (reserve, then resize to the capacity) | done; refuted for every list of slots |
| C114 | the same; interface vectors are numbered to tell live from destroyed ones | done; refuted |
| C115, C116 | ids of Slot objects; InitializeArgs objects | done |
| C117 | Mutex of the software module: lock, unlock over the application's callbacks, log of calls | done |
| C118 | histories of Mutex objects: invariant on the log of the application, contexts by number | done |
| C119, C120 | missing callbacks; general purpose functions over the caller's pointers and arrays | done |
| C121, C122 | ArrayAllocator and ObjectAllocator over a heap of blocks of cells; histories against a list of arrays; sizes that wrap; count of objects lost; AllocatorLedger: exactly which histories are defined, what every variable points to after each of those and what was lost | done |
| C123 | ObjectViewer::clean on a memory of bytes: exact effect, refuted for two bytes and more | done |
| C124 - C126 | AlignedObject (values through all histories, copies, calls of destructors, alignment), RaiiCaller (exact number of calls, elision as a choice), Substep | done |
| C127 - C131 | Asynchronous sockets on Posix: EventCatcher, Registrar, signals of the kernel; histories of creation, registration, events, deliveries, pops against a specification of where each event goes; tcp::alive | done |
| C132 - C136 | The 86 PKCS#11 structure classes as data (fields, assignment statements, constructor parameters, generated mechanically from the sources), an interpreter for their special members, histories against a specification; packed and natural layout; the function lists of the software module | done |
| C137, C138 | Exported functions of the software module: three generated tables (exports, callbacks, functions) and the meaning of a call through them, against a table written from the standard | done |
| C139 | `Pkcs11Model`: exact condition for initialize to succeed | done |
| C140 | The Windows event catcher: two threads and the window, all schedules and all failures of the system | done |
| C141 - C144 | Asynchronous sockets on Windows: registration, window messages, queues, and the rules by which winsock posts messages; histories against a specification | done |
| C145 - C147 | Windows sockets: histories of making and deleting with all failures; datagrams with the rules of winsock | done |
| C148 - C151 | Threads on Windows: handles, contexts with padding, schedules and failures; invariant over histories, exact account of handles | done |
| C152, C153 | Opening a named pipe with two threads: one system call per step, all schedules, failures and interference; fairness as rounds | done |
| C154 - C156 | Streams on Windows and PipeStream: histories of calls on objects with members that may have no value, simulated by the file streams of C80 | done |
| C157 - C162 | Mutex on Windows: threads step by step between the system call and the write of the status; histories of Mutex and Semaphore objects with handles; the PKCS#11 callbacks over these mutexes | done |
| C163 - C165 | byte_t as eight bits; iterators over integers with the promotions and conversions of C++ for every pair of types | done |
| C166 - C168 | Tuple as nested bases, histories against lists of values, objects counted; InitializerList with the lifetime of its cells | done |
| C169, C170 | Chains of proxying allocators with copies and assignments; addresses of the streams library | done |
| C171 - C174 | The PKCS#11 enumerations and the constants of the standard header as generated tables; names, values and flags over the whole tables, flags over all lists | done |
| C175 - C177 | The test framework: cases, tests, aggregators and their exit codes, repeated runs | done |
| C178 - C190 | The types of C++ as terms, template specialisations as matching; every trait, move and forward as functions of types; induction over types | done |
| C191 | WinThreadModel with the histories in which an object is never started; induction over the history with the other objects and threads arbitrary | done |
| C192 | WinMutexModel with a semaphore that was not created; an invariant over all interleavings | done |
| C193 | CondVarModel; invariant: the counter is the number of threads inside wait | partial; refuted once unwait is called |
| C194 | SoftPkcs11Model, the bytes of CK_INFO | partial; padding and version refuted |
| C195 | SoftPkcs11Model, sequences of calls against the life cycle of PKCS#11 | partial; refuted for every misuse |
| C196 - C198 | TcpStreamModel: both ends of a TCP connection with send, receive, closing, every division of the data and every failure by the system; histories against what the calls returned | C196 proved; C197, C198 partial; refuted for large ranges on Windows, the status after a success, SIGPIPE |
| C199 | TcpStreamModel: the queries over the options of a socket | partial; refuted on Windows when errno is 0 |
| C200, C201 | UdpClientModel: histories of calls and arrivals against what the calls returned | partial; refuted for datagrams that are too long, of strangers, before the first send |
| C202 | BackwardModel: a loop with any body over rbegin() .. rend() in memory cells, against the loop over the reversed list | partial; refuted under the rules of C++ for pointers, and for a HybridVector that holds nothing |
| C203, C204 | CloneModel on the models of the containers: clone against the contents after any history; construction and assignment of HybridVector | partial; refuted where a function ends without return |
| C205 | CircularVectorModel: the constructors, copies and moves as an inductive set of objects | refuted; the part that holds (always empty) is proved |
| C206 | WinSockModel: the test, WSAStartup, and setting the flag as separate steps of any number of threads; invariant over all schedules | partial; refuted for overlapping first calls |
| C207 | VectorModel: histories with memory, then histories without any (NoMemory) | proved |
| C208 | VectorModel: number of moved elements and of requests counted from size() and capacity() | partial; refuted for capacity 1 |
| C209 | MessageModel: Serializer, the loops of an application around send and receive, Deserializer, on TcpStreamModel; composes C03/C04, C196, C197 | proved |
| C210 | MessageModel on StreamModel; composes C03/C04 and C53 | proved |
| C211 | MessageModel on UdpClientModel; composes C03/C04 and C200 | partial; refuted for small ranges and for strangers |
| C212 | TcpServerModel: a server, any number of clients, the connections of TcpStreamModel; every connection is projected to a history of TcpStreamModel, so that C196 and C209 apply to each | proved |
| C213 | OomModel: the calls of VectorModel with an answer of the system for every request; String, List and the pointers with a refused request | partial; an invariant for every sequence of answers, refuted for all but `reserve` and UniquePointer |
| C214 | ForwardModel: what every function that takes objects makes of the type and the category of an argument, by the rules of TraitsModel for references, deduction and `forward` | partial; one lemma per function, for every object type and every number of retries; refuted for HybridVector and CircularArray, which move from named objects |
| C215 | The same for objects of the element type | partial; refuted for List, UniquePointer and ObjectAllocator, which never move, and for functions that do not compile |
| C216 | OverloadModel: overload resolution for one argument (binding of references, templates, partial ordering, deleted functions), the constructors of every class that has one for arguments of any type, and the effect on the pointers of PointersModel | partial; the function that is called is computed for every class; refuted in every state for named sources that are not const |
| C217 | AliasModel, EmplaceOwnModel, HybridOwnModel: the same functions with arguments that are read from the container when the body gets to them; compared with the calls with a copy | partial; List right wherever elements from outside can be added; refuted for exactly the positions and capacities at which StaticVector, Vector and String read a cell that has moved or a buffer that was given back, for s = s.data() and for temporary ranges of a CircularArray; HybridVector exactly |
| C218 | The models of List, StaticVector, Vector and CircularArray; a reference is the node or the cell; where the element is after each call is specified on positions (RefSpec) | partial; proved for the vectors and CircularArray, for List in all histories whose calls do not go wrong (C17, C19) and for moved lists; nodes are identified by the numbers they get when they are created |
| C219 | streams::Writer over the model of CircularArray (BufferedModel); what should wait and what should have been written is specified on lists | partial; refuted for every flush of waiting bytes: nothing is ever written and true is answered |
| C220 | BaseValue with the value as a member and, over the model of SharedPointer, behind a pointer (UbjsonModel); variables that hold values are the specification | partial; histories without copies for values behind a pointer; every copy there is refuted |
| C221 | The table of ValueTraits (UbjsonModel) against the table of the UBJSON specification, written down independently (UbjsonSpec) | partial; refuted for True and False |
| C222 | The base class of mechanisms with callbacks that change the state of the program (MechanismModel); an application that notes every call is the specification | proved |
| C223 | `LockStatusModel`: the statuses of any number of lock objects, with the result and the value of errno for every call of the system; the specification takes the last call of a history that concerns the object | done; exact for Semaphore; for Mutex and Spin under what errno holds; refuted otherwise |
| C224 | `CondWaitModel`: wait(functor) as a loop over the steps of `CondVarModel`, with the result of the functor at every call | done; projection to the runs of `CondVarModel` for one waiting thread; refuted in every schedule without a further notification |
| C225 | `CondWaitModel`: the destructor as notify() and ~UniqueLocker, step by step; what is used after it is undefined | done; every fair schedule with at most one waiting thread; refuted for two |
| C226 | `CompareModel`: overload resolution between the member operators and the built-in ones after operator bool; loops over positions | done; exact for all operators, classes and const operands; refuted for the rest |
| C227 | `CompareModel` over the models of the pointers, Optional, Variant and Ipv4 | done; what is compared is proved; refuted for all five classes |
| C228 | `ReferenceModel`: memory of objects and pointers, deduction and ranking of the overloads | done; refuted for makeConstReferenceWrapper of named pointers |
| C229 | `GuardedModel`: `VectorModel` inside `ConcModel` | done; generic linearizability theorem; an example shows that testing and taking in two scopes goes wrong |
| C230 | `WinIoModel` (ReadFile and WriteFile, DWORD) beside `FileIoModel` | done; refuted on Windows for sizes that are multiples of 2^32 and for pipes without writers |
| C231 | `HybridOrderModel`: the comparisons and the subscript of iterators of HybridVector, loops over it | done; exact; refuted for containers that hold nothing and across a change of storage |
| C232 | `NotifyModel`: the notificator of the event catcher, steps of notify() of any number of threads | done; invariant over all interleavings; refuted if the notificator is taken back or replaced during a notify() |
| C233 | `AppendModel`: the overloads of += and -= of String, the ranking of conversions, and the one chosen for each type of operand | partial; exact: which operands are appended, which are dropped |
| C234 | `HybridCopyModel`: copies, moves and assignments of HybridVector through Variant; a program with any number of objects against a list of sequences | partial; simulation over all programs; three refutations |
| C235 | `LifeModel`: HybridVector with every temporary and destructor and the number of objects lost; a balance of constructions and destructions over all functions on storage (also for C07 and C57) | partial; exact count for every history; two refutations |
| C236 | `CircProgramModel`: any number of CircularArrays; member functions, copies, moves (with the source left behind), assignments, destructors | partial; the programs that are defined are characterised exactly, the others are undefined; refuted by copies and moves of one element |
| C237 | `WinNetModel`: network objects on Windows, the open handles of the process and the answers of winsock | partial; exact account of the open sockets, of the lost ones and of what native() shows; refuted by assignments to owners and by failed binds |
| C238 | `RangeModel`: pointers into arrays of byte blocks, the range makers and the range-based loop; which makers compile, as conditions on the types of the iterators | partial; every element or byte once, in order, nothing else changed; refuted for reverse ranges, which compile for no container |
| C239 | `HybridVectorModel` of C52 with `HybridRefSpec`: which calls leave the elements where they are | partial; by the representation of HybridVector with its capacity and the steps of Vector within its capacity; refuted for erase(), which moves all elements when it leaves fewer than the fixed part holds |

## Trusted base

* Coq's kernel (8.16.1), its `vm_compute` conversion, and the standard library definitions used
  in statements. No plugin and no library outside Coq's standard library is used.
* Axioms: none. `Print Assumptions`, at the end of each `*Props.v`, answers "Closed under the
  global context" for every theorem named in `MANIFEST.json`. (Loading `Lia`/`Program` makes the
  modules `Coq.ssr.ssrunder.Under_rel.*` of the standard library visible to tools that list the
  context; they are module parameters of the standard library and no theorem uses them.)
* The correspondence between the C++ text and the model. It is documented by the citations
  beside each definition; the tables `StructsTable.v`, `RouteTable.v` and `EnumTable.v` were generated
  mechanically from the sources and checked by eye. Nothing was compiled or run.
* The models of what is outside the code: the C++ rules for lifetimes and indeterminate values,
  POSIX and Windows calls (descriptors, signals, mutexes, semaphores, threads, `dlopen`), and
  foreign PKCS#11 modules. Where these leave a choice (what `read` returns, whether results are
  elided, who runs next, what a module answers) it is a parameter and the theorems quantify over
  it.

### What is modelled

| code | files |
|------|-------|
| Templates: StaticVector, StaticArray, CircularArray, the defined part of CircularVector, Vector, HybridVector, List, String, iterators, pointers, Variant, Optional, Expected, Object, allocators, AlignedObject, RaiiCaller, Tuple, InitializerList, IntegerIterator | `StaticVector*`, `StaticArray*`, `CircularArray*`, `Vector*`, `Growth*`, `HybridVector*`, `HybridOrder*`, `Backward*`, `Clone*`, `CircularVector*`, `List*`, `String*`, `Append*`, `ToString*`, `Iterators*`, `Pointers*`, `Variant*`, `Optional*`, `Expected*`, `Object*`, `Allocator*`, `Holder*`, `Oom*`, `Forward*`, `Overload*`, `Alias*`, `Ref*` |
| Common and numbers: comparisons of objects, ReferenceWrapper, type traits, Utils, ByteOrder, Bits, AsIntegralType, byte_t, WideInt, serialization | `CppTypes`, `Traits*`, `Utils*`, `ByteOrder*`, `Bits*`, `Integral*`, `Byte*`, `WideInt*`, `Serialization*`, `Compare*`, `Reference*` |
| Threads: locks, lock objects, UniqueLocker, condition variable, counter, threads (Posix and Windows), Windows spin lock, semaphore and mutex | `Conc*`, `Lock*`, `UniqueLocker*`, `LockObject*`, `LockStatus*`, `CondVar*`, `CondWait*`, `CondEndProps`, `Counter*`, `Guarded*`, `Thread*`, `WinLock*`, `WinSemLeakProps`, `WinThread*`, `WinMutex*` |
| Network: Ipv4, sockets, clients and servers, queues, registrar, event catcher | `Ipv4*`, `Socket*`, `NetIo*`, `TcpStream*`, `TcpServer*`, `UdpClient*`, `Queue*`, `Registrar*`, `Notify*`, `Event*`, `WinCatcher*`, `WinEvent*`, `WinSocket*`, `WinSock*` (the start of the library) |
| Streams: descriptors, pipes, named pipes, RamStream, addresses, the buffered Writer | `Stream*`, `FileIo*`, `FileOwner*`, `PipeOpen*`, `WinStream*`, `WinIo*`, `Proxy*`, `Buffered*` |
| Libraries and PKCS#11: Library, Pkcs11Library, Slot, InitializeArgs, structures, enumerations, software module, its base class of mechanisms | `Library*`, `Pkcs11*`, `Structs*`, `SoftPkcs11*`, `Route*`, `Enum*`, `Mechanism*` |
| UBJSON: BaseValue and the table of types | `Ubjson*` |
| Test framework: `tests/Test.hpp` and the programs that run tests | `TestRun*` |

Simplifications are stated in the comment of the definition they concern. A comment names the
file and lines the definition models. What has no counterpart in `/repo` says whose it is: "Of the
model" (bookkeeping: states, maps, runs of calls), "Of the system" (the behaviour of the operating
system or of the C library), "Of the application" (code of the user), "C++ itself" (a rule of the
language).

### What is not modelled

* Code that is only declared or does not compile when instantiated: CycleInteger, most of CircularVector,
  ThreadSafeObject, copy assignment of List, StaticAllocator, Future/Promise, Function, MaybeMonad, Trees, ArrayBlocks,
  Token/Session/Object wrappers of PKCS#11, streams::Reader, ubjson::Value and getType()/getTypeClose() of
  BaseValue, the other classes of Ubjson (stubs), the conversions between SpecializedValues of the two byte orders (SpecializedValue.hpp 101, 487 pass the function
  getValue itself), `it[n]` of a random access Iterator (Iterator.hpp 211-212: two
  templates that differ in the result only), the const iterators of HybridVector and with them begin() and end() of a
  const HybridVector (HybridVector.hpp 1008 calls `vWrappedIterator`, which does not exist),
  string + integer and integer + string (String.hpp 810-843 call toString(), declared only in StringConvertions.hpp,
  which includes String.hpp), makeReverseRange() and makeConstReverseRange() (C238_reverse_refuted: Range.hpp 176-192 return a range of
  another type of iterators), `-=` of List with a reverse iterator or a range of them (internalData() is private there,
  ReverseIterator.hpp 74-76), `+=` and `-=` of Vector (declared only). Of four functions that do not compile
  when they are called (insertion of a temporary into Vector and HybridVector, moving construction and
  moving assignment of StaticArray) the models VectorModel, HybridVectorModel and StaticArrayModel give
  the meaning of the text; C215_no_compile_refuted states that they do not compile.
* `Pkcs11/Attribute.hpp`, like ThreadSafeObject.hpp, includes `Common/Traits/Fuctional.hpp`, which does not exist,
  and so cannot be included; IsStaticCastable.
* Memory models weaker than sequential consistency; instead data races are defined on
  interleavings and shown present or absent.
* Exhaustion of memory, except in OomModel (C213), LibraryModel, AllocatorModel and where a theorem says so;
  exceptions (the library uses none).
* The build system and the tests themselves.

## Tests of the theorems

`seeded/LOG.jsonl` lists the edits of the model that were tried in a copy, one per line. The first part are edits
chosen by hand, each against a named claim: `failed` holds all theorems that no longer prove, `tightened` those that
were made stronger because the edit had passed. The second part, whose `edit` begins with "automatic", are edits made
by a program (conditions negated, numbers off by one, constructors and arguments exchanged, updates dropped). There the
build stopped at the first failure, so that `failed` holds one name only, and that name may be a lemma. Edits that
failed nothing were reviewed and their `claim` or `note` says why; edits that do not type check, and those that failed
nothing at first and whose text had changed before they could be tried a second time, are left out. A proof that fails after an edit does not show by
itself that the theorem is false of the edited program; for the edits made by hand the claim named is meant to be,
unless it says none.
