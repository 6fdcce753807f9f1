# Formal model of twisted/epsilon in Rocq

Everything is in `rocq/theories`.  The model is shallow: Python functions
become total Gallina functions, Python exceptions become values of an
exception type, mutable objects become records threaded through functions,
and dictionaries become insertion-ordered association lists.

## Python version

The repository supports Python 2.7 and 3.7 (`tox.ini`, `setup.cfg`).  The
model follows **Python 3** semantics (text/bytes split, no `__cmp__`,
`range` objects, ordered dictionaries).  Modules which are only importable on
Python 2 (most of `epsilon/hotfixes`) are modelled by their text, with the
Python 2 meaning of the constructs they use; the file headers say so.

## File layout

For each part of the code there is

* `<Part>.v`: the model, one definition per function of the code, each with a
  comment citing file and lines in `/repo`, followed by the lemmas and proofs;
* `<Part>Props.v`: only the property theorems, each closed by `exact`, each
  followed by a concrete non-trivial instance (`Example ..._nonvacuous`) and by
  `Print Assumptions`.

`Py.v` holds the shared Python vocabulary (exceptions, results, code-point
strings, dictionaries, slices, integer printing/parsing, UTF-8).

## Trusted base

* Coq 8.16.1's kernel (and `vm_compute`, where a proof by computation uses it).
* `Print Assumptions` for each property theorem: listed by the build for every
  theorem; see the "Assumptions" section below.
* That the model says what the Python text says.  Every definition cites the
  lines it models.  What is abstracted is listed per part below.
* The behaviour of things outside the repository (CPython's builtins, Twisted's
  Deferred, the reactor, SHA-1, the file system) is modelled by the
  definitions in the same files or is a universally quantified parameter of the
  theorem (a hash function, a `lower` function, responders, portals).
* Memory and the depth of the interpreter's stack are unlimited in the model:
  where Python code calls itself (`LineReceiver.setLineMode` from
  `dataReceived`, `remove`, `walk`, `copyTo`, nested `repr`, Juice's
  re-entrant callbacks) a theorem says what happens as long as no
  RecursionError or MemoryError is raised.

## Plan per property

| Id | What is modelled | How it is proved |
|----|------------------|------------------|
| C01, C02 | `View.v`: `slice.indices`, `range` length/indexing, SlicedView over lists and over views | case analysis on step sign and integer arithmetic; induction on the nesting |
| C03, C04 | `Structlike.v`: `StructBehavior.__init__`, `record` over association lists | induction over the name list, against a declarative binding relation |
| C05, C06 | `Structlike.v`: heap of objects, `active` dictionary, fuelled repr | termination measure = number of objects not active; guard restored by induction on the call tree |
| C07-C12 | `AmpRouter.v`: router/route state, operations as transitions, receiver calls as an output trace | invariants over all operation sequences |
| C13 | `AmpRouter.v`: two routers and two FIFO queues | invariant relating sent = received ++ in flight per route |
| C14, C15 | `AmpAuth.v`: bytes formatting, abstract hash | list injectivity lemmas |
| C16 | `AmpAuth.v`: pad dictionary | induction over attempt sequence |
| C17-C19 | `AmpAuth.v`: CredReceiver state machine with asynchronous portal | invariants over all histories; refutation witness where false |
| C20-C22 | `Expose.v`: classes as ordered attribute lists along an MRO | induction over MRO and attributes |
| C23-C25 | `Caseless.v`: strings as code-point lists, abstract `lower` | order lemmas; search functions proved against declarative spec |
| C157 | `CaselessDict.v`: a dictionary of Caseless and plain keys, found by hash and comparison, any hash function | refinement: a lookup after a history gives what the history says (`latest`), by induction on the history; refuted for plain strings with capitals |
| C26-C28 | `Modal.v`: class construction, descriptor lookup, transitionTo | induction over attributes; invariants over histories |
| C85 | `Modal.v` | from the class dictionary lemma |
| C29, C30 | `Small.v`: instance dictionaries | history induction |
| C31 | `Pending.v`: listeners with re-entrant scripts | invariant over all executions |
| C32 | `Small.v`: require as state transition | history induction |
| C33 | `React.v`: reactor events | invariant over all schedules |
| C34-C36 | `Liner.v`: dataReceived loop over bytes with arbitrary handler | chunk-fusion lemma by induction |
| C37-C41 | `JuiceCodec.v`, `JuiceStream.v`: serialize, header parsing, UTF-8, body framing | round-trip by induction over lines/values; chunk-fusion |
| C42-C44, C86, C126 | `JuiceArgs.v`, `JuiceTime.v` (Time arguments over `ExtimeIso.v`, and the classes which never arrive) | structural induction over schemas; refuted: EncodedString, Path, Base64Binary, as Unicode (C86) |
| C45-C48, C50-C54, C87 | `JuiceProto.v`, `JuiceSwitch.v`, `JuiceDispatch.v`: protocol state machine, Deferreds as tokens, dispatch, TLS and switch | invariants over all histories |
| C49, C112, C113 | `JuicePair.v`: two endpoints (JuiceStream around JuiceProto), each receiving what the other wrote in pieces of any size | invariant of the product system: the boxes received are a prefix of those written; matching of tags, runs and answers. C49 refuted for reserved keys (an argument called `_answer`) |
| C55, C56, C63-C66, C69, C88, C89 | `Cal.v` (CPython's proleptic calendar), `PyTime.v` (datetime, offsets, ISO weeks), `Extime.v` (Time) | arithmetic against a specification by next day and month lengths |
| C57, C60-C62, C90 | `Regex.v` (backtracking patterns), `PyFloat.v` (binary64 rounding), `ExtimeIso.v`: ISO 8601 pattern, parser, formatter; `ExtimeIsoVal.v`, `ExtimeIsoFmt.v`, `ExtimeIsoStart.v`, `ExtimeIsoAll.v` (which times come back, exactly) | refinement of the backtracking pattern to a declarative grammar; what each reading denotes; round trip |
| C58, C92-C94 | `ExtimeRfc.v`: parsedate_tz and formatdate of the standard library, fromRFC2822, asRFC2822, asRFC1123; `ExtimeRfcVal.v`: what a text means; `ExtimeRfcFmt.v`; `ExtimeRfcFar.v`: RFC 1123 far from 1970 | a declarative form of the texts; reading any text of that form; output has that form; case analysis for errors |
| C158-C160 | `ExtimeZone.v`: tzinfos whose utcoffset and dst depend on the local time, datetime.tzinfo's fromutc, and the methods of Time that take a tzinfo | exact conditions in terms of when it is summer; texts reduced to those of the constant offset in force; refuted by the hours around a change of the clock |
| C167, C168 | `ExtimeZoneMore.v` over `ExtimeZone.v`: noon and midnight, and getBounds, in such zones | exact result of noon and midnight; the bounds hold if the clock is steady at both ends; refuted by clocks put forward at midnight, and under Python 3 by the missing order |
| C171, C172 | `ExtimeZoneHuman.v` over `ExtimeZone.v` and `ExtimeHumanlyFmt.v`: asHumanly in such zones | injectivity of the text (C99) and the local time shown; refuted by the last hour of summer |
| C173 | `ExtimeDayWords.v`: fromHumanly's day words compared with the date in the zone | arithmetic on the theorems of C68 and C96; refuted by New York's evening |
| C156 | `ExtimeRepr.v`: Time.__repr__ and the repr of a datetime | the text is parsed back uniquely; evaluating it gives an equal Time, the resolution is lost (refuted) |
| C59, C91 | `ExtimePosix.v`: timedelta to float seconds and back, on `PyFloat.v` | error analysis; rounding is monotone |
| C67, C68, C95-C100 | `ExtimeHumanly.v`: the five patterns of fromHumanly run by the modelled `re` matcher, their five creators, fromHumanly, asHumanly; `ExtimeHumanlyVal.v`: what a text means; `ExtimeHumanlyAll.v`: which texts are accepted; `ExtimeHumanlyFmt.v`: output | a declarative form of the texts; reading any text of that form; inversion of every match for the converse; the output is parsed back to show it is injective. `str.lower` and the class of non-ASCII word characters are parameters. C locale for output |
| C70-C72, C101 | `Delayed.v`: DelayedCall in a reactor, TimeoutMixin; `DelayedClock.v`: Clock.callLater with its queue | refinement of a three-state specification for every history; a history invariant relating the mixin to its deadline; permutation and sortedness of the queue. Times are exact integers; the reactor's heap loop and Clock.advance are Twisted's, assumed as written there |
| C73, C74, C102 | `FilePath.v`: posixpath normpath/join/abspath/split, child, preauthChild, parent, temporarySibling; absolute paths as lists of names (`FilePathProps.v`) | induction over components; C74 refuted ('../foobar' from '/foo' is accepted), exact characterisation of what is accepted |
| C75, C76, C103-C106 | `FileTree.v`, `FileTreeMore.v`, `FileSelf.v` (copies onto the source itself), `FileTreeProps.v`: a file system as a finite map from locations to entries; each call to the operating system meets a fate (runs, fails, stops the process); copyTo, setContent, remove, walk, moveTo. No symbolic links (see C127-C130), permissions or concurrent processes (see C181, C185) | triples kept by every call whatever the fates; induction over depth; witnesses for the false parts of C75, C105, C106 |
| C77 | `DeferGen.v`, `DeferGenProps.v`: Deferreds with their callback queues, the Python stack, generators and other code as arbitrary labels | invariants over all executions; the history of each generator is checked by a small automaton (`life`); witness execution for the lost error |
| C78 | `AssertWarns.v`, `AssertWarnsProps.v`: failUnlessWarns with the hook and the warnings of an arbitrary callee | case analysis over callee behaviours; induction over the warnings |
| C79-C81, C107 | `Benchmark.v`, `BenchmarkProps.v`: parseDiskStatLine, captureStats, discoverCurrentWorkingDevice, BasicProcess on the TimeoutMixin of `Delayed.v`, BenchmarkProcess's back channel | refinement for every history of events; parsing round trip for lines with any blanks; greatest element; C80 (textual prefixes), C107 (Python 3 bytes) and C108 (failures unreported) refuted with witnesses |
| C82, C109, C111 | `Spewer.v`, `SpewerProps.v`: SignalService over CPython's signal.signal, Tracer.install/uninstall/toggle, extractArgs | invariant of the loop (what is recorded is what was replaced); refuted where a handler was not set from Python, for threads, for keyword-only parameters |
| C110, C131 | `SpewerTrace.v`, `SpewerTraceProps.v`: Tracer.trace under CPython's sys.settrace (whom the interpreter tells of what, for any subclass of Tracer with any state), for programs given as trees of calls with lines and exceptions; Spewer as such a subclass. One thread; of the text printed only the indentation; no 'opcode' events | induction over the tree; refuted for skip after the call event, under Python 3, after exceptions |
| C132-C135 | `FileMake.v`, `FileMakeProps.v`: os.makedirs, makedirs, open with the modes that create, touch, getContent over `FileTree.v`; `FileGlob.v`, `FileGlobProps.v`: glob.glob (not recursive) and fnmatch, with the meaning of a bracket as a parameter | induction on the path for makedirs with an invariant on what was made, under every fate of every call; a declarative relation for matching and its equivalence with the matcher; the splitting of the joined path |
| C127-C130 | `FileLinks.v`, `FileReach.v` (what a copy or a removal may change through links), `FileWalk.v` (walk through any links), `FileLinksProps.v`, `FileLinksCopy.v`, `FileLinksCopyProps.v`: a file system with symbolic links, rooted or relative; paths are resolved with a limit on the links followed (a parameter, 40 on Linux); remove, walk and copyTo over it. No permissions, hard links or concurrent processes | triples kept by every call whatever the fates, where no link leads to a directory; witnesses where one does; with any links, triples that say which paths lead to what changed, and a measure of links left and depth for the end of walk; for C130, what is seen through links, and induction over the finite tree seen |
| C83 | `Setup.v`, `SetupProps.v`: os.walk with pruning, autosetup up to the call of setup(). Not modelled: symbolic links, the plugin cache | induction over directory trees; refuted for a current directory which is a package and for dotted names |
| C84 | `Process.v`, `ProcessProps.v`: spawnProcess with a store of shared dictionaries; imp.find_module and the order of set() are parameters | case analysis, split/join; refuted for an unset PYTHONPATH and names beginning like the library's |
| C114-C116 | `FileStat.v`: FilePath objects with remembered stat results over a changing file system; O_EXCL creation; OS path resolution and the two searches | induction over histories of calls; case analysis; induction over the list searched. C114, C116 refuted as stated |
| C117 | `Descriptor.v`: class dictionaries, the method resolution order, staticmethods, data descriptors; arbitrary user functions | case analysis; the model of C29 is shown to be an instance |
| C108, C120-C122 | `BenchReport.v`: ResourceSnapshot, Change, formatResults and Results (on the argument classes of `JuiceArgs.v` and the boxes of `JuiceCodec.v`), reportResults, BenchmarkProcess, what _bench reports, names of disk and partition. Parameters: the size of the directory, subtraction and text of floats | refinement to the wire format and back (C37-C39); invariant over histories. Refuted: runs that time out or die (C108), disks named with a final digit (C122) |
| C118 | `Loopback.v`: `_loopbackAsyncContinue` with Twisted's queue, transport and loop (their published text); arbitrary protocols | invariant over all event sequences |
| C119 | `JuiceClient.v`: ProtocolSwitchCommand.do with its callbacks and the end of connectionLost, on top of `JuiceProto.v` | invariants over all histories; the calls into the connection form a history of `JuiceProto.v`. Refuted for factories that cannot build a protocol |
| C123 | `JuiceCall.v`: Command.do, doit, makeResponse and addExtra around `JuicePair.v`, with the argument classes of `JuiceArgs.v` and the errors of `JuiceDispatch.v`. Parameters: what the responders do, the extra arguments of each end, the custom argument classes | composition of C42, C49, C51 and C113: the box sent is the box run, and back |
| C124 | `Asplode.v`: splode, with the effects it has on the file system in order; `file` as in Python 2. Parameters: the date at each line, which effects fail | induction over the sections of the input |
| C125 | `PluginPaths.v`: pluginPackagePaths over the posixpath of `FilePath.v`. Parameters: sys.path, the working directory, which files exist | induction; the place a joined path leads to |
| C136 | `BenchPair.v`: start and stop in the script and the parent's child data and snapshots, over two pipes; a Python 2 and a Python 3 meaning | invariant of the product over all schedules; a run to the end from every reachable state |
| C137, C138 | `PluginModules.v`: the generator pluginModules as its steps, including close; regeneratePluginCache. Parameters: namedAny, getPlugins | induction over the names; refuted for a ValueError without arguments and for close |
| C139, C140 | `CertCreate.v`: createSSLCertificate and main, on `FileTree.v`. Parameters: the key and certificate, dumpPEM, inspect | triples kept by every call whatever the fates; refuted for a failing dumpPEM |
| C141 | `Install.v`: the nine install functions over class dictionaries that can be shared, the method resolution order, names of modules | case analysis; refuted under Python 3, for TimeoutMixin's module, for names imported before |
| C142 | `Transact.v`: dispatchCommand with the `_wrap` of a transaction; responders are arbitrary functions of the store | case analysis; refuted of automatic responders, whose errors are caught inside |
| C143-144 | `BenchMain.v`: main, makeBenchmarkRunner and spawn over the file tree of `FileTree.v`; the run itself is an arbitrary function of the tree. Parameters: fates of system calls | induction on the removal; the place the child resolves a name to; C143 refuted of relative names |
| C180 | `BenchRun.v`: bench's callbacks with a Deferred that fires before, during or never | case analysis on when the Deferred fires and what reporting does; refuted by one that has fired |
| C145 | `BenchSize.v`, `BenchSizeLinks.v`: getSize over trees with links (`FileLinks.v`). Fuel for the recursion, with a bound of it proved to exist | induction on the tree; refuted of links |
| C146-147 | `FileCompare.v`: FilePath's `__cmp__` under either Python; StringTransport.write and histories of it | injectivity of rendered paths, trichotomy; induction on the history; refuted under Python 3 |
| C148 | `Version.v`: asTwistedVersion; Twisted's Version is a constructor that takes three numbers | decomposition of the leading run; exact |
| C149-150 | `DelayedStr.v`: DelayedCall's `__str__`, `__le__` and cancel with debugging, over the histories of `Delayed.v`. Parameters: texts of numbers and objects | the histories' invariant; refuted of delayed calls and under Python 3 |
| C151-152 | `RouterReentry.v`: the router with receivers that call back into it, at any depth (bounded by fuel that is shown irrelevant); the receivers are any function of the calls so far. For receivers that do nothing it is `AmpRouter.v` | invariant for all reactions; exact calls for reactions that leave the names alone; refuted with two universal counterexamples |
| C153 | `RouterBox.v`: boxes as objects in a store, changed in place by sendBox and ampBoxReceived | exact content of every box after any history; refuted by sending a box twice |
| C154 | `AmpLogin.v`: any number of client logins against the server of `AmpAuth.v` and a portal with a password table, commands and answers in FIFO order | invariant (each undecided login has exactly one token on its way) over all schedules; refuted by two concurrent logins, exact for logins one at a time |
| C155 | `AuthFaults.v`: the server of `AmpAuth.v` with portals, avatars and logouts that raise, and the boxes it writes; Twisted's answering of errors | invariant over all histories; refuted by an avatar that raises; agreement with `AmpAuth.v` where nothing raises |
| C161 | `AuthCalls.v`: the dispatchers of a CredReceiver and its avatars on one connection (Twisted's BoxDispatcher as assumed text), logins, answers in any order, loss | invariant: every call made waits in one dispatcher or was settled once; refuted by a call open at a login |
| C163 | `OtpLogin.v`: OTPLogin against the checker of `AmpAuth.v`, with realms and avatars that fail | the outcome of every attempt in every history; refuted for every pad |
| C164 | `RouterWire.v`: the router's calls with text and bytes told apart, and Twisted's serialization of boxes (assumed) | exact result of every send and every delivery after any history; refuted for every named route |
| C165 | `ClockCheck.v`: clockIsBroken and install, for any choice of the call returned | case analysis; the last call of a stable sort; refuted by a Clock that returns the first call |
| C166 | `FileNest.v` over copyTo of `FileTree.v`: source and destination one above the other | induction over the levels (the rest of the path rotates); refuted by endless descent and by an overwritten source |
| C181 | `FileRace.v`, `FileRaceProps.v`: setContent and getContent of any number of processes on one path, a system call at a time, over a directory of names and open files; transfers of any size; writers killed anywhere. No failing system calls, directories or links | an invariant of the interleaved steps (who holds which file, and that it is a prefix of what is written); refuted for one extension used twice; a weaker invariant on bytes for any extensions |
| C182 | `JuiceExtra.v`, `JuiceExtraProps.v`: the ExtraArg classes, doit up to the call of the responder and addExtra, over stringsToObjects of `JuiceArgs.v`, with any argument classes. Parameters: what the transport answers or raises | induction over the declared arguments and extra arguments |
| C183 | `JuiceHold.v`, `JuiceHoldProps.v`: the bytes held by the receivers of `Liner.v` and `JuiceStream.v` | refuted for every size; conservation of bytes for lines; induction over the stream a byte at a time, with the point where the last box was delivered, for boxes |
| C184 | `RememberRace.v`, `RememberRaceProps.v`: any number of accesses to one remembered attribute, interleaved at the lookup, the call, its return and the store. No other code writing the instance's dictionary | refuted by an interleaving; induction over the events: what is stored is what was returned last; one access at a time; a state with nobody making a value is stable |
| C185 | `DirRace.v`, `DirRaceProps.v`, `DirAlone.v`, `DirAloneProps.v`: makedirs and createDirectory of any number of processes over the file systems of `FileTree.v`, a system call at a time; any call may fail by itself, and processes may be killed anywhere. No links, or processes that remove | refuted by two interleavings; a made place stays, so one maker per path; the place before the next one to be made is a directory (invariant); a measure for the number of steps; one process alone refines `makedirs` of `FileMake.v` |
| C169, C170 | `CaselessMore.v`: Caseless of and with text, bytes and other objects; Python's in of lists; sorted as a stable insertion | exact results; refuted by None; the sorted list is unique, so that the algorithm does not matter |
| C162 | `ModalAttrs.v`: the classes of `Modal.v`, attributes of the class itself | from the exact contents of the class's dictionary; refuted for all classes with a mode |
| C174 | `ModalMro.v`: the search of `Modal.required` compared with an inductive "bound in some ancestor" | induction on the hierarchy |
| C175 | `ModalMro.v`: Python's C3 linearization (`mro`) over the classes of `Modal.v` | the linearization of a tree of classes is its depth-first order; refuted by a diamond |
| C176 | `RouterUnbind.v`: `unbind` of `AmpRouter.v` | from the invariant of reachable routers; refuted twice |
| C177-C179 | `IoSim.v`: IOPump and FileWrapper of epsilon/test, with arbitrary protocols as programs over their transports | invariants of every reachable world (bytes in flight, flags against notifications); induction on rounds; each refuted as stated |

Properties that turn out to be false of the code are kept, with a theorem
`..._refuted` giving a concrete counterexample and a `..._partial` theorem for
the part that holds.

## Assumptions

`Print Assumptions` stands beneath every property theorem and prints "Closed
under the global context" for each of them: no axiom is used, of the standard
library or any other.  Sections declare variables (hash functions, protocols,
other code); outside the section they are quantified in the theorem.

## What is modelled, module by module

Every definition cites lines; what no definition cites is listed here.  Calls
into Twisted or the standard library are described in the header of the file
that models them.

| Module | Modelled in | Not modelled |
|--------|-------------|--------------|
| `__init__.py` | `Version.v` | - |
| `compat.py`, `iepsilon.py`, `cooperator.py`, `unrepr.py` | - | interfaces, delegation to Twisted and `ast.literal_eval` |
| `test/iosim.py`, `test/utils.py` | `IoSim.v` | what debug mode prints, the context manager, getPeer/getHost/getQ2QPeer; the other files of `test/` are tests |
| `ampauth.py` | `AmpAuth.v`, `AmpLogin.v` (`login` against the server), `AuthFaults.v` (code that raises), `AuthCalls.v` (calls in flight during logins), `OtpLogin.v` | the `_errors` class decoration helper, `CredAMPServerFactory` |
| `amprouter.py` | `AmpRouter.v`, `RouterReentry.v` (receivers that call back), `RouterBox.v` (boxes as objects), `RouterWire.v` (text and bytes) | - |
| `asplode.py` | `Asplode.v` | `main` |
| `caseless.py` | `Caseless.v`, `CaselessDict.v`, `CaselessMore.v` | `__repr__`, `__str__`, `__len__`, `__getitem__`, `__iter__`, the case-changing methods (delegation), `__cmp__` (Python 2) |
| `descriptor.py` | `Descriptor.v`, `Small.v` | - |
| `expose.py` | `Expose.v` | - |
| `extime.py` | `Cal.v`, `PyTime.v`, `Extime*.v` | `FixedOffset.__repr__`; tzinfos with a fromutc of their own, `fold`; the C library's local time zone is a parameter |
| `hotfix.py`, `remember.py`, `pending.py` | `Small.v`, `Pending.v`, `RememberRace.v` | the importing of the hotfix modules |
| `hotfixes/` | `Delayed.v`, `DelayedClock.v`, `FilePath.v`, `FileTree*.v`, `FileMake.v`, `FileGlob.v`, `FileLinks*.v`, `FileReach.v`, `FileWalk.v`, `FileRace.v`, `DirRace.v`, `FileStat.v`, `DeferGen.v`, `AssertWarns.v`, `Loopback.v`, `PluginPaths.v`, `Install.v`, `FileCompare.v`, `DelayedStr.v`, `ClockCheck.v` | one-line delegations of `FilePath` |
| `juice.py` | `JuiceCodec.v`, `JuiceStream.v`, `JuiceArgs.v`, `JuiceProto.v`, `JuiceSwitch.v`, `JuiceDispatch.v`, `JuicePair.v`, `JuiceClient.v`, `JuiceCall.v`, `JuiceTime.v`, `JuiceExtra.v`, `JuiceHold.v`, `Transact.v` | the texts of floats, factories |
| `liner.py` | `Liner.v` | the abstract methods |
| `modal.py`, `structlike.py`, `view.py`, `react.py` | `Modal.v`, `ModalAttrs.v`, `ModalMro.v`, `Structlike.v`, `View.v`, `React.v` | - |
| `process.py` | `Process.v` | `StandardIOService` |
| `scripts/benchmark.py` | `Benchmark.v`, `BenchReport.v`, `BenchPair.v`, `BenchMain.v`, `BenchSize*.v`, `BenchRun.v` | - |
| `scripts/certcreate.py` | `CertCreate.v` | the parsing of options (Twisted's) |
| `setuphelper.py` | `Setup.v`, `PluginModules.v` | - |
| `spewer.py` | `Spewer.v`, `SpewerTrace.v` | the text printed, several threads tracing at once |
