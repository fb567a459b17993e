# Formal model of Pythagoras in Rocq (Coq 8.16.1)

Source read: `/repo/pythagoras` (active packages `_010` … `_110`, `_800`, `_810`, `_820`; the `___OLD_*`
directories are dead code and not modelled).  Properties: `properties.jsonl`; status: `MANIFEST.json`.

## Layout

* `rocq/theories/Lib/` – shared vocabulary (Python results-or-exceptions, insertion-ordered dicts, string helpers).
* `rocq/theories/Model/` – executable Gallina model, function by function, every definition cites `/repo` file:lines.
* `rocq/theories/Spec/` – small independent specifications (what the English property says), no model imports
  beyond the data types.
* `rocq/theories/Proofs/` – lemmas.
* `rocq/theories/Properties/` – only property theorems, each closed by `exact …`, followed by `Print Assumptions`,
  plus concrete `Example`s showing that hypotheses are met.

Exceptions are values (`Ok`/`Err`), mutation is state passing, unbounded loops are fuelled with an explicit
`OutOfFuel` error that the theorems exclude (or prove impossible), Python `dict`s are insertion-ordered
association lists where order is observable and finite maps where it is not. Random draws, clocks, `hash`
functions, user function bodies and the `persidict`/`joblib`/`ast` libraries are parameters (section variables or
explicit arguments), never axioms.

## Plan per property

| id | what is modelled | how it is proved |
|----|------------------|------------------|
| C01 | `Model/Base32.v`: the three converters over `Z` and `string` (loop fuelled by bit length) | positional-numeral spec `Spec/Numerals.v`; induction on fuel / string |
| C02 | same | value preservation + canonicity; all-zero digest edge case recorded as refutation |
| C03 | same, truncation to 22 chars | division lemma: prefix of numeral = number / 32^k |
| C04 | `Model/HashAddr.v`: prefix, descriptor, signature text | unique split at the last `_` (alphabet of digests has no `_`), decimal numerals injective |
| C05–C10 | `Model/Portals.v`: registry, stack, counters, class check | refinement of run-length encoded stack to the plain stack of open withs; structural induction over programs |
| C11 | same + portal-aware objects | direct, over arbitrary states |
| C12 | same + `DefaultLocalPortal` singleton, `_clear_all` per class | refuted by a reset through a base class; positive part: resets through `DefaultLocalPortal._clear_all` |
| C13, C14 | `Model/FirstEntry.v`: `__setitem__` over an immutable backing dict, draws as argument | induction over assignment sequences |
| C15, C16 | `Model/FirstEntryConc.v`: small-step processes over a shared store, two backends | invariant over all schedules |
| C17–C22 | `Model/ValueAddr.v`: worlds of portals with value stores, address objects with cached flags | invariant by induction over operations; hash collision freedom as hypothesis |
| C23–C25 | `Model/PureAddr.v` | sorting canonical form; pack idempotence; injectivity under collision freedom |
| C26, C30, C31 | `Model/SourceText.v`: text level functions on lines/strings | string induction; refutation for string literals with blank lines |
| C27–C29 | `Model/PyAst.v`, `Model/Normalizer.v`: typed AST subset, normaliser pass | structural induction on the AST; refutations for two leading strings, annotated locals, `@safe()` |
| C32–C34 | `Model/NamesAnalyzer.v` over the same AST; `Spec/Scoping.v` = Python scoping rules | simulation between visitor and scoping; refutations for comprehension leaks, class scopes, … |
| C35, C36 | `Model/CallGraph.v`, any iteration order as argument | closure invariants, termination by cardinality |
| C37–C40 | `Model/Registry.v`: heap of function objects, islands, registration phases, (un)pickling | invariants by induction over operations; refutations by concrete histories; C40 also exactly (RegistryGuardsP.v: induction over the blocks being restored) |
| C41–C47 | `Model/PureExec.v`: `execute` with nested calls as programs, stores, requests, journal of writes | invariants over big-step evaluator; denotational semantics for transparency; prefix-closed journal invariant for crashes |
| C48 | same | permutation argument |
| C49 | `Model/GetTimeout.v`: polling loop, rational/integer clock, adversarial sleeps | loop invariant |
| C50, C51 | `Model/Retry.v` | decision logic outright; refutation of liveness; bound on attempts |
| C52 | `Model/PureExec.v`, section `Many`: processes interleaved access by access over shared stores, any of them stopping anywhere | global invariant over schedules |
| C53–C56 | `Model/Logging.v` | induction over nestings; refutations by histories |
| C57, C58 | `Model/Output.v` | induction over nested programs; refutation for handler levels |
| C59, C60 | `Model/Swarming.v` | induction over histories; scan loop invariant |
| C61 | `Model/Records.v` | substring lemma for equal length ids |
| C62, C63 | `Model/Misc.v` | dict lemmas |
| C64, C65 | `Model/Logging.v`: hook registration and what the hook sees | direct; refutations |
| C66 | `Model/Output.v` | induction over nested programs |
| C67–C69 | `Model/Registry.v` | invariants over reachable sessions; refutations by concrete histories |
| C70–C75 | `Model/Construct.v`: constructors of the portal classes step by step, any of them failing; initialize, describe, workers | induction over histories of constructions and resets; refutations by failing constructions |
| C76 | `Model/Frames.v`: execute, output capture, portal exit with a failure possible at every storage access | induction over nested programs and failure patterns; refutations |
| C77 | `Model/Ordinarity.v`: `assert_ordinarity` over objects described by their inspectable features, and over sources | case analysis against an independent list of what an ordinary function is; refutations |
| C78, C79 | same: Python's binding of keywords to signatures, execute through globals | Python's binding rules as specification; permutation argument |
| C80–C82 | `Model/ResultCache.v`: result address objects with their caches, portals, copies, other processes | invariants over histories; simulation between sessions with and without caches |
| C83 | `Model/Grid.v`: swarm_grid / run_grid on top of the lists of PureExec | induction over the parameters; the exact list of addresses from a separate specification `Spec/GridSpec.v` |
| C84 | no new code: the composition of swarm_list, worker passes and get of `PureExec.v` | invariant over histories, then induction over the worker passes |
| C85 | `Model/AddrAccess.v`: the properties of a result address that lead back to its call | invariant over histories (what is stored stays), then one run of each accessor |
| C86 | no new code: `bind` of `Ordinarity.v` with the addresses of `PureAddr.v` and the executions of `PureExec.v` | the bound arguments determine the keywords up to order; then C25 and C41 |
| C87 | `Model/PackageManager.v`: install_package, uninstall_package over a small model of pip and importlib | case analysis; the outcome is given by a specification that does not mention commands or requirement strings |
| C88, C89 | `Model/Normalizer.v` | induction over trees; a size that shrinks unless nothing changes; `part_of` (parts outside annotations) as the independent specification |
| C90 | `Model/Portals.v` | the fate of the default portal as a function of the calls and their outputs; simulation by induction over the history |
| C91, C92 | `Model/Logging.v` | induction over the portals written to (C91); induction over programs (C92) |
| C93 | `Model/Timeline.v` | histories of timed happenings; the head of a stable sort has the greatest time; induction over the history |
| C94, C95 | `Model/Swarming.v`, `Model/Retry.v` | induction over histories (C94); potential argument over cycles: kills bound attempts, finishes shrink the queue (C95) |
| C96–C98 | `Model/SwarmRace.v` | invariants over all interleavings of checks, starts, calls, ends and kills: attempts = failures + running ones; starts + choices ≤ 5 + processes; times of checks and starts |
| C99, C100 | `Model/Construct.v` | the constructor's stages with an arbitrary failing stage, `clear_all`, `initialize`; equivalences and frame conditions by induction over the stages and over the history |
| C101 | `Model/ValueAddr.v` | invariant 'a cached value, and a ready flag of an object not made by ValueAddr(address), mean that the own portal holds the value', over all histories |
| C102 | `Model/Registry.v` | Spec/RegistryExactSpec.v says when a definition is `accepted`; iff proved from the invariant of sessions (RegistryExactP.v) |
| C103 | `Model/Registry.v` | when the first call / first pickling of a function goes ahead, as an iff over the state of its island |
| C104 | `Model/Registry.v` | a call that went ahead once goes ahead for good, with the same code and bindings, over all later histories |
| C105 | `Model/DescribeFns.v` over `Model/Registry.v` | every operation only appends to the dictionaries (a compositional relation on computations); exact effect of definitions |
| C106 | `Model/AutonomyChecks.v` over `Model/Registry.v` | the flag computed at the first call equals emptiness of the needed names, hence (C103) being alone in the closure; kept for good by the session invariant |
| C107 | Model/Logging.v, Spec/LoggingSpec.v (`report`, `written`, `reported`) | the effect of every program is a list of reports (invariant over programs); agreement read off the list |
| C108 | Model/Logging.v (`exceptions_total`, `exceptions_today`) | counting over the reports of C107; growth from C92 |
| C109 | Model/Output.v | `run_effect` applied to the state a capturer installs; outside text of every piece |
| C110 | Model/NamesAnalyzer.v against Spec/NameUses.v (list of a name's uses in text order): the analyzer's three sets are functions of that list, by induction on the tree; acceptance as an equivalence |
| C111 | Model/Portals.v | subclass relation from the class statements; classes constant by induction over histories; answers from C06, C08, C09 |
| C112 | Registry.v (set_state, get_state, process_augmented) | the restored object and the registered one are followed through begin_registration, loading of the augmented source and completion (RegistryFaithP.v); a pickled function stays settled in every later state (evolution relation of RegistryInvP.v) |
| C113 | Registry.v (dec_text, aug_text), AugText.v (reading back) | the reader inverts the writer, block by block; injectivity follows |
| C114 | PureExec.v, arbitrary bodies | a relation "nothing lost" proved access by access (PureAnyP.v), then one call followed access by access (PureCallP.v) |
| C115 | PureExec.v | by induction on the nesting, a result of a call appears only if the call was attempted; answers read back from any later state |
| C116 | `Model/Layout.v`: the stores made by the constructors with their settings, files of items, assignment, deletion, count, on a map from paths to contents (persidict by its contract) | injectivity of file names; frame lemmas; induction over histories of several portals |
| C117 | `Model/Layout.v`: constructor keywords, get_params, rebuilding by class name | case analysis over the classes; refutation for DefaultLocalPortal |
| C118 | `Model/Layout.v`: len of a store as a walk over all files | bijection between counted files and keys |
| C119 | `Model/Hooks.v`: registration of hooks and notebook handlers, the cached notebook test, uncaught exceptions (IPython by its contract) | step-by-step characterisation over all histories, invariants for the flag and the saved hook |
| C120 | `Model/OnFiles.v`: every storage access of `PureExec.v` done on a map from file paths to contents, with the paths of `Layout.v` | simulation: `holds f σ` is kept by every access (injectivity of file names across stores and portals), hence by every tree and every schedule |
| C121 | `PureExec.v`, all schedules, no condition on bodies and guards | rely/guarantee logic `cs` over trees (`PureConcP.v`): every access keeps `consistent`, what others do only grows the stores |
| C122 | `OnFiles.v` and `PureExec.v`: C120 and C121 together, on files only | the consistency of C121 carried to the files by the simulation of C120; an invariant on the contents of history files (`P_PowerCut.v`) |
| C123 | `Stamps.v`: calendar arithmetic (day after day from 1970-01-01), strftime fields, keys of the event log | the calendar is the least strictly increasing enumeration of valid dates; comparison of texts field by field |
| C124 | `Stamps.v`: keys of `crash_history` for each kind of function | last characters separate kinds; the last underscore separates function and island; refuted for islands with underscores (finding 55) |
| C125 | `Swarming.v`: worker cycles inside infinite histories (`Spec/FairSpec.v`) in which others act arbitrarily | strong fairness stated without classical logic; induction on the attempts left; starvation history for every max |
| C126 | `SourceText.v` (namespace of a call) with `NamesAnalyzer.v` (acceptance) and `Spec/Scoping.v` | the namespace is computed exactly, then combined with C32; refuted for names of decorators (finding 56) |
| C127 | `Stamps.v` (keys of records) and `HashAddr.v` (addresses) with `Spec/KeysSpec.v` (keys a dictionary accepts, for any set of allowed characters) | exact conditions for crash records, events and addresses; refuted for island names, event identifiers and class names with other characters |
| C128 | `Model/NodeId.v` (text and signature of a computer) with `Swarming.v` (liveness records) | digits of the MAC address split off uniquely; cancellation for single differences; frame induction over histories of other nodes; refuted: the texts are concatenated without separators |
| C129 | `Model/Aliasing.v` (heap of mutable objects, stores of contents, addresses that keep objects) | stores grow only: frame induction; invariant (everything stored and kept under its own text unless changed) over careful programs; witnesses |
| C130 | `Aliasing.v` (calls, run, result addresses over the heap) | the same invariant, with answers of stored results; heap-delta specifications of every operation; witnesses |
| C131 | `Model/Records.v` | membership of the storage's entries; permutations put any matching entry first; a session id (has r, no _) splits at underscores |
| C132 | `Model/Sharing.v` (calls with several arguments over a heap; which arguments are one object) | invariant: recorded answers are those for separate objects; unpacking hands over given objects and loads new ones; witness with a function that changes one argument and reads the other |
| C133 | `Model/Globals.v`: the dictionaries that serve as global variables (library, script, one per call); bodies as trees of reads, assignments, deletions, attribute accesses and calls | a simulation between any two memories that agree on the library's globals and the attributes; a second semantics in which all functions share the script's globals |
| C134 | `Model/Collisions.v`: one store with an arbitrary text function, calls, workers, random draws | invariant of checked histories (records tell the truth, items sit under their own text); refusals characterised exactly; default configuration refuted |
| C135 | Registry.v, AugText.v, PureAddr.v | two plainly reachable sessions: equal states force equal code of everything reached (from C39_contents), the augmented text determines the blocks (C113), the address determines state and arguments (C25); example: two versions of a helper |
| C136 | Normalizer.v, Registry.v, PureAddr.v | sources of the same code (C28) have the same normal form, hence the same operation on every session; converse through C135 and reading back the normal form |
| C137 | Registry.v, AugText.v, PureAddr.v | both directions: C135 and C39_same_code combined into an equivalence on states, then on addresses (C25); example: an unrelated function edited, another order |
| C138 | Registry.v, PureAddr.v | C40 (restoring gives the same state), C39_stable on both sides for all later histories, addresses from states (PureAddrP) |

No property is considered inexpressible; what each model leaves out is stated in the comment of the definition and
in the trusted base section below.  Where a property as stated in English is false of the code, the manifest says
`partial`, a theorem `Cxx_refuted…` exhibits the failing history inside the model, and `Cxx_…_partial` theorems prove
what does hold.

## Trusted base

1. **Coq's kernel** (8.16.1), including its virtual machine (`vm_compute` is used in examples, refutations and a few
   finite sweeps over the 256 characters).  No kernel check is switched off, no plugin is used, the flags of
   `_CoqProject` are untouched.
2. **Assumptions.**  Every property theorem is followed by `Print Assumptions`; each prints *Closed under the global
   context*.  The gate lists seven library axioms, `Coq.ssr.ssrunder.Under_rel.*`: these are the fields of a module type
   of Coq's own `ssreflect` support library, which std++ loads; no theorem here depends on them.  No functional
   extensionality, no classical axiom, no axiom of our own.  Libraries: the standard library and std++ (`gmap`, `gset`,
   `list`, `strings`, `pretty`).
3. **Parameters** (universally quantified in the theorems, never axioms): the hash function, DeepDiff's comparison, user
   function bodies and guards, random draws, clocks, sleeping, the iteration order of Python sets, `ast.parse`/`unparse`
   and `autopep8` at the text level, the backend's atomicity.  Where a theorem needs something of a parameter (hash
   collisions do not happen, printing and parsing round-trip, run ids do not repeat) this is a visible hypothesis and an
   `Example` shows that it can be met.
4. **Faithfulness of the hand translation** from Python to Gallina.  Each definition cites the lines it models and
   states its simplifications.  `seeded/LOG.jsonl` records how the theorems react to wrong versions of the definitions.

## What is modelled

| source | model | left out |
|---|---|---|
| all portal classes: stores, settings, get_params; `_800` overlapping_multi_dict | `Layout.v` | serialisation of values; symbolic links; a directory with the name of a file; persidict and parameterizable themselves (contract stated at the top of the file) |
| `_820` converters, hash and random signatures | `Base32.v` | the digest (joblib/sha256), uuid4 |
| `_820` node signature | `NodeId.v` | what uuid, platform and getpass report |
| arguments of one call that are the same object | `Sharing.v` | several portals, guards, consistency checks (elsewhere) |
| global variables of running functions (`_available_names`, the `exec` of `execute`) | `Globals.v` | mutable values (Aliasing.v), module attributes as globals of the library, the three generated names |
| coinciding address texts and the consistency checks of the stores | `Collisions.v` | several locations, interleavings, failing or nondeterministic bodies (elsewhere) |
| sharing of objects between callers, `ValueAddr._value`, arguments and answers of calls | `Aliasing.v` | guards, several arguments, stored functions and signatures, request and log records |
| `_010` foundation, portal_aware_classes; `_100` default portal | `Portals.v`, `Construct.v` | directory creation, `describe` tables; `_PortalTester` |
| `_020` logging_portals, notebook_checker | `Logging.v`, `Hooks.v` | contents of tracebacks and environment summaries |
| storage accesses of `_070` and `_030`, as files | `OnFiles.v` (with `Layout.v`) | the two source texts of run_history; the repeated existence test inside FileDirDict.__setitem__ |
| `_030` hash_addresses, value_addresses, data_portals | `HashAddr.v`, `ValueAddr.v` | `replace_unsafe_chars` on unusual class names |
| `_040` assert_ordinarity, function_name, code normaliser, OrdinaryFn | `Ordinarity.v`, `SourceText.v`, `PyAst.v`, `Normalizer.v` | printing and parsing of trees |
| `_050` safe functions, package_manager | as ordinary functions (they add nothing); `PackageManager.v` | dependencies between packages |
| `_060` names analyzer, call graph explorer, AutonomousFn | `NamesAnalyzer.v`, `CallGraph.v`, `Registry.v`, `DescribeFns.v`, `AutonomyChecks.v` | imported-packages list |
| `_070` kw_args, astkeywords, PureFn, result addresses, frames, records | `PureAddr.v`, `PureExec.v`, `Frames.v`, `ResultCache.v`, `GetTimeout.v`, `Retry.v`, `Records.v`, `Timeline.v`, `Misc.v`, `Registry.v` | events of frames (a stub in the code); bodies may look at things outside them (`Look`): C114, C115, C121 and C44_nothing_is_lost cover such bodies, the properties about values assume bodies without it (`ordinary`) |
| `_090` swarming portals | `Swarming.v`, `SwarmRace.v` | process spawning, delays |
| `_110` top-level API | through the portals it creates (`Construct.v`) | tables |
| `_800` first-entry and overlapping dictionaries | `FirstEntry.v`, `FirstEntryConc.v`, `Misc.v` | persidict itself: a map whose single operations are atomic (two variants of creation) |
| `_810` output manipulators | `Output.v` | flush, encodings |
| `_820` date texts, `_020` keys of crash and event logs | `Stamps.v` | locale, years beyond 9999 |

Not modelled at all: file-system and network failures inside persidict other than the transient errors of
`FirstEntry.v` and the failure points of `Frames.v`; Python's memory model and threads (the library has none);
garbage collection of portals (ids are never reused); `sklearn`, `pandas`.

## Findings

Behaviours of the code that contradict what a user may expect, found while modelling. (W) = a theorem exhibits it.

1. (W C02) `convert_base16_to_base32("0…0")` is `""`, whereas `""` gives `"0"`.
2. (W C04) A 0-dimensional shape gets the descriptor `sha_`.  `HashAddr` defines `__eq__` without `__hash__`, so addresses are unhashable.
3. (W C12) After `BasicPortal._clear_all()` (hence `pth.initialize`) the default portal singleton stays the cleared object.
4. (W C17, C21) `ValueAddr.ready/get` search the portals other than the *current* one, not other than the address's own.
5. (W C20) `ValueAddr(addr)` with the same portal sets `_ready` without looking.  (W C17) An address unpickled outside any `with` stays unbound for ever.
6. (W C29) Annotated local variables cannot be normalised; `@pth.safe()` functions are refused.
7. (W C27) Normalisation is not idempotent for two leading string statements; such a function cannot be registered.
8. (W C30) Blank-line removal and dedenting change multi-line string literals and refuse lines at the left margin.  (W C31) In a function named `pth` the own name denotes the package.
9. (W C32–C34) The names analyzer has false negatives and false positives (lists in `P_NamesAnalyzer.v`).
10. (W C38–C40, C67–C69) Registration: strictness is upgraded at the first call, after which re-decorating raises; the augmented source depends on earlier calls of helpers; completing one of two objects marks the other as complete; an island function named like a builtin breaks a helper's strictness assertion; dependencies are frozen at the first completion.
11. (W C40) A pickled pure function cannot be restored if a guard's name sorts after its user's (exactly then, C40_restores_iff_guards_first), or if a dependency is a pure function with guards of its own.
12. (W C46) Non-pure guards that inspect arguments decide differently for a call and for a worker (addresses versus values).
13. A result address made outside any `with` stores its call signature in the current portal, not in the function's.
14. (W C51) After six recorded attempts a call is never executed again.
15. (W C49) `get(timeout)` does not look again after its last sleep; `timeout=0` still waits a second.
16. (W C56, C53, C55) Leaving a portal logs whatever exception is being handled, even after success; an exception in a function outside any entered portal is marked as logged but logged nowhere; the same event id twice on a day raises.
17. (W C58) `OutputCapturer` ignores levels and filters of the configured handlers.
18. `OverlappingMultiDict` defines its dunder methods inside `__init__`, so they have no effect.
19. (W C59) A second `SwarmingPortal` over the same directory and node takes over the runtime record; clearing the older one deletes it.
20. (W C16) First-entry dictionaries over a check-then-write backend can lose first-writer-wins; `execute` returns its own result even if another one is stored.
21. (W C64) The installed `sys.excepthook` logs nothing.  22. (W C65) The previous hook is never restored.
23. (W C42) A pure function that returns an address: the cached call returns the pointed value.  (W C24) A result address passed as argument is packed as the address of its call signature.
24. (W C44) Returning an address of an unstored value stores a dangling result.
25. `request_execution` on an address unpickled in a portal without its signature writes a request nobody can execute.
26. (W C45) A call answered from another portal's result does not drop its pending request.
27. (W C53) Two entered portals over one directory: crash logging writes the same immutable key twice and its error replaces the user's.
28. (W C67) A call made before its helpers exist turns the function into a strictly autonomous one, permanently broken.
29. (W C40) Helpers of a loosely autonomous guard given by name are missing after restoring.
30. An autonomy error at the first call is masked by an AttributeError in `_extra_exception_data`.
31. `PureFn(AutonomousFn)` and `AutonomousFn(OrdinaryFn)` always raise AttributeError.
32. (W C68) Calling an `AutonomousFn` made from a pure function breaks the pure function.
33. `get_function_name_from_source` is textual; it can disagree with the parser for odd sources.
34. (W C70) A portal whose construction fails half-way stays registered.  (W C71) One failed `SwarmingPortal` construction makes every later reset or `initialize` fail, for ever.  (W C72) After a failed first construction the default portal is a half-built singleton.
35. (W C75) `describe()` without portals raises ValueError.
36. (W C76) If the attempt, output or crash record cannot be written, an entered portal, the captured output or the frame stack leaks into the rest of the session.
37. (W C77) Functions given as source strings are not checked: `*args`, further statements and methods are accepted; a `@staticmethod` is refused with AttributeError.
38. (W C78) Functions with positional-only parameters are accepted but can never be called.
39. (W C79) A `**` parameter of ordinary and autonomous functions shows the order of the keywords at the call.
40. (W C80) `ready` of a result address can be False although `get` returns at once: `ready` skips the current portal, `get` skips the address's own.
41. (W C81) An execution that loses a race remembers its own result; a copy of the address gives the stored one.
42. (W C86) Giving a default value explicitly is another call: other address, the body runs again, the result is stored twice.
43. (W C87) `install_package` raises for every package whose module has another name (scikit-learn), after installing it; after `uninstall_package` or an upgrade the process goes on with the old code.
44. (W C93) `last_*` order entries by file time: of two entries of one clock tick the older one may be returned; `last_event` is always None.
45. (W C96, C98) `needs_execution` and the attempt record are not one step: several workers may execute a call at the same time, and start it 5 + n times; an execution longer than 20 s is joined by another worker although `needs_execution` promises otherwise.
46. (W C105, C106) A refused definition on a new island leaves an empty island in `describe()`; `is_strictly_autonomous` is a guess before the first use, and two objects of one function may answer differently.
47. (W C113) Island names are put between quotes in decorators without escaping: a pure function in the island `O'Neill` cannot be unpickled, and one whose island name holds a backslash (`C:\new`) is restored into another island.
48. (W C112) Loading a pickled pure function into a session fails with AssertionError if that session called a helper of it before (which makes the helper's decorator `strictly_autonomous`) and then the function, although all sources agree.
49. (W C115) A function that calls another function returning an address and, on seeing an address, calls itself with the same arguments, returns one value and stores another: all later calls return the inner value (`C115_inner_call_wins`).
50. (C117) `DefaultLocalPortal()` takes no parameters, but its background workers are started with the portable parameters of the portal, class name included, and rebuild it by calling the class with them (only SwarmingPortal is registered for that): none of the three workers of the default portal can start working.
51. (C116) A portal given a dictionary restricted to a class of values hands the restriction down to all stores except `.py`/`.txt`: values of other classes, events and crashes cannot be stored.
52. (read, not modelled) `OverlappingMultiDict.__init__` defines `__getstate__`, `__setstate__`, `__getitem__`, `__setitem__`, `__delitem__` as local functions (wrong indentation): the object can be pickled, and indexing it gives TypeError instead of the intended NotAllowedError.
53. (C119) In a notebook, clearing all portals leaves IPython's plain handler for BaseException instead of the previous handler; `pth.initialize` (BasicPortal._clear_all) leaves the registration flag set, so that a hook the program assigned since stays.
54. (C121) A function that looks at something outside (clock, random numbers: `Look` in `PureExec.v`) may run in two processes at once; the second write replaces the first result, so an answer `execute` has already returned is not the one later calls get (`C121_answers_can_change`).
55. (C124) The crash folder of an autonomous or pure function joins function and island names with an underscore: `a_b` in island `c` and `a` in island `b_c` share the folder `a_b_c_AUTON` (`C124_refuted`).
56. (C126) The names `autonomous`, `strictly_autonomous` and `pure` are removed from the names a function must import, but are not available when it runs: `def f(): return pure` is accepted and raises NameError (`C126_decorator_names_refuted`).
57. (C63, not a theorem) The guards of `OverlappingMultiDict` against pickling and indexing (`__getstate__`, `__getitem__`, ...) are nested inside `__init__` and have no effect: such an object can be pickled, and indexing raises TypeError instead of NotAllowedError.
58. (C127) Island names, function names, class names and event identifiers become parts of keys as they are, although `long_infoname.py` and the descriptors of `hash_addresses.py` are cleaned. An exception of a function of the island "my island" cannot be logged if the dictionaries do not allow spaces: the error about the key replaces it. An event identifier "value 7" fails the same way, and values of classes whose names have characters that are not allowed have addresses under which nothing can be stored.
59. (C128) `get_node_signature` writes the facts about a computer one after the other without separators: release "5.1" with version "0-smp" and release "5.10" with version "-smp" give the same signature (as do processor "" with user "x86_64bob" ...). Computers with the same signature that share a storage (e.g. containers started from one image with fixed MAC addresses) stop each other's background workers: every new portal on one of them makes the runtimes on the other ones stop.
60. (C129) A `ValueAddr` keeps the caller's object itself: `x = [1]; a = ValueAddr(x); x.append(2)` makes `a.get()` return `[1, 2]` while the portal has `[1]`. `ValueAddr(a, portal=other)` then stores `[1, 2]` in the other portal under the hash of `[1]`, and everybody who asks that portal for `[1]` gets `[1, 2]`.
61. (C130) The first `f(x=l)` hands the caller's own list to the body, so a body that changes its argument changes `l`; the same call later (answered from the portal), `f(x=address)` and `f.run(x=l)` leave it alone: whether an argument is changed depends on the cache. A result address keeps its answer and gives the same object to everybody.
62. (C132) The key of a call is made of the contents of its arguments, but the body of a directly called function gets the caller's objects: `f(x=a, y=a)` lets it see one object twice, `f(x=a, y=b)` with equal contents, `f.run(...)` and workers two. For a body that changes `x` and reads `y` the stored answer depends on which call came first.
63. (C133) An autonomous (or pure) function can keep state between calls: the name `self` is always available inside and is accepted by the autonomy checks (autonomous_core_classes.py:261, ordinary_core_classes.py:132), so `self.n = getattr(self, "n", 0) + 1` counts calls. Recursive calls do not see globals the outer call assigned, unlike in plain Python.
64. (C134) With the default `p_consistency_checks` (0) coinciding addresses are silent: the second value is dropped, its address gives the first one, and calls get each other's answers; switching the checks on later finds this only when the call is executed again.
