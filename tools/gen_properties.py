"""Regenerates /verif/properties.jsonl (kept as a script so ids stay consistent)."""
import json, pathlib
P = []
def p(title, statement, quantifier, why, anchors):
    P.append(dict(id=f"C{len(P)+1:02d}", title=title, statement=statement,
                  quantifier=quantifier, why_tests_cant=why, anchors=anchors))
S8="pythagoras/_820_strings_signatures_converters/"
B="pythagoras/_010_basic_portals/"
L="pythagoras/_020_logging_portals/"
D="pythagoras/_030_data_portals/"
O="pythagoras/_040_ordinary_functions/"
SF="pythagoras/_050_safe_functions/"
A="pythagoras/_060_autonomous_functions/"
PU="pythagoras/_070_pure_functions/"
SW="pythagoras/_090_swarming_portals/swarming_portals.py"
DL="pythagoras/_100_default_local_portals/default_local_portal.py"
PD="pythagoras/_800_persidict_extensions/"
OC="pythagoras/_810_output_manipulators/"

# ---- signatures and addresses
p("Base-32 conversion is a bijection on positive integers",
  "convert_int_to_base32 followed by convert_base_32_to_int returns the original integer for every non-negative integer; every string it produces is over [0-9a-v] and has no leading '0'; and conversely every such string s without leading '0' is what convert_int_to_base32 produces for convert_base_32_to_int(s). Upper-case input decodes like lower-case, and any other character raises KeyError.",
  "all integers of any magnitude, all strings", "The domain is infinite; tests sample a few numbers.",
  [S8+"base_16_32_convertors.py:convert_int_to_base32", S8+"base_16_32_convertors.py:convert_base_32_to_int"])
p("Hex to base-32 conversion preserves the number",
  "For every hexadecimal string h, convert_base16_to_base32(h) is a base-32 numeral denoting the same number as h (the empty string counts as 0), so two digests of equal length never map to the same text; for h denoting a positive number the result is non-empty and canonical.",
  "all hexadecimal strings of any length, either letter case", "Infinite domain; collisions cannot be excluded by sampling.",
  [S8+"base_16_32_convertors.py:convert_base16_to_base32"])
p("Hash and random signatures are short, URL-safe, and keep exactly the leading 22 digits",
  "get_hash_signature and get_random_signature return at most 22 characters from [0-9a-v]; they are exactly 22 characters whenever the underlying number is at least 32^21; and two numbers with the same number of base-32 digits get the same signature exactly when they agree on their 22 leading base-32 digits.",
  "all digests / all random integers", "Collision behaviour is a statement about all pairs of 256-bit numbers.",
  [S8+"hash_signatures.py:get_hash_signature", S8+"random_signatures.py:get_random_signature"])
p("An address text determines type, length/shape and digest",
  "The hash part of a value address (optional 'len_N_' or 'shape_AxB..' descriptor followed by the digest signature) can be split back in exactly one way: if two objects get the same address then their lower-cased class names, their descriptors (length, or shape dimensions in order) and their digest signatures are all equal.",
  "all pairs of objects, any length, any number of dimensions", "Unique decodability ranges over all pairs of strings.",
  [D+"hash_addresses.py:HashAddr._build_hash_signature", D+"hash_addresses.py:HashAddr._build_prefix"])
# ---- portals
p("Nested 'with portal' blocks always restore the portal stack",
  "Any block-structured use of portals (with-blocks nested and sequenced arbitrarily, same or different portals, portals created inside, exceptions raised and caught anywhere) leaves the stack of entered portals exactly as it found it, whether the block ends normally or by exception.",
  "all programs built from with-blocks, raises, try/except, portal creation, of any depth", "Infinitely many nestings and exception points.",
  [B+"foundation.py:BasicPortal.__enter__", B+"foundation.py:BasicPortal.__exit__"])
p("The current portal is the innermost open 'with'",
  "After any sequence of enter and (matching) exit calls, the current portal is the one entered most recently and not yet exited, None if all were exited, and entering the same portal k times in a row needs exactly k exits before the previous portal becomes current again.",
  "all enter/exit histories", "Histories are unbounded.",
  [B+"foundation.py:BasicPortal.__enter__", B+"foundation.py:BasicPortal.__exit__", B+"foundation.py:BasicPortal._most_recently_entered_portal"])
p("Out-of-order exits are rejected without effect; exit-all always empties the stack",
  "Exiting a portal that is not the current one raises and changes neither the current portal nor the entered ones; the exit-all operation terminates and leaves no portal entered, from every reachable state.",
  "all reachable portal states", "Requires termination and all states.",
  [B+"foundation.py:BasicPortal.__exit__", B+"foundation.py:BasicPortal.__exit_all__"])
p("The list of entered portals is duplicate-free and innermost first",
  "get_entered_portals returns every portal with at least one open 'with', each exactly once, ordered by its innermost open 'with' (most recent first); consequently each event or crash is written once per entered portal.",
  "all reachable portal states", "All nesting patterns with repetitions.",
  [B+"foundation.py:BasicPortal._entered_portals"])
p("Non-current portals are exactly the other known portals",
  "get_noncurrent_portals returns, in creation order and without repetition, all created (not cleared) portals except the current one; all of them when no portal is current.",
  "all reachable portal states", "All histories of creation/entering.",
  [B+"foundation.py:BasicPortal._noncurrent_portals"])
p("Portal selection priority",
  "An operation given an explicit portal uses that portal; otherwise the current portal; otherwise the most recently created portal; otherwise the default local portal, which is then created and becomes known.",
  "all reachable portal states, all suggested portals", "All states.",
  [B+"foundation.py:BasicPortal.get_best_portal_to_use", B+"foundation.py:BasicPortal.get_most_recently_added_portal"])
p("Portal-aware objects rebind on unpickling/copying",
  "A portal-aware object that is pickled and restored (or copied) carries no trace of its old portal: after restoration its portal is the portal current at that moment; if none is current it binds to the first portal that is current when the portal is next asked for.",
  "all portal states at pickling and at unpickling time", "Two independent arbitrary states.",
  [B+"portal_aware_classes.py:PortalAwareClass", D+"value_addresses.py:ValueAddr.__setstate__"])
p("The default local portal is always usable",
  "After any sequence of portal creations and resets (including pth.initialize), asking for the default local portal yields a working portal that is known to the system.",
  "all histories of creations and resets", "Bug depends on the order of resets, which tests avoid by clearing via the right class.",
  [DL+":DefaultLocalPortal", B+"foundation.py:BasicPortal._clear_all", "pythagoras/_110_top_level_API/top_level_API.py:initialize"])
# ---- stores
p("First-entry dictionary: the first value wins",
  "For every sequence of assignments to a first-entry dictionary, each key holds for ever the first value assigned to it, other keys are not affected by an assignment, and its length is the number of distinct keys ever assigned.",
  "all assignment sequences, keys and values", "All histories.",
  [PD+"first_entry_dict.py:FirstEntryDict.__setitem__"])
p("First-entry dictionary: consistency checks are exact",
  "Re-assigning a key raises exactly when a check is drawn (probability parameter greater than the random draw) and the new value differs from the first one; with the parameter None or 0 it never raises, with 1 it raises on every difference; a failed check never changes the stored value; the number of successful checks never exceeds the number of checks and the difference is the number of failures.",
  "all assignment sequences and all random draws", "Randomised behaviour over all draws.",
  [PD+"first_entry_dict.py:FirstEntryDict.__setitem__"])
p("Concurrent first-entry writes: one winner",
  "When any number of processes assign to the same first-entry store concurrently, in any interleaving, over a backend whose create-if-absent is atomic, then each key keeps the value of the first successful write for ever, no assignment fails because of the race (when there is at most one lost race per assignment), and every process observes the key afterwards.",
  "any number of processes, keys, values, and any schedule", "Schedules cannot be enumerated by tests.",
  [PD+"first_entry_dict.py:FirstEntryDict.__setitem__"])
p("Concurrent writes over a check-then-write backend",
  "Even if the backend's create-if-absent is not atomic (it checks, then writes), concurrent writers never change what readers of a content-addressed store see: each present address always maps to the value that hashes to it, for every schedule. (For arbitrary keys first-writer-wins can be violated.)",
  "any number of processes and any schedule", "Race windows.",
  [PD+"first_entry_dict.py:FirstEntryDict.__setitem__", D+"value_addresses.py:ValueAddr.__init__"])
# ---- value addresses
p("Store/get round trip",
  "Creating a ValueAddr for a value and getting it (from that object, from a copy, from a restored pickle, or from an address rebuilt from its two strings, now or after any later operations) returns that same value.",
  "all values, all reachable states, all later histories", "All histories.",
  [D+"value_addresses.py:ValueAddr.__init__", D+"value_addresses.py:ValueAddr.get"])
p("Value stores are content addressed and append only",
  "In every reachable state every value store maps an address only to the value whose address it is; no operation of the library removes or replaces a stored value in any portal.",
  "all operation sequences over any number of portals", "Invariant over all histories.",
  [D+"value_addresses.py:ValueAddr", D+"data_portals.py:DataPortal"])
p("Cross-portal get copies exactly the requested value",
  "Getting a value that is missing from the address's own portal returns the value found in the other portals, adds exactly that entry to the address's own portal, and leaves every other portal's values and the portal stack unchanged.",
  "all multi-portal states", "All distributions of values over portals.",
  [D+"value_addresses.py:ValueAddr.get_from_noncurrent_portals", D+"value_addresses.py:ValueAddr._ready_in_noncurrent_portals"])
p("Ready implies gettable",
  "If ready reports True for a value address then get returns the value without raising.",
  "all reachable states and address objects, however obtained", "Depends on how the address object was obtained.",
  [D+"value_addresses.py:ValueAddr.ready", D+"value_addresses.py:ValueAddr.get", D+"value_addresses.py:ValueAddr.__init__"])
p("A value held by any known portal can be retrieved",
  "If some known portal holds the value of an address, then ready returns True and get returns the value, whichever portal the address is bound to and whichever portal is current; if no portal holds it, ready returns False and get raises KeyError.",
  "all multi-portal states", "All combinations of bound/current/holding portal.",
  [D+"value_addresses.py:ValueAddr.get", D+"value_addresses.py:ValueAddr.ready", D+"data_portals.py:DataPortal"])
p("Address equality is by type and text",
  "Two addresses are equal exactly when they are of the same kind and have the same prefix and hash text, independently of portals and cached state; equality is an equivalence relation, and != is its negation.",
  "all address objects", "Equivalence relation laws over all objects.",
  [D+"hash_addresses.py:HashAddr.__eq__"])
# ---- kwargs
p("Keyword-argument order never matters",
  "For every function and every set of keyword arguments, all orders in which the arguments are written lead to the same packed arguments and the same result address.",
  "all argument dictionaries and all permutations", "n! permutations of arbitrary values.",
  [PU+"kw_args.py:SortedKwArgs", PU+"pure_core_classes.py:PureFnExecutionResultAddr.__init__"])
p("Pack/unpack round trip",
  "Packing keyword arguments and unpacking them returns the original arguments sorted by name; packing packed arguments changes nothing; passing a value or passing its address give the same packed arguments; arguments of distinct calls never pack to the same thing.",
  "all argument dictionaries, all portal states", "All values and states.",
  [PU+"kw_args.py:SortedKwArgs.pack", PU+"kw_args.py:SortedKwArgs.unpack"])
p("All routes produce the same result address",
  "get_address, swarm, run, swarm_list, run_list, the address constructor and a plain call compute the same result address for the same function and arguments, and different functions (source, name, island, guards, dependencies) or different arguments give different addresses.",
  "all functions, arguments and portal states", "All argument dictionaries.",
  [PU+"pure_core_classes.py:PureFn.get_address", PU+"pure_core_classes.py:PureFn.swarm_list", PU+"pure_core_classes.py:PureFn.execute", PU+"pure_core_classes.py:PureFnCallSignature"])
# ---- normalisation
p("Function name extraction",
  "For every source whose first line starting with 'def ' (after stripping blanks) is 'def <name>(...', the extracted function name is <name>, whatever precedes or follows; a source without such a line raises ValueError.",
  "all source texts", "Infinite domain of texts.",
  [O+"function_name.py:get_function_name_from_source"])
p("Code normalisation is idempotent",
  "Normalising an already normalised function source changes nothing. (Registration of autonomous functions asserts this.)",
  "all function definitions", "All syntax trees.",
  [O+"code_normalizer_implementation.py:__get_normalized_function_source__", A+"autonomous_core_classes.py:AutonomousFn._begin_fn_registration"])
p("Code normalisation ignores exactly docstrings, annotations and decorators",
  "Two functions that differ only in docstrings, argument/return annotations and their single Pythagoras decorator have equal normalised code, and functions with equal normalised code differ in nothing else.",
  "all pairs of function definitions", "All pairs of syntax trees.",
  [O+"code_normalizer_implementation.py:__get_normalized_function_source__"])
p("Code normalisation accepts every ordinary function",
  "Every ordinary function (one def, at most one Pythagoras decorator, no *args) can be normalised, including functions with annotated local variables and each of the library's own decorators.",
  "all function definitions", "All syntax trees; the repository's own test of annotated locals compares the wrong function.",
  [O+"code_normalizer_implementation.py:__get_normalized_function_source__", "pythagoras/__init__.py:all_decorators", SF+"safe_decorator.py:safe"])
p("Blank-line removal and dedenting keep the program text",
  "Cleaning the source before parsing removes only blank lines and the common indent of the first line, keeps all other lines in order, and never changes the value of a string literal in the function.",
  "all source texts", "All texts, in particular multi-line string literals.",
  [O+"code_normalizer_implementation.py:__get_normalized_function_source__"])
p("Execution renames only the function's own definition",
  "The code that is executed differs from the normalised source only in the name in the 'def' header and in one appended call; recursive references inside the body still use the original name, hence go through the wrapper object (functions not called 'pth').",
  "all normalised sources and function names", "All texts.",
  [O+"ordinary_core_classes.py:OrdinaryFn._complete_fn_registration"])
# ---- names
p("The autonomy check misses no outside name",
  "If a function passes the autonomy checks, then every name that Python would resolve outside the function (a global) is a built-in, 'pth', 'self', the function's own name, a Pythagoras decorator name, or (for loosely autonomous functions) the name of a function in the same island.",
  "all functions (syntax trees with nested functions, loops, comprehensions, try, with, imports, global/nonlocal)", "All programs.",
  [A+"names_usage_analyzer.py:NamesUsageAnalyzer", A+"autonomous_core_classes.py:AutonomousFn._complete_fn_registration"])
p("The autonomy check accepts self-contained functions",
  "Functions that use only their arguments, local variables, imports made inside and built-ins are accepted, including those with nested functions and classes.",
  "all self-contained functions", "All programs.",
  [A+"names_usage_analyzer.py:NamesUsageAnalyzer", A+"__init__.py"])
p("Yield and unbound nonlocal are rejected at decoration",
  "A function whose own body contains yield / yield from, or that (itself or in nested functions) declares nonlocal a name that no enclosing function inside it makes accessible beforehand, is rejected when decorated and not registered.",
  "all functions", "All programs.",
  [A+"autonomous_core_classes.py:AutonomousFn._begin_fn_registration", A+"names_usage_analyzer.py:NamesUsageAnalyzer"])
# ---- call graph
p("Dependencies are the reflexive-transitive closure of references",
  "explore_call_graph_deep returns, for each function, exactly the set of functions of the given list reachable by following references, itself included, and it terminates for every graph (cycles included) and every set iteration order.",
  "all finite sets of functions, all reference graphs, all iteration orders", "All graphs and hash-seed dependent orders.",
  [A+"call_graph_explorer.py:explore_call_graph_deep"])
p("Direct dependencies are exact",
  "explore_call_graph_shallow returns for each function exactly the functions of the given list it references plus itself; if a name is defined more than once the last definition counts; names outside the list never appear.",
  "all lists of functions", "All lists.",
  [A+"call_graph_explorer.py:explore_call_graph_shallow"])
# ---- registry
p("A function cannot be silently redefined in its island",
  "Within one session, defining a function with a name already used in the island succeeds only if the normalised source, the decorator and the kind are the same; otherwise it raises and the island is unchanged; islands never affect each other; a registered function is never replaced.",
  "all sequences of definitions and calls", "All histories.",
  [A+"autonomous_core_classes.py:AutonomousFn._begin_fn_registration"])
p("Re-decorating the same function is harmless",
  "Applying the same decorator to the same source again at any moment of a session succeeds and yields an object that behaves like (and has the same result addresses as) the first one.",
  "all sequences of definitions and calls", "The outcome depends on whether either object was called in between.",
  [A+"autonomous_core_classes.py:AutonomousFn._complete_fn_registration", PU+"pure_core_classes.py:PureFn._complete_fn_registration"])
p("A pure function's identity depends on code only",
  "The augmented source (hence the cache key) of a pure function contains the code of the function, of all its direct and indirect dependencies and of its guards, and depends only on those codes, not on what was called earlier in the session.",
  "all sequences of definitions and calls", "History dependence.",
  [PU+"pure_core_classes.py:PureFn._complete_fn_registration", A+"autonomous_core_classes.py:AutonomousFn.decorator"])
p("A pickled pure function can be restored in a fresh session",
  "Restoring a pickled pure function in a session that knows none of its functions succeeds, registers the function, its dependencies and guards, and gives the same pickled state (hence the same addresses) again.",
  "all functions with any dependencies and guards", "All dependency sets and name orders.",
  [PU+"pure_core_classes.py:PureFn.__setstate__", PU+"pure_core_classes.py:PureFn.__getstate__", PU+"process_augmented_func_src.py:process_augmented_func_src"])
# ---- pure execution
p("A pure function is not executed again once its result is stored",
  "Without consistency checks, once a call has succeeded in a portal, every later call of that function with the same arguments (through that portal, in any later state and session) returns the stored value and does not run the body.",
  "all functions, arguments and histories", "All histories.",
  [PU+"pure_core_classes.py:PureFn.execute"])
p("Caching is transparent",
  "For functions whose bodies are deterministic (they may call each other recursively and catch exceptions), the value returned by a call equals the value of plain uncached evaluation, in every history of calls, for any contents the stores acquired from such calls.",
  "all programs of mutually recursive pure functions, all call histories, all portals", "All programs and histories.",
  [PU+"pure_core_classes.py:PureFn.execute"])
p("A failed call stores no result",
  "If the body (or a guard) raises, no result is stored for that call, the exception propagates to the caller, previously stored results and values are unchanged, the execution request stays in the queue, and the attempt is recorded.",
  "all functions, failures and states", "All failure points.",
  [PU+"pure_core_classes.py:PureFn.execute"])
p("Crash safety of results and requests",
  "If the process dies at any moment of any sequence of operations, then in the stores: every stored result points to a stored value; every execution request's function and arguments are stored; and a request disappears only when its result is already stored.",
  "all operation sequences and all crash points (every prefix of the writes)", "All crash points.",
  [PU+"pure_core_classes.py:PureFn.execute", PU+"pure_core_classes.py:PureFnExecutionResultAddr.request_execution", PU+"pure_core_classes.py:PureFn.swarm"])
p("Execution-request semantics",
  "After request_execution the call is requested exactly if its result is not available; drop_execution_request withdraws it; other calls' requests are never affected; a successful call leaves no request; requesting twice is the same as once.",
  "all states and addresses", "All states.",
  [PU+"pure_core_classes.py:PureFnExecutionResultAddr.request_execution", PU+"pure_core_classes.py:PureFnExecutionResultAddr.drop_execution_request"])
p("Guards gate execution",
  "A body is run only if all guards of the function accept the call's argument values; the outcome is the same whether the call is made directly, with run, or by a background worker.",
  "all functions, guards, arguments, and all call routes", "Route-dependent behaviour.",
  [PU+"pure_core_classes.py:PureFn.can_be_executed", PU+"pure_core_classes.py:PureFnExecutionResultAddr.execute", PU+"pure_core_classes.py:PureFnExecutionResultAddr.can_be_executed"])
p("Consistency re-execution detects changed results and keeps the first",
  "With checking enabled, a call whose result is stored is re-executed exactly when the random draw is below the probability; if the new result differs, the call raises and the first result stays; if equal, it is returned; in all cases the checking probability of the results store afterwards is the portal's.",
  "all states, draws and bodies", "All draws.",
  [PU+"pure_core_classes.py:PureFn.execute"])
p("List variants keep the input order",
  "swarm_list and run_list return one address per argument dictionary in the input order, whatever the random shuffle; after swarm_list each listed call is requested or available, and after a successful run_list all are available.",
  "all argument lists and all shuffles", "All permutations.",
  [PU+"pure_core_classes.py:PureFn.swarm_list", PU+"pure_core_classes.py:PureFn.run_list"])
p("get(timeout) ends in time",
  "get with a timeout either returns the stored result or raises TimeoutError; it raises only after the timeout has passed, at most one second (plus scheduling overhead) later, and it leaves the call requested; each sleep lasts at least one second, so it sleeps at most timeout+1 times; without a timeout it returns as soon as a poll sees the result.",
  "all timeouts, clocks, random back-offs and readiness moments", "Timing over all schedules.",
  [PU+"pure_core_classes.py:PureFnExecutionResultAddr.get"])
p("Retry policy",
  "A call needs execution exactly when it has no result and either was never attempted, or was attempted 1 to 5 times and more than 10*2^n seconds passed since the latest attempt; a call attempted six times is never a candidate again.",
  "all attempt histories and clock values", "All histories.",
  [PU+"pure_core_classes.py:PureFnExecutionResultAddr.needs_execution"])
p("Swarmed calls are eventually executed",
  "A requested call is eventually executed at least once, as the documentation promises, provided a background worker keeps running and the function can be executed.",
  "all fair schedules with worker crashes", "Liveness over infinite schedules.",
  [PU+"__init__.py", PU+"pure_core_classes.py:PureFnExecutionResultAddr.needs_execution", SW+":_process_random_execution_request"])
p("Concurrent execution of the same call is consistent",
  "When any number of processes execute the same calls concurrently and may die at any moment, for deterministic functions every process that finishes returns the function's value, the stored result is that value, results always point to stored values, and no request is lost before its result is stored.",
  "any number of processes, any schedule, any crash points", "Schedules and crashes.",
  [PU+"pure_core_classes.py:PureFn.execute", SW+":_process_random_execution_request"])
# ---- logging
p("Each exception is logged once per entered portal",
  "An exception propagating through any number of nested portals is recorded exactly once in the crash history of every portal that was entered at the moment it first reached a portal boundary, and in no other portal.",
  "all nestings of portals", "All nestings.",
  [L+"logging_portals.py:LoggingPortal._persist_exception_information", L+"logging_portals.py:LoggingPortal.__exit__"])
p("Event records keep all user data",
  "log_event stores all user-supplied keyword values unchanged, under their names, next to the environment summary and message list, for any names the user chose; the record goes to every entered portal exactly once.",
  "all keyword names and values, all random draws", "Name clashes over all names and draws.",
  [L+"logging_portals.py:LoggingPortal.log_event", L+"logging_portals.py:LoggingPortal.make_unique_name", L+"logging_portals.py:LoggingPortal.add_execution_environment_summary"])
p("Logging an event never fails",
  "Logging an event with a chosen event_id succeeds any number of times.",
  "all sequences of log_event calls", "Same-day repetition.",
  [L+"logging_portals.py:LoggingPortal.log_event"])
p("Successful operations leave no crash records",
  "An operation that returns normally to user code adds nothing to any crash history.",
  "all operations and states", "Internally handled exceptions on rare paths (cross-portal retrieval).",
  [D+"value_addresses.py:ValueAddr.get", L+"logging_portals.py:LoggingPortal.__exit__"])
# ---- output
p("Output capturing is complete and restores streams",
  "Everything written to stdout/stderr or logged while a capturer is active is in its captured output in order, still reaches the original streams, including under arbitrary nesting, for programs that install no logging handlers themselves; after the block all streams and handlers are what they were before.",
  "all nestings and all outputs", "All nestings.",
  [OC+"output_capturer.py:OutputCapturer", OC+"output_suppressor.py:OutputSuppressor"])
p("Capturing does not change normal logging behaviour",
  "While a capturer is active, each original log handler handles exactly the records it would handle without the capturer.",
  "all records and handler levels", "All level combinations.",
  [OC+"output_capturer.py:OutputCapturer._CaptureHandler.emit"])
# ---- swarming
p("Only the newest runtime of a node is live",
  "After a portal is created over a storage location, its workers see a live parent until the portal is cleared or another portal with its own runtime id is created over the same location on the same node; workers of every other runtime see a dead parent and stop.",
  "all histories of creations and clears", "All histories.",
  [SW+":SwarmingPortal.__init__", SW+":SwarmingPortal.parent_runtime_is_live", SW+":SwarmingPortal._clear"])
p("Workers execute only eligible requests",
  "A background worker executes a call only if it is requested, has no result, satisfies the retry policy and its guards accept it; it executes at most one call per cycle and none when the parent runtime is gone.",
  "all queues, portal states and random choices", "All queues and choices.",
  [SW+":_process_random_execution_request", SW+":_background_worker"])
p("Execution records belong to their own run",
  "Each execution record shows exactly the output, crashes, context and result logged by its own run, never those of another run of the same call.",
  "all sets of runs", "Substring matching over all identifiers.",
  [PU+"pure_core_classes.py:PureFnExecutionRecord", PU+"pure_core_classes.py:PureFnExecutionResultAddr.execution_records", PU+"pure_core_classes.py:PureFn._exception_id"])
# ---- misc
p("Decorator keyword conversion round trip",
  "Converting a dictionary of string values to syntax-tree keywords and back returns the same dictionary.",
  "all dictionaries with string values", "All dictionaries.",
  [PU+"astkeywords_dict_convertors.py:convert_astkeywords_to_dict", PU+"astkeywords_dict_convertors.py:convert_dict_to_astkeywords"])
p("Overlapping dictionaries: each part has its own file type",
  "Each part of an OverlappingMultiDict is configured with the shared parameters overridden by its own ones, and its file type always equals its attribute name whatever the given parameters say.",
  "all parameter dictionaries", "All dictionaries.",
  [PD+"overlapping_multi_dict.py:OverlappingMultiDict.__init__"])
p("Uncaught exceptions are recorded",
  "An exception that ends the program while portals are entered is recorded in the crash history of those portals.",
  "all programs and entered portals", "Runs at interpreter exit, for every way of entering portals.",
  [L+"logging_portals.py:pth_excepthook", L+"logging_portals.py:_exception_logger", L+"logging_portals.py:LoggingPortal.__exit__"])
p("Clearing restores the previous exception hook",
  "After all portals are cleared, sys.excepthook is again the hook that was installed before the first portal was created.",
  "all previously installed hooks", "Global interpreter state over all histories.",
  [L+"logging_portals.py:register_systemwide_uncaught_exception_handlers", L+"logging_portals.py:unregister_systemwide_uncaught_exception_handlers", L+"logging_portals.py:LoggingPortal._clear_all"])
p("Suppressed output never reaches the terminal",
  "Nothing a program (that installs no logging handlers itself) writes to stdout or stderr under the output suppressor reaches any stream or buffer that existed before; afterwards, also after exceptions, the previous streams are back.",
  "all programs, nestings and exceptions", "All programs and interleavings of writes, exceptions and nesting.",
  [OC+"output_suppressor.py:OutputSuppressor"])
# ---- registration, continued
p("A call made too early leaves no trace",
  "Calling an autonomous or pure function before a function it needs is defined raises; once the missing functions are defined, everything behaves as if the early call had not been made.",
  "all sequences of definitions and calls", "Every order of definitions and failing calls.",
  [A+"autonomous_core_classes.py:AutonomousFn._complete_fn_registration"])
p("Wrapping a function object leaves the wrapped function usable",
  "Building an AutonomousFn or PureFn from an existing function object, and using the result, changes no existing function object or registration.",
  "all sequences of definitions, wrappings and calls", "Every kind of wrapped function and every later use.",
  [A+"autonomous_core_classes.py:AutonomousFn.__init__", O+"ordinary_core_classes.py:OrdinaryFn.update", PU+"pure_core_classes.py:PureFn.__init__"])
p("A call runs the registered code with registered helpers",
  "If a call to an autonomous or pure function goes ahead, it runs the source registered under the function's name in its island, and every outside name that source needs is bound to the function registered under that name in the same island.",
  "all sequences of definitions, wrappings, calls, pickling and unpickling", "Every session history.",
  [A+"autonomous_core_classes.py:AutonomousFn._available_names", A+"autonomous_core_classes.py:AutonomousFn.dependencies", O+"ordinary_core_classes.py:OrdinaryFn.execute"])
# ---- construction, reset, top-level API
TL = "pythagoras/_110_top_level_API/"
p("A failed portal construction leaves no trace",
  "If a portal constructor raises (a bad argument, a storage error), everything later behaves as if it had not been called: the known portals, the portal chosen by default and lookups in other portals are unchanged.",
  "all portal classes, arguments, points of failure and earlier histories", "Every failure point of every constructor, then every later operation.",
  [B+"foundation.py:BasicPortal.__init__", D+"data_portals.py:DataPortal.__init__", SW+":SwarmingPortal.__init__"])
p("Resetting always works",
  "After any history of API calls, clearing all portals succeeds and leaves no known or entered portal and no runtime record of the cleared portals.",
  "all histories of constructions (failing ones included), with-blocks and resets", "Arbitrary histories; the failure only shows after a failed construction.",
  [B+"foundation.py:BasicPortal._clear_all", SW+":SwarmingPortal._clear", DL+":DefaultLocalPortal._clear_all"])
p("A constructor that returns gives a complete portal",
  "A portal constructor returns exactly when its arguments are sensible and storage works; the portal it returns has all the stores of its class and becomes the most recently added portal.",
  "all classes, arguments, storage failures and earlier histories", "All argument values and failure points.",
  [D+"data_portals.py:DataPortal.__init__", A+"autonomous_core_classes.py:AutonomousCodePortal.__init__", SW+":SwarmingPortal.__init__", DL+":DefaultLocalPortal.__init__"])
p("Background workers neither multiply nor take over",
  "A swarming portal starts exactly the requested number of background workers; the portals that workers construct start no further workers, never overwrite the runtime record, and carry the runtime id and the storage of the portal that started them.",
  "all portals, parameters and histories", "Involves processes started by processes; one mistake multiplies without bound.",
  [SW+":SwarmingPortal.__init__", SW+":SwarmingPortal._launch_background_worker", SW+":_background_worker", SW+":_process_random_execution_request"])
p("initialize() leaves exactly one portal, entered and complete",
  "When pth.initialize(root) returns, the new portal at root is the only known portal and the only entered one, it is complete and its runtime record is current; all portals known before are cleared.",
  "all earlier histories and places", "All histories before the call.",
  [TL+"top_level_API.py:initialize", B+"foundation.py:BasicPortal._clear_all"])
p("describe() shows every known portal once",
  "pth.describe() returns a description of all known portals, each exactly once, in order of construction, however many there are.",
  "all histories", "All histories, including none and resets.",
  [TL+"top_level_API.py:describe"])
p("Executing functions leaves the session as it was",
  "After a call of a pure function, whether it returns, raises or is interrupted by a failing storage access anywhere, the entered portals, sys.stdout/sys.stderr and the functions' stacks of running frames are the same as before the call.",
  "all nested programs of calls, with-blocks and try-blocks, and all patterns of failing accesses", "Every failure point in every nesting.",
  [PU+"pure_core_classes.py:PureFnExecutionFrame", PU+"pure_core_classes.py:PureFn.execute", OC+"output_capturer.py:OutputCapturer", L+"logging_portals.py:LoggingPortal.__exit__"])
p("Only ordinary functions are accepted",
  "The decorators accept exactly ordinary functions: plain 'def' functions that are no methods, closures, lambdas or async functions and take no *args, given as objects or as source strings holding one function and nothing else; everything else fails with an error and creates no function.",
  "all objects and source strings", "All Python objects and sources.",
  [O+"assert_ordinarity.py:assert_ordinarity", O+"check_n_positional_args.py:accepts_unlimited_positional_args", O+"ordinary_core_classes.py:OrdinaryFn.__init__", O+"code_normalizer_implementation.py:__get_normalized_function_source__"])
p("Accepted functions are called by keyword, exactly as Python would",
  "A call with positional arguments is refused without running the function. Any accepted function can be called by keywords with any values for its parameters; a call with a missing or unknown keyword fails without running the body, any other call runs the body once with the given values and the declared defaults.",
  "all signatures, argument lists and bodies", "All signatures and calls.",
  [O+"ordinary_core_classes.py:OrdinaryFn.__call__", O+"ordinary_core_classes.py:OrdinaryFn.execute", O+"ordinary_core_classes.py:OrdinaryFn._complete_fn_registration"])
p("The order of keyword arguments is invisible to functions",
  "Two calls that differ only in the order of their keyword arguments behave the same, also for functions with a ** parameter.",
  "all signatures, bodies and permutations of keyword arguments", "All permutations, signatures and bodies.",
  [O+"ordinary_core_classes.py:OrdinaryFn.execute", PU+"kw_args.py:SortedKwArgs", PU+"pure_core_classes.py:PureFn.execute"])
p("ready and get agree",
  "For a result address: once ready has been True, or get or execute has returned a value, ready is True and get returns a value at once for ever after, whatever happens to the session, to the object's caches and to the stores (which only grow); and ready is True whenever get would return at once.",
  "all histories of portals, address objects, copies, cache drops, executions and results stored by other processes", "All histories, with every choice of current portal at every question.",
  [PU+"pure_core_classes.py:PureFnExecutionResultAddr.ready", PU+"pure_core_classes.py:PureFnExecutionResultAddr.get", PU+"pure_core_classes.py:PureFnExecutionResultAddr.execute", B+"portal_aware_classes.py:PortalAwareClass.portal"])
p("The answer of a result address never changes",
  "When get() of a result address has returned a value, every later get() and execute() of this object, and of every object created from the same call in the same portal, returns the same value.",
  "all histories, including executions in other processes that finish in between", "All interleavings of executions and questions.",
  [PU+"pure_core_classes.py:PureFnExecutionResultAddr.get", PU+"pure_core_classes.py:PureFnExecutionResultAddr.execute", PU+"pure_core_classes.py:PureFn.execute", PU+"pure_core_classes.py:PureFnExecutionResultAddr.__setstate__"])
p("Dropping the caches of result addresses changes nothing",
  "If the functions are deterministic, a session in which the caches of any result addresses are dropped at any time gives the same answers and leaves the same stores as the session in which they are kept.",
  "all deterministic functions, histories and sets of dropped caches", "All pairs of histories.",
  [PU+"pure_core_classes.py:PureFnExecutionResultAddr._invalidate_cache", PU+"pure_core_classes.py:PureFnExecutionResultAddr.ready", PU+"pure_core_classes.py:PureFnExecutionResultAddr.get"])
p("Grids cover every combination once",
  "swarm_grid and run_grid on a dictionary that maps parameter names to non-empty lists return exactly one address per combination of values: the addresses of the calls with these arguments, ordered by the values as listed, the alphabetically first parameter varying slowest; the order in which the parameters are written makes no difference. A grid in which a parameter has no values or not a list is refused before anything is stored or requested. Afterwards every combination is requested or available (run_grid: available, with the value of the plain call, or the exception of one of the combinations is raised).",
  "all grids (any number of parameters and values), functions, earlier states of the stores, shuffles",
  "the number of combinations is unbounded; orders and duplicates depend on every list length",
  [f"{PU}pure_core_classes.py:PureFn.swarm_grid, run_grid"])
p("Swarming, working and getting equals calling",
  "For functions that return values: whatever interleaved or crashed work happened before, a requested call that has a value gets it stored by one undisturbed worker pass; workers passing over a queue in any order leave every requested call with the value of the plain call; get on the addresses returned by swarm_list then gives these values in the order of the list; and results held for the same call anywhere, on any machine, are equal.",
  "all functions, argument lists, schedules and crashes of any number of processes, orders of worker passes",
  "schedules and crash points cannot be enumerated by tests",
  [f"{PU}pure_core_classes.py:PureFn.swarm_list, PureFnExecutionResultAddr.get, execute", f"{SW}:_process_random_execution_request"])
p("A result address leads back to its call",
  "At any moment after a result address was made, the address read in any session that knows a portal over the same place gives back the function of the call with its name, its island and its source, and the arguments of the call sorted by name; asking changes no result, request or record.",
  "all functions, arguments, sessions, and all later histories of interleaved and crashed operations of any processes",
  "an address outlives the process that made it: every later history of every process matters",
  [PU+"pure_core_classes.py:PureFnExecutionResultAddr.fn_name", PU+"pure_core_classes.py:PureFnExecutionResultAddr.function", PU+"pure_core_classes.py:PureFnExecutionResultAddr.kwargs", PU+"pure_core_classes.py:PureFnExecutionResultAddr.island_name", PU+"pure_core_classes.py:PureFnExecutionResultAddr.fn_source_code"])
p("Calls with the same parameter values share one result",
  "Two calls of a pure function have the same result address exactly if the parameters of the function get the same values, whether given explicitly, in whatever order, or by default; the second call then returns the stored value without running the body.",
  "all functions, signatures, pairs of calls and histories between them", "All signatures and pairs of argument lists.",
  [PU+"pure_core_classes.py:PureFn.get_address", PU+"pure_core_classes.py:PureFn.execute", PU+"kw_args.py:SortedKwArgs", O+"ordinary_core_classes.py:OrdinaryFn.execute"])
p("Packages are installed and removed as asked",
  "install_package(name, upgrade, version) returns only if the requested version is installed and importable by its name, and otherwise raises and changes nothing; it never changes another package. When uninstall_package(name) returns, the package is gone and cannot be imported any more.",
  "all packages, versions and environments", "All sets of installed and already imported packages.",
  [SF+"package_manager.py:install_package", SF+"package_manager.py:uninstall_package"])
p("When normalising again changes nothing",
  "The normal form of a function's source is stable under normalising again exactly if no function, class or module in it begins with a string statement; normalising again and again never fails and always comes to rest.",
  "all syntax trees", "All programs.",
  [O+"code_normalizer_implementation.py:__get_normalized_function_source__"])
p("Exactly which sources can be normalised",
  "A parsed source is accepted by the normaliser exactly if its first statement is a plain def with no decorator, or with one that is a call of ordinary, autonomous, strictly_autonomous or pure (bare or with a package), and nothing in it outside annotations and that decorator is an annotated variable.",
  "all well-formed syntax trees", "All programs.",
  [O+"code_normalizer_implementation.py:__get_normalized_function_source__"])
p("Which portal is used, and exactly when the default portal is usable",
  "When a portal is named it is used. Otherwise the innermost entered one is used; if none is entered, the last one constructed; if there is none, the default local portal. The default portal is made once; it is usable and among the known portals exactly if it was not cleared, since it was made, by a reset through another class; if it was, asking for it gives the same cleared portal again.",
  "all histories of constructing, entering, exiting, asking for and resetting portals", "All histories matter: the answer depends on the order of entries, exits and resets.",
  [B+"foundation.py:BasicPortal.get_best_portal_to_use", DL+":DefaultLocalPortal"])
p("Exactly when logging an event fails",
  "log_event fails exactly if an id was given under which some entered portal already has an entry of today. Entries that exist are never changed by it, the only entries it adds are its own under that id in entered portals, also when it fails part-way, and it touches no crash history.",
  "all histories, portals entered, ids and records", "All histories of logs and sets of entered portals.",
  [L+"logging_portals.py:log_event"])
p("Logs only grow and no entry is overwritten",
  "Whatever a program does, with portals sharing their files or not, exceptions raised in handlers and failing logs, the crash histories and the event logs only grow at the end: an entry once written stays as it was, and no two entries have the same place, section and id.",
  "all programs of nested portals, functions, raises, handlers and logs", "All programs and all exception paths.",
  [L+"logging_portals.py:log_event", L+"logging_portals.py:log_exception", L+"logging_portals.py:_exception_needs_to_be_processed"])
p("The newest attempt, output and crash of a call",
  "last_execution_attempt of a result address is the context of the run of this call started last by whatever process, last_execution_output the output of the run that ended last, last_crash the crash recorded last, None if there was none, provided the storage's clock moves on between them; last_event is always None.",
  "all interleavings of runs of a call by any processes, killed at any point, and all listing orders of the store", "Every interleaving of runs and every listing order of the store.",
  [PU+"pure_core_classes.py:PureFnExecutionResultAddr.last_execution_attempt", PU+"pure_core_classes.py:PureFnExecutionResultAddr.last_execution_output", PU+"pure_core_classes.py:PureFnExecutionResultAddr.last_crash", PU+"pure_core_classes.py:PureFnExecutionResultAddr.last_event"])
p("Exactly when a runtime is live",
  "Workers of a runtime on a node see a live parent exactly while its id holds the node's record at the location: a portal over the location made on that node drew it, and since then no other portal was made there without a given id, no portal made there was cleared, and no process of that node ended while it had an uncleared portal over the location. At most one runtime is live per location and node.",
  "all histories of creating and clearing portals and ending processes on any nodes", "All histories of several processes.",
  [SW+":SwarmingPortal.parent_runtime_is_live", SW+":SwarmingPortal._clear", SW+":_clean_runtime_id"])
p("Five killed executions are survived",
  "If at most five executions of queued calls are killed, at most one is started in every 320 seconds, and as many finish as there are calls, then a worker executes every queued call its guards accept, whatever it chooses. With six kills a call may never be executed again.",
  "all queues, random choices, kill patterns and times", "All kill patterns and random choices.",
  [SW+":_process_random_execution_request", PU+"pure_core_classes.py:PureFnExecutionResultAddr.needs_execution"])
p("Restarts are bounded with any number of workers",
  "However any number n of background workers and programs interleave, workers start executing a given call at most 5 + n times in total; this bound is reached for every n.",
  "all schedules of any number of processes, killed at any point, all clocks", "The race between checking a call and recording the attempt: all interleavings.",
  [SW+":_process_random_execution_request", PU+"pure_core_classes.py:PureFnExecutionResultAddr.needs_execution", PU+"pure_core_classes.py:PureFnExecutionFrame.register_execution_attempt"])
p("A call is given up only after six failed executions",
  "A requested call its guards accept, of which at most five executions were killed or raised, either has its result, or is being executed, or is still requested and any idle worker that looks late enough chooses it; after six failures without a result no worker chooses it any more.",
  "all schedules of any number of workers and programs", "All interleavings of several processes and all kill points.",
  [SW+":_process_random_execution_request", PU+"pure_core_classes.py:PureFnExecutionResultAddr.needs_execution", PU+"pure_core_classes.py:PureFn.execute"])
p("When two processes execute the same call",
  "With agreeing clocks: a worker that looks at a call without result within 20 seconds of the start of a running execution of it leaves it alone; so if a worker executes a call another process is executing, it had looked at the call before the other one recorded its start, or more than 20 seconds after.",
  "all schedules of any number of processes with agreeing clocks", "All interleavings of several processes.",
  [SW+":_process_random_execution_request", PU+"pure_core_classes.py:PureFnExecutionResultAddr.needs_execution", PU+"pure_core_classes.py:PureFnExecutionFrame.register_execution_attempt"])
p("Constructing a portal, exactly",
  "Constructing a portal of any class returns exactly if the arguments are sensible for the class and no storage access of the class fails; the new portal is then the last of the known portals (and is known even if the constructor failed, unless its root dictionary could not be made); it has everything its class promises exactly if the constructor returned; the entered portals, the default portal, other portals, and the runtime records of other locations are unchanged, as are all records when a runtime id was given; workers are started only by a constructor that returns.",
  "all portal classes, argument combinations, failing storage accesses, and process states",
  "the claim is an equivalence over every class, argument set and failure point, with a frame condition over every state",
  [B+"foundation.py:BasicPortal.__init__", D+"data_portals.py:DataPortal.__init__", SW+":SwarmingPortal", DL+":DefaultLocalPortal"])
p("Resetting and the entered portals, exactly",
  "A successful reset leaves no portal known or entered, a reset fails exactly if some known swarming portal is half-built or already cleared, and a failed reset leaves the known and entered portals as they were; entering adds exactly one portal on top, exiting removes exactly the innermost, initialize leaves exactly its new portal, and no other call, and no failing call, changes the entered portals.",
  "all histories of constructions, entries, exits, resets and top-level calls, with any failing storage accesses",
  "needs every history and every failure point",
  [B+"foundation.py:BasicPortal._clear_all", SW+":SwarmingPortal._clear", TL+"top_level_API.py:initialize"])
p("Fetching a stored value, exactly",
  "get of a value address returns v exactly if the address has a portal and this portal, or some known portal that is not the current one, holds v; otherwise it raises KeyError and changes nothing. What get has returned once it returns for ever. ready is True whenever get would return; for addresses with a portal that were not made by ValueAddr(address), ready is True exactly then, and False otherwise; addresses made by ValueAddr(address) always say they are ready.",
  "all histories of portal creations, entries, exits, address creations, copies, unpicklings, cache drops and external writes; all address objects",
  "equivalences over all histories, all address objects and all later moments",
  [D+"value_addresses.py:ValueAddr.get", D+"value_addresses.py:ValueAddr.ready", D+"value_addresses.py:ValueAddr.__init__"])
p("Exactly when a definition is accepted",
  "Decorating a source with @autonomous, @strictly_autonomous or @pure succeeds exactly if the text normalises to a source with a function name, every guard given is acceptable (the name of a function of the island, or a strictly autonomous function object of this island and portal; giving guards at all needs the island to exist), and either the name is new in the island and the source is self-contained (normalises to itself, analysable, no yield, no non-decorator non-local names), or the island already holds this very definition and its object can be copied.",
  "all reachable sessions (any history of definitions, wraps, calls, picklings, unpicklings with exceptions caught), all sources, islands, guards and portals",
  "The verdict depends on the whole history of the session; a test sees one history and one source.",
  [A+"autonomous_core_classes.py:AutonomousFn._begin_fn_registration", PU+"pure_core_classes.py:PureFn._preprocess_guards", O+"ordinary_core_classes.py:OrdinaryFn.__init__"])
p("Exactly when a first call or first pickling goes ahead",
  "The first call of a function - and for a pure function the first computation of its address - goes ahead exactly if every outside name it needs is registered in its island, it needs nothing if it is strict, it reaches nobody but itself if it needs nothing, its guards are registered, and no different augmented source was left with it by a failed unpickling.",
  "all sessions without irregular wrapping, all registered functions not used yet",
  "Needs all island contents and all orders of definition.",
  [A+"autonomous_core_classes.py:AutonomousFn._complete_fn_registration", PU+"pure_core_classes.py:PureFn._complete_fn_registration", PU+"pure_core_classes.py:PureFn.__getstate__"])
p("Once callable, callable for good",
  "Once a call through a function object has gone ahead, every later call through it goes ahead too, runs the same code, sees the same functions under the same names, and changes no registration - whatever is defined, wrapped, called, pickled or unpickled in between, with or without exceptions.",
  "all sessions without irregular wrapping, all functions, all later histories of any length",
  "A test cannot try every later history.",
  [A+"autonomous_core_classes.py:AutonomousFn._complete_fn_registration", A+"autonomous_core_classes.py:AutonomousFn.dependencies", O+"ordinary_core_classes.py:OrdinaryFn.execute"])
p("describe() shows the functions of a portal truthfully",
 "The description of a portal lists each of its islands once, the default island first, and under each island exactly the functions defined there, each once, in the order of their first definition, with correct counts. An accepted new definition adds exactly its name at the end of its island; a repeated definition, a call or a pickling changes nothing; a refused definition adds no function, and an (empty) island only if the island was new, the source readable and no guards were given. Nothing ever disappears or moves.",
 "all histories of definitions, wrappings, calls, picklings and unpicklings, with successes and failures, in any number of portals",
 "the listing depends on the whole history, including refused operations; a test sees a few histories",
 [A+"autonomous_core_classes.py:AutonomousCodePortal.describe", A+"autonomous_core_classes.py:AutonomousFn._begin_fn_registration"])
p("What is_strictly_autonomous and is_pure answer",
 "A function that was just defined is called strictly autonomous exactly if it was decorated so. After its first call has gone ahead it is called strictly autonomous exactly if it uses, directly or through others, no other function of its island; this answer and all others about the object never change again. Whether a function is pure never changes at all.",
 "all sessions, all functions, all later histories",
 "the answer is computed from the registry at one moment and must be right for the whole call graph and for good",
 [A+"autonomicity_checks.py", PU+"purity_checks.py", A+"autonomous_core_classes.py:AutonomousFn._complete_fn_registration"])
p("The records of one exception agree in all portals",
"All crash records of one exception carry the same id, and records with one id are about one exception; every portal that has the exception at all has it in its general section, on the same day in all of them; if one portal has it in the section of a function then every portal that has it does, and no portal has it in another function's section.  Entries of run histories agree with this: an exception in a run history is in the crash history of the same portal, in the section of the function that ran and under the session of the run; every exception recorded under a session is in a run history; a session has at most one.",
"all programs that enter portals, call ordinary, autonomous and pure functions, raise, catch and re-raise exceptions, on any days, with portals that keep their files separately",
"The agreement is between records written at different times in different portals by any nesting of functions, portals and handlers; tests look at single records.",
[L+"logging_portals.py:_persist_exception_information", L+"logging_portals.py:_exception_logger", PU+"pure_core_classes.py:PureFnExecutionFrame"])
p("describe() counts every logged exception once",
"The numbers describe() shows: 'Exceptions, total' is the number of different exceptions the portal has in its crash history (in whatever section), 'Exceptions, today' the number of those recorded on the current day.  An exception logged when it leaves a 'with' block adds one to both numbers in exactly the portals entered at that moment.  The total never falls; successful programs without handlers leave it alone; at midnight 'today' becomes zero.",
"all programs as in C107, all portals, all days",
"The number must be right after every history of nested portals, functions, handlers and repeated logging; tests count after one or two exceptions.",
[L+"logging_portals.py:describe", L+"logging_portals.py:_exception_logger"])
p("What a captured block shows outside",
"Everything a program outputs inside an output capturer also reaches the outside, in order and once, also through nested capturers and suppressors: text written to stdout or stderr goes to the stream that was there before, a log record is emitted by each handler that was configured before (whatever its level or filters say) and by nothing else; an exception that leaves the block is printed to stderr last.  A record logged inside therefore reads outside as it would without the capturer exactly if the configured handlers write what they would write when all accept it - for instance if one is configured and all accept, or if none is configured and the record is below WARNING.",
"all programs that write, log, raise, catch, capture and suppress in any nesting and install no handlers, all interpreter states, all devices",
"The exact effect must hold for every interleaving of output kinds, nesting depth, handler configuration and exception; tests try one handler and one message.",
[OC+"output_capturer.py:OutputCapturer"])
p("Exactly which functions the autonomy checks accept",
  "A function can be decorated as autonomous exactly if it contains no 'from . import', no yield of its own, and every name it or a nested function declares nonlocal is known to an enclosing function inside it beforehand (or is the name of one of the decorators). It then passes the completion check exactly if every name it reads before it is known, or declares global, is a built-in, 'pth', 'self', the function's own name, or a decorator name, or - unless strict autonomy was demanded - a function of the same island; and it ends up marked strictly autonomous exactly if it asks for none of the island's functions. Nothing else about the function matters.",
  "all functions (syntax trees), all sets of built-ins, all islands, both kinds of demand",
  "All programs; the exact boundary, in both directions.",
  [A+"names_usage_analyzer.py:NamesUsageAnalyzer", A+"autonomous_core_classes.py:AutonomousFn._begin_fn_registration", A+"autonomous_core_classes.py:AutonomousFn._complete_fn_registration"])
p("Asking for portals of a class",
  "A portal keeps the class it was created with for life. SomePortalClass.get_most_recently_entered_portal() returns the current portal if it is of that class or a subclass, None if no portal is entered, and raises otherwise, even if a portal of the class is entered further out. get_entered_portals() and get_noncurrent_portals() return all entered (all other) portals if every one of them is of the class or a subclass, and raise otherwise; they never filter.",
  "all histories of creating, entering, leaving and resetting portals, all portal classes",
  "All histories and all mixtures of classes.",
  [B+"foundation.py:BasicPortal._most_recently_entered_portal", B+"foundation.py:BasicPortal._entered_portals", B+"foundation.py:BasicPortal._noncurrent_portals"])
p("Restoring a pickled function never yields another function",
"Whenever a pickled autonomous or pure function can be loaded into a session - whatever that session has already defined, called, pickled or loaded - the restored function is the pickled one: pickling it again gives the same name, source, island, guards and the same sources of all functions it needs. Conversely a session never holds two versions: once a pure function has been pickled there, a pickled state of the same name and island loads only if its source, guards and the sources of the functions it needs are the same, whatever happened in between; otherwise loading raises.",
"all sessions (histories of definitions, wraps, calls, picklings, loadings), all pickled states, all later histories",
"tests load a state into one or two prepared sessions; the claim is about every session history between pickling and loading",
[PU+"pure_core_classes.py:PureFn.__setstate__", PU+"pure_core_classes.py:PureFn.__getstate__", PU+"process_augmented_func_src.py:process_augmented_func_src", A+"autonomous_core_classes.py:AutonomousFn.__setstate__"])
p("The text a pure function carries its helpers in reads back exactly",
"The augmented source of a pure function - one text with the decorators and sources of all functions it needs - reads back as exactly the functions it was written from: the same kinds, islands, strictness, guards and sources in the same order, provided island and guard names contain no quotes, backslashes or line ends and no source line starts with '@'. So two augmented sources, which the library compares as texts, are equal exactly if they are made of the same functions. (An island name with a quote makes the text unreadable; one with a backslash names another island afterwards.)",
"all lists of functions, all island and guard names and sources of that form",
"tests pickle functions with one or two island names; the claim is about every name and source, in particular about characters that mean something to Python's lexer",
[PU+"pure_core_classes.py:PureFn.decorator", PU+"pure_core_classes.py:PureFn._complete_fn_registration", A+"autonomous_core_classes.py:AutonomousFn.decorator", PU+"process_augmented_func_src.py:process_augmented_func_src", PU+"astkeywords_dict_convertors.py:convert_astkeywords_to_dict"])
p("What a call leaves in queues and histories, exactly",
  "Whatever a pure function's body and guards do and return: a call that ends either executed nothing - then every queue and every run history is exactly as before, and a returned object is the value behind the result stored in the function's portal - or it executed the function - then the portal's run history got the attempt first and the output last; if the call returned, its result record comes right before the output, its result is stored and its request is not in the queue; if it failed, its request is in the queue or its result is stored. The first happens whenever the result is in the function's own portal and consistency checks are off, the second whenever no portal has the result. Through any history, with operations dying anywhere, no value, result or record is lost or changed and a request leaves a queue only when its result is stored there.",
  "all functions, guards, arguments, storage states, sessions, random choices, and histories of calls, swarms, runs and worker rounds each dying after any access",
  "Holds for every nesting of calls, every outcome and every crash point; tests see single calls.",
  [PU+"pure_core_classes.py: PureFn.execute, PureFnExecutionResultAddr.request_execution, drop_execution_request, ready, PureFnExecutionFrame", SW])
p("Functions that return addresses, exactly",
  "Whatever a pure function returns: if no portal had the result of a call and the call returned x, then the stored result is the address of x, unless the same call was attempted again while it ran (then the one that finished first is stored). Every later call, after any history and from any session with a portal at that place, executes nothing and returns the value stored there under that address, or raises KeyError if that place has no such value; once the value is there the answer never changes. So a function that returned an address answers with the value behind it from the second call on.",
  "all functions, arguments, storage states, later histories and sessions",
  "The second call is answered from storage in an arbitrary later state; no finite set of tests covers the histories in between.",
  [PU+"pure_core_classes.py: PureFn.execute, PureFnExecutionResultAddr.get, ready", D+"value_addresses.py: ValueAddr.__init__, get"])
p("Every stored item has its own file",
  "Whatever is given as root_dict (nothing, a directory, a dictionary with any settings), the stores of a portal lie in fixed directories inside the root directory, with fixed kinds of files and protection; two items, of one store or of two, never share a file; an assignment or deletion changes its own item and nothing else; items of write-once stores (crash history, event log, values, execution results, run history except sources) are final; portals with the same directory share all items, portals with separate directories none.",
  "all ways of giving root_dict, all stores, keys and values, all contents of the file system, all histories of assignments and deletions by any number of portals with equal or separate directories",
  "The keys, settings of the given dictionary and interleavings of portals are unbounded; a clash of two names shows only for particular keys.",
  [B+"foundation.py:BasicPortal.__init__", L+"logging_portals.py:LoggingPortal.__init__", D+"data_portals.py:DataPortal.__init__", PU+"pure_core_classes.py:PureCodePortal.__init__", SW+":SwarmingPortal.__init__", PD+"overlapping_multi_dict.py:OverlappingMultiDict.__init__"])
p("A portal rebuilt from its parameters is the same portal",
  "A portal of any class made from the get_params() of another portal has the same class, directory, options and (for swarming portals) runtime identifier, in whatever process it is made; in particular the portal of a background worker has the stores of the portal that started it, its identifier, and no workers of its own.",
  "all portal classes, all constructor arguments, all home directories and random identifiers",
  "Workers run in other processes with other defaults; tests compare a few argument combinations of a few classes.",
  [B+"foundation.py:BasicPortal.get_params", D+"data_portals.py:DataPortal.get_params", A+"autonomous_core_classes.py:AutonomousCodePortal.get_params", SW+":SwarmingPortal.get_params", SW+":SwarmingPortal._launch_background_worker", DL+":DefaultLocalPortal.__init__"])
p("describe() counts the stored items",
  "The numbers shown as 'Values, total', 'Cached execution results' and 'Execution queue size' are the numbers of items in the stores: an assignment of a new item adds one, a repeated one nothing, a deletion takes one away, and nothing done to another store or by a portal with a separate directory changes them.",
  "all contents of the file system, all stores, all operations of all portals with separate directories",
  "The count walks the whole directory tree; that it counts each item once and nothing else must hold for every content.",
  [D+"data_portals.py:DataPortal.describe", PU+"pure_core_classes.py:PureCodePortal.describe"])
p("Exactly when the handlers of uncaught exceptions change",
  "Outside notebooks sys.excepthook is the hook the program assigned last, where creating a portal counts as assigning Pythagoras's hook exactly if no portal was created since the start or since the last reset through LoggingPortal or a subclass; resets never change it. In a notebook sys.excepthook is left alone and the shell's exception handler is Pythagoras's from such a portal to the next such reset, unless the program sets another. An exception that ends the program is recorded by no hook and shown by the default hook; an exception that leaves a cell is recorded once in the crash history of each entered portal.",
  "all histories of portals created, resets, assignments of hooks and handlers by the program, and starts and ends of shells; all states of the logs",
  "The handlers depend on the whole history of the process and on global variables shared with other libraries.",
  [L+"logging_portals.py:register_systemwide_uncaught_exception_handlers", L+"logging_portals.py:unregister_systemwide_uncaught_exception_handlers", L+"logging_portals.py:pth_excepthook", L+"logging_portals.py:pth_excepthandler", L+"notebook_checker.py:is_executed_in_notebook", B+"foundation.py:BasicPortal._clear_all"])
p("What calls leave on disk, file by file",
  "For portals whose directories are separate: after any number of processes have called, queued and drained pure functions over them, in any interleaving and with any of them stopping anywhere, the directories hold exactly the abstract stores: value_store/<address>.pkl for each stored value, execution_results/<address>.pkl with the address of the result for each result, execution_requests/<address>.pkl for each request, and run_history/<address>/attempts/<run>_a.json, results/<run>.pkl, outputs/<run>_output.txt for each record; no other file is created, changed or deleted. Every process sees the same answers as on the abstract stores. In particular a call whose two files are present is answered from them and changes no result and no request, and a first call that returns leaves its result, attempt, result record and output on disk and no request.",
  "all portal directories (pairwise separate), all functions, arguments and guards, all interleavings, all crash points, all initial contents that hold a state of the stores",
  "The number of interleavings, functions and directory contents is unbounded, and name clashes between files of different stores show only for particular addresses.",
  [PU+"pure_core_classes.py: PureFnExecutionResultAddr.execute, PureFnExecutionContext", D+"value_addresses.py: ValueAddr", D+"data_portals.py: DataPortal.__init__", "persidict FileDirDict (as configured)"])
p("Concurrent use of arbitrary functions: no invented answers, nothing lost",
  "However pure functions behave (they may return addresses, stored or not, raise, call and swarm each other, catch exceptions; guards likewise), and however any number of processes calling, swarming, running and draining them are interleaved and killed: at every moment every stored value is stored under its own address, every requested call has its function, arguments and signature in the same portal, and every stored result is the address of something that a run of this very call is on record as having returned; the result points to a stored value or the run returned an address. Every call that returned has its result stored in its portal, and what it returned is on record as the outcome of a run of this very call; run, swarm, swarm_list and run_list return the addresses of their calls, in order.",
  "all functions and guards, all arguments, all sessions and portals, all schedules, all crash points, withdrawals of requests at any time",
  "Unbounded numbers of processes and interleavings; wrong answers appear only in particular races.",
  [PU+"pure_core_classes.py: PureFn.execute, swarm, run, swarm_list, run_list; PureFnExecutionResultAddr.ready, request_execution, execute", "pythagoras/_090_swarming_portals/swarming_portals.py: process_random_execution_request"])
p("The disk after a power cut","Processes, on any number of machines, share the directories of their portals and may be killed at any access.  At every moment, whatever their functions do: every file of a value store holds the value that its name says; every result file holds an address, a record of a run of this very call exists, and the value is in the same directory unless the run itself returned an address; every request file comes with the files of the signature, function and arguments of its call, so that a process started later can load them.  From then on values stay as they are, results and records of runs stay, and a request disappears only once the result of its call is there or a user withdraws it.","all programs of functions (arbitrary bodies and guards), all sets of portals in separate directories, all interleavings and all kill points","A test can kill a process at a handful of places; the claim is about every access of every schedule.",["pythagoras/_070_pure_functions/pure_core_classes.py: PureFn.execute, PureFnExecutionResultAddr, PureFnExecutionFrame","pythagoras/_030_data_portals/value_addresses.py: ValueAddr","pythagoras/_800_persidict_extensions/first_entry_dict.py: FirstEntryDict"])
p("Log folders name the day, in order",
  "Until the end of the year 9999: the folder under which an event or an exception is logged names the UTC date of the moment of logging in the Gregorian calendar; moments of the same day get the same folder, moments of different days different folders, and a listing sorted by name is sorted by date. Events logged on different days never overwrite each other; events of one day overwrite each other exactly if they have the same identifier.",
  "all moments from 1970-01-01, all pairs of days, all event identifiers",
  "Unit tests run on the day they run; leap years, month ends and the sort order over all pairs of days cannot be sampled.",
  ["pythagoras/_820_strings_signatures_converters/current_date_gmt_str.py: current_date_gmt_string", "pythagoras/_020_logging_portals/logging_portals.py: LoggingPortal.log_event, LoggingPortal._exception_prefixes"])
p("Crash folders belong to one function",
  "An exception reported by a function is stored under the day in the folder of all crashes and once more in a folder of that function; the folders of two functions are different if the functions are (two functions being the same if they have the same kind, name and island), and no function's folder is the folder of all crashes. Exceptions with different random texts have different identifiers.",
  "all function names, island names, exception classes, random texts, moments",
  "Clashes appear only for particular pairs of names, which tests would have to guess.",
  ["pythagoras/_020_logging_portals/logging_portals.py: LoggingPortal._exception_prefixes, _exception_id", O+"ordinary_core_classes.py: OrdinaryFn._exception_prefixes, _exception_id", A+"autonomous_core_classes.py: AutonomousFn._exception_prefixes, _exception_id", PU+"pure_core_classes.py: PureFn._exception_prefixes, _exception_id"])
p("Swarmed calls are served although new ones keep arriving",
  "Whatever other requests keep arriving and whatever other workers do with them: a swarmed call whose guards let it through gets a result, provided that workers come by again and again, ever later, and find it among the requests they consider (at most max other requests listed before it), that their random choices are fair, and that at most five executions of the call die. One cycle of a worker starts exactly the request it chooses among the first max + 1 executable ones and touches no other. The condition on the listing is necessary: new requests that keep being listed earlier can keep a call waiting for ever.",
  "all infinite histories of a queue: arrivals, other workers, failures and choices at any time; all queue lengths",
  "Infinite histories cannot be run; starvation never shows in short ones.",
  ["pythagoras/_090_swarming_portals/swarming_portals.py: _process_random_execution_request, _background_worker", PU+"pure_core_classes.py: PureFnExecutionResultAddr.needs_execution, can_be_executed"])
p("What outside names mean while an autonomous function runs",
  "While an accepted autonomous or pure function runs, every name it looks up outside itself means: the function registered in its island, if its island has a function of that name among the dependencies; otherwise pth, the function itself, or a built-in. It never means a global of the script in which the function was written, a global of the library is seen only under the name of a built-in, and no such lookup raises NameError. Functions with the same helpers see the same, wherever they were defined and whoever calls them.",
  "all accepted functions, all names, islands, helpers and modules of the caller",
  "A leak of surrounding globals shows only for names that happen to exist where the tests run.",
  [O+"ordinary_core_classes.py: OrdinaryFn._available_names, execute", A+"autonomous_core_classes.py: AutonomousFn._available_names, _complete_fn_registration"])
p("Names that become parts of keys",
  "Whatever is stored or logged, the keys that Pythagoras makes for it are accepted by the dictionaries, whatever the function, its island, the class of the value or of the exception is called and whatever identifier an event is given: letters, digits and underscores are always accepted, other characters in names are cleaned before the names become parts of keys. In particular an exception is never replaced by another one because the record of it has a key that is rejected.",
  "all names of functions, islands, classes and exceptions, all event identifiers, times and random signatures, all sets of allowed characters that contain letters, digits and the underscore",
  "Names in tests are plain identifiers; the claim is about all characters and all moments.",
  ["pythagoras/_020_logging_portals/logging_portals.py: log_exception, log_event, _exception_id", D+"hash_addresses.py: _build_prefix, _build_hash_signature"])
p("Computers that swarm are told apart",
  "Computers (or users of one computer) that take part in swarming over the same storage and differ in any of the facts that identify them - MAC address, operating system, its release and version, machine, processor, user name - have different signatures, so whatever is started, cleared or ended on one of them, the background workers of the others go on.",
  "all pairs of computers, all texts reported by the platform, all histories of portals and processes",
  "Tests run on one computer as one user.",
  ["pythagoras/_820_strings_signatures_converters/node_signatures.py: get_node_signature", "pythagoras/_090_swarming_portals/swarming_portals.py: SwarmingPortal.__init__, parent_runtime_is_live, _clear, _clean_runtime_id"])
p("What is stored is a snapshot",
  "A value that is stored stays as it was when it was stored: changing the object afterwards, or changing an object that an address returned, changes neither what any portal has nor what any address of the value returns, and no portal ever holds other contents under the value's address.",
  "all programs that create and change objects, store them, take addresses to other portals, copy or restore addresses, drop their caches, retrieve values and call functions",
  "Tests compare values just after storing them; the statement is about every interleaving of storing, retrieving and changing objects, in all portals.",
  [D+"value_addresses.py: ValueAddr.__init__, get, get_from_current_portal, get_from_noncurrent_portals, __setstate__, _invalidate_cache"])
p("Calls and the objects of the caller",
  "A call of a pure function changes none of the caller's objects, whether the body is executed or a stored answer is returned; and changing an answer that was returned does not change what is returned later for the same call.",
  "all functions (also those whose bodies change their argument), all arguments, portals and programs that change objects and call functions in any order",
  "Whether the body runs depends on the history of all portals; tests look at one call, with immutable arguments.",
  [PU+"pure_core_classes.py: PureFn.execute, run, get_address, PureFnExecutionResultAddr.execute, get", PU+"kw_args.py: pack, unpack"])
p("Exactly what an execution record shows",
  "The output, result and context that an execution record shows are those of a run whose session id contains the record's session id - the first such in the storage's order, which can be any of them - and none if no such run has one; the crashes it shows are exactly those of such runs and those with the session id in an exception, function or island name. A record shows its own run's data in every storage order exactly if all runs whose ids contain its id have the same data or none.",
  "all collections of runs of a call, also killed ones, all session ids of the library's form, all orders in which the storage lists its keys",
  "Session ids are random and the storage's order is not specified; the answer depends on substring relations between all ids of the history.",
  [PU+"pure_core_classes.py: PureFnExecutionRecord, PureFnExecutionResultAddr.execution_records"])
p("The answer depends on the contents of the arguments only",
  "The answer of a call of a pure function is determined by the contents of its arguments: it does not matter whether two arguments are one and the same object or two objects with the same contents, whether objects or addresses are given, and whether the function is called directly, by run() or by a worker.",
  "all deterministic functions with any number of parameters (also those that change their arguments), all programs that create and change objects and call functions with any choice of objects",
  "Which of the calls with the same contents is executed first depends on the history; tests do not pass one mutable object for two parameters.",
  [PU+"kw_args.py: SortedKwArgs.pack, unpack", PU+"pure_core_classes.py: PureFn.execute, run", D+"value_addresses.py: ValueAddr.__init__, get"])
p("Calls share no variables",
  "Whatever an ordinary, safe, autonomous or pure function assigns to or deletes from its global variables is gone when the call ends: the globals of the script, of the library and of the calls in progress are exactly what they were, and the globals of the script are invisible to the function. So a call gives the same answer whatever was called or assigned before, and a function that assigns no globals gives the answer it gives without a decorator.",
  "all functions (any reads, assignments and deletions of global names, any nested and recursive calls), all scripts of calls and assignments before, all arguments",
  "Tests call a function a few times in one script; leaks through variables depend on which other functions ran before and on what they assign.",
  [O+"ordinary_core_classes.py: OrdinaryFn._available_names, OrdinaryFn.execute", A+"autonomous_core_classes.py: AutonomousFn._available_names"])
p("Coinciding addresses never give wrong answers",
  "Addresses are made of truncated hashes, so two different values, functions or calls may have the same address. Storing or calling then raises an exception rather than giving anybody another value's data or another call's answer; what was stored or answered before stays retrievable, and background workers execute the calls that were asked for.",
  "every hash function (any coincidences at all), all histories of storing, asking, calling and working by any number of processes, all draws of the consistency checks",
  "No test can produce a collision of real hashes; whether the stores would notice one depends on the history and on random draws.",
  [D+"value_addresses.py: ValueAddr.__init__", S8+"first_entry_dict.py: FirstEntryDict.__setitem__", PU+"pure_core_classes.py: PureFn.execute, PureFnExecutionResultAddr, PureFnCallSignature"])
p("Editing a function, or anything it uses, gives its calls new addresses",
  "If two sessions - or two versions of a program - hold a pure function of the same name, and the function's source, one of its guards, or the kind, decorator or source of any function of its island that it uses directly or indirectly differs between them, then its pickled states differ and no call of the one has the address of a call of the other: a result stored for one version of the program is never found by another. Conversely equal addresses imply the same arguments, name, source, island, guards and the same reachable functions with the same definitions.",
  "all pairs of sessions (any histories of definitions, calls, pickling and unpickling), all pure functions first used there, all keyword arguments, all collision-free hashes",
  "a test edits one helper of one function and sees one address change; the claim needs every edit, at any depth of the mention graph, between any two histories, to change the address, so a stale result would only show for an untested combination",
  [PU+"pure_core_classes.py: PureFn.__getstate__, PureFn.augmented_fn_source_code, PureFn.get_address", A+"autonomous_core_classes.py: AutonomousFn.__getstate__, AutonomousFn._runtime_checks"])
p("Comments, layout, docstrings and annotations do not matter",
  "Take a program that defines, wraps, calls, pickles and restores functions, and change only comments, layout, docstrings, argument and return annotations or the spelling of the decorator in the sources of its functions. Then every operation has the same outcome, the session is the same after each of them, every function pickles to the same state and every call has the same address, so all results stored before are found again. Any other change of a function's code changes its state.",
  "all programs (sequences of operations), all acceptable sources, all portals, all arguments",
  "a test compares two spellings of one function; the claim is about every pair of programs and every operation in them, including the functions that only use an edited one",
  [O+"code_normalizer_implementation.py:__get_normalized_function_source__", A+"autonomous_core_classes.py:AutonomousFn", PU+"pure_core_classes.py:PureFn.get_address"])
p("Results are reused exactly when the code used is the same",
  "A result stored for a call of a pure function in one session is found by a call in another session - another process, another version of the program, other definitions in another order - exactly if the arguments are the same, the function has the same name, source, island and guards, and every guard and every function that either of the two reaches through mentions has the same kind, decorator and source. Editing or adding functions that are not used, and the order and history of definitions and calls, do not matter.",
  "all pairs of sessions (any histories), all pure functions at their first use there, all keyword arguments, all collision-free hashes",
  "both directions range over all pairs of histories: tests can neither try every unrelated change (address must stay) nor every relevant one (address must change)",
  [PU+"pure_core_classes.py: PureFn._complete_fn_registration, PureFn.__getstate__, PureFn.get_address", A+"autonomous_core_classes.py: AutonomousFn._complete_fn_registration"])
p("A function restored elsewhere shares its results with the original for good",
  "A pure function is pickled in one session and restored in another that knows nothing of its island (its guards' names sorting before the functions they guard). Then, whatever the two sessions define, call, pickle and restore from that moment on, the original and the restored function pickle to the same state, and every call of the one has the address of the same call of the other: results stored by one process are found by the other.",
  "all pairs of sessions, all pure functions and their states, all later histories of both sessions, all arguments",
  "tests restore a function once and compare immediately; the claim is about every later history of both processes",
  [PU+"pure_core_classes.py: PureFn.__getstate__, PureFn.__setstate__", PU+"process_augmented_func_src.py: process_augmented_func_src", PU+"pure_core_classes.py: PureFn.get_address"])
out = pathlib.Path(__file__).resolve().parent.parent/"properties.jsonl"
out.write_text("".join(json.dumps(x, ensure_ascii=False)+"\n" for x in P))
print(len(P))
