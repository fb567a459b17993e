{
"C01": [
"proved",
"Characters are 8-bit; encode/decode proved mutually inverse on canonical numerals, KeyError exactly on non-digits."
],
"C02": [
"proved",
"Finding: convert_base16_to_base32('0...0') is '' while '' gives '0'; both denote 0 (C02_zero_digest_is_empty_text). Proved for strings of hex digits; the sign/0x/underscore forms also accepted by Python's int(.,16) are not modelled."
],
"C03": [
"proved",
"The digest itself (joblib/sha256) and uuid4 are parameters."
],
"C04": [
"proved",
"Dimensions/lengths are non-negative integers. Finding: 0-d shapes get the descriptor 'sha_' (still unambiguous)."
],
"C05": [
"proved",
"Programs: with-blocks on existing/new/best portals, raise, try, sequencing. Resets inside a with-block are not block-structured and excluded."
],
"C06": [
"proved",
""
],
"C07": [
"proved",
""
],
"C08": [
"proved",
"The per-event consequence is proved in the logging model (C53, C54)."
],
"C09": [
"proved",
""
],
"C10": [
"partial",
"Priority proved for all histories; that the default portal becomes known needs the C12 side condition (resets through DefaultLocalPortal), refuted otherwise (C12_default_portal_after_reset_refuted)."
],
"C100": [
"proved",
"Exactly what every call does to the entered portals, and exactly when a reset succeeds."
],
"C101": [
"proved",
"Equivalences for get and ready over all histories; answers never change."
],
"C102": [
"proved",
"iff, for every reachable session"
],
"C103": [
"proved",
"iff for calls and for picklings, sessions without irregular wrapping (the wrapping exclusion is part of the statement; C69_refuted shows why)"
],
"C104": [
"proved",
"all later histories"
],
"C105": [
"proved",
"Rows, listing and every operation's effect on it; the rows of the base classes and pandas are not modelled."
],
"C106": [
"proved",
"Exact for objects used first; C106_limits shows the answers before the first call, after a call that came too early (finding 28) and for second objects of one function."
],
"C107": [
"proved",
"Crash histories are proved to be sequences of reports, one per exception (C107_reports), from which the agreement follows; for portals with separate files (shared files: finding 27)."
],
"C108": [
"proved",
"Exact counts; for portals with separate files."
],
"C109": [
"proved",
"Exact for all programs that install no handlers inside (those: C57_handler_added_inside_refuted, C58_added_handler_dropped_refuted)."
],
"C11": [
"partial",
"Proved for the generic portal-aware protocol; false for ValueAddr, which overrides `portal` (value_addresses.py:72-74) and never captures a portal later."
],
"C110": [
"proved",
"Spec/NameUses.v lists what a function does with a name in text order; iff characterisation of what is reported, of acceptance at decoration and at completion."
],
"C111": [
"proved",
"Class hierarchy stated from the class statements; classes of portals constant over all histories; the three questions answered exactly."
],
"C112": [
"proved",
"for every session; restored_is_pickled leaves open only the strictness flag, which is found out again"
],
"C113": [
"proved",
"the condition is part of the property; C113_refuted_in_general shows that it is needed"
],
"C114": [
"proved",
"exact companion of C45, without any restriction on functions"
],
"C115": [
"proved",
"exact companion of C42 and C44 for functions returning addresses; C115_inner_call_wins shows the exception is real"
],
"C116": [
"proved",
"settings, own files, frame and finality proved for all roots and histories; the class restriction of a given dictionary is inherited (C116_class_of_values_inherited), nested directories are excluded (C116_nested_directories_needed)"
],
"C117": [
"partial",
"proved for all classes but DefaultLocalPortal; refuted for it (C117_default_portal_refuted): its constructor takes no parameters, so its background workers cannot build their portal"
],
"C118": [
"proved",
"exact counts for every content; nested directories are counted twice (C118_nested_directories_needed)"
],
"C119": [
"proved",
"exact companion of C64 and C65, notebooks included"
],
"C12": [
"partial",
"False after a reset through a base class, e.g. pth.initialize (C12_default_portal_after_reset_refuted); proved when all resets go through DefaultLocalPortal."
],
"C120": [
"proved",
"Refinement of the whole execution model (sequential and concurrent) to files placed as in C116; run names are assumed distinct for distinct runs"
],
"C121": [
"proved",
"Rely/guarantee invariant over all schedules, for unrestricted bodies and guards; digests are assumed collision-free"
],
"C122": [
"proved",
"for all schedules, kill points and functions; file writes are atomic, as in the model of the file system (OnFiles.v)"
],
"C123": [
"proved",
"Years of four digits. The calendar is proved right (every valid date from 1970 on is the date of exactly one day, later days later dates)."
],
"C124": [
"partial",
"Proved except that functions whose islands have underscores in their names can share a folder (C124_refuted, finding 55)."
],
"C125": [
"proved",
"Under the stated fairness conditions; C125_starvation shows that the listing condition is needed."
],
"C126": [
"partial",
"Proved for the names the analyser does not miss (C32) that are not names of decorators; the namespace itself is characterised exactly (C126_exact). Refuted for names of decorators: accepted, then NameError (finding 56)."
],
"C127": [
"partial",
"Proved for any set of allowed characters that contains letters, digits and the underscore: which crash records, events and addresses have acceptable keys (exactly those with acceptable names). Refuted as stated: island names, event identifiers and class names are not cleaned (C127_*_refuted)."
],
"C128": [
"partial",
"Exactly when two computers have the same signature; different MAC addresses and single differences separate; other signatures never disturb a runtime, equal ones do. Refuted: two differences can cancel out because the facts are concatenated without separators (C128_signatures_collide_refuted)."
],
"C129": [
"partial",
"False as stated: a ValueAddr keeps the caller's object, so later changes show in addr.get() (C129_retrieved_values_change_refuted), and taking the address to another portal stores the changed contents under the old text (C129_changed_contents_stored_under_old_text_refuted). Proved: stores never change in any program; in programs that do not take changed addresses to other portals everything is stored under its own text and every address that keeps no object returns the contents that were stored."
],
"C13": [
"proved",
"Sequential use; each assignment may meet one transient backend error (before or after taking effect)."
],
"C130": [
"partial",
"False as stated: the first call with an object hands that object to the body (C130_first_call_changes_its_argument_refuted), and result addresses keep and share the answer (C130_answers_change_refuted). Proved: what a call does to the objects of the caller exactly, that calls with addresses, run and get_address never change them, that answers are right although objects change, and what result addresses return exactly."
],
"C131": [
"proved",
"for the storage model of C61 (Records.v): any storage order, sessions finished or killed"
],
"C132": [
"partial",
"False as stated (C132_answers_depend_on_sharing_refuted: one object given for two parameters). Proved: a first call exactly (what the body sees, what happens to the caller's objects, what is recorded), that the first answer decides for good, that run and workers separate arguments, and that answers are a function of contents if no object was given twice or the function is indifferent to it."
],
"C133": [
"partial",
"Proved without exception: no globals change (C133_globals_untouched, C133_calls_in_progress_untouched) and answers depend only on the library's globals and on attributes of lasting objects (C133_what_an_answer_depends_on). False as stated: through self a function can keep state between calls (C133_self_refuted); with no attributes set the answer is the same after any history."
],
"C134": [
"partial",
"Proved for every text function when the comparisons of stored with new values are made (certain with p_consistency_checks = 1): answers are right and stay right, workers execute the right call, refusals are characterised exactly. Refuted for the default p_consistency_checks = 0 (C134_refuted) and for comparisons that are switched on later (C134_comparing_later_refuted). One store."
],
"C135": [
"proved",
"for functions at their first use (C39_stable: the state does not change afterwards) in sessions without the wrapping of pure functions in autonomous ones; hash collision-free; island and guard names and sources readable (C113)"
],
"C136": [
"proved",
"parser and printer arbitrary; for the converse the printer and parser must read a normal form back, and functions are taken at their first use (as in C135)"
],
"C137": [
"proved",
"at first use of objects not tried before in vain (a failed early call changes the strictness flag, C67), in plainly reachable sessions, with readable names and sources (C113)"
],
"C138": [
"proved",
"in plainly reachable sessions, for normalised sources, the computed strictness flag and guards that come first (the exact condition for restoring, C40_restores_iff_guards_first)"
],
"C14": [
"proved",
"DeepDiff is an arbitrary reflexive comparison; draws are arbitrary rationals."
],
"C15": [
"proved",
"Any number of processes, any interleaving of single backend operations, processes may be killed anywhere; also wait-freedom."
],
"C16": [
"proved",
"Both backends; for arbitrary keys first-writer-wins is refuted over a check-then-write backend (C16_arbitrary_keys_refuted), as the statement says."
],
"C17": [
"partial",
"Round trip through the address object and its copies proved for every later history; restored pickles and rebuilt addresses proved when the storing portal is the address's own portal or not current; refuted otherwise (get ignores the current portal; unpickling outside any with leaves no portal)."
],
"C18": [
"proved",
""
],
"C19": [
"proved",
""
],
"C20": [
"partial",
"Proved when ValueAddr(address) is only applied to addresses whose value is present; refuted otherwise (constructor sets ready without checking)."
],
"C21": [
"partial",
"Exact characterisation proved; refuted when only the current portal holds the value and the address is bound to another one."
],
"C22": [
"proved",
""
],
"C23": [
"proved",
""
],
"C24": [
"proved",
"under the stated hypotheses (ideal hash for injectivity); also the finding that a RESULT address passed as an argument packs as its call signature"
],
"C25": [
"proved",
"injectivity modulo hash collisions (stated as a hypothesis, shown satisfiable)"
],
"C26": [
"proved",
""
],
"C27": [
"partial",
"Proved for functions in which no body begins with two string statements, assuming the printer and parser round-trip on the normal form; refuted for two leading strings."
],
"C28": [
"proved",
"Exact characterisation on syntax trees; on texts assuming ast.unparse/autopep8/ast.parse read back the printed normal form."
],
"C29": [
"partial",
"Proved for functions without annotated variables and with one of the four listed decorators; refuted: annotated local variables make normalisation fail, @pth.safe() functions are refused."
],
"C30": [
"partial",
"First part proved for all plain-whitespace sources; the last part (string literals keep their value) is refuted: blank lines and indents inside multi-line strings are changed, and indented functions with a string or comment at the left margin are rejected."
],
"C31": [
"proved",
""
],
"C32": [
"partial",
"Proved for all trees: every name Python looks up outside is reported or has an inner scope of its own (comprehension variable, class body, async def, lambda, header of a nested function). The full claim is false: eight functions with an outside name that pass."
],
"C33": [
"partial",
"Proved: reported names are exactly those whose first occurrence is a read; functions that bind names before reading are accepted. The full claim is false: nine self-contained functions that are rejected."
],
"C34": [
"partial",
"Proved, except for yield in the header of a nested function and nonlocal names equal to a decorator name, for which the claim is refuted; that nothing is registered is part of C37."
],
"C35": [
"proved",
"Name sets per function are inputs here; how they are computed is C32-C34."
],
"C36": [
"proved",
""
],
"C37": [
"proved",
"definition, never replaced, islands apart: over all reachable sessions (definitions, wrapping, calls, pickling, unpickling, failed or not)"
],
"C38": [
"partial",
"refuted as stated (C38_refuted: four witnesses); proved when the decorator and guards are those the function has now and it was not completed through another object"
],
"C39": [
"partial",
"refuted as stated (C39_refuted: depends on earlier calls of helpers and on when helpers are defined); proved: contents at first use, stability ever after, equality for equal code across sessions"
],
"C40": [
"partial",
"refuted as stated (four C40_refuted_* witnesses); proved exactly when a state is restored where its island is unknown: when every guard precedes its user in the state (C40_restores_iff_guards_first), for normalised sources and the computed strictness flag"
],
"C41": [
"proved",
"without consistency checks, after any crash-prone history"
],
"C42": [
"partial",
"proved for functions that return values and call each other with values; refuted for functions returning addresses (C42_caching_of_addresses_refuted)"
],
"C43": [
"proved",
""
],
"C44": [
"partial",
"That nothing is lost is proved for arbitrary functions (C44_nothing_is_lost); that results resolve is proved for functions returning values and refuted when a body returns an unstored address (C44_dangling_result_refuted)"
],
"C45": [
"partial",
"all parts proved; 'a successful call leaves no request' proved for executed calls, refuted for calls answered from another portal (C45_request_left_behind_refuted)"
],
"C46": [
"partial",
"proved for guards that treat a value and its address alike; refuted for argument-inspecting guards (C46_guards_depend_on_route_refuted)"
],
"C47": [
"proved",
""
],
"C48": [
"proved",
""
],
"C49": [
"proved",
"Rational clock; ready-ness, lateness of sleeps and jitter are arbitrary. Finding: no look after the last sleep (C49_stored_but_timeout)."
],
"C50": [
"proved",
""
],
"C51": [
"partial",
"False: after six killed attempts a call is never executed again (C51_eventual_execution_refuted). Proved: queue drained when executions finish; up to five killed attempts are survived. Endless new requests: C125 (under fairness)."
],
"C52": [
"proved",
""
],
"C53": [
"partial",
"Proved when entered portals have separate root directories and the exception first reaches a portal or function boundary with a portal entered; refuted for shared directories (finding 27) and for functions run outside any entered portal (the exception is marked but recorded nowhere)."
],
"C54": [
"proved",
""
],
"C55": [
"partial",
"Proved for automatically chosen ids and for distinct ids; refuted: the same event_id twice on the same day raises."
],
"C56": [
"partial",
"Proved for programs that handle no exceptions inside; refuted: fetching a value from another portal records a KeyError crash; a portal entered inside an exception handler records the handled exception."
],
"C57": [
"proved",
"For programs that install no logging handlers inside the capturer (shown necessary: C57_handler_added_inside_refuted)."
],
"C58": [
"partial",
"Proved when a handler is configured and all handlers accept the logged records; refuted: levels and filters of the configured handlers are ignored, default (unconfigured) warnings are lost, handlers installed inside are dropped."
],
"C59": [
"partial",
"False as stated: clearing an older portal (or the exit of a process holding one) over the same location deletes the newest portal's record. Exact conditions proved."
],
"C60": [
"proved",
"Everything the worker reads may change between passes; eligibility is as seen in the pass that found the call."
],
"C61": [
"partial",
"Proved when session ids have one length and do not occur in exception names; refuted for ids of different lengths (one id part of another): a record of a killed run then shows another run's output and result."
],
"C62": [
"proved",
"values are constants (what ast.Str accepts); literal_eval modelled for constants, tuples and lists"
],
"C63": [
"proved",
""
],
"C64": [
"partial",
"Proved for exceptions that leave a 'with' block; refuted: the installed hook itself records nothing (it reads sys.exc_info(), which is empty in the hook)."
],
"C65": [
"partial",
"The hook is installed while a portal exists; refuted: the previous hook is never restored (a missing global declaration)."
],
"C66": [
"proved",
"For programs that install no logging handlers inside the suppressor (shown necessary: C66_handler_added_inside_refuted)."
],
"C67": [
"partial",
"refuted as stated (C67_refuted); proved: the exact trace of an early call, and that calling a used function changes nothing"
],
"C68": [
"partial",
"refuted as stated (C68_refuted); proved: wrapping itself changes no existing object and no registration"
],
"C69": [
"partial",
"refuted for AutonomousFn objects made from a function of another portal (C69_refuted); proved over all sessions without such wrapping (plainly_reachable)"
],
"C70": [
"partial",
"Refuted: half-built portals stay registered; exact characterisation of when no trace is left, frame theorem."
],
"C71": [
"partial",
"Refuted: one failed SwarmingPortal construction blocks all later resets; exact condition, and resets work when no construction failed."
],
"C72": [
"partial",
"Exact acceptance and completeness for every class; refuted for the default portal after a failed first construction."
],
"C73": [
"proved",
"Over all histories of the parent; class SwarmingPortal (how parameterizable rebuilds a DefaultLocalPortal is outside the repository)."
],
"C74": [
"proved",
"When it returns, over all histories; also returns whenever no construction failed."
],
"C75": [
"partial",
"Holds with at least one portal and no failed construction; refuted for zero portals (ValueError)."
],
"C76": [
"partial",
"Restored for all programs and all failures except those of the library's own attempt, output and crash records; for each of these three a leak is exhibited."
],
"C77": [
"partial",
"Exact for function objects; refuted for source strings (star-args, extra statements) and methods taken from a class."
],
"C78": [
"partial",
"Calls characterised exactly for every signature; refuted for positional-only parameters (accepted, but never callable)."
],
"C79": [
"partial",
"Proved for functions without a ** parameter and for all pure functions; refuted for ordinary/autonomous functions with a ** parameter."
],
"C80": [
"partial",
"Refuted as stated in one direction (C80_get_implies_ready_refuted): ready does not look into the current portal unless it is the address's own, get does.  Everything else is proved: ready True or a returned value makes both succeed for ever, and exactly when ready is True and get returns (C80_ready_exactly, C80_get_exactly)."
],
"C81": [
"partial",
"Refuted for nondeterministic functions (C81_lost_race_refuted): an execution that loses a race returns and remembers its own value, while the store keeps the other one.  Proved: answers that are stored, answers of objects never executed, and answers of deterministic functions never change."
],
"C82": [
"proved",
"Simulation between the session with and without caches.  Determinism is needed (C82_nondeterministic_refuted).  Justifies leaving these caches out of the model of execution (PureExec)."
],
"C83": [
"proved",
"The product and the checks of sklearn.ParameterGrid are modelled as documented (sklearn is not part of the repository)."
],
"C84": [
"proved",
"For functions returning values (returning addresses: C42, C44 refutations). One undisturbed pass: fairness of the random choice among requests is not modelled."
],
"C85": [
"proved",
"address objects with empty caches; arguments read back as given when they are plain values"
],
"C86": [
"partial",
"proved exactly for what the body sees (given values, the fact of defaulting, the rest) and for functions without default values; refuted with default values: giving a default explicitly is another call and runs the body again"
],
"C87": [
"partial",
"exact behaviour proved (pip and importlib modelled without dependencies of packages); refuted: a package whose module has another name is installed although install_package raises; a module that is already loaded can still be imported after uninstall_package, and stays the old one after an upgrade"
],
"C88": [
"proved",
"on syntax trees"
],
"C89": [
"proved",
"on syntax trees as ast.parse builds them"
],
"C90": [
"proved",
""
],
"C91": [
"proved",
"Events with a record that can be built (add_summary succeeds); portals keep their own files (separate), C92 drops that."
],
"C92": [
"proved",
""
],
"C93": [
"proved",
"With a clock that moves on; for any other clock C93_any_clock, and C93_same_tick_refuted for equal times."
],
"C94": [
"proved",
"Only existing portals are cleared (sensible)."
],
"C95": [
"proved",
"One worker, no new requests while the queue is worked off."
],
"C96": [
"proved",
"C51_at_most_six_starts is the case of one worker."
],
"C97": [
"proved",
"One location, no consistency checks."
],
"C98": [
"proved",
"The docstring of needs_execution (False while another process works on the call) is refuted in two ways: C98_working_on_it_refuted."
],
"C99": [
"proved",
"Exactly when every constructor returns and everything it changes."
]
}