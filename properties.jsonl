{"id": "C01", "title": "Exact decision of check / check_getattr", "statement": "Checker(get_permissions).check(obj, name) and check_getattr return iff the table maps name to CheckerPublic, or maps it to a permission that the calling thread's current interaction grants on obj, or the table has no permission for name and name is one of the documented always-available names, or name is '__iter__' and obj has no such attribute. If the interaction refuses, Unauthorized(obj, name, permission) is raised; if there is no permission and no exception applies, ForbiddenAttribute(name, obj) is raised. No other result is possible unless application code itself raises.", "quantifier": "all permission tables, names, objects, threads, interactions, security policies (arbitrary code) and program states, for the Python and the C checker", "why_tests_cant": "The table, the name, the policy and the object are unbounded; tests fix a handful of each.", "anchors": ["src/zope/security/checker.py: CheckerPy.check", "src/zope/security/_zope_security_checker.c: Checker_check_int, checkPermission"]}
{"id": "C02", "title": "Exact decision of check_setattr, default deny", "statement": "check_setattr(obj, name) returns iff the set table maps name to CheckerPublic or to a permission that the current interaction grants; otherwise it raises Unauthorized(obj, name, permission) (refused) or ForbiddenAttribute(name, obj) (no entry). None of the always-available read names, nor any entry of the read table, ever makes an attribute writable.", "quantifier": "all read tables, write tables, names, objects, threads, policies and states, both implementations", "why_tests_cant": "A claim about every name and every table pair.", "anchors": ["src/zope/security/checker.py: CheckerPy.check_setattr", "src/zope/security/_zope_security_checker.c: Checker_check_setattr"]}
{"id": "C03", "title": "Fail closed without an interaction", "statement": "If the calling thread has no current interaction, no access that needs a permission is ever granted (check, check_getattr, check_setattr and every proxy operation guarded by such a permission raise), whatever other threads' interactions are; public and always-available names keep working.", "quantifier": "all tables, names, objects, states in which the calling thread has no interaction, and all other threads' states", "why_tests_cant": "Must hold for every name, table and state of other threads.", "anchors": ["src/zope/security/checker.py: CheckerPy.check, CheckerPy.check_setattr", "src/zope/security/_zope_security_checker.c: checkPermission"]}
{"id": "C04", "title": "The policy is consulted at most once, with the right arguments, and only when needed", "statement": "A name-based check asks the security policy at most once; when it does, it asks the calling thread's own interaction about exactly the permission recorded for that name and exactly the object being checked. Public, always-available and forbidden names never consult the policy.", "quantifier": "all checkers, names, objects, threads and policies", "why_tests_cant": "Absence of extra or wrongly parameterised policy calls over all inputs cannot be sampled.", "anchors": ["src/zope/security/checker.py: CheckerPy.check, CheckerPy.check_setattr", "src/zope/security/_zope_security_checker.c: checkPermission"]}
{"id": "C05", "title": "CombinedChecker is a logical or, to any nesting depth on the right", "statement": "CombinedChecker(c1, c2) grants iff c1 or c2 grants; c2 is not consulted when c1 grants; it raises ForbiddenAttribute iff both do; it raises Unauthorized when nobody grants and at least one raises Unauthorized; if both are Unauthorized the second checker's exception is the one seen. For a right-nested chain of any length the chain grants iff some member grants.", "quantifier": "all checker pairs and all finite right-nested chains of name-based checkers, names, objects, policies", "why_tests_cant": "Chains are unbounded and the table is quantified over all outcomes of both checkers.", "anchors": ["src/zope/security/checker.py: CombinedChecker.check, check_setattr, __init__"]}
{"id": "C06", "title": "Left-nested combination", "statement": "CombinedChecker(c1, c2) honours every grant of c1 even when c1 is itself a CombinedChecker, as the documented truth table says ('checker1 ok -> ok').", "quantifier": "all checkers c1, including combined ones", "why_tests_cant": "Quantifies over nested checker structures.", "anchors": ["src/zope/security/checker.py: CombinedChecker.__init__"]}
{"id": "C07", "title": "Watching checkers do not change decisions", "statement": "Replacing a checker by its logging (ZOPE_WATCH_CHECKERS) variant never turns a denial into a grant; when repr() of the checked object does not raise, outcome and exception are identical for check, check_getattr and check_setattr, and the log shows exactly one line per denial (and per grant when verbosity > 1).", "quantifier": "all tables, names, objects, verbosity levels, policies and repr behaviours", "why_tests_cant": "Transparency is a relation between two programs over all inputs.", "anchors": ["src/zope/security/checker.py: CheckerLoggingMixin, WatchingChecker, WatchingCombinedChecker"]}
{"id": "C08", "title": "NamesChecker / InterfaceChecker tables are exact", "statement": "NamesChecker(names, perm, **kw) succeeds iff no listed name is also a keyword bound to a different permission object, and then permission_id(n) is perm for every listed name, the keyword's permission for every keyword, and None for every other name; nothing is writable. InterfaceChecker does the same with all names of the interface. On conflict DuplicationError names the first conflicting name.", "quantifier": "all name sequences (with repetitions), permissions and keyword sets", "why_tests_cant": "Arbitrary lists; tests use a few.", "anchors": ["src/zope/security/checker.py: NamesChecker, InterfaceChecker"]}
{"id": "C09", "title": "MultiChecker is order independent and conflict detecting", "statement": "MultiChecker(specs) raises DuplicationError iff some name is given two different permission objects anywhere in specs; otherwise the checker maps each mentioned name to its permission and nothing else, and the result does not depend on the order of the specs or of the names inside them.", "quantifier": "all finite sequences of specs and all their permutations", "why_tests_cant": "Permutation invariance over unbounded lists.", "anchors": ["src/zope/security/checker.py: MultiChecker"]}
{"id": "C10", "title": "permission_id / setattr_permission_id tell the truth", "statement": "permission_id(n) and setattr_permission_id(n) report exactly the permission that check/check_getattr and check_setattr enforce for n: CheckerPublic means never refused, a permission p means granted iff the interaction grants p, None means the access is forbidden (or always available for reads).", "quantifier": "all tables, names and states", "why_tests_cant": "Consistency of two code paths over all tables.", "anchors": ["src/zope/security/checker.py: CheckerPy.permission_id, setattr_permission_id", "src/zope/security/_zope_security_checker.c: Checker_permission_id, Checker_setattr_permission_id"]}
{"id": "C11", "title": "The checker registry behaves as a map", "statement": "Over any history of defineChecker, undefineChecker, getCheckerForInstancesOf/moduleChecker, the registry behaves as a finite map: define adds one binding and raises DuplicationError without effect when the type is bound, TypeError without effect for things that are neither types nor modules; undefine removes one binding and raises KeyError when absent; lookups return the latest live binding; other keys are untouched.", "quantifier": "all histories of registry operations", "why_tests_cant": "Unbounded histories.", "anchors": ["src/zope/security/checker.py: defineChecker, undefineChecker, getCheckerForInstancesOf, moduleChecker"]}
{"id": "C12", "title": "selectChecker yields None or a Checker, and what it depends on", "statement": "selectChecker(obj) depends only on the concrete type of obj (and, through registered factories, on obj): NoProxy gives None, a Checker gives that checker, an unregistered type gives the default checker (which forbids everything not always available), a factory is called until it yields a Checker, None or NoProxy. The result is never anything but None or a Checker instance.", "quantifier": "all registries, objects, factory behaviours (chains of any length)", "why_tests_cant": "Factories are arbitrary code and chains unbounded.", "anchors": ["src/zope/security/checker.py: selectCheckerPy", "src/zope/security/_zope_security_checker.c: selectChecker"]}
{"id": "C13", "title": "Reset restores the default registry; BasicTypes stay in sync", "statement": "After any history, the module's cleanup restores exactly the default checkers overridden by the current BasicTypes; assigning into, deleting from or updating BasicTypes is immediately reflected in which types are never proxied and survives cleanup; BasicTypes.clear() raises and changes nothing.", "quantifier": "all histories of registry and BasicTypes operations", "why_tests_cant": "Unbounded histories, two coupled dictionaries.", "anchors": ["src/zope/security/checker.py: _clear, _BasicTypes"]}
{"id": "C14", "title": "Built-in containers are read-only through proxies", "statement": "With the default registry, a proxied dict, list, set, frozenset, tuple or iterator never allows a mutating method or operator, and no attribute of any proxied built-in can be set or deleted, whatever the security policy and interaction; conversely the documented read methods are public.", "quantifier": "all security policies, interactions, objects of those types, and all attribute names for setattr", "why_tests_cant": "All policies, all names.", "anchors": ["src/zope/security/checker.py: _default_checkers, _setChecker, _iteratorChecker, _callableChecker, _typeChecker"]}
{"id": "C15", "title": "Complete mediation of proxy operations", "statement": "For any program that holds only security proxies (and basic values) and performs any sequence of operations on them, every attribute access, call, item access, iteration step, arithmetic or in-place operation, len, contains that reaches a protected object is preceded, in the same operation, by a successful check of exactly the corresponding name against that object's own checker: the table makes the name public or always available, or the current interaction of the calling thread granted the recorded permission on that object.", "quantifier": "all adaptive client programs of any length, all application and policy code, all interactions", "why_tests_cant": "Quantifies over all client programs and histories.", "anchors": ["src/zope/security/proxy.py: ProxyPy, _check_name, _check_name_inplace", "src/zope/security/_proxy.c: check, check1, check2, check2i, proxy_*"]}
{"id": "C16", "title": "Results are proxied or basic (proxies are viral)", "statement": "Every value returned by an attribute access, call, item access, iteration, arithmetic, in-place operation or comparison on a security proxy is a security proxy, or a value whose type the registry declares not to be proxied; so a client that starts with proxies and basic values only ever holds such values.", "quantifier": "all client histories, all values application code may return, all registries", "why_tests_cant": "Closure under unbounded operation sequences.", "anchors": ["src/zope/security/checker.py: CheckerPy.proxy", "src/zope/security/_zope_security_checker.c: Checker_proxy", "src/zope/security/proxy.py: _check_name, ProxyPy.__getattribute__, rich comparisons", "src/zope/security/_proxy.c: PROXY_RESULT"]}
{"id": "C17", "title": "A proxy's target and checker never change", "statement": "Once created, a security proxy keeps wrapping the same object with the same checker, whatever operations a client performs on it.", "quantifier": "all client histories over all proxies", "why_tests_cant": "Immutability over all histories.", "anchors": ["src/zope/security/proxy.py: ProxyPy.__setattr__, _check_name_inplace", "src/zope/security/_proxy.c: SecurityProxy, proxy_setattro, check2i"]}
{"id": "C18", "title": "Every operator is guarded by its own special name", "statement": "Each Python operation on a proxy is checked under the special method name the language defines for it: x+y under __add__ (or __radd__ when only the right operand is a proxy), x+=y under __iadd__, x[k] under __getitem__, del x[k] under __delitem__, iter under __iter__, next under __next__, and so on for the whole table; no two different operators share a name by accident.", "quantifier": "all operators of the proxy type, all operands, checkers and states", "why_tests_cant": "A claim about the whole operator table and all checkers.", "anchors": ["src/zope/security/proxy.py: name lists at 257-336", "src/zope/security/_proxy.c: BINOP, UNOP, INPLACE, INIT_STRING_OP tables"]}
{"id": "C19", "title": "Comparison, hash and truth are always available", "statement": "Rich comparisons, hash() and bool() of a proxy never consult the checker or the policy, need no interaction, and give what the same operation on the wrapped object gives (exceptions included).", "quantifier": "all proxies, checkers (even ones that forbid everything), objects, states", "why_tests_cant": "All checkers and objects.", "anchors": ["src/zope/security/proxy.py: __lt__ .. __bool__", "src/zope/security/_proxy.c: proxy_richcompare, proxy_hash, proxy_bool"]}
{"id": "C20", "title": "str() and repr() never raise a denial and never reveal a forbidden representation", "statement": "If the checker refuses __str__ (resp. __repr__), str(p) (resp. repr(p)) does not raise the refusal and does not run the object's own __str__/__repr__; it returns the fixed text '<security proxied MODULE.CLASS instance at ADDRESS>'. If the check passes the object's own representation is used.", "quantifier": "all proxies, checkers and objects, both implementations", "why_tests_cant": "All checkers and objects.", "anchors": ["src/zope/security/proxy.py: ProxyPy.__str__, __repr__", "src/zope/security/_proxy.c: proxy_str, proxy_repr, default_repr"]}
{"id": "C21", "title": "ProxyFactory is idempotent and cannot change a checker", "statement": "ProxyFactory(ProxyFactory(x)) is ProxyFactory(x); ProxyFactory(p) for a proxy p returns p itself; ProxyFactory(p, c) for another checker c raises TypeError and creates nothing; ProxyFactory(x, c) for a non-proxy wraps x with c; without checker the object's own __Security_checker__ wins over the registry; an object the registry declares basic is returned as is.", "quantifier": "all objects, proxies, checkers, registries", "why_tests_cant": "All states.", "anchors": ["src/zope/security/checker.py: ProxyFactory"]}
{"id": "C22", "title": "removeSecurityProxy / getChecker round trip", "statement": "removeSecurityProxy(Proxy(o, c)) is o and getChecker(Proxy(o, c)) is c at any later time; removeSecurityProxy(x) is x for any non-proxy; getChecker(non-proxy) raises TypeError; Proxy(o, None) raises ValueError.", "quantifier": "all objects, checkers, and all later histories", "why_tests_cant": "All histories.", "anchors": ["src/zope/security/proxy.py: getObjectPy, getCheckerPy, ProxyPy.__new__/__init__", "src/zope/security/_proxy.c: module_getObject, module_getChecker, proxy_new"]}
{"id": "C23", "title": "Proxying never double-wraps", "statement": "checker.proxy(v) returns v itself when v is already a security proxy, so no sequence of client operations ever produces a proxy around a proxy, and CheckerPublic keeps its identity when it passes through proxied code.", "quantifier": "all client histories", "why_tests_cant": "Unbounded histories.", "anchors": ["src/zope/security/checker.py: CheckerPy.proxy, CheckerPublic", "src/zope/security/_zope_security_checker.c: Checker_proxy"]}
{"id": "C24", "title": "canAccess predicts attribute access", "statement": "canAccess(obj, name) returns True only if an actual access to name through the proxy would pass its check, returns False only if it would raise Unauthorized, and raises ForbiddenAttribute only if it would.", "quantifier": "all objects, names, registries, policies that do not distinguish an object from its proxy", "why_tests_cant": "Agreement of two code paths over all names and tables.", "anchors": ["src/zope/security/checker.py: canAccess"]}
{"id": "C25", "title": "canWrite predicts attribute assignment", "statement": "canWrite(obj, name) is True iff assignment through the proxy would pass its check; it is False iff assignment is Unauthorized, or Forbidden while reading is granted or Unauthorized; it raises ForbiddenAttribute iff both reading and writing are forbidden.", "quantifier": "all objects, names, registries, policies that do not distinguish an object from its proxy", "why_tests_cant": "As C24.", "anchors": ["src/zope/security/checker.py: canWrite"]}
{"id": "C26", "title": "C and Python implementations are interchangeable", "statement": "For every checker built from string/CheckerPublic permissions, and every object, the C accelerated Checker, selectChecker and Proxy give the same outcome as the Python reference implementations: same grants, same exceptions, same results.", "quantifier": "all checkers, objects, operations and states", "why_tests_cant": "Equivalence of two programs.", "anchors": ["src/zope/security/checker.py", "src/zope/security/_zope_security_checker.c", "src/zope/security/proxy.py", "src/zope/security/_proxy.c"]}
{"id": "C27", "title": "Denied operations have no effect", "statement": "If the check refuses an operation on a proxy, the wrapped object is not touched: no application code of the wrapped object runs, no state changes except what the policy itself did, and the refusal is what the caller sees.", "quantifier": "all operations, checkers, policies, states", "why_tests_cant": "All operations times all states.", "anchors": ["src/zope/security/proxy.py", "src/zope/security/_proxy.c"]}
{"id": "C28", "title": "Denials do not hand out the protected object", "statement": "A client that catches the exceptions raised by refused operations never obtains an unproxied protected object from them.", "quantifier": "all refused operations", "why_tests_cant": "Quantifies over all refusals.", "anchors": ["src/zope/security/checker.py: CheckerPy.check", "src/zope/security/_zope_security_checker.c: checkPermission, Checker_check_int"]}
{"id": "C29", "title": "Proxy internals are unreachable through attributes", "statement": "No attribute read, write or delete performed by a client on a proxy, nor object.__getattribute__ or a descriptor found in its type, reveals or replaces the wrapped object or the checker (the names _wrapped and _checker get no special treatment that a client can exploit).", "quantifier": "all proxies, checkers, calling contexts", "why_tests_cant": "All contexts, all checkers.", "anchors": ["src/zope/security/proxy.py: ProxyPy.__getattribute__, __setattr__, __delattr__", "src/zope/security/_proxy.c: proxy_getattro, proxy_setattro"]}
{"id": "C30", "title": "In-place operators keep protection", "statement": "p op= x is checked under the in-place name; if the object was updated in place the same proxy is returned with the same target, otherwise the new value is protected according to its own type; the old proxy is unaffected.", "quantifier": "all in-place operators, objects, operands", "why_tests_cant": "All operators and objects.", "anchors": ["src/zope/security/proxy.py: _check_name_inplace", "src/zope/security/_proxy.c: check2i"]}
{"id": "C31", "title": "Deletion needs write permission", "statement": "del p.name is refused exactly when p.name = v would be refused, with the same exception, and item deletion is checked under __delitem__ while item assignment is checked under __setitem__.", "quantifier": "all proxies, names, checkers, policies", "why_tests_cant": "All names and tables.", "anchors": ["src/zope/security/proxy.py: ProxyPy.__delattr__", "src/zope/security/_proxy.c: proxy_setattro, proxy_setitem"]}
{"id": "C32", "title": "At most one interaction per thread", "statement": "newInteraction raises ExistingInteraction and leaves the current interaction untouched while one is active; otherwise it installs exactly the object produced by the current policy from the given participations; queryInteraction/getInteraction return it until endInteraction; getInteraction raises NoInteraction exactly when queryInteraction has nothing to return.", "quantifier": "all histories of interaction management calls in a thread", "why_tests_cant": "Unbounded histories.", "anchors": ["src/zope/security/management.py: newInteraction, queryInteraction, getInteraction, endInteraction"]}
{"id": "C33", "title": "Thread isolation", "statement": "Whatever other threads do, in any interleaving of the individual reads and writes of the management functions, a thread's current and previous interactions are determined by its own calls only (and by the global policy at the moments it reads it).", "quantifier": "all numbers of threads, all programs of management calls, all schedules", "why_tests_cant": "All schedules.", "anchors": ["src/zope/security/management.py", "src/zope/security/_definitions.py: thread_local"]}
{"id": "C34", "title": "endInteraction / restoreInteraction round trip", "statement": "endInteraction followed by restoreInteraction leaves the thread with the interaction it had before (also when it had none), and queryInteraction in between returns None.", "quantifier": "all thread states", "why_tests_cant": "All states.", "anchors": ["src/zope/security/management.py: endInteraction, restoreInteraction"]}
{"id": "C35", "title": "Nested end/restore brackets", "statement": "Bracketing any balanced management activity between endInteraction and restoreInteraction restores the outer interaction.", "quantifier": "all balanced programs inside the bracket", "why_tests_cant": "All inner programs.", "anchors": ["src/zope/security/management.py: endInteraction, restoreInteraction"]}
{"id": "C36", "title": "Security policy is a register", "statement": "Over any sequential history, setSecurityPolicy returns the policy installed by the previous call (initially ParanoidSecurityPolicy, and again after cleanup), getSecurityPolicy returns the current one, and changing the policy affects only interactions created afterwards.", "quantifier": "all histories", "why_tests_cant": "Unbounded histories.", "anchors": ["src/zope/security/management.py: getSecurityPolicy, setSecurityPolicy, _clear"]}
{"id": "C37", "title": "management.checkPermission", "statement": "checkPermission(perm, obj, interaction=None) is True for CheckerPublic and None without any interaction; otherwise it returns exactly the answer of the given interaction, or of the thread's current interaction when none is given; with neither it raises NoInteraction.", "quantifier": "all permissions, objects, interactions, thread states", "why_tests_cant": "All states.", "anchors": ["src/zope/security/management.py: checkPermission"]}
{"id": "C38", "title": "testing.interaction context manager", "statement": "with interaction(id): body leaves an existing (true) interaction alone, otherwise runs body inside a fresh interaction of the current policy for that principal and, whatever body does (including raising), leaves the thread without interaction; body's exception propagates. An existing interaction that is false (a foreign one, with a length of zero) is not left alone but refused with ExistingInteraction: the body does not run and the interaction stays.", "quantifier": "all bodies (arbitrary state transformers) and start states", "why_tests_cant": "All bodies.", "anchors": ["src/zope/security/testing.py: interaction, create_interaction"]}
{"id": "C39", "title": "ParanoidSecurityPolicy decision", "statement": "A paranoid interaction grants a permission iff it is CheckerPublic or every participation's principal is (identically) the system user; in particular an interaction without participations grants everything. The permissive policy grants everything.", "quantifier": "all participation lists, permissions, objects", "why_tests_cant": "Unbounded lists.", "anchors": ["src/zope/security/simplepolicies.py: ParanoidSecurityPolicy.checkPermission, PermissiveSecurityPolicy.checkPermission"]}
{"id": "C40", "title": "Adding participants never widens access", "statement": "Over any history of add/remove on a paranoid interaction, add never turns a refusal into a grant and remove never turns a grant into a refusal.", "quantifier": "all interactions and participations", "why_tests_cant": "All histories.", "anchors": ["src/zope/security/simplepolicies.py: add, remove, checkPermission"]}
{"id": "C41", "title": "Participation bookkeeping invariant", "statement": "Over any history of creating interactions, add and remove: participation.interaction is i iff the participation occurs in i.participations, and it occurs there exactly once; a participation is in at most one interaction; add refuses a participation that belongs to any interaction and remove refuses one that does not belong to this interaction, both without effect.", "quantifier": "all histories over any number of interactions and participations", "why_tests_cant": "Unbounded histories.", "anchors": ["src/zope/security/simplepolicies.py: ParanoidSecurityPolicy.__init__, add, remove"]}
{"id": "C42", "title": "Failed newInteraction leaves nothing behind", "statement": "If newInteraction fails (a participation already belongs to an interaction) nothing has changed.", "quantifier": "all participation lists and states", "why_tests_cant": "All lists.", "anchors": ["src/zope/security/simplepolicies.py: ParanoidSecurityPolicy.__init__", "src/zope/security/management.py: newInteraction"]}
{"id": "C43", "title": "protectName / protectSetAttribute / protectLikeUnto build exactly the declared table", "statement": "Over any history of these calls on classes without manually shared checkers, the read (write) permission of (class, name) is the last one declared for it, directly or through protectLikeUnto at that time, with 'zope.Public' meaning CheckerPublic; all other names of all classes are unaffected.", "quantifier": "all histories, classes, names, permissions", "why_tests_cant": "Unbounded histories with aliasing.", "anchors": ["src/zope/security/protectclass.py"]}
{"id": "C44", "title": "protectLikeUnto copies, it does not share", "statement": "After protectLikeUnto(A, B), later declarations on B do not change A and vice versa; a class without checker contributes nothing.", "quantifier": "all histories after the call", "why_tests_cant": "Aliasing over all later histories.", "anchors": ["src/zope/security/protectclass.py: protectLikeUnto"]}
{"id": "C45", "title": "Shared checkers propagate declarations", "statement": "protectName(A, ...) changes the protection of A only.", "quantifier": "all registries, including ones where several classes share one checker object", "why_tests_cant": "All aliasing patterns.", "anchors": ["src/zope/security/protectclass.py: protectName", "src/zope/security/checker.py: _default_checkers"]}
{"id": "C46", "title": "ZCML class/require and class/allow end to end", "statement": "Executing the actions of <class class=K><require permission=P attributes=.. interface=.. set_attributes=.. set_schema=../></class> makes exactly the listed attribute names and all names of the interfaces (inherited included) require P for reading, exactly the listed set_attributes and the non-readonly fields of set_schema require P for writing, and leaves every other (class, name) as before; <allow> is the same with public access.", "quantifier": "all classes, attribute lists, interfaces, schemas, permissions, prior registries", "why_tests_cant": "All directives and prior states.", "anchors": ["src/zope/security/metaconfigure.py: ClassDirective.require, allow, __protect*"]}
{"id": "C47", "title": "ZCML require rejects incomplete declarations", "statement": "A <require> with nothing to protect and no like_class raises ConfigurationError; with something to protect but no permission it raises ConfigurationError; in both cases no protection action for the class is registered beyond a like_class copy; like_class alone is accepted without permission.", "quantifier": "all argument combinations", "why_tests_cant": "All combinations of presence/emptiness.", "anchors": ["src/zope/security/metaconfigure.py: ClassDirective.require"]}
{"id": "C48", "title": "ZCML module protection", "statement": "<module><require permission=P attributes interface/></module> makes every listed name and interface name of the module require P, each name exactly once even if repeated; <allow> makes them public; other names and modules are unaffected; proxied modules are then checked accordingly.", "quantifier": "all modules, name lists, interfaces, prior registries", "why_tests_cant": "All lists, repeats.", "anchors": ["src/zope/security/metaconfigure.py: protectModule, allow, require, _names", "src/zope/security/checker.py: moduleChecker, ModuleType factory"]}
{"id": "C49", "title": "Conflicting declarations get equal discriminators", "statement": "Two declarations protecting reading (resp. writing) of the same name of the same class (or module) always carry equal discriminators, so the configuration machinery detects the conflict; declarations about different names, different classes, or read versus write never collide; like_class declarations never collide with anything.", "quantifier": "all pairs of directives", "why_tests_cant": "All pairs.", "anchors": ["src/zope/security/metaconfigure.py"]}
{"id": "C50", "title": "Permission redefinition is a single-step substitution", "statement": "meta:redefinePermission from=A to=B makes permission fields read afterwards as A yield B, leaves every other id alone, and is not applied transitively when reading a field.", "quantifier": "all sequences of redefinitions and all ids", "why_tests_cant": "Sequences unbounded.", "anchors": ["src/zope/security/zcml.py: Permission.fromUnicode, redefinePermission"]}
{"id": "C51", "title": "Undefined permission ids are rejected, independent of order", "statement": "Configuration fails iff some directive uses a permission id other than zope.Public that is not registered by the time all registrations have executed, irrespective of the order in which permissions are defined and used.", "quantifier": "all configurations (action lists)", "why_tests_cant": "All orders.", "anchors": ["src/zope/security/zcml.py: Permission._validate", "src/zope/security/permission.py: checkPermission"]}
{"id": "C52", "title": "Permission listings", "statement": "allPermissions yields exactly the registered ids except zope.Public; PermissionIdsVocabulary lists exactly the registered ids, each once, zope.Public first as CheckerPublic titled 'Public' when registered, the others sorted by id; PermissionsVocabulary lists every registered permission under its id.", "quantifier": "all sets of registered permissions in any enumeration order", "why_tests_cant": "All sets and orders.", "anchors": ["src/zope/security/permission.py"]}
{"id": "C53", "title": "Trusted adapter factories", "statement": "A trusted adapter factory called with at least one security-proxied argument calls the inner factory with every argument unwrapped and returns the adapter security-proxied (or basic); called with no proxied argument it passes the arguments through and returns the adapter unproxied. In neither case does the inner factory see a proxy that ProxyFactory made.", "quantifier": "all argument tuples, factories, states", "why_tests_cant": "All tuples.", "anchors": ["src/zope/security/adapter.py: LocatingTrustedAdapterFactory, TrustedAdapterFactory"]}
{"id": "C54", "title": "Adapter location is set when missing and never overwritten", "statement": "assertLocation and the adapter factories set __parent__ of a located adapter to the first (unwrapped, for trusted) argument iff it was None, never overwrite a parent, and wrap an adapter that has no location in a location proxy whose parent is that argument (locating variants only).", "quantifier": "all adapters and argument tuples", "why_tests_cant": "All adapters.", "anchors": ["src/zope/security/adapter.py"]}
{"id": "C55", "title": "Decorated security checker", "statement": "The __Security_checker__ of a decorator (or location proxy) is: the combination (wrapper first) when both the wrapper's type and the proxied object have a checker, the single one when only one has, AttributeError when neither has; a security-proxied inner object contributes the checker of its proxy. Hence proxying a decorator grants a name iff the wrapper's or the wrapped object's checker grants it.", "quantifier": "all wrappers, inner objects, registries, policies", "why_tests_cant": "All combinations and all names.", "anchors": ["src/zope/security/decorator.py"]}
{"id": "C56", "title": "Checker selection is per type, not inherited by instances", "statement": "Two objects of the same concrete type without own __Security_checker__ get the same checker; declaring a checker for one type never changes the checker of objects of another type.", "quantifier": "all objects, types, histories of registrations", "why_tests_cant": "All histories.", "anchors": ["src/zope/security/checker.py: selectCheckerPy, defineChecker"]}
{"id": "C57", "title": "zope.security.proxy.isinstance looks through security proxies", "statement": "isinstance(ProxyFactory(x), cls) from zope.security.proxy equals the builtin isinstance(x, cls) for every x and cls, and removing the proxy for the test never grants further access.", "quantifier": "all objects and classes", "why_tests_cant": "All objects.", "anchors": ["src/zope/security/proxy.py: isinstance"]}
{"id": "C58", "title": "Example sandbox policy", "statement": "SimulationSecurityPolicy grants a permission on an object iff the database entry of the object's home allows it (or All) for anybody, or there is at least one participation and every participation's token is allowed it there; PermissionMapChecker inverts the permission map.", "quantifier": "all databases, participation lists, homes, permissions", "why_tests_cant": "Unbounded.", "anchors": ["src/zope/security/examples/sandbox_security.py"]}
{"id": "C59", "title": "Registered None is not a rock", "statement": "A type whose registered checker is None is treated as 'rock' (never proxied), as the registry's comment says.", "quantifier": "all registries", "why_tests_cant": "All registries.", "anchors": ["src/zope/security/checker.py: _checkers comment, selectCheckerPy", "src/zope/security/_zope_security_checker.c: selectChecker"]}
{"id": "C60", "title": "A None permission forbids access", "statement": "As documented for Checker.__init__, a table entry whose permission is None forbids access to that name (unless always available), for reading and writing, whatever the policy.", "quantifier": "all tables containing None entries, all policies", "why_tests_cant": "All policies.", "anchors": ["src/zope/security/checker.py: CheckerPy.check", "src/zope/security/_zope_security_checker.c: Checker_check_int, Checker_check_setattr"]}
{"id": "C61", "title": "Order of directives in a configuration file", "statement": "The protections in force after a configuration file was loaded do not depend on the order of its directives (as far as neither like_class nor redefinePermission is involved).", "quantifier": "all configuration files, all permutations of them, all prior registries", "why_tests_cant": "All permutations of files of any length.", "anchors": ["src/zope/security/metaconfigure.py: ClassDirective", "src/zope/security/zcml.py"]}
{"id": "C62", "title": "Only registered permissions reach the tables", "statement": "After a configuration file was loaded successfully, every permission id its directives put into a protection table is registered as a permission; no table entry names a permission that does not exist.", "quantifier": "all configuration files, all prior registries", "why_tests_cant": "All files.", "anchors": ["src/zope/security/zcml.py: Permission._validate", "src/zope/security/metaconfigure.py: ClassDirective"]}
{"id": "C63", "title": "What is reached through a proxied dict is protected", "statement": "Every object a client takes out of a proxied dict by its public read methods is itself wrapped, unless its type needs no protection; in particular taking a value out of values() or items() gives the same protection as subscription.", "quantifier": "all dicts, all values in them, both builds", "why_tests_cant": "An absence claim over all sequences of method calls.", "anchors": ["src/zope/security/checker.py: _default_checkers, _basic_types", "src/zope/security/checker.py: type({}.keys()) etc. in _basic_types"]}
{"id": "C64", "title": "hasattr and getattr with a default on a proxy", "statement": "hasattr(proxy, name) and getattr(proxy, name, default) answer False / the default for a name the checker does not grant, without running any application code or asking the policy; they raise Unauthorized for a name whose permission the interaction refuses; and they answer True / the value only after an authorised read that was really performed. A protected attribute that exists never silently looks absent.", "quantifier": "all proxies, names, tables, policies, application code, both builds", "why_tests_cant": "An exception class hierarchy (ForbiddenAttribute is an AttributeError) turns a refusal into an ordinary answer; the claim covers all tables, policies and implementations of the attribute.", "anchors": ["src/zope/security/interfaces.py: IForbiddenAttribute, ForbiddenAttribute, IUnauthorized", "src/zope/security/proxy.py: PyProxyBase.__getattribute__", "src/zope/security/_proxy.c: proxy_getattro", "src/zope/security/checker.py: CheckerPy.check"]}
{"id": "C65", "title": "Refusals leak nothing", "statement": "If the checkers an object can be wrapped with withhold some of its attributes and special methods from the current interaction, then nothing a client does through proxies - no result, exception, side effect, policy question or call into the application - depends on how the object implements what is withheld. (Noninterference: two applications that differ only there cannot be told apart.)", "quantifier": "all adaptive clients, all pairs of implementations of the withheld names, all other application code that does not itself give them away, all checker tables and policies that withhold, both builds", "why_tests_cant": "It compares two runs of every possible client against every pair of implementations; a test compares at most one pair with one client.", "anchors": ["src/zope/security/proxy.py: PyProxyBase.__getattribute__, __setattr__, _check_name, __str__, __repr__", "src/zope/security/_proxy.c: check, check1, check2, proxy_str, proxy_repr", "src/zope/security/checker.py: CheckerPy.check, CheckerPy.check_setattr, CheckerPy.proxy, selectCheckerPy", "src/zope/security/_zope_security_checker.c: Checker_check_int, Checker_check_setattr, Checker_proxy"]}
{"id": "C66", "title": "Pickling and copying proxies gives nothing away", "statement": "CheckerPublic can be pickled and copied although it is a security proxy: it is pickled by reference to the global, loading yields the very same object, copy and deepcopy return it, in both builds and whatever the program did in between; nothing else can be read of it. No other proxy is a way to get at the object's state by pickling or copying it: without permission for a reducer nothing of the object is read; with the default registrations the pickler never obtains the reducer's tuple bare, so a proxy is never pickled by value.", "quantifier": "all protocols, all histories of use by any threads, all checker tables, policies and reducers of the wrapped object, both builds", "why_tests_cant": "An absence claim over all objects, tables and histories; and identity after a round trip depends on the interplay of three special cases in __getattribute__, the checker of bound methods and the registration of str.", "anchors": ["src/zope/security/checker.py: Global, CheckerPublic, _available_by_default", "src/zope/security/proxy.py: ProxyPy.__getattribute__ (__reduce__, __reduce_ex__, __module__)", "src/zope/security/_proxy.c: proxy_getattro"]}
{"id": "C67", "title": "Looking at protected objects", "statement": "getTestProxyItems lists exactly the names and permissions of a proxied object's checker, in alphabetical order, changing nothing: a name it does not list (and that is not always available) is forbidden, a listed one can be read iff the policy grants its permission. The supplement that refusals add to tracebacks (class and type of the object) can always be computed: whatever the object does when it is looked at, it never raises and so never replaces the refusal.", "quantifier": "all checker tables, interactions, objects, classes and metaclasses that raise anything when asked", "why_tests_cant": "All tables, and all misbehaving objects; the link between the listing and what checks do is a statement about every name.", "anchors": ["src/zope/security/proxy.py: getTestProxyItems", "src/zope/security/checker.py: TracebackSupplement.getInfo", "src/zope/security/checker.py: CheckerPy.check"]}
{"id": "C68", "title": "The sandbox example keeps its agents", "statement": "In the example simulation (examples/sandbox.py), alone or secured: a transport that fails changes nothing; one that succeeds moves exactly that agent; whatever transports are attempted by whomever under whatever checks, the population stays the same and nobody is in two sandboxes. With security a move happens iff the policy grants Transport Agent at the source and Add Agent at the destination to the acting agent, so only norse legends enter valhalla or leave jail. A turn lets every agent act in an interaction of its own, moves those who want to, and leaves no interaction behind.", "quantifier": "all worlds, agents, sandboxes, checks and policies, sequences of attempts of any length, all random choices", "why_tests_cant": "Random choices, any number of agents and turns; atomicity concerns every point of failure.", "anchors": ["src/zope/security/examples/sandbox.py: Sandbox.addAgent, Sandbox.transportAgent, TimeGenerator.turn, GreenerPastures", "src/zope/security/examples/sandbox_security.py: wire_security, sandbox_security, SimulationSecurityPolicy"]}
{"id": "C69", "title": "The C extensions neither leak, nor crash, nor lose exceptions", "statement": "Every function of the two C extensions, on every path: each reference it takes is given back or handed to the caller or kept in a struct that accounts for it; it never uses NULL or an object that may have been freed, never gives back what it does not own, never calls the interpreter with an exception set; and it reports failure (NULL or a negative int) exactly when an exception is set.  So a long-running server that uses security proxies neither grows nor crashes because of them, whatever proxied objects, checkers and policies do.", "quantifier": "All sequences of answers of the interpreter (any object, any failure at any call, references dropped by others meanwhile), all argument objects, all types of checkers (with and without the fast slots).", "why_tests_cant": "Leaks do not change results, use-after-free depends on what foreign code does at one moment, and error paths of API calls cannot be reached from Python tests.", "anchors": ["src/zope/security/_proxy.c:26-27", "src/zope/security/_proxy.c:116-660", "src/zope/security/_proxy.c:811-838", "src/zope/security/_zope_security_checker.c:60-131", "src/zope/security/_zope_security_checker.c:139-313", "src/zope/security/_zope_security_checker.c:337-409", "src/zope/security/_zope_security_checker.c:500-555"]}
{"id": "C70", "title": "Code is opaque", "statement": "A proxied function, bound or built-in method, class or weak reference, as ProxyFactory makes it with the default checkers, gives away none of its internals (__globals__, __code__, __closure__, __dict__, __func__, __self__, __subclasses__, __init__, __reduce_ex__ and the like), accepts no assignment or deletion of any attribute, and, if it is a class, cannot be called; functions, methods and weak references can be called by everybody.", "quantifier": "All programs that leave the checkers made at import alone, any number of threads, any policy, any history before and after the proxy is made, all platforms, both builds.", "why_tests_cant": "The escape routes are a list of names times a list of types times everything a program may do meanwhile; tests try a few of the names right after import.", "anchors": ["src/zope/security/checker.py:729-738", "src/zope/security/checker.py:846-935", "src/zope/security/checker.py:1012-1082"]}
{"id": "C71", "title": "What the configuration says is what proxies do", "statement": "Import the package, load a configuration file that protects classes and modules of the application, and run any program: whenever an object of such a class (or such a module) is handed to ProxyFactory the result is a proxy, and every later operation on this proxy is decided by the file alone: names the file does not mention are forbidden and nothing happens; public names are let through; for any other the interaction of the calling thread is asked for exactly the permission the file says, on that object, and the operation is let through if and only if the answer is yes. Files can be loaded one after the other.", "quantifier": "all configuration files (directives, interfaces, like_class, redefinitions), all platforms, all programs with any number of threads that leave the registered checkers alone, any policy, all operations, both builds", "why_tests_cant": "The statement spans import, configuration, proxy creation and every later operation, with arbitrary application code in between; tests exercise the stages separately.", "anchors": ["src/zope/security/metaconfigure.py:49-231", "src/zope/security/protectclass.py:24-91", "src/zope/security/checker.py:106-135", "src/zope/security/checker.py:199-330", "src/zope/security/checker.py:431-505", "src/zope/security/checker.py:842-1090", "src/zope/security/proxy.py: ProxyPy", "src/zope/security/_proxy.c"]}
{"id": "C72", "title": "Declarations reach existing proxies; registrations do not", "statement": "Protecting or re-protecting names of a class (protectName, protectSetAttribute, protectLikeUnto, or loading a configuration file) holds at once for every proxy of this package's checker of that class that already exists, not only for new ones: a permission can be tightened or granted while proxies are in circulation. Registering another checker for the class, or removing its checker, changes nothing for proxies that exist; so a permission cannot be withdrawn in this way.", "quantifier": "all declarations and files, all proxies and classes, all states, all changes of the registry, both builds", "why_tests_cant": "Whether dictionaries are shared or copied between checker, registry and proxies shows only for proxies that were made before the change; tests make the proxies after it.", "anchors": ["src/zope/security/protectclass.py:24-91", "src/zope/security/metaconfigure.py:49-231", "src/zope/security/checker.py:199-294", "src/zope/security/checker.py:475-505", "src/zope/security/checker.py:751-774"]}
{"id": "C73", "title": "Configuration can be loaded again, and independent packages in any order", "statement": "Loading a configuration file a second time succeeds and leaves every protection, permission and the policy as they were, provided the file describes classes before it makes others like them (like_class). Files of independent packages (neither changes or copies classes of the other, no common definitions) can be loaded in either order with the same result. Without these conditions both are false: a class made like one described later gains access on the second load, and of two separately loaded files about one name the later wins without a conflict.", "quantifier": "all files, all worlds they can be loaded into", "why_tests_cant": "Whether a second load changes anything depends on the whole file and on everything that was there before; tests load one small file once.", "anchors": ["src/zope/security/metaconfigure.py:49-231", "src/zope/security/protectclass.py:24-91", "src/zope/security/zcml.py:35-126"]}
{"id": "C74", "title": "Threads can declare protections at the same time", "statement": "When several threads declare protections (protectName, protectSetAttribute) at the same time, interrupted at any point and with other code running in between, the protections are at every moment those of making the declarations one after the other in some order that respects each thread's own; no thread gets an exception and no declaration of a finished thread is lost. This holds if classes declared by more than one thread have a checker already. Without this condition it is false: a declaration can be lost silently, a thread can get a DuplicationError, two defineChecker calls for one type can both succeed, and protectLikeUnto can stop half way.", "quantifier": "all numbers of threads, all sequences of declarations, all interleavings at the level of dictionary accesses, both builds", "why_tests_cant": "Interleavings of dictionary accesses cannot be enumerated by tests, and the failures need a switch of threads between a lookup and the following assignment.", "anchors": ["src/zope/security/protectclass.py:24-91", "src/zope/security/checker.py:468-486"]}
{"id": "C75", "title": "Configurations of several files: the including file decides, redefinitions stay in their file", "statement": "For configurations spread over files that include each other and over nested <configure> groups: it loads exactly if every directive is well formed, the permission ids are defined somewhere, and no two statements about one thing remain after those contradicted by an including file are dropped; afterwards each protection, permission title and the policy is what the remaining statement says, and what no file mentions is unchanged. In particular the first file decides what it mentions, and permission ids in it mean themselves whatever the included files redefine, if it redefines nothing itself; two files that make statements about one thing, with no including file to decide, are rejected without effect. Distributing a file over several does not matter if it has no redefinition and no repeated statement. That redefinitions never leave the included file is false: if the including file has redefined anything before, they do.", "quantifier": "all trees of files and groups, all directives, all worlds, both builds", "why_tests_cant": "The meaning of a configuration depends on the whole tree of includes, on what each file claims, and on where redefinitions stand; tests load single strings.", "anchors": ["src/zope/security/zcml.py:30-60", "src/zope/security/zcml.py:119-126", "src/zope/security/metaconfigure.py:49-231"]}
{"id": "C76", "title": "The configuration shipped with the package: permissions defined, permission objects public and immutable", "statement": "Loading the configure.zcml of the package succeeds. In any application that includes it first and loads, the six permissions of permissions.zcml are defined; with the shipped titles unless the application's own file names them. Unless the application says otherwise, id, title and description of every Permission object can be read through a proxy by everybody, without any question to the security policy, and no attribute of it can be assigned or deleted through a proxy by anybody.", "quantifier": "all applications (trees of files), all worlds, all Permission objects, all attribute names, both builds", "why_tests_cant": "What the shipped files guarantee in the presence of arbitrary other configuration is a statement about all configurations; the tests load the files alone and look at some results.", "anchors": ["src/zope/security/configure.zcml:1-24", "src/zope/security/permissions.zcml:1-42", "src/zope/security/interfaces.py:477-499"]}
{"id": "C77", "title": "Concurrent declarations fail closed", "statement": "Threads declare protections (class directives with require, allow, set_attributes, set_schema, like_class) at the same time without any coordination. At every moment of every interleaving each permission found for a name of a class, in the registered checker or in one that was registered and has been replaced by another thread, is one that was there before, that some thread declares for this name, or that belongs to a class it is declared to be like. So what nobody grants is refused at every moment, through old proxies too, without any effect. What is false: that a permission which is tightened later reaches the proxies made during the race (as it does in one thread, C72).", "quantifier": "all threads and declarations, all interleavings, all moments, all states, all operations on proxies, both builds", "why_tests_cant": "Whether a race can open more than anybody declared depends on every interleaving of single dictionary accesses; tests run declarations in one thread.", "anchors": ["src/zope/security/protectclass.py:23-91", "src/zope/security/checker.py:527-551", "src/zope/security/metaconfigure.py:60-231"]}
{"id": "C78", "title": "Importing the package chooses implementations that fit together", "statement": "Importing zope.security.checker succeeds iff PURE_PYTHON is unset or an integer and, unless it asks for the Python implementation (nonzero, or unset on PyPy), the two extension modules load or fail with ImportError or AttributeError. Afterwards, on every platform and with every value of ZOPE_WATCH_CHECKERS: C proxies are in use iff the Python implementation is not asked for and their module loads, C checkers iff both modules load; selectChecker reads the registry that defineChecker writes and knows the default checker and NoProxy of checker.py; the checkers let the same fifteen names through, know the CheckerPublic of checker.py and create proxies of the class that the rest of the package recognises; selectChecker takes the default checker and instances of Checker and CombinedChecker for checkers.", "quantifier": "all environments, interpreters and outcomes of loading the extension modules", "why_tests_cant": "A test process has imported the package once, in one environment; the parts that could disagree (two registries, two default checkers, two lists of names, two NoProxy objects, four classes) exist side by side.", "anchors": ["src/zope/security/_compat.py:18-22", "src/zope/security/proxy.py:352-367", "src/zope/security/checker.py:97-103", "src/zope/security/checker.py:489-533", "src/zope/security/checker.py:672-727", "src/zope/security/_zope_security_checker.c:568-673"]}
{"id": "C79", "title": "Using proxies comes to an end", "statement": "If application code comes to an end, so does every operation on proxies (attribute access, calls, operators, comparisons, str and repr, in-place operators), every method of a checker, selectChecker, ProxyFactory, canAccess, canWrite and the adapter factories, however deeply proxies, decorators and combined checkers are nested: from some depth of recursion on the outcome is the same and is not exhaustion of the stack. Proxies, decorators and combined checkers stay made of objects that were there before, so that this holds again for whatever is done next.", "quantifier": "all builds, all states in which proxies, decorators and combined checkers are made of older objects, all application code that ends and keeps that so, all operations and arguments", "why_tests_cant": "A test shows that the operations it performs end; a hang or a stack overflow needs an arrangement of proxies, checkers and factories that the test does not have.", "anchors": ["src/zope/security/proxy.py:28-55", "src/zope/security/proxy.py:80-345", "src/zope/security/_proxy.c:200-620", "src/zope/security/checker.py:115-260", "src/zope/security/checker.py:431-509", "src/zope/security/checker.py:530-620", "src/zope/security/adapter.py:24-136", "src/zope/security/_zope_security_checker.c:500-555"]}
{"id": "C80", "title": "Using proxies changes nobody's rights", "statement": "No sequence of uses of proxies (attribute access, calls, operators, in-place operators, rebinding of a Python proxy), of checker methods, selectChecker, ProxyFactory, canAccess and canWrite, by any threads, changes a permission table, an existing checker, the registry of checkers, the security policy, a thread's interaction or who takes part in it, unless application code does so itself. A check that was decided one way is therefore decided the same way after any such sequence, if the policy's answers depend on nothing else.", "quantifier": "all sequences of uses, all states, all operations and arguments, both builds, watching checkers or not; decisions: plain, combined (to any depth) and foreign checkers, all names but __iter__", "why_tests_cant": "A test compares a few checks before and after a few uses; that no use of a proxy ever widens or narrows what is allowed later is a statement about all sequences.", "anchors": ["src/zope/security/proxy.py:28-345", "src/zope/security/_proxy.c:200-953", "src/zope/security/checker.py:115-410", "src/zope/security/checker.py:431-509", "src/zope/security/_zope_security_checker.c:120-555"]}
{"id": "C81", "title": "The C extensions fail closed", "statement": "In the C extensions, at the level of single calls into the interpreter, each of which may return anything or fail: a slot of the proxy calls the operation only after the checker was asked about the right name by the right method and did not refuse; what it returns was made by the checker from the operation's result. Checker.check and check_setattr grant only if the table says public, or the policy was asked for the permission in the table and its answer was found to be true, or (check only) the name is available by default; if any call they make fails, they refuse. Checker.proxy returns a proxy made for the value, or the value itself only if it is already a proxy or is to be left alone.", "quantifier": "all answers and failures of all calls, all slots, all states of the structs, all arguments", "why_tests_cant": "A test cannot make each allocation, lookup, comparison or attribute access fail in turn in every function and look at what was granted.", "anchors": ["src/zope/security/_proxy.c:128-244", "src/zope/security/_proxy.c:324-471", "src/zope/security/_proxy.c:477-678", "src/zope/security/_zope_security_checker.c:100-313", "src/zope/security/_zope_security_checker.c:500-555"]}
{"id": "C82", "title": "The garbage collector and the C extensions", "statement": "Proxies and checkers of the C extensions obey the collector's protocol: traversal visits every reference in the struct exactly as often as it is held and nothing else, so that a collection over any set of candidates keeps exactly those that can be reached from outside it. Destruction gives back exactly what the struct holds. Clearing garbage never empties a proxy: in every life of a process every proxy has its object and its checker as long as it exists. No cycle consists of proxies only, so garbage is collectable although proxies are never cleared. A checker that was cleared fails closed: check grants at most the names available by default, check_setattr nothing.", "quantifier": "all object graphs, candidates, reference counts, sequences of constructions, uses, collections and destructions", "why_tests_cant": "Leaks and premature frees depend on which objects a collection considers and on the shape of the whole object graph; a test sees a few graphs, and a wrong traversal usually shows only as a crash much later.", "anchors": ["src/zope/security/_proxy.c:263-322", "src/zope/security/_proxy.c:767-812", "src/zope/security/_zope_security_checker.c:337-362", "src/zope/security/_zope_security_checker.c:438-479"]}
{"id": "C83", "title": "What initialising the C extensions leaves behind", "statement": "Whenever the initialisation of an extension module succeeds, every static variable of the C code has the object that belongs to it: each interned name has its own text (so no slot asks the checker for another operation's name), the exception classes, the thread's data, the proxy class and the public permission are those of the Python modules, and the registry, default checker, list of names and NoProxy which Python code gets from the module are those the C code uses. Only the references of those variables and of the returned module are taken. An exception is set exactly if some call failed.", "quantifier": "all answers of the interpreter to every call made during initialisation, all earlier states of the static variables, all failures", "why_tests_cant": "A swapped or misspelt name among some sixty macros is found by a test only if it exercises that very operation with a checker that tells the two apart; the failures of individual calls cannot be provoked from Python.", "anchors": ["src/zope/security/_proxy.c:48-109", "src/zope/security/_proxy.c:851-953", "src/zope/security/_zope_security_checker.c:567-673"]}
{"id": "C84", "title": "Whichever module is imported first", "statement": "Whatever modules of the package (or of packages that use it) a program imports, in whatever order and starting with whichever: every import succeeds (of the extensions, if compiled), the module has all its names, LocationProxy has its checker descriptor, nobody holds a preliminary definition of a name that was replaced later, the C checker module is initialised at most once and never while it is being initialised, and with the extensions Python code and C code use the same proxy class, registry, default checker and list of names.", "quantifier": "all sequences of imports, with and without PURE_PYTHON, watching checkers and each extension; all other packages without cycles through modules outside the core", "why_tests_cant": "A process imports every module once, in one order; test runners always import in the same order, and the cycles between checker.py, the extension and _definitions only show in others.", "anchors": ["src/zope/security/__init__.py:20-23", "src/zope/security/checker.py:79-138", "src/zope/security/checker.py:511-526", "src/zope/security/proxy.py:352-367", "src/zope/security/decorator.py:24-81", "src/zope/security/_zope_security_checker.c:609-655", "src/zope/security/metaconfigure.py:16-50"]}
{"id": "C85", "title": "ZOPE_WATCH_CHECKERS adds lines to the log, and nothing else", "statement": "Setting ZOPE_WATCH_CHECKERS, to whatever level, does not change what a program does: every operation on proxies, every check, the selection of checkers and the making of proxies have the same outcome (results, exceptions, identities of new objects), leave the same state behind, ask policies the same questions in the same order and call the same application code, in both builds; so do whole client programs that react to what they get. All that is added are log lines and the repr() of the objects named in them. This holds if repr() of objects neither raises nor changes anything.", "quantifier": "all operations, functions, states, levels, application code that itself does not depend on the classes of checkers, and client programs; both builds", "why_tests_cant": "The variable is read once, when checker.py is imported; the tests run without it, and the code that replaces the classes is marked `no cover`.", "anchors": ["src/zope/security/checker.py:35-46", "src/zope/security/checker.py:97-103", "src/zope/security/checker.py:590-702", "src/zope/security/checker.py:255-310", "src/zope/security/proxy.py:40-330"]}
{"id": "C86", "title": "The C code, call by call, does to Python objects what the other claims say the C build does", "statement": "Whatever a slot of a C proxy or a method of a C checker is called with: if the calls it makes into the interpreter, in the order it makes them, are answered as the interpreter, application code and the rest of the package answer them, then the result, the exception that is set when NULL or -1 is returned, the state left behind and the events are those that the claims about the C build speak of. No function returns a result with an exception set, or an error without one.", "quantifier": "all objects, checkers, tables, states, application code, answers and interleavings of calls; all slots of the proxy for Python operations, check, check_getattr, check_setattr, selectChecker and proxy of the checker", "why_tests_cant": "A test runs one path of each C function; that the two agree on every path, including what happens after a failing call half-way, is a statement about all of them.", "anchors": ["src/zope/security/_proxy.c:116-254", "src/zope/security/_proxy.c:324-680", "src/zope/security/_zope_security_checker.c:86-313", "src/zope/security/_zope_security_checker.c:365-437"]}
{"id": "C87", "title": "Behind every operation stands the function that guards that operation", "statement": "In the type of C proxies, whatever the base class fills in, the slot of an operation holds the function that asks for the special method of that very operation, of the operand that is a proxy, before applying that very operation; no other function of the type does anything to the object without a grant, except comparison, hash and truth and the functions a base class provides for fields the tables leave open (exactly these fields are listed). In the class of Python proxies, whose methods are partly made by loops over names and by wrapping methods of the base, the same holds for every special method. The Python class guards exactly four special methods that the C type leaves to its base: __reduce__, __reduce_ex__, __complex__ and __index__. Deleting an item of a C checker is undefined behaviour.", "quantifier": "all base classes, fields of a type object, special names, operands, answers of the checkers", "why_tests_cant": "A table of function pointers filled by position, and names pasted by macros or made by loops, can be wrong in one entry; a test of an operation exercises one entry with one operand, and cannot say that no further entry touches the object unasked.", "anchors": ["src/zope/security/_proxy.c:40-112", "src/zope/security/_proxy.c:200-680", "src/zope/security/_proxy.c:684-809", "src/zope/security/_proxy.c:940-946", "src/zope/security/_zope_security_checker.c:315-330", "src/zope/security/_zope_security_checker.c:439-510", "src/zope/security/proxy.py:30-330"]}
{"id": "C88", "title": "What is not asked cannot matter, and granting more never takes access away", "statement": "The outcome, final state and trace of an operation on proxies, of a check, of checker selection, ProxyFactory, canAccess, canWrite and of a whole client program depend on application code and policies only through the calls actually made and the questions actually asked: any other application giving the same in these has the same run. So a client never refused a permission sees the same under every policy that only grants more, and a client never granted one sees the same under every policy that only refuses more. A check that passes keeps passing when policies grant more; so do canAccess and canWrite on a proxy. Two tempting strengthenings are false: an operation may fail because more is granted (repr has a fallback only for a refusal), and an entry more in a checker's table may take a name away that is available by default.", "quantifier": "all application code and policies, states, operations, functions, client programs, build of proxy and checkers; monotonicity: policies that answer yes or no without side effects, no watching checkers", "why_tests_cant": "The claim compares the run with the runs under all other applications and policies; a test runs one. A hidden dependence on an unasked permission shows only under the policy nobody wrote a test for.", "anchors": ["src/zope/security/checker.py:97-137", "src/zope/security/checker.py:139-195", "src/zope/security/checker.py:285-335", "src/zope/security/checker.py:529-568", "src/zope/security/management.py:112-118", "src/zope/security/_zope_security_checker.c:54-200", "src/zope/security/proxy.py:27-60", "src/zope/security/proxy.py:227-254"]}
{"id": "C89", "title": "Permission ids are opaque, and a table is what it looks up", "statement": "Consider two processes that differ only in the tables of their checkers, such that corresponding tables give, for each name, corresponding permissions (CheckerPublic and None corresponding to themselves, permission ids by any relation whatever), and whose policies and application code treat corresponding permissions alike. Then every operation on proxies, every check, checker selection, ProxyFactory, canAccess, canWrite and every client program has corresponding outcomes and asks corresponding questions in the same order. In particular permissions may be renamed by any function: outcomes differ in the names of permissions in exceptions only; permissions that the policy does not tell apart may be exchanged; and neither the order of entries nor entries hidden by others matter.", "quantifier": "all relations between permission ids, application code and policies respecting them, states, operations, functions, client programs, builds, ZOPE_WATCH_CHECKERS", "why_tests_cant": "A comparison on the text or identity of a permission id somewhere (as with 'zope.Public') shows only for the id compared with; tests use a handful of ids, and one table for each.", "anchors": ["src/zope/security/checker.py:199-290", "src/zope/security/checker.py:529-568", "src/zope/security/checker.py:340-365", "src/zope/security/_zope_security_checker.c:54-260", "src/zope/security/simplepolicies.py:52-62", "src/zope/security/proxy.py:27-254", "src/zope/security/_proxy.c:130-245"]}
{"id": "C90", "title": "Numbers and positions come through the C proxy unchanged", "statement": "hash(p) is the hash of the wrapped object, and len(p), once allowed, its length; C code that reads, writes or deletes the item at position i of a proxy (PySequence_GetItem and its relatives, with negative positions counted from the end) reaches the item it would reach without the proxy and receives its proxy; reversed(p) gives the proxies of the items of reversed(o). If __getitem__, __setitem__, __delitem__ or (for positions counted from the end) __len__ is refused, the outcome is a failure that tells nothing about the contents.", "quantifier": "all widths of long and Py_ssize_t, all hashes, lengths and positions, all wrapped objects and policies (arbitrary functions of the state)", "why_tests_cant": "Conversions between C integer types change only values beyond 2^31 and only on platforms where long is narrower than Py_ssize_t; positions before the start of a sequence are reached only from C code.", "anchors": ["src/zope/security/_proxy.c:22", "src/zope/security/_proxy.c:454-458", "src/zope/security/_proxy.c:586-679", "src/zope/security/_proxy.c:727-743", "src/zope/security/_proxy.c:781"]}
{"id": "C91", "title": "Requests arrive as they were made, and a client's own objects see nothing it was not given", "statement": "The request that application code receives on behalf of a client is the client's own request with proxies of its targets exchanged for the objects they wrap (each after a check, comparisons, hash, truth and length hint without): same operation, same attribute name, same arguments in the same order; arguments that are proxies arrive as proxies. A client that has an object only as a proxy, and objects of its own, does not get hold of the object.", "quantifier": "all operations and nested operands, application code, policies, checkers, states, builds", "why_tests_cant": "The language hands operands to each other's methods: which object a reflected method or a comparison is called with depends on answers of NotImplemented from both sides and on the operands' classes, and tests compare proxies with harmless values.", "anchors": ["src/zope/security/_proxy.c:128-260", "src/zope/security/_proxy.c:324-334", "src/zope/security/proxy.py:27-75", "src/zope/security/proxy.py:177-205", "src/zope/security/proxy.py:257-336"]}
{"id": "C92", "title": "An auditing policy sees each operation once", "statement": "While an operation on proxies is performed, the security policy is asked only about its proxied operands, in their order, once each: about the object behind the proxy, for the permission which the proxy's checker requires for the operation's name (for a combined checker: one for each of its parts, in their order). Wrapping results, selecting checkers, combining checkers of decorators, texts for the log, comparisons, hash, truth and length hints put no question. An operation that got through on a name that needs a permission put exactly one question, to the thread's interaction, and was told yes.", "quantifier": "all operations, nested operands, objects, policies (also ones that raise, or run code of their own), states with name-based and combined (also watching) checkers that are not changed meanwhile, decorators, both builds", "why_tests_cant": "Counting questions needs all the paths of an operation: tests look at the outcome, and a question asked twice or an additional one during wrapping leaves the outcome as it is with the policies of the tests.", "anchors": ["src/zope/security/proxy.py:27-55", "src/zope/security/proxy.py:95-159", "src/zope/security/proxy.py:161-260", "src/zope/security/_proxy.c:128-260", "src/zope/security/_zope_security_checker.c:140-240", "src/zope/security/checker.py:220-290", "src/zope/security/checker.py:591-669"]}
{"id": "C93", "title": "Objects that lie about their class, and subclasses of Proxy", "statement": "What is and what is not a security proxy cannot be changed by what an object says about its class: for proxies, ProxyFactory, checker.proxy, removeSecurityProxy, getChecker and zope.security.proxy.isinstance do the right thing without asking the object anything; every other object that tells the truth (whether __class__ is its class, missing, or no class) is wrapped unless the registry exempts its type or, with the C extension, its type is an exception class without a checker; nothing is taken off it. For objects that do not tell the truth: the complete list of the ways in which such an object comes back bare, or in which removeSecurityProxy returns something else.", "quantifier": "all objects, answers of __class__ (any value, any exception, any side effect, different from one time to the next), registries, callables in registries, class hierarchies, both builds", "why_tests_cant": "Tests use honest classes; the builtin isinstance reads __class__ of whatever object application code returns, at five places, one of which is a C call whose failure is not noticed.", "anchors": ["src/zope/security/checker.py:106-132", "src/zope/security/checker.py:280-290", "src/zope/security/checker.py:431-464", "src/zope/security/_zope_security_checker.c:260-313", "src/zope/security/_zope_security_checker.c:500-555", "src/zope/security/proxy.py:339-349", "src/zope/security/proxy.py:379-386", "src/zope/security/_proxy.c:811-838"]}
{"id": "C94", "title": "Comparisons see through proxies, and proxies can be keys", "statement": "Comparing proxies and objects in any mixture (==, !=, <, <=, >, >=; any number of proxies around either operand) gives the comparison of the objects behind them, exactly the same one, or with a proxy on the right the reflected one with the operands exchanged. So with an ordinary equality, proxies and bare objects can be mixed as keys of dicts and members of sets: looking up x finds what looking up the object behind x finds when all keys are taken without their proxies, errors included.", "quantifier": "all objects whose comparison methods return NotImplemented for objects of foreign types, all results of these methods (also other than booleans, also exceptions), all class hierarchies, all dicts, both builds", "why_tests_cant": "A comparison of two proxies goes back and forth between the interpreter's protocol and the proxies' slots; tests compare a few pairs of one type and cannot cover who is asked first for which pair, nor all probing sequences of a dict.", "anchors": ["src/zope/security/_proxy.c:324-334", "src/zope/security/_proxy.c:454-458", "src/zope/security/_proxy.c:556-560", "src/zope/security/proxy.py:177-215"]}
{"id": "C95", "title": "Proxied classes are no classes to the language", "statement": "Whatever its checker grants, a proxied class cannot be used where the language wants a class: isinstance and issubclass refuse it (TypeError, or the refusal to show __bases__, nothing else having been asked), also inside a tuple, where it is never passed over; it cannot be caught or raised, super() does not lead past it, and a class statement with it among the bases makes no class, whatever the other bases, the metaclass and the body do. The builtin isinstance(p, T) and super(T, p) know only that p is a Proxy. Operations that need a special method Proxy does not have (with, await, async for, round, os.fspath) fail before checker or object are asked. dir(p) shows no name. format(p) shows what str(p) shows and never calls the object's own __format__; a format specification is refused.", "quantifier": "all objects, classes, checkers, states, other bases, metaclasses and class bodies, tuples of classes; both builds", "why_tests_cant": "These are protocols of the interpreter that read attributes of proxies in various orders and treat some exceptions as absence; a test can show one class with one checker, not that no grant, no companion base and no metaclass makes a class derivable from a protected one.", "anchors": ["src/zope/security/proxy.py:82-159", "src/zope/security/proxy.py:257-336", "src/zope/security/_proxy.c:263-290", "src/zope/security/_proxy.c:363-373", "src/zope/security/_proxy.c:460-471", "src/zope/security/_proxy.c:587-664", "src/zope/security/_proxy.c:684-809"]}
{"id": "C96", "title": "Decorators and trusted adapters of objects that lie", "statement": "The checker of a decorator is made with exactly the checker that the decorated object has (a proxy) or that ProxyFactory would give it, combined with the decorator's own if its type has one; if ProxyFactory would leave the object bare the decorator has its own checker or none (AttributeError), and if ProxyFactory would fail so does the decorator. A decorator around a proxy therefore stays guarded by that proxy's checker when it goes through ProxyFactory or comes out of another proxy. A trusted adapter factory given a proxy hands the objects behind all proxies to the inner factory and protects the result; given none it changes nothing. Objects that only say that they are proxies make decorators fail in the C build, and choose the checker, or the adapted object, in the Python build.", "quantifier": "all objects (whatever __class__, __Security_checker__ and __name__ do), checkers, registries, inner factories, argument lists, states; both builds", "why_tests_cant": "The descriptor and the adapter loop ask several objects, any of which may run code, lie or fail between the questions; tests use honest stubs and one build.", "anchors": ["src/zope/security/decorator.py:30-58", "src/zope/security/adapter.py:65-110", "src/zope/security/checker.py:106-132", "src/zope/security/proxy.py:339-349", "src/zope/security/_proxy.c:811-838"]}
{"id": "C97", "title": "Wrapping an adapter factory twice is wrapping it once", "statement": "Wrapping an adapter factory in LocatingTrustedAdapterFactory, TrustedAdapterFactory or LocatingUntrustedAdapterFactory, any number of times, reads __name__ and __module__ of the innermost factory once, calls nothing, and every wrapper has that name and module; what has no name cannot be wrapped. A stack of trusted factories does exactly what its outermost wrapper alone would do around the innermost factory: that is called once, with the objects behind the proxies, the parent is set once and the result is proxied once, or not at all if no argument was a proxy.", "quantifier": "all stacks of factories, argument lists, inner factories, states, adapters whose __parent__ behaves like an attribute; both builds", "why_tests_cant": "Each layer tests its arguments for proxies, sets locations and protects the result again; that the layers do not get in each other's way for any depth, any mix of the classes and any inner factory needs induction on the stack.", "anchors": ["src/zope/security/adapter.py:24-45", "src/zope/security/adapter.py:48-109", "src/zope/security/adapter.py:112-136"]}
