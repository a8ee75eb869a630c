# Verification design for zope.security

Source: `/repo/src/zope/security` (pinned commit, read as text only).
Proofs: Coq 8.16.1, `/verif/rocq/theories`, logical name `Verif`, standard library only.

## 1. What is modelled

One shared model, function by function, is used by all properties.

* **Base.v** – strings as Python names, insertion-ordered dictionaries
  (`dget/dset/ddel/dupdate` mirror `dict.get`, item assignment, `del`, `update`).
* **Domain.v** – values, permissions, exceptions, events, program state, the
  state/exception/trace monad `M`, and `env`, the environment.
  * Names are Coq strings.  Permissions are `PPublic` (CheckerPublic), `PNone`
    (None) or `PId i s`: a string object with identity `i` and text `s`, so that
    `is` and `==` differ.
  * Checker objects, permission dictionaries, proxies, decorators, interactions and
    participations have *identity* (heap addresses): dictionaries are shared
    (`CombinedChecker` shares the dicts of its first checker, set/frozenset share one
    checker) and mutated (`protectName`).
  * Exceptions are values.  The trace records policy questions with their answer,
    every operation that reaches application code, internal probes, log lines.
  * `e_run : tid -> call -> state -> res value * state` stands for *all* foreign code
    (application methods, security policies, foreign checkers, checker factories).  It
    is an arbitrary function of the whole program state and may replace the whole
    program state; properties that need better-behaved foreign code say so as explicit
    hypotheses.
  * `e_impl` chooses the implementation of proxies and `e_cimpl` that of checkers (Python or C
    extension; the code chooses them separately), `e_watch` the value of
    ZOPE_WATCH_CHECKERS.  Each implementation is transcribed separately.
  * Recursion through foreign objects (proxy around proxy, chains of combined
    checkers, chains of factories) is bounded by fuel = Python's recursion limit;
    running out raises `EFuel` (RecursionError), it never silently succeeds.
* **CheckerModel.v** – `checker.py` / `_zope_security_checker.c`: check,
  check_setattr, proxy, permission_id, selectChecker, CombinedChecker, watching
  checkers, NamesChecker, InterfaceChecker, MultiChecker, ProxyFactory, canAccess,
  canWrite, registry, BasicTypes, `_clear`, decorator.py's descriptor.
* **ProxyModel.v** – `proxy.py` / `_proxy.c`: every slot.
* **Defaults.v** – the module-level part of checker.py as an import program.
* **Management.v** – management.py, simplepolicies.py, testing.py; **Threads.v** –
  the same functions as sequences of atomic steps with arbitrary interleavings.
* **Lookup.v** – hasattr and getattr with a default, as the client's interpreter does
  them.  **Pickle.v** – pickling and copying of proxies.  **Inspect.v** – getTestProxyItems and
  the traceback supplement.
* **Protect.v**, **Zcml.v**, **Permission.v**, **Adapter.v**, **Sandbox.v**,
  **SandboxApp.v** – the remaining modules.
* **EndToEnd** (spec and proofs only) composes import, configuration, proxies and checks;
  **Reload** is about loading twice.
* **DeclThreads.v** – protectclass.py once more as sequences of atomic steps (one
  dictionary access or attribute access each) with arbitrary interleavings.
* **Boot.v** – what importing the package chooses: C or Python implementations of proxies and
  checkers.
* **Race** files (spec and proofs) – declarations made while other threads use proxies;
  **Ends** – operations come to an end; **Watch** – processes with and without
  ZOPE_WATCH_CHECKERS compared; **Rights** – what decides about access is not
  changed by uses; **Answers** – runs under two applications or policies compared; **Opaque** – runs with
  corresponding tables and permissions compared; **Audit** – the questions of an operation; **Shown** – which requests arrive and whose methods are
  called with them.
* **Includes.v** – configurations of several files and groups; the shipped ZCML files.
* **CExt.v** – the C extensions once more, function by function, as programs over
  references: owned references, borrowed references, the two pointers in the struct of a
  proxy or checker, the exception flag, faults.  API calls follow their documented contract
  (new/borrowed reference, failure value) and are otherwise answered by an arbitrary oracle.
  The struct of an object passed as argument is changed only by the function itself.
  Every call is logged with its kind, its arguments and its outcome; C81 and C86 are about this
  log, and C86 ties it to the main model.
* **CExtGc.v** – tp_traverse, tp_clear and tp_dealloc of the two C types and the phases of a
  garbage collection that call them.
* **CInit.v** – the initialisation functions of both extension modules, call by call.
* **TypeTables.v** – the tables of slots of both C types, the macros behind their functions, and
  the class dictionary of ProxyPy as its body builds it; the base class is arbitrary.
* **Liars.v** – what the code asks about the class of an object, and how (`type()`, `Py_TYPE`, the
  builtin isinstance, which believes `__class__`): ProxyFactory, proxy, selectChecker, getObject,
  getChecker, isinstance, with objects that lie and subclasses of Proxy.
* **Compare.v** – comparisons between proxies and objects with the interpreter's protocol spelled
  out (who is asked first, NotImplemented, identity), and dict lookups with proxies as keys.
* **LiarsUse.v** – decorators around and trusted adapters of such objects: the descriptor with the
  class name of its error message (decorator.py 34-55), the loop of the trusted factories (adapter.py 80-90).
* **AdapterStack.v** – adapter factories wrapped in adapter factories (adapter.py 24-136, with the
  constructors).
* **Implicit.v** – proxies in isinstance, issubclass, except, raise, super, class and with statements and
  dir: the protocols of the interpreter (written down from CPython) running on proxies.
* **Numbers.v** – hashes, lengths and positions in _proxy.c: widths of C integers, the sequence
  protocol.
* **Imports.v** – what each module imports and defines, in the order of its text; the
  interpreter's import system.
* `*Spec.v` – declarative specifications that do not use the model's helper functions
  (they mention the modelled entry points only where a property is about a relation
  between runs).
* `*Facts.v`, `*Props.v` and the other proof files – proofs, and concrete witnesses.
* `Properties_*.v` – only theorem statements closed by `exact`, Examples showing that the
  hypotheses are met, and `Print Assumptions`.

## 2. Properties: plan

Section 5 has one entry per property; MANIFEST.json has the theorem names.  A property
that is false as stated is recorded by `..._refuted` theorems with a witness (section 6);
where something close to it holds, that is proved beside it.

## 3. Trusted base

* Coq's kernel (8.16.1) and the standard library.  `Print Assumptions` stands under every
  theorem listed in MANIFEST.json and reports "Closed under the global context" for each
  of them: no axiom, neither own nor of the library, is used.
* The transcription itself: that the Gallina functions follow the Python/C text.
  Each definition cites file and lines.
* Behaviour of the dependencies as summarised in section 4.
* Foreign code is an arbitrary function `e_run` (a field of the environment over which
  every theorem is quantified), not an axiom.  It is a *function* of the program state:
  application objects keep their own state in parts of the program state that the model
  does not look at, i.e. a theorem about one `e_run` covers deterministic application
  code; since theorems are universally quantified over `e_run` and, for histories, over
  the environment of each step, code that changes its behaviour between steps is covered.

## 4. Modelled and not modelled

Modelled dependencies (behaviour written down from documentation, not from /repo):
`zope.proxy.PyProxyBase` operators forward to the wrapped object; `threading.local`;
`zope.configuration` executes actions stably sorted by `order`; a context that lacks an
attribute delegates to the enclosing one, a file is processed the first time it is
included, an action knows the chain of files that led to it, and of several actions with
one discriminator the one whose chain is a proper prefix of all others is kept (conflict
error if there is none); `zope.interface`
interfaces as finite ordered name lists; utilities as a finite map; zope.location's
`LocationProxy` as a decorator with a `__parent__`.

Simplified:
* the `platform` record of Defaults.v stands for what the running interpreter and the
  installed packages provide (which types exist and how they are called);
* the checker of modules without a checker (`_namedChecker`) has a fixed identity;
* `isinstance`, `id()` text and class names are parameters of the environment;
* the Python build's "first frame whose `self` is the proxy" test is the optional frame
  argument of attribute reads.

* `<redefinePermission>` inside of `<class>`/`<module>` elements is not a directive of the
  model; the `<utility>` directives of configure.zcml are left out;
* in Threads.v and DeclThreads.v single dictionary operations are atomic (as with the GIL).

Not modelled:
* of the C extensions: type initialisation (PyType_Ready is one call), the interpreter's own collector (only its phases, in CExtGc.v),
  and threads that run while the extension calls the interpreter (beyond the oracle of CExt.v);
* the pickler's memo, dispatch tables and persistent ids (pickling is modelled for one object of unknown type), Permission persistence, i18n titles;
* documentation strings, `zope.security.interfaces` schemas
  other than the exception classes;
* what the type slots do that the C proxy inherits from zope.proxy's C type (nb_index etc.; C87 lists
  them);
* objects that lie about `__class__` and subclasses of Proxy, except in Liars.v and LiarsUse.v (C93, C96); `__class__` assignment;
* attributes resolved on the Python proxy class itself (`type.__doc__` and the like);
* `__init__` of the adapter factories (copies `__name__`/`__module__`), except in AdapterStack.v; the class name
  looked up for the error message of the decorator's descriptor (decorator.py 47-49), except in
  LiarsUse.v;
* Python's signal handling / asynchronous exceptions, memory exhaustion.

## 5. Per property

"Model" names the modelled functions, "proof" the method. Theorem names and exact scope are in MANIFEST.json.

* **C01 Exact decision of check / check_getattr** – proved.
  Model: Checker.check, check_getattr, check_setattr (Python and C transcriptions), thread_local.interaction lookup, SimpleInteraction policies, foreign policies as oracle.
  Proof: exact inductive relation ReadCheck (Spec.v) characterises result, state and trace; by computation on the model with a lemma per branch.
  Scope: Both builds, arbitrary policy code. Tables without None entries (None entries are C60). For "__iter__" the checked object is not itself a security proxy or decorator.
* **C02 Exact decision of check_setattr, default deny** – proved.
  Model: Checker.check, check_getattr, check_setattr (Python and C transcriptions).
  Proof: exact relation WriteCheck; default deny follows from the table alone.
  Scope: Both builds, arbitrary policy code, tables without None entries.
* **C03 Fail closed without an interaction** – proved.
  Model: Checker.check, check_getattr, check_setattr (Python and C transcriptions) and all proxy operations.
  Proof: from C01/C02 with an empty thread slot; for proxies through the guard table.
  Scope: Name-based checkers, directly and behind proxies.
* **C04 The policy is consulted at most once, with the right arguments, and only when needed** – proved.
  Model: Checker.check, check_getattr, check_setattr (Python and C transcriptions).
  Proof: the trace of every run is computed; number and arguments of the EAsk events are read off.
* **C05 CombinedChecker is a logical or, to any nesting depth on the right** – proved.
  Model: CombinedChecker.__init__, check, check_setattr.
  Proof: induction on the right spine (Chain); verdict function stated on lists of tables.
  Scope: Chains of any length; foreign code (the policy) is assumed not to edit existing checkers during the check.
* **C06 Left-nested combination** – proved, with refuted cases.
  Model: CombinedChecker.__init__.
  Proof: witness; plus the general statement of what is dropped.
  Scope: The property is false: CombinedChecker(c1, c2) copies only the dictionaries of c1, so the second checker of a combined c1 is lost. Witness and general characterisation proved.
* **C07 Watching checkers do not change decisions** – proved.
  Model: WatchingChecker, WatchingCombinedChecker, checker log lines.
  Proof: simulation of watched by unwatched check, log lines filtered from the trace.
* **C08 NamesChecker / InterfaceChecker tables are exact** – proved.
  Model: NamesChecker, InterfaceChecker.
  Proof: induction on the list of names, for arbitrary starting keyword table.
  Scope: Permission objects are compared by identity as the code does; interfaces are finite ordered name lists.
* **C09 MultiChecker is order independent and conflict detecting** – proved.
  Model: MultiChecker.
  Proof: induction on specs; order independence by permutation of the specification.
  Scope: Specs given as (names, permission), (interface, permission) or dictionaries.
* **C10 permission_id / setattr_permission_id tell the truth** – proved.
  Model: permission_id, setattr_permission_id.
  Proof: composition with C01/C02.
  Scope: Tables without None entries.
* **C11 The checker registry behaves as a map** – proved.
  Model: defineChecker, undefineChecker, getCheckerForInstancesOf, moduleChecker, BasicTypes, _clear.
  Proof: refinement of a finite map by induction over histories.
  Scope: Refinement of a finite map over arbitrary histories, mixed with BasicTypes calls and cleanup.
* **C12 selectChecker yields None or a Checker, and what it depends on** – proved.
  Model: selectChecker, both builds, factory loop.
  Proof: inductive relation for chains of factories, induction on fuel; fuel exhaustion is a visible error.
  Scope: C12_select_exact assumes that no registered checker factory is itself a security proxy; EFuel is the recursion limit (endless chain of factories). In the C build unregistered exception types are not proxied (SC_exception).
* **C13 Reset restores the default registry; BasicTypes stay in sync** – proved, with refuted cases.
  Model: _BasicTypes methods, _clear.
  Proof: induction over histories of the registry.
  Scope: True for item assignment, item deletion, update and clear; false for the inherited dict methods such as pop (C13_pop_refuted).
* **C14 Built-in containers are read-only through proxies** – proved.
  Model: module-level tables of checker.py 729-1082 executed as an import program, parametrised by the platform (which types exist).
  Proof: the registry after import is computed symbolically; combined with the history invariant of C17 and the guard table of C18.
  Scope: ZOPE_WATCH_CHECKERS off; programs that leave the checkers made at import alone. In the Python build the two slots of the proxy itself are writable (C17).
* **C15 Complete mediation of proxy operations** – proved.
  Model: every slot of both proxies, all checkers, nested proxies.
  Proof: a relational program logic (Med) over the fuel-indexed interpreter: each client event is preceded by a passed check of the right proxy and name.
  Scope: Operations modelled are those of type op. Foreign code may create proxies and checkers but not change existing proxies. Comparison, hash, truth and length hint are outside the property (C19).
* **C16 Results are proxied or basic (proxies are viral)** – proved, with refuted cases.
  Model: checker.proxy, every slot.
  Proof: the same logic with a postcondition on results; closure of a client's holdings by induction over sessions.
  Scope: True for all operations except comparison through the Python proxy and __length_hint__ (both builds), for which the witnesses refute it; C16_viral is about clients that do not use those.
* **C17 A proxy's target and checker never change** – proved, with refuted cases.
  Model: every slot, foreign code restricted to not rebind proxies.
  Proof: invariant over histories (all threads, all operations).
  Scope: True for the C proxy; for the Python proxy true without in-place operators and assignment to _wrapped/_checker, refuted with them.
* **C18 Every operator is guarded by its own special name** – proved.
  Model: slot-to-name tables of both proxies.
  Proof: case analysis over all operations: the check performed is the one in guard_of; distinctness by computation.
  Scope: The name table is guard_of/guard_right in ProxySpec.
* **C19 Comparison, hash and truth are always available** – proved.
  Model: comparison, hash, bool slots.
  Proof: direct computation, equality of the two runs.
  Scope: Wrapped object and other operands not themselves proxies; hash and truth answers of the right type.
* **C20 str() and repr() never raise a denial and never reveal a forbidden representation** – proved.
  Model: __str__, __repr__ of both proxies, fallback text.
  Proof: case analysis on the outcome of the check.
  Scope: In the Python build a TypeError raised by the policy is passed on instead.
* **C21 ProxyFactory is idempotent and cannot change a checker** – proved.
  Model: ProxyFactory.
  Proof: case analysis over proxied / own checker / registry.
* **C22 removeSecurityProxy / getChecker round trip** – proved.
  Model: Proxy constructor, removeSecurityProxy, getChecker.
  Proof: history invariant of C17.
  Scope: "Later" is any History (see C17 for what the Python proxy excludes).
* **C23 Proxying never double-wraps** – proved, with refuted cases.
  Model: checker.proxy, new proxies.
  Proof: invariant "no proxy wraps a proxy" over histories.
  Scope: True for the C proxy and, without in-place operators, for the Python proxy; refuted for the fallback of Python in-place operators.
* **C24 canAccess predicts attribute access** – proved, with refuted cases.
  Model: canAccess.
  Proof: composition with check and ProxyFactory.
  Scope: For policies that treat proxy and object alike (canAccess hands the proxy to the policy) and names other than __iter__, for which it is false. Basic objects: TypeError.
* **C25 canWrite predicts attribute assignment** – proved.
  Model: canWrite.
  Proof: composition with check and check_setattr.
  Scope: Same conditions as C24.
* **C26 C and Python implementations are interchangeable** – proved, with refuted cases.
  Model: all three builds of everything above (Python; C; C proxies with Python checkers).
  Proof: lock-step simulation logic between the builds, induction on fuel; adaptive client programs by induction; every exclusion backed by a refutation.
  Scope: Literally false; the builds agree for the states, application code and operations described by ordinary, ordinary_code, common_op and common_name (BuildSpec), and every exclusion is shown to be needed by a refutation. The build with C proxies and Python checkers (only one extension module available) is covered too. Same result, state and calls into application code (up to the calling frame and the check/check_getattr synonym), unless the Python run exhausts the recursion budget.
* **C27 Denied operations have no effect** – proved.
  Model: every guarded slot.
  Proof: the run of a refused operation is computed exactly.
* **C28 Denials do not hand out the protected object** – refuted.
  Model: exceptions carry the object (EForbidden, EUnauthorized).
  Proof: witness in both builds.
  Scope: The property is false in both builds.
* **C29 Proxy internals are unreachable through attributes** – proved, with refuted cases.
  Model: attribute slots, frame inspection of __getattribute__; Implicit.v: generic attribute access on the type of proxies.
  Proof: computation; witnesses for the Python proxy.
  Scope: True for the C proxy, also for object.__getattribute__ and the descriptors of the type (C29_c_generic); false for the Python proxy (assignment, reading from a frame whose local self is the proxy, and object.__getattribute__ or the descriptors of the two slots, C29_py_generic_refuted).
* **C30 In-place operators keep protection** – proved, with refuted cases.
  Model: in-place slots of both proxies.
  Proof: exact relation for C, witness for Python.
  Scope: True for the C proxy, false for the Python proxy.
* **C31 Deletion needs write permission** – proved, with refuted cases.
  Model: __setattr__, __delattr__.
  Proof: the two checks are equal computations.
  Scope: Item operations are in C18. False for the two internal names of the Python proxy.
* **C32 At most one interaction per thread** – proved, with refuted cases.
  Model: newInteraction, endInteraction, queryInteraction, getInteraction, ParanoidSecurityPolicy.__init__.
  Proof: computation on thread slots.
  Scope: The clause about getInteraction is false for a policy that returns None; otherwise proved.
* **C33 Thread isolation** – proved.
  Model: management functions as programs of atomic reads/writes, arbitrary interleavings.
  Proof: every interleaving projects to a run of the thread alone (induction on the interleaving).
  Scope: Any interleaving of atomic attribute accesses; a foreign policy must not touch thread-local data (policies_keep_locals).
* **C34 endInteraction / restoreInteraction round trip** – proved.
  Model: endInteraction, restoreInteraction.
  Proof: computation; bracket by induction over the activity inside.
* **C35 Nested end/restore brackets** – refuted.
  Model: as C34.
  Proof: witnesses.
  Scope: The property is false; C34_bracket is what holds (no endInteraction inside the bracket).
* **C36 Security policy is a register** – proved, with refuted cases.
  Model: setSecurityPolicy, getSecurityPolicy, cleanup.
  Proof: induction over histories; witness interleaving for the concurrent case.
  Scope: Sequential histories. With concurrent calls the exchange is not atomic. C36_cleanup: the functions registered with zope.testing.cleanup; C36_cleanup_remembers: they leave the ended interaction to restoreInteraction.
* **C37 management.checkPermission** – proved.
  Model: management.checkPermission.
  Proof: case analysis.
* **C38 testing.interaction context manager** – proved.
  Model: testing.interaction as try/finally around an arbitrary body.
  Proof: for every body computation.
  Scope: C38_fresh is for the policies of the package.
* **C39 ParanoidSecurityPolicy decision** – proved.
  Model: ParanoidSecurityPolicy.checkPermission, PermissiveSecurityPolicy.
  Proof: exact iff over participations.
* **C40 Adding participants never widens access** – proved.
  Model: add, remove.
  Proof: induction over histories, monotonicity of the decision.
* **C41 Participation bookkeeping invariant** – proved, with refuted cases.
  Model: add, remove, constructor, management calls.
  Proof: invariant books_ok over histories; witnesses for equality and concurrency.
  Scope: For participations compared by identity. C41_threads: with any interleaving of any number of threads, if no participation is handed to newInteraction by two of them and the policy is one of the package. False with participations that compare equal and with concurrent threads that share a participation.
* **C42 Failed newInteraction leaves nothing behind** – proved, with refuted cases.
  Model: newInteraction.
  Proof: witness; what stays unchanged is proved.
  Scope: The property is false: earlier participations stay bound. C42_thread_unaffected and C32_new say what does hold.
* **C43 protectName / protectSetAttribute / protectLikeUnto build exactly the declared table** – proved.
  Model: protectName, protectSetAttribute, protectLikeUnto.
  Proof: refinement of "last declaration wins" over histories.
* **C44 protectLikeUnto copies, it does not share** – proved.
  Model: protectLikeUnto.
  Proof: separation of dictionaries as invariant.
* **C45 Shared checkers propagate declarations** – proved, with refuted cases.
  Model: as C43 with shared dictionaries.
  Proof: exact set of affected classes; witness.
  Scope: The property is false: a declaration changes every class whose checker uses the same dictionary. C45_exact says exactly which ones.
* **C46 ZCML class/require and class/allow end to end** – proved.
  Model: ClassDirective, require, allow, action execution.
  Proof: exact meaning of a list of directives; induction.
* **C47 ZCML require rejects incomplete declarations** – proved.
  Model: ClassDirective.require.
  Proof: case analysis over attributes of the directive.
* **C48 ZCML module protection** – proved.
  Model: metaconfigure module directives, protectModule.
  Proof: induction over names.
* **C49 Conflicting declarations get equal discriminators** – proved, with refuted cases.
  Model: discriminators of all actions.
  Proof: case analysis on pairs of actions; injectivity.
  Scope: Proved for class with class and module with module; false where <module> names a class that <class> also names. A class <require> that mentions a name twice conflicts with itself.
* **C50 Permission redefinition is a single-step substitution** – proved, with refuted cases.
  Model: PermissionField, redefinePermission.
  Proof: computation on the mapping, iterated.
  Scope: Proved for ids not redefined before; false when A was redefined before, because the directive's own fields are read through earlier redefinitions.
* **C51 Undefined permission ids are rejected, independent of order** – proved.
  Model: definePermission, checkPermission actions with order.
  Proof: stable sort by order, permutation argument.
* **C52 Permission listings** – proved.
  Model: allPermissions, PermissionIdsVocabulary, PermissionsVocabulary.
  Proof: permutation and sortedness, both proved of the model's sort.
  Scope: PermissionsVocabulary fails with ValueError if one permission object is registered under two names.
* **C53 Trusted adapter factories** – proved, with refuted cases.
  Model: TrustedAdapterFactoryMixin.__call__ and subclasses.
  Proof: computation with arbitrary inner factory.
  Scope: One proxy layer is removed from each argument; with nested proxies the factory does see a proxy.
* **C54 Adapter location is set when missing and never overwritten** – proved.
  Model: assertLocation, located adapters.
  Proof: case analysis.
  Scope: Exact outcome for adapters that are neither proxies nor decorators; shape of the result for any adapter.
* **C55 Decorated security checker** – proved, with refuted cases.
  Model: DecoratedSecurityCheckerDescriptor.
  Proof: induction over stacks of decorators.
  Scope: False when the checker registered for the wrapper class is itself a CombinedChecker: its second half is dropped.
* **C56 Checker selection is per type, not inherited by instances** – proved.
  Model: selectChecker, registry.
  Proof: from C11 and C12.
  Scope: Types whose registry entry is not a factory function.
* **C57 zope.security.proxy.isinstance looks through security proxies** – proved.
  Model: proxy.isinstance.
  Proof: the builtin is a parameter.
  Scope: The builtin isinstance is an arbitrary function of object and class.
* **C58 Example sandbox policy** – proved, with refuted cases.
  Model: examples/sandbox_security.py: policy, PermissionMapChecker, tables.
  Proof: exact iff; computation on the literal tables.
  Scope: 'All' is honoured only for 'any'; the sandbox table misspells getAgentIds.
* **C59 Registered None is not a rock** – proved, with refuted cases.
  Model: defineChecker, selectChecker.
  Proof: witness.
  Scope: The property is false: None registered for a type makes selectChecker raise TypeError (only NoProxy, or a factory returning None, means rock).
* **C60 A None permission forbids access** – proved, with refuted cases.
  Model: None entries in both builds.
  Proof: exact for Python, witness for C.
  Scope: True for the Python checker, false for the C checker (witness).
* **C61 Order of directives in a configuration file** – proved, with refuted cases.
  Model: order of directives.
  Proof: permutation argument; witness with like_class.
  Scope: Holds without like_class and redefinePermission; false with like_class.
* **C62 Only registered permissions reach the tables** – proved, with refuted cases.
  Model: checkPermission actions.
  Proof: induction over executed actions.
  Scope: For successful loads; a failing load may leave such entries behind.
* **C63 What is reached through a proxied dict is protected** – refuted.
  Model: default registry with dict views.
  Proof: computed run in both builds.
  Scope: False: dict views are not wrapped, and their contents come out bare.
* **C64 hasattr and getattr with a default on a proxy** – proved.
  Model: hasattr() and getattr() with a default as client code over attribute access on proxies (Lookup.v); the exception hierarchy of interfaces.py.
  Proof: from the exact outcomes of checks and the table of guarded operations.
  Scope: The last sentence is false when no interaction is in progress: the check then raises AttributeError, so a protected attribute looks absent (C64_no_interaction_looks_absent).
* **C65 Refusals leak nothing** – proved, with refuted cases.
  Model: the whole interpreter of operations on proxies; clients as resumptions (ConcealSpec.v).
  Proof: a relation between two interpreters running different application code, preserved by every function of the model (ConcealFacts.v), induction over the recursion budget and over the client.
  Scope: For clients that hold no bare reference to the object and, in the Python build, perform no operation that rebinds a proxy (in-place operators, assignment to the two slots). Names that can be withheld: not the always available ones, not those the Python proxy reads unchecked, not __iter__, __length_hint__, __call__, __module__ and __Security_checker__; __length_hint__ is really not withheld by any checker (C65_length_hint_refuted).
* **C66 Pickling and copying proxies gives nothing away** – proved, with refuted cases.
  Model: the creation of CheckerPublic at import; pickling by name or by value, loading, copy and deepcopy as client code over the operations on proxies (Pickle.v).
  Proof: exact computation for the marker under an invariant of all histories; inversion of attribute reads and calls on proxies, with a relation (proxies, default checkers and registrations kept) preserved by every operation.
  Scope: The pickler and the copy module are modelled as the operations they perform on an object of unknown type. Never by value needs the default registrations of functions, methods and tuples (C66_bare_tuples_refuted); in general C66_by_value holds.
* **C67 Looking at protected objects** – proved, with refuted cases.
  Model: getTestProxyItems, TracebackSupplement.getInfo (Inspect.v).
  Proof: sortedness and permutation of the model's sort; the checks' exact outcome; case analysis on the exceptions of the two lookups.
  Scope: For plain checkers; for combined checkers the listing has only the first table (C67_combined_refuted). The supplement never raises an Exception; interrupts are outside the model.
* **C68 The sandbox example keeps its agents** – proved, with refuted cases.
  Model: examples/sandbox.py as a state machine of its own with the checks of proxied sandboxes as parameter, then the example policy (SandboxApp.v).
  Proof: exact outcome of transportAgent by case analysis; invariant in_order over sequences of attempts; induction over sandboxes and agents for turns.
  Scope: The last sentence is false: GreenerPastures fails (a key view has no remove), the handler then fails too, so nobody ever moves and with security the interaction stays open (C68_turn_refuted). The population needs distinct ids (C68_impostor_refuted); addAgent alone can put an agent in two places (C68_two_homes_refuted).
* **C69 The C extensions neither leak, nor crash, nor lose exceptions** – proved, with refuted cases.
  Model: all functions of _proxy.c and _zope_security_checker.c as programs over reference counts, struct fields and the exception flag, with API calls answered by an oracle according to their documented reference contracts (CExt.v).
  Proof: a small weakest-precondition calculus with a ledger of owned references (CExtFacts.v); one lemma per function; for the leaks, that faults persist.
  Scope: Literally false. True for all slots of the proxy except next() on a non-iterator (crash) and refused str()/repr() (leak); true for the checker except: check of a string that is not in the table leaks its encoded copy, or reads memory that is not the program's if it cannot be encoded; a permission dropped by the policy is used after being freed; a failing isinstance() leaves an exception set with a result; __Security_checker__ = None leaks a reference to None; a second __init__ leaks the dictionaries. References and structs only (CExt.v); for traversal and clearing see C82, for module initialisation C83, for what the functions decide C81 and C86.
* **C70 Code is opaque** – proved.
  Model: as C14; the names of code types are listed separately in DefaultsSpec.v.
  Proof: instances of the C14 invariant; C14_default_registry shows that the registry has no entry beyond the specification.
  Scope: Programs as in C14.
* **C71 What the configuration says is what proxies do** – proved.
  Model: composition of the models of import (Defaults.v), configuration (Zcml.v, Protect.v), ProxyFactory and operations on proxies.
  Proof: import establishes the well-formedness the loader needs and the loader preserves it; the tables of the file are those of the registered checker; a kept-state invariant over all histories carries them to the operation, whose outcome is C02/C20's.
  Scope: Classes without an entry in the default registry, at least one name protected (otherwise no checker is registered). ZOPE_WATCH_CHECKERS off. Names every object makes available and __iter__ (C02) are excepted from 'forbidden'.
* **C72 Declarations reach existing proxies; registrations do not** – proved, with refuted cases.
  Model: As C71; the changes of the registry (defineChecker, undefineChecker, BasicTypes mutations, _clear) as an inductive set of programs.
  Proof: Dictionaries are mutated in place: the identities of checker and tables survive declarations (Mono), and what the tables say afterwards is computed from the declarations alone; Obeys then follows from the tables as in C71. Registry changes do not touch checkers or tables.
  Scope: The literal wish that redefining the checker of a class withdraws permissions from existing proxies is false: C72_revocation_refuted.
* **C73 Configuration can be loaded again, and independent packages in any order** – proved, with refuted cases.
  Model: Zcml.v as for C46; `described_first` and `apart` are conditions on the file's text.
  Proof: Both loads add the same things to what was there (relation `alike`, with like_class reading classes that are final already); files depend only on, and change only, the classes they mention.
  Scope: Both statements with the conditions that make them true; without the conditions they are refuted.
* **C74 Threads can declare protections at the same time** – proved, with refuted cases.
  Model: DeclThreads.v: the functions again as sequences of single dictionary and attribute accesses, arbitrary interleavings, other code in between; C74_alone ties them to Protect.v.
  Proof: Invariant over all interleavings: where each thread is, which new checkers are still private to it, and an order of the declarations made so far whose sequential effect is the current state.
  Scope: Serializability with the condition that makes it true; the races without it are exhibited by concrete interleavings. like_class copies whole dictionaries and is not atomic (C74_like_refuted).
* **C75 Configurations of several files: the including file decides, redefinitions stay in their file** – proved, with refuted cases.
  Model: Includes.v: configuration trees, includepath, one permission_mapping per open group found by delegation, resolveConflicts
  Proof: simulation of the processing of the tree by a reading of it (nodes_outcome), actions with discriminators against claims, filtering of overridden actions, uniqueness of the remaining ones, then the effect lemmas of Zcml
  Scope: zope.configuration's includes, groups and conflict resolution are modelled from their documentation. Classes that are like_class of others are excluded in C75_decides and C75_kept (order matters for them, C61). C75_leak_refuted: the mapping of an enclosing group is found by attribute delegation and modified in place.
* **C76 The configuration shipped with the package: permissions defined, permission objects public and immutable** – proved.
  Model: Includes.v: configure_zcml and permissions_zcml transcribed as trees
  Proof: C75's lemmas; which statements of the shipped files remain in force is computed
  Scope: The two <utility> directives of configure.zcml (vocabularies) are left out; meta.zcml only defines directives.
* **C77 Concurrent declarations fail closed** – proved, with refuted cases.
  Model: DeclThreads.v (as for C74). RaceSpec.v: granted, an inductive definition of who is responsible for a permission.
  Proof: every dictionary gets the set of table/class pairs it may belong to (a label), extended when dictionaries are allocated; all steps keep every entry of a dictionary granted for all its labels (RaceFacts.v); refusal by the table lemma of the checkers.
  Scope: C74 needs that no two threads declare for the same class without checker; this property has no such condition. The interleavings are those of single dictionary and attribute accesses of DeclThreads.v. C77_refused assumes that nobody declares the permission None. Refuted with a witness: a proxy made during the race keeps a permission that is tightened afterwards, because its checker has been replaced in the registry.
* **C78 Importing the package chooses implementations that fit together** – proved, with refuted cases.
  Model: Boot.v: int(), PURE_PYTHON, the two try statements, the module variables and C statics as they are when the import is over. BootSpec.v: a grammar of integers, when the Python implementation is wanted, the watch level.
  Proof: the parser is proved equivalent to the grammar by induction on the string; the rest by cases over what an import can give (import_inv).
  Scope: int() is modelled for ASCII strings and without the limit on the number of digits. C78_model ties the choice to the environment of the main model (e_impl, e_cimpl, e_watch); negative values of ZOPE_WATCH_CHECKERS, which give watching classes that never log, have no counterpart there. Refuted with witnesses: that both extension modules are used or none; that PURE_PYTHON is a flag (an empty value makes the import fail).
* **C79 Using proxies comes to an end** – proved, with refuted cases.
  Model: EndsSpec.v: what it means to end, states in which things are made of older things, application code that keeps it so.
  Proof: well-founded induction on the identity of the proxy (the rank), with a lemma for each function of the model; checks, repr of the message, attribute access, binary operators (on the sum of the ranks of the operands), selection and creation of proxies; each lemma also gives that the state stays founded.
  Scope: Total correctness for the main model: the theorems of the other claims speak of the outcome at any depth, including the exception that stands for too little depth (EFuel); here it is proved not to occur from some depth on. Hypotheses: application code ends, its results exist, registered factories return a checker, None or NoProxy; ZOPE_WATCH_CHECKERS is not set (no watching checkers, whose repr of the object is one more way to call back). C79_selected removes the disjunct that C12 had to allow. Refuted with witnesses: in the Python build p += p, if __iadd__ returns its argument, and p._wrapped = p make p a proxy of itself, after which hash(p) never returns normally; a factory that returns itself makes selectChecker go on for ever in both builds.
* **C80 Using proxies changes nobody's rights** – proved.
  Model: RightsSpec.v: what decides about access (tables, checkers, registry, policy, interactions, participations), sequences of uses, application code that declares nothing.
  Proof: the generic preservation logic of SafeFacts instantiated with same_rights, then induction on the sequence; decisions by induction on the structure of the checker with one lemma per function consulted.
  Scope: C80_rights covers every operation of the main model in both builds, with and without ZOPE_WATCH_CHECKERS. C80_decisions is for plain, combined and foreign checkers (not watching checkers, whose repr of the object is application code that may differ), for names other than __iter__ (whose answer depends on the value asked for), and for policies whose answers depend on rights only and are not proxies.
* **C81 The C extensions fail closed** – proved.
  Model: CExt.v with a log of the calls made, their arguments and outcomes; CExtDecideSpec.v: mediated, wrapped, reasons for granting.
  Proof: a program logic for the log (one lemma per API contract), then function by function; the decision table of check in both directions.
  Scope: About CExt.v, the second model of the C code, in which each call into the interpreter is answered by an oracle. hash(), bool() and __length_hint__ are not checked by the C proxy and comparisons neither; of a comparison the result is made a proxy. PyDict_GetItem swallows errors: an error during the lookup counts as a name that is not in the table. If isinstance() fails in selectChecker, the value is returned bare with an exception pending (C69_select_refuted); left_alone includes this case. C81_check assumes that nothing undefined has happened (reading the text of a name that cannot be encoded, see C69_check_refuted). The struct of the proxy is not changed by other code meanwhile.
* **C82 The garbage collector and the C extensions** – proved, with refuted cases.
  Model: CExtGc.v: tp_traverse, tp_clear, tp_dealloc of both types and the phases of a collection; CExtGcSpec.v: what is held, correct counts, what is in use, lives of a process.
  Proof: counting over lists (permutations) for the collector; invariant over lives: proxies complete, each referring to older ones only.
  Scope: The interpreter's collector is modelled by its three phases (subtract_refs, move_unreachable, delete_garbage); other types are assumed to traverse what they hold. SecurityProxyType has no tp_clear and inherits none. Python subclasses of the two types are traversed by the interpreter's subtype_traverse, which is not modelled. Checker_traverse ignores positive answers of the visitor, so gc.get_referrers() never reports a checker (C82_referrers_refuted). In life_step the memory of a new proxy is assumed to be referred to by nobody, and nothing but the extension changes the struct of a proxy.
* **C83 What initialising the C extensions leaves behind** – proved, with refuted cases.
  Model: CInit.v: both MOD_INIT functions, call by call, with an arbitrary interpreter; CInitSpec.v: the text that belongs to each variable, results, references held.
  Proof: a small logic over sequences of calls (filled variables, balance of references, failures), then evaluation over the list of variables.
  Scope: Three things are not as one would wish, with witnesses: if adding to the module fails, the module is returned with an exception set and a reference is lost (C83_add_refuted); a failed initialisation never gives back the module object (C83_lost_refuted); if importing zope.security.checker initialised the extension a second time, Python and C code would use different lists (C83_twice_refuted) - C84 shows that the package's __init__ prevents that. Theorems about success assume that imported modules do not change the extension's variables (hook); PyType_Ready is one call that succeeds or fails.
* **C84 Whichever module is imported first** – proved, with refuted cases.
  Model: Imports.v: module texts as statements, the import system, both extensions; ImportsSpec.v: completeness, layering, same objects.
  Proof: evaluation for the core in the 16 configurations; frame lemma (modules of other packages on the stack); induction on the rank for all others; induction on the sequence.
  Scope: The statements of each module that import or define names, in the order of its text (extracted from the source by a script, checked by hand), executed by a model of the interpreter's import system (sys.modules, parent package first, submodules as attributes, extension modules registered after their initialisation). zope.interface, zope.schema, zope.proxy, zope.location, zope.i18nmessageid and zope.exceptions are assumed to import nothing of this package; zope.component and zope.configuration may take any existing names of modules that come lower in some layering. Both refuted theorems show what the hypotheses are for: an empty __init__.py, and a cycle through metaconfigure.py. Exceptions other than failing imports: C78.
* **C85 ZOPE_WATCH_CHECKERS adds lines to the log, and nothing else** – proved, with refuted cases.
  Model: WatchSpec.v: the process without the variable, matching states, traces that differ in log lines only, client programs; model: CheckerModel.v, ProxyModel.v.
  Proof: a two-sided version of the convergence relation of C79 (WatchFacts.v): both processes converge to the same outcome in matching states; recursion on proxies/decorators/combined checkers by the measures of C79.
  Scope: Two processes are compared: one whose checkers are Checker/CombinedChecker objects, one whose checkers are WatchingChecker/WatchingCombinedChecker objects, except those made before the classes are replaced (the default checker with the C implementation, the checker of CheckerPublic). Application code is an arbitrary function of the process; it is required to do the same in both (it could look at the class of a checker). Excluded: proxies of proxies and checks of a proxy itself (the log line's repr() then goes through the inner proxy, C85_canAccess_refuted), operations that replace the object or checker of a Python proxy, the registration of CheckerPublic's own checker for a type in the pure-Python build. Writing to sys.stderr is assumed to succeed.
* **C86 The C code, call by call, does to Python objects what the other claims say the C build does** – proved.
  Model: CExtAgreeSpec.v: the relation between a logged call of CExt.v and the interpreter of ProxyModel.v; a world that says which value each address is.
  Proof: every run of a C function is one of a few paths (CExtPaths.v, by the wp calculus of C69); inversion of the answers along each path gives the equation of the model (CExtAgreeFacts.v, CExtAgreeChecker.v).
  Scope: Connects the two models of the C code: CExt.v (pointers, references, one step per statement) and CheckerModel.v/ProxyModel.v (Python objects). The answers (CExtAgreeSpec.v) say what each logged call means: there is memory, texts can be encoded, isinstance() and the lookup in a table do not fail, ints are not negative, the structs of existing proxies are not written meanwhile. The wrapped object has tp_as_number for int() and float() and is an iterator for next() (C69_next_refuted says what happens otherwise). Reflected operators are taken as the interpreter calls them, after the left operand had its turn. Checkers are plain ones; subclasses written in Python do not run this code for check. Each round of the loop in selectChecker corresponds to one recursion of the model, so fuel must suffice for both.
* **C87 Behind every operation stands the function that guards that operation** – proved, with refuted cases.
  Model: TypeTables.v: the static tables as positional initialisers, INIT_STRING and the operator macros with names pasted as strings, PyType_Ready's inheritance; the body of class ProxyPy as statements on its dictionary. TypeTablesSpec.v: a table of Python's operations (slot, special name, reflected name, API function).
  Proof: classification of all fields by computation, one lemma for each class of fields with base class and operands universally quantified; for Python by evaluating the class body with a symbolic base.
  Scope: Base class (zope.proxy) arbitrary; its Python methods are assumed to carry their own names (well_named), since the wrappers ask for method.__name__. Layouts of the structs and the inheritance of slots by PyType_Ready are CPython's. C87_index_refuted: guardedness of operator.index() on C proxies depends on the base class. C87_delete_faults: `del checker[x]` on a C checker crashes. What each function does after its question is the subject of C69, C81 and C86. Subclasses of proxies are not covered.
* **C88 What is not asked cannot matter, and granting more never takes access away** – proved, with refuted cases.
  Model: AnswersSpec.v: when another application does the same behind an event of the trace; policies that grant more.
  Proof: a relation between two interpretations, closed under every construct of the model (sequencing, try/except, foreign calls, questions), by induction on fuel; monotonicity by a one-sided relation (same result or granted) closed under the same constructs.
  Scope: Application code is compared pointwise on calls (thread, call, state), the final state included. Monotonicity (C88_granting, C88_can) assumes policies without side effects and checkers that do not watch (C85 transports outcomes to watching processes); canAccess of __iter__ on a proxy is left out because it probes the proxy by an operation, and operations are not monotone (C88_operations_refuted).
* **C89 Permission ids are opaque, and a table is what it looks up** – proved.
  Model: OpaqueSpec.v: corresponding permissions, tables (by their first entry for a name), exceptions, states, calls, events; renaming by a function.
  Proof: a relation between runs of two processes closed under every construct of the model, by induction on fuel; renaming and equal lookups by specialising the relation to a function and to equality.
  Scope: About the use of checkers; constructing them compares permissions by identity (MultiChecker, C09), and protectName and ZCML translate 'zope.Public' (C43, C46). Unauthorized exceptions raised by application code count as carrying a permission, which must correspond.
* **C90 Numbers and positions come through the C proxy unchanged** – proved, with refuted cases.
  Model: Numbers.v: the slot functions of _proxy.c that carry numbers, with C's conversions between signed types of given widths and the convention that -1 announces an exception; PySequence_GetItem, PySequence_SetItem, reversed().
  Proof: arithmetic of two's complement conversions; case analysis on the sign of the position; induction on the length for reversed(); refusals by comparing two objects behind one checker.
  Scope: True where long is as wide as Py_ssize_t (Unix, macOS, 32-bit machines), for positions not before the start. On 64-bit Windows proxy_hash returns a 32-bit long through a pointer to a function with a 64-bit result, and positions from 2^31 on are truncated (C90_hash_refuted, C90_large_refuted). On all platforms a position before the start of a list is not an IndexError: the length is added twice (C90_before_refuted). The sequence protocol of the interpreter is modelled from Objects/abstract.c and Objects/enumobject.c.
* **C91 Requests arrive as they were made, and a client's own objects see nothing it was not given** – proved, with refuted cases.
  Model: ShownSpec.v: the request that arrives, operand by operand; the interpreter's two-sided dispatch of operators and comparisons to methods of application objects.
  Proof: from complete mediation (C15) by induction on the chain of unwrappings; comparisons by computation for arbitrary methods; witnesses in both builds.
  Scope: The first sentence is proved. The last one is false: comparisons are not checked and call the method of the client's object with the bare object (C91_comparisons_show for any object that does not implement the comparison, C91_comparison_refuted for a client that is granted nothing); the same happens with operators and `in` once they are granted. Clients without objects of their own are the subject of C16 and C65.
* **C92 An auditing policy sees each operation once** – proved, with refuted cases.
  Model: AuditSpec.v: the possible questions of an operation as a list computed from the operation alone; a trace is explained by it if its questions are some of the list in order; states and application code that leave checkers and proxies alone.
  Proof: a program logic over the interpreter (state invariant, questions so far, result), induction on fuel through all operations, checkers and selection; exactly one from C15.
  Scope: For reading an attribute in the Python build the count is two, and it is reached: when the object does not have the attribute, __getattr__ checks once more after __getattribute__ did (C92_python_twice_refuted), so an auditing policy notes two accesses where the C build makes it one; reads that succeed are asked once in both builds (C92_reading). In-place operators on Python proxies and assignments to the slots of Python proxies are left out (they change the proxy).
* **C93 Objects that lie about their class, and subclasses of Proxy** – proved, with refuted cases.
  Model: Liars.v: builtin isinstance and super as CPython defines them, ProxyFactory, proxy, selectChecker, getObject, getChecker and isinstance of both builds over an arbitrary class hierarchy and arbitrary answers of __class__.
  Proof: case analysis of each function on the answers; induction on the rounds of the loop in selectChecker; a comparison of two processes that differ only in what objects say.
  Scope: The unrestricted property is false. An object whose __class__ is Proxy is left bare by ProxyFactory in both builds and by checker.proxy in the Python build (C93_protected_refuted); one that says it is an Exception and has no registered checker is left bare in the C build (C93_exception_refuted); in the Python build removeSecurityProxy(x) of an object that says it is a Proxy is x._wrapped (C93_unwrap_refuted); an object whose __class__ raises is given out bare, with an exception set, by the C checker (C93_pending_refuted); instances of proper subclasses of Proxy are wrapped again by the C checker (C93_subclass_refuted). These theorems give the exact conditions (C93_factory, C93_results, C93_believed, C93_unwrap). The builtin isinstance, super() and issubclass are CPython's, without metaclass hooks; what PyProxyBase does to an object that is no proxy is arbitrary. How lies affect trusted adapters and decorators is C96.
* **C94 Comparisons see through proxies, and proxies can be keys** – proved, with refuted cases.
  Model: Compare.v: do_richcompare of the interpreter with the slots of proxies, which start it again; hash, truth, dict lookup by hash, identity, equality.
  Proof: induction on the layers of proxies with the fuel they need; induction on the entries of a dict.
  Scope: For objects that do not return NotImplemented for proxies the answer is theirs (C94_looks), and an object need not equal its own proxy (C94_looks_refuted). If two objects disagree about their order, putting a proxy around the right one changes who is asked (C94_order_refuted). An object that is not equal to itself is found in a dict only through the same proxy (C94_key_refuted). Proxy is assumed to have no subclasses. Comparison methods are functions of their operands, without side effects. In the C build, results that are neither True nor False come as proxies, in the Python build bare.
* **C95 Proxied classes are no classes to the language** – proved, with refuted cases.
  Model: Implicit.v: isinstance, issubclass, except, raise, super, __build_class__, with, dir of the interpreter, running on proxies whose attribute reads, calls, len and items are those of proxy.py and _proxy.c; the special methods of the two types come from TypeTables.v.
  Proof: every value read through a proxy came out of checker.proxy; induction on tuples, on the bases for the metaclass (once it is Proxy it stays Proxy, and Proxy takes two arguments), on fuel and the number of bases for dir.
  Scope: Assumes that operations on proxies give out no bare tuples, dictionaries or types (the registry protects them, C16 and C93), that the classes behind Proxy have none of the special methods in question, and that an explicit metaclass is a type not made from Proxy (a function as metaclass is called with the proxy, as any function could be). C95_dir is for classes whose proxies refuse __dict__, as the checker for types does. The with statement fails even if __enter__ and __exit__ are granted (C95_with_refuted), dir() hides names that can be read (C95_dir_refuted), and isinstance fails even if everything is granted (C95_isinstance_refuted). A format specification is refused even if everything is granted (C95_format_refuted). The interpreter's protocols are written down from CPython, they are not in /repo.
* **C96 Decorators and trusted adapters of objects that lie** – proved, with refuted cases.
  Model: LiarsUse.v: the descriptor of decorator.py and the call of the trusted factories on the objects and functions of Liars.v; CombinedChecker's constructor, reading the class name, the inner factory and the location step are arbitrary.
  Proof: case analysis that ProxyFactory and the first half of the descriptor take the same branches; induction on the argument list for adapters.
  Scope: What is false without restriction: in the Python build a bare object that says it is a Proxy makes a trusted adapter adapt its _wrapped instead (C96_adapted_refuted) and chooses the checker of a decorator around it, where the C build raises TypeError (C96_chosen_refuted); the AttributeError of a decorator without checkers is another exception if the class name cannot be read (C96_missing_refuted). C96_guarded assumes that CombinedChecker can be made from the checkers in question, and names the remaining ways out: the decorator itself says it is a Proxy, or selecting a checker for its type raised. getProxiedObject is the decorator's slot (zope.proxy); location handling is a parameter (C54 has it).
* **C97 Wrapping an adapter factory twice is wrapping it once** – proved, with refuted cases.
  Model: AdapterStack.v: the constructors, assertLocation, the customizing methods and the calls of the three classes for factories wrapped in factories, on the objects of Liars.v; ILocation, __parent__ and the inner factory are parameters.
  Proof: induction on the stack: below the outermost wrapper no argument is a proxy, and after one location step another has nothing to do.
  Scope: C97_once is for arguments with at most one proxy around them that removeSecurityProxy cannot be misled by (C96): each wrapper takes one proxy off (C97_twice_refuted). Assumes that asking for ILocation and __parent__ changes nothing, and that a parent that was set can be read. For stacks that mix untrusted and trusted factories C97_untrusted goes one layer at a time.

## 6. Properties found false

Each has a machine-checked witness; these are observations about the modelled code.

| Theorem | What happens |
|---|---|
| C06_left_nested_refuted | `CombinedChecker(CombinedChecker(a, b), c)` forgets `b` |
| C13_pop_refuted | `BasicTypes.pop` (inherited) does not update the registry |
| C16_py_comparison_refuted, C16_length_hint_refuted | comparison results (Python) and length hints (both) are not wrapped |
| C17_py_inplace_refuted, C17_py_setattr_refuted | the Python proxy can be pointed at another object or given another checker |
| C23_py_inplace_refuted | the Python in-place fallback makes a proxy around a proxy |
| C24_iter_refuted | `canAccess(obj, '__iter__')` does not predict access |
| C26_*_refuted | the two builds differ (13 cases) |
| C28_denials_hand_out_object_refuted | ForbiddenAttribute and Unauthorized carry the bare object |
| C29_py_frame_refuted, C29_py_setattr_refuted | `_wrapped` can be read from a frame whose `self` is the proxy; `_wrapped`/`_checker` can be assigned |
| C30_py_refuted | Python in-place operators rebind the proxy |
| C31_py_internal_refuted | deletion and assignment of the internal names differ |
| C32_none_interaction_refuted | a policy that returns None as interaction |
| C35_nested_refuted, C35_inner_survives_refuted | nested endInteraction/restoreInteraction |
| C36_concurrent_refuted | setSecurityPolicy is not atomic |
| C41_equal_participations_refuted, C41_concurrent_refuted | bookkeeping with equal participations / races |
| C42_failure_leaves_traces_refuted | a failing newInteraction leaves participations bound |
| C45_shared_refuted | declarations on classes that share a checker |
| C49_module_of_class_refuted | `<module>` naming a class bypasses conflict detection |
| C50_second_redefinition_refuted | redefining a permission twice |
| C53_nested_refuted | nested proxies reach a trusted adapter |
| C55_combined_wrapper_refuted | second half of a combined wrapper checker is lost |
| C58_all_for_a_token_refuted | 'All' is not honoured for a token in the example policy |
| C59_none_is_rock_refuted | None in the registry is not a rock |
| C60_none_forbids_c_refuted | a None permission does not forbid in the C checker |
| C61_like_class_refuted | order matters with like_class |
| C62_failed_load_refuted | a failed load leaves undefined permissions in tables |
| C63_dict_views_refuted | dict views hand out bare values |
| C64_no_interaction_looks_absent | without an interaction, hasattr says that a protected attribute is missing |
| C65_length_hint_refuted | the length hint reveals what is withheld |
| C66_bare_tuples_refuted | if tuples are unregistered, a proxy can be pickled by value |
| C67_combined_refuted | getTestProxyItems lists only the first table of a combined checker |
| C68_impostor_refuted, C68_two_homes_refuted | the sandbox identifies agents by id; addAgent ignores where the agent lives |
| C68_turn_refuted | `TimeGenerator.turn` dies when an agent wants to move and leaves its interaction open |
| C69_check_refuted | the C `Checker.check` leaks an encoded copy of every string that is not in its table, and reads foreign memory if the string has lone surrogates |
| C69_str (second part) | refused str()/repr() of a C proxy leaks the class name |
| C69_next_refuted | next() on a C proxy with `__next__` granted crashes if the object is not an iterator |
| C69_permission_freed_refuted | a policy that removes the table entry and refuses makes `check` use a freed permission |
| C69_select_refuted | the C `selectChecker` ignores that isinstance() failed |
| C69_proxy_refuted, C69_init_refuted | leaks of None and of the dictionaries of a re-initialised checker |
| C72_revocation_refuted | a checker registered later does not reach existing proxies |
| C73_like_first_refuted, C73_overlap_refuted | loading again with like_class before the description; separately loaded files about one name |
| C74_lost_refuted, C74_duplicate_refuted, C74_define_refuted, C74_like_refuted | races between declarations for classes that have no checker yet |
| C77_stale_refuted | after such a race a proxy made meanwhile keeps a permission that has been tightened since |
| C78_mixed_refuted | C proxies come with Python checkers if only the checkers' module is missing: the choice is made twice |
| C78_flag_refuted | PURE_PYTHON with an empty value or a word makes the import fail with ValueError (ZOPE_WATCH_CHECKERS accepts both); 0 asks for the extensions even on PyPy |
| C79_own_object_refuted | in the Python build `p += p` (if `__iadd__` returns its argument) and `p._wrapped = p` make a proxy wrap itself; every further operation exhausts the stack |
| C79_own_factory_refuted | a checker factory that returns itself makes selectChecker loop for ever, in both builds |
| C82_referrers_refuted | `gc.get_referrers()` never reports a C checker: its traversal ignores positive answers of the visitor |
| C83_add_refuted | if PyModule_AddObject fails during initialisation, the module is returned with an exception set (SystemError) and a reference is lost |
| C83_lost_refuted | a failed initialisation of an extension never gives back its module object |
| C83_twice_refuted | if importing zope.security.checker initialised the extension again, Python and C code would use different lists of names available by default (C84: it does not) |
| C84_empty_package_refuted | with an empty `__init__.py`, importing `_zope_security_checker` first would initialise it twice and separate Python code's registry from the C code's |
| C84_cycle_refuted | if a module that metaconfigure.py imports from another package took names from it, the order of imports would matter |
| C87_index_refuted | operator.index() of a C proxy is whatever zope.proxy's type does: the C table ends before nb_index, the Python class guards `__index__` |
| C87_delete_faults | `del checker[x]` on a C checker calls check() with a NULL name: undefined behaviour |
| C88_operations_refuted | granting more may make an operation fail: repr() of a proxy falls back when refused, but fails with the object's own TypeError when allowed |
| C88_tables_refuted | adding an entry to a checker's table may take access away: names are available by default only while the table does not mention them |
| C90_hash_refuted | on 64-bit Windows hash(p) may differ from the object's hash or fail with SystemError: proxy_hash is declared `long` |
| C90_large_refuted | on 64-bit Windows C code that asks a proxy for position 2^32+7 gets item 7 (PyInt_FromLong of a Py_ssize_t) |
| C90_before_refuted | PySequence_GetItem(p, i) with i before the start of a list returns an item instead of IndexError, PySequence_SetItem changes one |
| C91_comparison_refuted | `p == x`: the `__eq__` of the client's own object x is called with the bare object behind p, nobody being asked |
| C91_operators_refuted | `p + x` and `x in p`, once granted, hand the bare object, or the bare items of a list, to methods of x |
| C92_python_twice_refuted | in the Python build, reading an attribute that the object does not have asks the policy the same question twice |
| C93_protected_refuted | an object whose `__class__` says Proxy is left unprotected by ProxyFactory (both builds) and by checker.proxy (Python build) |
| C93_exception_refuted | an object whose `__class__` says Exception, without registered checker, is left unprotected by the C build |
| C93_unwrap_refuted | in the Python build removeSecurityProxy of an object that says it is a Proxy returns its `_wrapped` |
| C93_pending_refuted | an object whose `__class__` raises is returned bare, with an exception set, by the C checker's proxy method |
| C93_subclass_refuted | an instance of a proper subclass of Proxy is wrapped again by the C checker's proxy method, not by the Python one |
| C94_looks_refuted | an object does not equal its own proxy if its `__eq__` reads an attribute of the other operand that the proxy forbids |
| C94_order_refuted | `x < p` may differ from `x < o`: the object behind the proxy is asked, for `o > x` |
| C94_key_refuted | an object that is not equal to itself is found in a dict only through the very proxy it was stored with |
| C29_py_generic_refuted | in the Python build `object.__getattribute__(p, '_wrapped')` gives the object, whatever the checker says |
| C95_format_refuted | `format(p, spec)` fails for every non-empty specification, whatever is granted |
| C95_with_refuted | `with p:` fails even if the checker grants `__enter__` and `__exit__`: Proxy has no such methods |
| C95_dir_refuted | `dir(p)` is empty even if attributes of the object can be read |
| C95_isinstance_refuted | `isinstance(x, P)` fails for a proxied class even if its checker grants everything |
| C96_adapted_refuted | in the Python build a trusted adapter given an object that says it is a Proxy adapts that object's `_wrapped` |
| C96_missing_refuted | asking a decorator without checkers for `__Security_checker__` is no AttributeError if the name of the class cannot be read |
| C96_chosen_refuted | an object that says it is a Proxy chooses the checker of a decorator around it (Python build), or makes it raise TypeError (C build) |
| C97_twice_refuted | a trusted factory wrapped twice takes two proxies off an object that has two |
| C85_repr_refuted | with ZOPE_WATCH_CHECKERS, if repr() of an object raises, a granted access fails (level 2) and a refusal is replaced by that exception (level 1) |
| C85_canAccess_refuted | with ZOPE_WATCH_CHECKERS, canAccess on a proxy asks the policy an additional question, for the repr() of the proxy in the log line |
| C75_leak_refuted | a redefinition in an included file reaches the including file if that has redefined anything before |

## 7. Mutation tests

`seeded/LOG.jsonl` records definitions that were edited in a scratch copy of the
development, the theorems that then failed to compile, and the theorems that were
strengthened because they did not notice.

Theorem statements were also audited for conclusions that are weaker than they look
(existentially quantified states, specification relations with several outcomes).  As a
result C16_results and C53_proxied name the reason why a value comes back unwrapped;
`Asked` (hence ReadCheck, WriteCheck and everything stated with them) determines the
outcome (C01_determined, C02_determined) also when the policy answers with an object;
the checks in C15_complete_mediation take place in states that the operation leads to
(`Evolves`), so that C15_passed can say what they mean.
