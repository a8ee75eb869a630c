{
 "claims": [
  {
   "property": "C01",
   "status": "proved",
   "theorems": [
    "C01_check_exact",
    "C01_determined",
    "C01_granted_iff",
    "C01_simple_policy"
   ],
   "note": "Both builds, arbitrary policy code. Tables without None entries (None entries are C60). For \"__iter__\" the checked object is not itself a security proxy or decorator."
  },
  {
   "property": "C02",
   "status": "proved",
   "theorems": [
    "C02_check_setattr_exact",
    "C02_determined",
    "C02_default_deny",
    "C02_granted_iff"
   ],
   "note": "Both builds, arbitrary policy code, tables without None entries."
  },
  {
   "property": "C03",
   "status": "proved",
   "theorems": [
    "C03_fail_closed_read",
    "C03_fail_closed_write",
    "C03_public_unaffected",
    "C03_proxy_fail_closed"
   ],
   "note": "Name-based checkers, directly and behind proxies."
  },
  {
   "property": "C04",
   "status": "proved",
   "theorems": [
    "C04_policy_once_read",
    "C04_policy_once_write"
   ],
   "note": ""
  },
  {
   "property": "C05",
   "status": "proved",
   "theorems": [
    "C05_chain_read",
    "C05_chain_write",
    "C05_verdict",
    "C05_chain_simple_policy",
    "C05_constructor"
   ],
   "note": "Chains of any length; foreign code (the policy) is assumed not to edit existing checkers during the check."
  },
  {
   "property": "C06",
   "status": "proved",
   "theorems": [
    "C06_left_nested_refuted",
    "C06_left_nested_drops_second"
   ],
   "note": "The property is false: CombinedChecker(c1, c2) copies only the dictionaries of c1, so the second checker of a combined c1 is lost. Witness and general characterisation proved."
  },
  {
   "property": "C07",
   "status": "proved",
   "theorems": [
    "C07_watching_transparent"
   ],
   "note": ""
  },
  {
   "property": "C08",
   "status": "proved",
   "theorems": [
    "C08_NamesChecker_exact",
    "C08_NamesChecker_conflict",
    "C08_InterfaceChecker_exact"
   ],
   "note": "Permission objects are compared by identity as the code does; interfaces are finite ordered name lists."
  },
  {
   "property": "C09",
   "status": "proved",
   "theorems": [
    "C09_MultiChecker_exact",
    "C09_MultiChecker_conflict",
    "C09_MultiChecker_order",
    "C09_permutation"
   ],
   "note": "Specs given as (names, permission), (interface, permission) or dictionaries."
  },
  {
   "property": "C10",
   "status": "proved",
   "theorems": [
    "C10_permission_id_truth",
    "C10_setattr_permission_id_truth"
   ],
   "note": "Tables without None entries."
  },
  {
   "property": "C11",
   "status": "proved",
   "theorems": [
    "C11_registry_refines_map",
    "C11_define_lives"
   ],
   "note": "Refinement of a finite map over arbitrary histories, mixed with BasicTypes calls and cleanup."
  },
  {
   "property": "C12",
   "status": "proved",
   "theorems": [
    "C12_none_or_checker",
    "C12_select_exact",
    "C12_default_forbids"
   ],
   "note": "C12_select_exact assumes that no registered checker factory is itself a security proxy; EFuel is the recursion limit (endless chain of factories). In the C build unregistered exception types are not proxied (SC_exception)."
  },
  {
   "property": "C13",
   "status": "proved",
   "theorems": [
    "C13_reset_restores",
    "C13_basic_survives",
    "C13_basic_delete",
    "C13_pop_refuted"
   ],
   "note": "True for item assignment, item deletion, update and clear; false for the inherited dict methods such as pop (C13_pop_refuted)."
  },
  {
   "property": "C14",
   "status": "proved",
   "theorems": [
    "C14_default_registry",
    "C14_no_mutation",
    "C14_only_listed",
    "C14_attributes",
    "C14_reads"
   ],
   "note": "ZOPE_WATCH_CHECKERS off; programs that leave the checkers made at import alone. In the Python build the two slots of the proxy itself are writable (C17)."
  },
  {
   "property": "C15",
   "status": "proved",
   "theorems": [
    "C15_complete_mediation",
    "C15_passed_authorised",
    "C15_passed",
    "C15_authorised"
   ],
   "note": "Operations modelled are those of type op. Foreign code may create proxies and checkers but not change existing proxies. Comparison, hash, truth and length hint are outside the property (C19)."
  },
  {
   "property": "C16",
   "status": "proved",
   "theorems": [
    "C16_results",
    "C16_viral",
    "C16_py_comparison_refuted",
    "C16_length_hint_refuted"
   ],
   "note": "True for all operations except comparison through the Python proxy and __length_hint__ (both builds), for which the witnesses refute it; C16_viral is about clients that do not use those."
  },
  {
   "property": "C17",
   "status": "proved",
   "theorems": [
    "C17_bound_forever",
    "C17_py_inplace_refuted",
    "C17_py_setattr_refuted"
   ],
   "note": "True for the C proxy; for the Python proxy true without in-place operators and assignment to _wrapped/_checker, refuted with them."
  },
  {
   "property": "C18",
   "status": "proved",
   "theorems": [
    "C18_checked_under_its_name",
    "C18_reflected",
    "C18_distinct",
    "C18_distinct_reflected"
   ],
   "note": "The name table is guard_of/guard_right in ProxySpec."
  },
  {
   "property": "C19",
   "status": "proved",
   "theorems": [
    "C19_always_available"
   ],
   "note": "Wrapped object and other operands not themselves proxies; hash and truth answers of the right type."
  },
  {
   "property": "C20",
   "status": "proved",
   "theorems": [
    "C20_masked",
    "C20_granted"
   ],
   "note": "In the Python build a TypeError raised by the policy is passed on instead."
  },
  {
   "property": "C21",
   "status": "proved",
   "theorems": [
    "C21_proxy_unchanged",
    "C21_cannot_change_checker",
    "C21_given_checker",
    "C21_own_checker",
    "C21_registry",
    "C21_idempotent"
   ],
   "note": ""
  },
  {
   "property": "C22",
   "status": "proved",
   "theorems": [
    "C22_round_trip",
    "C22_remove_non_proxy",
    "C22_getChecker_non_proxy",
    "C22_no_checker"
   ],
   "note": "\"Later\" is any History (see C17 for what the Python proxy excludes)."
  },
  {
   "property": "C23",
   "status": "proved",
   "theorems": [
    "C23_proxy_identity",
    "C23_never_nested",
    "C23_py_inplace_refuted"
   ],
   "note": "True for the C proxy and, without in-place operators, for the Python proxy; refuted for the fallback of Python in-place operators."
  },
  {
   "property": "C24",
   "status": "proved",
   "theorems": [
    "C24_canAccess_predicts",
    "C24_unproxied",
    "C24_basic_type_error",
    "C24_iter_refuted"
   ],
   "note": "For policies that treat proxy and object alike (canAccess hands the proxy to the policy) and names other than __iter__, for which it is false. Basic objects: TypeError."
  },
  {
   "property": "C25",
   "status": "proved",
   "theorems": [
    "C25_canWrite_predicts"
   ],
   "note": "Same conditions as C24."
  },
  {
   "property": "C26",
   "status": "proved",
   "theorems": [
    "C26_checks",
    "C26_select",
    "C26_proxy",
    "C26_factory",
    "C26_canAccess",
    "C26_canWrite",
    "C26_operations",
    "C26_items",
    "C26_getattr",
    "C26_getattr_errors",
    "C26_programs",
    "C26_internal_refuted",
    "C26_cmp_read_refuted",
    "C26_inplace_refuted",
    "C26_str_refuted",
    "C26_length_hint_refuted",
    "C26_pow_refuted",
    "C26_asked_twice_refuted",
    "C26_none_entry_refuted",
    "C26_exceptions_refuted",
    "C26_own_none_refuted",
    "C26_own_error_refuted",
    "C26_comparison_refuted",
    "C26_iter_refuted"
   ],
   "note": "Literally false; the builds agree for the states, application code and operations described by ordinary, ordinary_code, common_op and common_name (BuildSpec), and every exclusion is shown to be needed by a refutation. The build with C proxies and Python checkers (only one extension module available) is covered too. Same result, state and calls into application code (up to the calling frame and the check/check_getattr synonym), unless the Python run exhausts the recursion budget."
  },
  {
   "property": "C27",
   "status": "proved",
   "theorems": [
    "C27_refusal_has_no_effect",
    "C27_forbidden",
    "C27_unauthorised"
   ],
   "note": ""
  },
  {
   "property": "C28",
   "status": "proved",
   "theorems": [
    "C28_denials_hand_out_object_refuted"
   ],
   "note": "The property is false in both builds."
  },
  {
   "property": "C29",
   "status": "proved",
   "theorems": [
    "C29_c_no_special_names",
    "C29_py_read",
    "C29_py_delete",
    "C29_c_generic",
    "C29_c_members",
    "C29_py_frame_refuted",
    "C29_py_setattr_refuted",
    "C29_py_generic_refuted"
   ],
   "note": "True for the C proxy, also for object.__getattribute__ and the descriptors of the type (C29_c_generic); false for the Python proxy (assignment, reading from a frame whose local self is the proxy, and object.__getattribute__ or the descriptors of the two slots, C29_py_generic_refuted)."
  },
  {
   "property": "C30",
   "status": "proved",
   "theorems": [
    "C30_c_inplace",
    "C30_py_refuted"
   ],
   "note": "True for the C proxy, false for the Python proxy."
  },
  {
   "property": "C31",
   "status": "proved",
   "theorems": [
    "C31_same_refusal",
    "C31_same_grant",
    "C31_py_internal_refuted"
   ],
   "note": "Item operations are in C18. False for the two internal names of the Python proxy."
  },
  {
   "property": "C32",
   "status": "proved",
   "theorems": [
    "C32_existing",
    "C32_new",
    "C32_new_foreign",
    "C32_query_get",
    "C32_end",
    "C32_none_interaction_refuted"
   ],
   "note": "The clause about getInteraction is false for a policy that returns None; otherwise proved."
  },
  {
   "property": "C33",
   "status": "proved",
   "theorems": [
    "C33_isolation",
    "C33_determined",
    "C33_sequential",
    "C33_sequential_is_an_interleaving"
   ],
   "note": "Any interleaving of atomic attribute accesses; a foreign policy must not touch thread-local data (policies_keep_locals)."
  },
  {
   "property": "C34",
   "status": "proved",
   "theorems": [
    "C34_round_trip",
    "C34_bracket"
   ],
   "note": ""
  },
  {
   "property": "C35",
   "status": "proved",
   "theorems": [
    "C35_nested_refuted",
    "C35_inner_survives_refuted"
   ],
   "note": "The property is false; C34_bracket is what holds (no endInteraction inside the bracket)."
  },
  {
   "property": "C36",
   "status": "proved",
   "theorems": [
    "C36_register",
    "C36_only_the_policy",
    "C36_cleanup",
    "C36_cleanup_remembers",
    "C36_concurrent_refuted"
   ],
   "note": "Sequential histories. With concurrent calls the exchange is not atomic. C36_cleanup: the functions registered with zope.testing.cleanup; C36_cleanup_remembers: they leave the ended interaction to restoreInteraction."
  },
  {
   "property": "C37",
   "status": "proved",
   "theorems": [
    "C37_public_and_none",
    "C37_given",
    "C37_current",
    "C37_simple_answer",
    "C37_foreign_answer",
    "C37_answered"
   ],
   "note": ""
  },
  {
   "property": "C38",
   "status": "proved",
   "theorems": [
    "C38_existing",
    "C38_existing_foreign",
    "C38_fresh",
    "C38_policy_raises",
    "C38_false"
   ],
   "note": "C38_fresh is for the policies of the package."
  },
  {
   "property": "C39",
   "status": "proved",
   "theorems": [
    "C39_paranoid",
    "C39_permissive"
   ],
   "note": ""
  },
  {
   "property": "C40",
   "status": "proved",
   "theorems": [
    "C40_add_never_widens",
    "C40_remove_never_narrows"
   ],
   "note": ""
  },
  {
   "property": "C41",
   "status": "proved",
   "theorems": [
    "C41_invariant",
    "C41_add",
    "C41_remove_refuses",
    "C41_remove",
    "C41_equal_participations_refuted",
    "C41_threads",
    "C41_concurrent_refuted"
   ],
   "note": "For participations compared by identity. C41_threads: with any interleaving of any number of threads, if no participation is handed to newInteraction by two of them and the policy is one of the package. False with participations that compare equal and with concurrent threads that share a participation."
  },
  {
   "property": "C42",
   "status": "proved",
   "theorems": [
    "C42_failure_leaves_traces_refuted",
    "C42_thread_unaffected"
   ],
   "note": "The property is false: earlier participations stay bound. C42_thread_unaffected and C32_new say what does hold."
  },
  {
   "property": "C43",
   "status": "proved",
   "theorems": [
    "C43_declared",
    "C43_enforced"
   ],
   "note": ""
  },
  {
   "property": "C44",
   "status": "proved",
   "theorems": [
    "C44_later_declarations_on_source",
    "C44_later_declarations_on_copy",
    "C44_no_checker"
   ],
   "note": ""
  },
  {
   "property": "C45",
   "status": "proved",
   "theorems": [
    "C45_exact",
    "C45_shared_refuted"
   ],
   "note": "The property is false: a declaration changes every class whose checker uses the same dictionary. C45_exact says exactly which ones."
  },
  {
   "property": "C46",
   "status": "proved",
   "theorems": [
    "C46_require",
    "C46_allow",
    "C46_file",
    "C46_enforced"
   ],
   "note": ""
  },
  {
   "property": "C47",
   "status": "proved",
   "theorems": [
    "C47_nothing_required",
    "C47_no_permission",
    "C47_like_class_alone",
    "C47_file"
   ],
   "note": ""
  },
  {
   "property": "C48",
   "status": "proved",
   "theorems": [
    "C48_require",
    "C48_allow",
    "C48_repetition",
    "C48_each_once",
    "C48_enforced"
   ],
   "note": ""
  },
  {
   "property": "C49",
   "status": "proved",
   "theorems": [
    "C49_conflict_iff",
    "C49_same_class_and_name",
    "C49_like_class",
    "C49_discriminators",
    "C49_self_conflict",
    "C49_module_of_class_refuted"
   ],
   "note": "Proved for class with class and module with module; false where <module> names a class that <class> also names. A class <require> that mentions a name twice conflicts with itself."
  },
  {
   "property": "C50",
   "status": "proved",
   "theorems": [
    "C50_field",
    "C50_fresh",
    "C50_general",
    "C50_others",
    "C50_public",
    "C50_second_redefinition_refuted"
   ],
   "note": "Proved for ids not redefined before; false when A was redefined before, because the directive's own fields are read through earlier redefinitions."
  },
  {
   "property": "C51",
   "status": "proved",
   "theorems": [
    "C51_loads_iff",
    "C51_undefined_iff",
    "C51_order"
   ],
   "note": ""
  },
  {
   "property": "C52",
   "status": "proved",
   "theorems": [
    "C52_all",
    "C52_ids",
    "C52_ids_order",
    "C52_permissions",
    "C52_after_load",
    "C52_add_public"
   ],
   "note": "PermissionsVocabulary fails with ValueError if one permission object is registered under two names."
  },
  {
   "property": "C53",
   "status": "proved",
   "theorems": [
    "C53_proxied",
    "C53_plain",
    "C53_sees_no_proxy",
    "C53_nested_refuted"
   ],
   "note": "One proxy layer is removed from each argument; with nested proxies the factory does see a proxy."
  },
  {
   "property": "C54",
   "status": "proved",
   "theorems": [
    "C54_assertLocation",
    "C54_any_adapter",
    "C54_never_overwrites",
    "C54_parent_readable",
    "C54_untrusted",
    "C54_trusted_plain",
    "C54_trusted_proxied"
   ],
   "note": "Exact outcome for adapters that are neither proxies nor decorators; shape of the result for any adapter."
  },
  {
   "property": "C55",
   "status": "proved",
   "theorems": [
    "C55_descriptor",
    "C55_stack",
    "C55_proxied",
    "C55_grants",
    "C55_set",
    "C55_combined_wrapper_refuted"
   ],
   "note": "False when the checker registered for the wrapper class is itself a CombinedChecker: its second half is dropped."
  },
  {
   "property": "C56",
   "status": "proved",
   "theorems": [
    "C56_same_type_same_checker",
    "C56_same_type_proxies",
    "C56_other_type_unaffected"
   ],
   "note": "Types whose registry entry is not a factory function."
  },
  {
   "property": "C57",
   "status": "proved",
   "theorems": [
    "C57_isinstance",
    "C57_isinstance_factory"
   ],
   "note": "The builtin isinstance is an arbitrary function of object and class."
  },
  {
   "property": "C58",
   "status": "proved",
   "theorems": [
    "C58_policy",
    "C58_not_listed",
    "C58_no_token",
    "C58_map_checker",
    "C58_enforced",
    "C58_all_for_a_token_refuted",
    "C58_getAgentIds"
   ],
   "note": "'All' is honoured only for 'any'; the sandbox table misspells getAgentIds."
  },
  {
   "property": "C59",
   "status": "proved",
   "theorems": [
    "C59_none_is_rock_refuted",
    "C59_none_type_error"
   ],
   "note": "The property is false: None registered for a type makes selectChecker raise TypeError (only NoProxy, or a factory returning None, means rock)."
  },
  {
   "property": "C60",
   "status": "proved",
   "theorems": [
    "C60_none_forbids_py",
    "C60_none_forbids_write_py",
    "C60_none_forbids_c_refuted"
   ],
   "note": "True for the Python checker, false for the C checker (witness)."
  },
  {
   "property": "C61",
   "status": "proved",
   "theorems": [
    "C61_order",
    "C61_like_class_refuted"
   ],
   "note": "Holds without like_class and redefinePermission; false with like_class."
  },
  {
   "property": "C62",
   "status": "proved",
   "theorems": [
    "C62_only_defined_permissions",
    "C62_failed_load_refuted"
   ],
   "note": "For successful loads; a failing load may leave such entries behind."
  },
  {
   "property": "C63",
   "status": "proved",
   "theorems": [
    "C63_dict_views_refuted"
   ],
   "note": "False: dict views are not wrapped, and their contents come out bare."
  },
  {
   "property": "C64",
   "status": "proved",
   "theorems": [
    "C64_forbidden_looks_absent",
    "C64_unauthorised_raises",
    "C64_true_means_read",
    "C64_false_means_granted",
    "C64_public_missing",
    "C64_no_interaction_looks_absent"
   ],
   "note": "The last sentence is false when no interaction is in progress: the check then raises AttributeError, so a protected attribute looks absent (C64_no_interaction_looks_absent)."
  },
  {
   "property": "C65",
   "status": "proved",
   "theorems": [
    "C65_refusals_leak_nothing",
    "C65_stays_concealed",
    "C65_length_hint_refuted"
   ],
   "note": "For clients that hold no bare reference to the object and, in the Python build, perform no operation that rebinds a proxy (in-place operators, assignment to the two slots). Names that can be withheld: not the always available ones, not those the Python proxy reads unchecked, not __iter__, __length_hint__, __call__, __module__ and __Security_checker__; __length_hint__ is really not withheld by any checker (C65_length_hint_refuted)."
  },
  {
   "property": "C66",
   "status": "proved",
   "theorems": [
    "C66_marker",
    "C66_public_round_trip",
    "C66_by_name",
    "C66_forbidden",
    "C66_unauthorised",
    "C66_never_by_value",
    "C66_by_value",
    "C66_bare_tuples_refuted"
   ],
   "note": "The pickler and the copy module are modelled as the operations they perform on an object of unknown type. Never by value needs the default registrations of functions, methods and tuples (C66_bare_tuples_refuted); in general C66_by_value holds."
  },
  {
   "property": "C67",
   "status": "proved",
   "theorems": [
    "C67_items",
    "C67_items_tell",
    "C67_items_non_proxy",
    "C67_combined_refuted",
    "C67_info_total",
    "C67_info"
   ],
   "note": "For plain checkers; for combined checkers the listing has only the first table (C67_combined_refuted). The supplement never raises an Exception; interrupts are outside the model."
  },
  {
   "property": "C68",
   "status": "proved",
   "theorems": [
    "C68_transport_atomic",
    "C68_transport_iff",
    "C68_transport_moves",
    "C68_population",
    "C68_impostor_refuted",
    "C68_two_homes_refuted",
    "C68_secured_transport",
    "C68_names",
    "C68_legends",
    "C68_turn_calm",
    "C68_turn_refuted",
    "C68_turn_blocked"
   ],
   "note": "The last sentence is false: GreenerPastures fails (a key view has no remove), the handler then fails too, so nobody ever moves and with security the interaction stays open (C68_turn_refuted). The population needs distinct ids (C68_impostor_refuted); addAgent alone can put an agent in two places (C68_two_homes_refuted)."
  },
  {
   "property": "C69",
   "status": "proved",
   "theorems": [
    "C69_proxy_objects",
    "C69_proxy_ints",
    "C69_next",
    "C69_next_refuted",
    "C69_str",
    "C69_new",
    "C69_new_refused",
    "C69_clear",
    "C69_init",
    "C69_init_refuted",
    "C69_getters",
    "C69_permission_id",
    "C69_check_setattr",
    "C69_check",
    "C69_check_refuted",
    "C69_permission_freed_refuted",
    "C69_select",
    "C69_select_refuted",
    "C69_proxy",
    "C69_proxy_refuted"
   ],
   "note": "Literally false. True for all slots of the proxy except next() on a non-iterator (crash) and refused str()/repr() (leak); true for the checker except: check of a string that is not in the table leaks its encoded copy, or reads memory that is not the program's if it cannot be encoded; a permission dropped by the policy is used after being freed; a failing isinstance() leaves an exception set with a result; __Security_checker__ = None leaks a reference to None; a second __init__ leaks the dictionaries. References and structs only (CExt.v); for traversal and clearing see C82, for module initialisation C83, for what the functions decide C81 and C86."
  },
  {
   "property": "C70",
   "status": "proved",
   "theorems": [
    "C70_opaque",
    "C70_call"
   ],
   "note": "Programs as in C14."
  },
  {
   "property": "C71",
   "status": "proved",
   "theorems": [
    "C71_end_to_end",
    "C71_configured",
    "C71_more_files"
   ],
   "note": "Classes without an entry in the default registry, at least one name protected (otherwise no checker is registered). ZOPE_WATCH_CHECKERS off. Names every object makes available and __iter__ (C02) are excepted from 'forbidden'."
  },
  {
   "property": "C72",
   "status": "proved",
   "theorems": [
    "C72_declared_later",
    "C72_configured_later",
    "C72_reregistered",
    "C72_revocation_refuted"
   ],
   "note": "The literal wish that redefining the checker of a class withdraws permissions from existing proxies is false: C72_revocation_refuted."
  },
  {
   "property": "C73",
   "status": "proved",
   "theorems": [
    "C73_again",
    "C73_like_first_refuted",
    "C73_independent",
    "C73_overlap_refuted"
   ],
   "note": "Both statements with the conditions that make them true; without the conditions they are refuted."
  },
  {
   "property": "C74",
   "status": "proved",
   "theorems": [
    "C74_serial",
    "C74_alone",
    "C74_lost_refuted",
    "C74_duplicate_refuted",
    "C74_define_refuted",
    "C74_like_refuted"
   ],
   "note": "Serializability with the condition that makes it true; the races without it are exhibited by concrete interleavings. like_class copies whole dictionaries and is not atomic (C74_like_refuted)."
  },
  {
   "property": "C75",
   "status": "proved",
   "theorems": [
    "C75_loads_iff",
    "C75_decides",
    "C75_kept",
    "C75_first_file",
    "C75_rivals",
    "C75_split",
    "C75_enforced",
    "C75_leak_refuted"
   ],
   "note": "zope.configuration's includes, groups and conflict resolution are modelled from their documentation. Classes that are like_class of others are excluded in C75_decides and C75_kept (order matters for them, C61). C75_leak_refuted: the mapping of an enclosing group is found by attribute delegation and modified in place."
  },
  {
   "property": "C76",
   "status": "proved",
   "theorems": [
    "C76_loads",
    "C76_shipped",
    "C76_permission_objects"
   ],
   "note": "The two <utility> directives of configure.zcml (vocabularies) are left out; meta.zcml only defines directives."
  },
  {
   "property": "C77",
   "status": "proved",
   "theorems": [
    "C77_no_excess",
    "C77_replaced",
    "C77_refused",
    "C77_stale_refuted"
   ],
   "note": "C74 needs that no two threads declare for the same class without checker; this property has no such condition. The interleavings are those of single dictionary and attribute accesses of DeclThreads.v. C77_refused assumes that nobody declares the permission None. Refuted with a witness: a proxy made during the race keeps a permission that is tightened afterwards, because its checker has been replaced in the registry."
  },
  {
   "property": "C78",
   "status": "proved",
   "theorems": [
    "C78_int",
    "C78_succeeds",
    "C78_builds",
    "C78_consistent",
    "C78_accepted",
    "C78_watch",
    "C78_model",
    "C78_mixed_refuted",
    "C78_flag_refuted"
   ],
   "note": "int() is modelled for ASCII strings and without the limit on the number of digits. C78_model ties the choice to the environment of the main model (e_impl, e_cimpl, e_watch); negative values of ZOPE_WATCH_CHECKERS, which give watching classes that never log, have no counterpart there. Refuted with witnesses: that both extension modules are used or none; that PURE_PYTHON is a flag (an empty value makes the import fail)."
  },
  {
   "property": "C79",
   "status": "proved",
   "theorems": [
    "C79_operations",
    "C79_preserved",
    "C79_functions",
    "C79_adapters",
    "C79_selected",
    "C79_own_object_refuted",
    "C79_own_factory_refuted"
   ],
   "note": "Total correctness for the main model: the theorems of the other claims speak of the outcome at any depth, including the exception that stands for too little depth (EFuel); here it is proved not to occur from some depth on. Hypotheses: application code ends, its results exist, registered factories return a checker, None or NoProxy; ZOPE_WATCH_CHECKERS is not set (no watching checkers, whose repr of the object is one more way to call back). C79_selected removes the disjunct that C12 had to allow. Refuted with witnesses: in the Python build p += p, if __iadd__ returns its argument, and p._wrapped = p make p a proxy of itself, after which hash(p) never returns normally; a factory that returns itself makes selectChecker go on for ever in both builds."
  },
  {
   "property": "C80",
   "status": "proved",
   "theorems": [
    "C80_rights",
    "C80_decisions"
   ],
   "note": "C80_rights covers every operation of the main model in both builds, with and without ZOPE_WATCH_CHECKERS. C80_decisions is for plain, combined and foreign checkers (not watching checkers, whose repr of the object is application code that may differ), for names other than __iter__ (whose answer depends on the value asked for), and for policies whose answers depend on rights only and are not proxies."
  },
  {
   "property": "C81",
   "status": "proved",
   "theorems": [
    "C81_object_slots",
    "C81_inplace",
    "C81_int_slots",
    "C81_text",
    "C81_compare",
    "C81_check",
    "C81_check_slot",
    "C81_check_setattr",
    "C81_proxy"
   ],
   "note": "About CExt.v, the second model of the C code, in which each call into the interpreter is answered by an oracle. hash(), bool() and __length_hint__ are not checked by the C proxy and comparisons neither; of a comparison the result is made a proxy. PyDict_GetItem swallows errors: an error during the lookup counts as a name that is not in the table. If isinstance() fails in selectChecker, the value is returned bare with an exception pending (C69_select_refuted); left_alone includes this case. C81_check assumes that nothing undefined has happened (reading the text of a name that cannot be encoded, see C69_check_refuted). The struct of the proxy is not changed by other code meanwhile."
  },
  {
   "property": "C82",
   "status": "proved",
   "theorems": [
    "C82_traverse",
    "C82_traverse_failure",
    "C82_collector",
    "C82_dealloc",
    "C82_clearing",
    "C82_complete",
    "C82_cycles",
    "C82_cleared_check",
    "C82_cleared_setattr",
    "C82_referrers",
    "C82_referrers_refuted"
   ],
   "note": "The interpreter's collector is modelled by its three phases (subtract_refs, move_unreachable, delete_garbage); other types are assumed to traverse what they hold. SecurityProxyType has no tp_clear and inherits none. Python subclasses of the two types are traversed by the interpreter's subtype_traverse, which is not modelled. Checker_traverse ignores positive answers of the visitor, so gc.get_referrers() never reports a checker (C82_referrers_refuted). In life_step the memory of a new proxy is assumed to be referred to by nobody, and nothing but the extension changes the struct of a proxy."
  },
  {
   "property": "C83",
   "status": "proved",
   "theorems": [
    "C83_proxy",
    "C83_checker",
    "C83_proxy_failures",
    "C83_checker_failures",
    "C83_add_refuted",
    "C83_lost_refuted",
    "C83_twice_refuted"
   ],
   "note": "Three things are not as one would wish, with witnesses: if adding to the module fails, the module is returned with an exception set and a reference is lost (C83_add_refuted); a failed initialisation never gives back the module object (C83_lost_refuted); if importing zope.security.checker initialised the extension a second time, Python and C code would use different lists (C83_twice_refuted) - C84 shows that the package's __init__ prevents that. Theorems about success assume that imported modules do not change the extension's variables (hook); PyType_Ready is one call that succeeds or fails."
  },
  {
   "property": "C84",
   "status": "proved",
   "theorems": [
    "C84_imports",
    "C84_same_objects",
    "C84_once",
    "C84_effects",
    "C84_names",
    "C84_empty_package_refuted",
    "C84_cycle_refuted"
   ],
   "note": "The statements of each module that import or define names, in the order of its text (extracted from the source by a script, checked by hand), executed by a model of the interpreter's import system (sys.modules, parent package first, submodules as attributes, extension modules registered after their initialisation). zope.interface, zope.schema, zope.proxy, zope.location, zope.i18nmessageid and zope.exceptions are assumed to import nothing of this package; zope.component and zope.configuration may take any existing names of modules that come lower in some layering. Both refuted theorems show what the hypotheses are for: an empty __init__.py, and a cycle through metaconfigure.py. Exceptions other than failing imports: C78."
  },
  {
   "property": "C85",
   "status": "proved",
   "theorems": [
    "C85_operations",
    "C85_functions",
    "C85_clients",
    "C85_visible",
    "C85_repr_refuted",
    "C85_canAccess_refuted"
   ],
   "note": "Two processes are compared: one whose checkers are Checker/CombinedChecker objects, one whose checkers are WatchingChecker/WatchingCombinedChecker objects, except those made before the classes are replaced (the default checker with the C implementation, the checker of CheckerPublic). Application code is an arbitrary function of the process; it is required to do the same in both (it could look at the class of a checker). Excluded: proxies of proxies and checks of a proxy itself (the log line's repr() then goes through the inner proxy, C85_canAccess_refuted), operations that replace the object or checker of a Python proxy, the registration of CheckerPublic's own checker for a type in the pure-Python build. Writing to sys.stderr is assumed to succeed."
  },
  {
   "property": "C86",
   "status": "proved",
   "theorems": [
    "C86_slots",
    "C86_int_slots",
    "C86_in_place",
    "C86_compare",
    "C86_str",
    "C86_repr",
    "C86_check_slot",
    "C86_check",
    "C86_check_setattr",
    "C86_select",
    "C86_proxy"
   ],
   "note": "Connects the two models of the C code: CExt.v (pointers, references, one step per statement) and CheckerModel.v/ProxyModel.v (Python objects). The answers (CExtAgreeSpec.v) say what each logged call means: there is memory, texts can be encoded, isinstance() and the lookup in a table do not fail, ints are not negative, the structs of existing proxies are not written meanwhile. The wrapped object has tp_as_number for int() and float() and is an iterator for next() (C69_next_refuted says what happens otherwise). Reflected operators are taken as the interpreter calls them, after the left operand had its turn. Checkers are plain ones; subclasses written in Python do not run this code for check. Each round of the loop in selectChecker corresponds to one recursion of the model, so fuel must suffice for both."
  },
  {
   "property": "C87",
   "status": "proved",
   "theorems": [
    "C87_guarded",
    "C87_mediated",
    "C87_inherited",
    "C87_collected",
    "C87_python_open",
    "C87_python_slots",
    "C87_python_wraps",
    "C87_checker_methods",
    "C87_checker_slots",
    "C87_python_mediated",
    "C87_python_names",
    "C87_types",
    "C87_index_refuted",
    "C87_delete_faults"
   ],
   "note": "Base class (zope.proxy) arbitrary; its Python methods are assumed to carry their own names (well_named), since the wrappers ask for method.__name__. Layouts of the structs and the inheritance of slots by PyType_Ready are CPython's. C87_index_refuted: guardedness of operator.index() on C proxies depends on the base class. C87_delete_faults: `del checker[x]` on a C checker crashes. What each function does after its question is the subject of C69, C81 and C86. Subclasses of proxies are not covered."
  },
  {
   "property": "C88",
   "status": "proved",
   "theorems": [
    "C88_unchanged",
    "C88_functions",
    "C88_clients",
    "C88_revised",
    "C88_granting",
    "C88_can",
    "C88_operations_refuted",
    "C88_tables_refuted"
   ],
   "note": "Application code is compared pointwise on calls (thread, call, state), the final state included. Monotonicity (C88_granting, C88_can) assumes policies without side effects and checkers that do not watch (C85 transports outcomes to watching processes); canAccess of __iter__ on a proxy is left out because it probes the proxy by an operation, and operations are not monotone (C88_operations_refuted)."
  },
  {
   "property": "C89",
   "status": "proved",
   "theorems": [
    "C89_operations",
    "C89_functions",
    "C89_permission_ids",
    "C89_clients",
    "C89_renaming",
    "C89_lookup"
   ],
   "note": "About the use of checkers; constructing them compares permissions by identity (MultiChecker, C09), and protectName and ZCML translate 'zope.Public' (C43, C46). Unauthorized exceptions raised by application code count as carrying a permission, which must correspond."
  },
  {
   "property": "C90",
   "status": "proved",
   "theorems": [
    "C90_hash",
    "C90_hash_refuted",
    "C90_length",
    "C90_read",
    "C90_write",
    "C90_wide",
    "C90_twice",
    "C90_before_refuted",
    "C90_large_refuted",
    "C90_reversed",
    "C90_refused_read",
    "C90_refused_write",
    "C90_refused_length"
   ],
   "note": "True where long is as wide as Py_ssize_t (Unix, macOS, 32-bit machines), for positions not before the start. On 64-bit Windows proxy_hash returns a 32-bit long through a pointer to a function with a 64-bit result, and positions from 2^31 on are truncated (C90_hash_refuted, C90_large_refuted). On all platforms a position before the start of a list is not an IndexError: the length is added twice (C90_before_refuted). The sequence protocol of the interpreter is modelled from Objects/abstract.c and Objects/enumobject.c."
  },
  {
   "property": "C91",
   "status": "proved",
   "theorems": [
    "C91_requests",
    "C91_comparisons_show",
    "C91_comparison_refuted",
    "C91_operators_refuted"
   ],
   "note": "The first sentence is proved. The last one is false: comparisons are not checked and call the method of the client's object with the bare object (C91_comparisons_show for any object that does not implement the comparison, C91_comparison_refuted for a client that is granted nothing); the same happens with operators and `in` once they are granted. Clients without objects of their own are the subject of C16 and C65."
  },
  {
   "property": "C92",
   "status": "proved",
   "theorems": [
    "C92_questions",
    "C92_count",
    "C92_reading",
    "C92_once",
    "C92_python_twice_refuted"
   ],
   "note": "For reading an attribute in the Python build the count is two, and it is reached: when the object does not have the attribute, __getattr__ checks once more after __getattribute__ did (C92_python_twice_refuted), so an auditing policy notes two accesses where the C build makes it one; reads that succeed are asked once in both builds (C92_reading). In-place operators on Python proxies and assignments to the slots of Python proxies are left out (they change the proxy)."
  },
  {
   "property": "C93",
   "status": "proved",
   "theorems": [
    "C93_proxies",
    "C93_isinstance",
    "C93_truthful",
    "C93_same",
    "C93_not_a_proxy",
    "C93_factory",
    "C93_results",
    "C93_registered",
    "C93_believed",
    "C93_unwrap",
    "C93_types_only",
    "C93_class_fails",
    "C93_subclass",
    "C93_protected_refuted",
    "C93_exception_refuted",
    "C93_unwrap_refuted",
    "C93_pending_refuted",
    "C93_subclass_refuted"
   ],
   "note": "The unrestricted property is false. An object whose __class__ is Proxy is left bare by ProxyFactory in both builds and by checker.proxy in the Python build (C93_protected_refuted); one that says it is an Exception and has no registered checker is left bare in the C build (C93_exception_refuted); in the Python build removeSecurityProxy(x) of an object that says it is a Proxy is x._wrapped (C93_unwrap_refuted); an object whose __class__ raises is given out bare, with an exception set, by the C checker (C93_pending_refuted); instances of proper subclasses of Proxy are wrapped again by the C checker (C93_subclass_refuted). These theorems give the exact conditions (C93_factory, C93_results, C93_believed, C93_unwrap). The builtin isinstance, super() and issubclass are CPython's, without metaclass hooks; what PyProxyBase does to an object that is no proxy is arbitrary. How lies affect trusted adapters and decorators is C96."
  },
  {
   "property": "C94",
   "status": "proved",
   "theorems": [
    "C94_compare",
    "C94_transparent",
    "C94_keys",
    "C94_looks",
    "C94_looks_refuted",
    "C94_order_refuted",
    "C94_key_refuted"
   ],
   "note": "For objects that do not return NotImplemented for proxies the answer is theirs (C94_looks), and an object need not equal its own proxy (C94_looks_refuted). If two objects disagree about their order, putting a proxy around the right one changes who is asked (C94_order_refuted). An object that is not equal to itself is found in a dict only through the same proxy (C94_key_refuted). Proxy is assumed to have no subclasses. Comparison methods are functions of their operands, without side effects. In the C build, results that are neither True nor False come as proxies, in the Python build bare."
  },
  {
   "property": "C95",
   "status": "proved",
   "theorems": [
    "C95_isinstance",
    "C95_isinstance_tuple",
    "C95_isinstance_of",
    "C95_issubclass",
    "C95_exceptions",
    "C95_super",
    "C95_class",
    "C95_special",
    "C95_own",
    "C95_dir",
    "C95_format",
    "C95_format_refuted",
    "C95_with_refuted",
    "C95_dir_refuted",
    "C95_isinstance_refuted"
   ],
   "note": "Assumes that operations on proxies give out no bare tuples, dictionaries or types (the registry protects them, C16 and C93), that the classes behind Proxy have none of the special methods in question, and that an explicit metaclass is a type not made from Proxy (a function as metaclass is called with the proxy, as any function could be). C95_dir is for classes whose proxies refuse __dict__, as the checker for types does. The with statement fails even if __enter__ and __exit__ are granted (C95_with_refuted), dir() hides names that can be read (C95_dir_refuted), and isinstance fails even if everything is granted (C95_isinstance_refuted). A format specification is refused even if everything is granted (C95_format_refuted). The interpreter's protocols are written down from CPython, they are not in /repo."
  },
  {
   "property": "C96",
   "status": "proved",
   "theorems": [
    "C96_proxied",
    "C96_protected",
    "C96_left",
    "C96_fails",
    "C96_liar",
    "C96_guarded",
    "C96_adapts",
    "C96_adapts_bare",
    "C96_adapted_refuted",
    "C96_missing_refuted",
    "C96_chosen_refuted"
   ],
   "note": "What is false without restriction: in the Python build a bare object that says it is a Proxy makes a trusted adapter adapt its _wrapped instead (C96_adapted_refuted) and chooses the checker of a decorator around it, where the C build raises TypeError (C96_chosen_refuted); the AttributeError of a decorator without checkers is another exception if the class name cannot be read (C96_missing_refuted). C96_guarded assumes that CombinedChecker can be made from the checkers in question, and names the remaining ways out: the decorator itself says it is a Proxy, or selecting a checker for its type raised. getProxiedObject is the decorator's slot (zope.proxy); location handling is a parameter (C54 has it)."
  },
  {
   "property": "C97",
   "status": "proved",
   "theorems": [
    "C97_names",
    "C97_nameless",
    "C97_once",
    "C97_proxied",
    "C97_bare",
    "C97_untrusted",
    "C97_twice_refuted"
   ],
   "note": "C97_once is for arguments with at most one proxy around them that removeSecurityProxy cannot be misled by (C96): each wrapper takes one proxy off (C97_twice_refuted). Assumes that asking for ILocation and __parent__ changes nothing, and that a parent that was set can be read. For stacks that mix untrusted and trusted factories C97_untrusted goes one layer at a time."
  }
 ]
}