(** * Properties_TypeTables: C87. *)

From Coq Require Import List String Bool Arith ZArith.
From Verif Require Import TypeTables TypeTablesSpec TypeTablesFacts.
From Verif Require CExt.
Import ListNotations.
Open Scope string_scope.

(** In the type of C proxies, whatever the base: behind the slot of an operation stands the
    function that asks for the special method of that operation, of the operand that is a proxy,
    before it applies that operation. *)
Theorem C87_guarded : forall base other f c who meth name api,
  rule f c who meth name api ->
  exists l, call_slot base other f c = Some l /\ asked_first c who meth name api l.
Proof. exact slot_guarded. Qed.
Print Assumptions C87_guarded.
Example C87_guarded_case :
  rule "nb_subtract" granting Other "check" "__rsub__" "PyNumber_Subtract" /\
  call_slot (fun _ => None) forwards "nb_subtract" granting
    = Some [Asked Other "check" "__rsub__"; Did Other "PyNumber_Subtract"].
Proof.
  split; [|reflexivity]. eapply ru_right with (n := "__sub__"); [right; left; reflexivity|reflexivity|reflexivity].
Qed.

(** Nothing else is done to the object: what any function of the type does without a grant is
    comparison, hash or truth, or it is the base's function in a field the tables do not mention. *)
Theorem C87_mediated : forall base other f c l who api,
  In f all_fields -> ~ In f data_fields -> (In f inherited_fields -> base f = None) ->
  call_slot base other f c = Some l -> In (Did who api) l ->
  In f open_slots \/ exists meth name, rule f c who meth name api /\ cx_ok c who meth name = true.
Proof. exact slot_mediated. Qed.
Print Assumptions C87_mediated.
Example C87_mediated_case :
  In "sq_ass_item" all_fields /\ ~ In "sq_ass_item" data_fields /\ ~ In "sq_ass_item" inherited_fields /\
  call_slot forwarding forwards "sq_ass_item" granting
    = Some [Asked Self "check" "__delitem__"; Did Self "PyObject_DelItem"].
Proof.
  rewrite <- !mem_in. repeat split; vm_compute; congruence.
Qed.

(** Which fields those are. *)
Theorem C87_inherited : forall f, In f all_fields ->
  ((forall base, proxy_type base f = base f) <-> In f inherited_fields).
Proof. exact inherited_exactly. Qed.
Print Assumptions C87_inherited.
Example C87_inherited_case : In "nb_matrix_multiply" all_fields /\ In "nb_matrix_multiply" inherited_fields.
Proof. rewrite <- !mem_in. split; reflexivity. Qed.

(** Whatever the base class, proxies take part in garbage collection with the functions that belong
    together: collected memory is handed out by PyType_GenericAlloc and given back to
    PyObject_GC_Del, and the collector is shown the references but cannot clear them (C82). *)
Theorem C87_collected : forall base,
  proxy_type base "tp_flags" = Some "DEFAULT|HAVE_GC|BASETYPE" /\
  proxy_type base "tp_alloc" = Some "PyType_GenericAlloc" /\
  proxy_type base "tp_free" = Some "PyObject_GC_Del" /\
  proxy_type base "tp_traverse" = Some "proxy_traverse" /\
  proxy_type base "tp_dealloc" = Some "proxy_dealloc" /\
  proxy_type base "tp_clear" = None.
Proof. exact proxies_collected. Qed.
Print Assumptions C87_collected.

(** In the class of Python proxies, which its loops fill with methods of the base: the same. *)
Theorem C87_python_mediated : forall base d n c l who api,
  well_named base -> ProxyPy_dict base = Some d ->
  call_special d n c = Some l -> In (Did who api) l ->
  In n py_open \/ n = "__getattribute__" /\ In (cx_attr c) py_open_attributes \/
  who = Self /\ cx_ok c Self (fst (py_question n c)) (snd (py_question n c)) = true.
Proof. exact py_mediated. Qed.
Print Assumptions C87_python_mediated.
Theorem C87_python_names : forall base d n c,
  well_named base -> ProxyPy_dict base = Some d ->
  (exists f rn api, In (f, n, rn, api) binary \/ In (f, rn, n, api) binary) \/
  (exists f api, In (f, n, api) unary) \/ n = "__setitem__" \/ n = "__delitem__" ->
  exists l, call_special d n c = Some l /\ asked_first c Self "check" n n l.
Proof. exact py_names. Qed.
Print Assumptions C87_python_names.

(** The unguarded special methods do the operation of their name and nothing else; the proxy's own
    slots are no way to the object's attributes; everything that is handed back through a guarded
    method is proxied, except a length. *)
Theorem C87_python_open : forall base d n api c, well_named base -> ProxyPy_dict base = Some d ->
  In (n, api) py_open_does -> call_special d n c = Some [Did Self api].
Proof. exact py_open_specials. Qed.
Print Assumptions C87_python_open.
Theorem C87_python_slots : forall base d n c, well_named base -> ProxyPy_dict base = Some d ->
  In n ["__getattribute__"; "__setattr__"; "__delattr__"] -> In (cx_attr c) py_slots ->
  call_special d n c = Some [].
Proof. exact py_slots_private. Qed.
Print Assumptions C87_python_slots.
Theorem C87_python_wraps : forall base d n m w, well_named base -> ProxyPy_dict base = Some d ->
  assoc d n = Some (PyCheckName m w) -> (w = false <-> n = "__len__").
Proof. exact py_wrapping. Qed.
Print Assumptions C87_python_wraps.
Example C87_python_wraps_case : exists d, ProxyPy_dict Some = Some d /\
  assoc d "__len__" = Some (PyCheckName "__len__" false) /\
  assoc d "__call__" = Some (PyCheckName "__call__" true).
Proof. eexists. split; [reflexivity|]. split; reflexivity. Qed.

(** What the class of Python proxies defines and the type of C proxies leaves to its base. *)
Theorem C87_types : forall base d n, well_named base -> ProxyPy_dict base = Some d ->
  (assoc d n <> None /\ ~ c_has n <-> In n ["__reduce__"; "__reduce_ex__"; "__complex__"; "__index__"]) /\
  (c_has n -> assoc d n <> None).
Proof. exact type_difference. Qed.
Print Assumptions C87_types.
Example C87_python_case : exists d, well_named Some /\ ProxyPy_dict Some = Some d /\
  call_special d "__rsub__" granting = Some [Asked Self "check" "__rsub__"; Did Self "__rsub__"].
Proof. eexists. split; [intros n m H; injection H; auto|]. split; reflexivity. Qed.

(** So "every operation but comparison, hash and truth is guarded" depends on the base class: if it
    forwards [__index__], operator.index() of a C proxy is not checked, unlike int() and unlike
    operator.index() of a Python proxy. *)
Theorem C87_index_refuted : exists base other c,
  (forall who meth name, cx_ok c who meth name = false) /\
  call_slot base other "nb_index" c = Some [Did Self "PyNumber_Index"] /\
  call_slot base other "nb_int" c = Some [Asked Self "check" "__int__"] /\
  exists d, ProxyPy_dict Some = Some d /\ call_special d "__index__" c = Some [Asked Self "check" "__index__"].
Proof. exact (ex_intro _ forwarding (ex_intro _ forwards (ex_intro _ refusing (conj (fun _ _ _ => eq_refl) index_open)))). Qed.
Print Assumptions C87_index_refuted.

(** The type of C checkers: its methods, exactly; checker[object] is checker.proxy(object), and
    checker[object] = name is checker.check(object, name). *)
Theorem C87_checker_methods : forall m f, checker_method m = Some f <-> In (m, f) checker_offers.
Proof. exact checker_methods_exactly. Qed.
Print Assumptions C87_checker_methods.
Theorem C87_checker_slots : forall base,
  checker_type base "mp_subscript" = Some "Checker_proxy" /\
  checker_type base "mp_ass_subscript" = Some "Checker_check_int" /\
  checker_type base "tp_flags" = Some "DEFAULT|BASETYPE|HAVE_GC" /\
  checker_type base "tp_traverse" = Some "Checker_traverse" /\
  checker_type base "tp_clear" = Some "Checker_clear" /\
  checker_type base "tp_dealloc" = Some "Checker_dealloc" /\
  checker_type base "tp_init" = Some "Checker_init" /\
  checker_type base "tp_new" = Some "PyType_GenericNew" /\
  checker_type base "tp_getattro" = base "tp_getattro".
Proof. exact checker_slots. Qed.
Print Assumptions C87_checker_slots.

(** C checkers use item assignment for check(); item deletion reaches the same function without a
    name, which it does not expect: undefined behaviour, whatever the checker and the object. *)
Theorem C87_delete_faults : forall oracle args is_str char0 char1 is_iter self object s,
  exists i s', Checker_ass_subscript oracle args is_str char0 char1 is_iter self object None s = Some (i, s') /\
    CExt.fault s' = true.
Proof. exact delete_faults. Qed.
Print Assumptions C87_delete_faults.
