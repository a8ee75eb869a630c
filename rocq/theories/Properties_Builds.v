(** * Properties_Builds: the C and the Python implementation compared (C26). *)

From Coq Require Import List String Bool Arith ZArith.
From Verif Require Import Base Domain CheckerModel ProxyModel Spec RegSpec ProxySpec
     MediationSpec Witness BuildSpec BuildProps.
Import ListNotations.
Open Scope string_scope.

(** ** C26: all builds give the same outcome

    The Python build is compared with the builds that have C proxies and the checkers of
    [cb]: C checkers, or Python checkers if only that extension module is missing. *)

(** [ordinary] and [ordinary_code] (BuildSpec) say: checkers have string or CheckerPublic
    permissions and are Checker or CombinedChecker instances; proxies wrap application
    objects; None and booleans are registered as not to be wrapped (as the package does at
    import); exception classes in use have checkers; application code does not look at
    calling frames, has well-behaved [__Security_checker__] and [__iter__], and
    comparisons that give booleans.  Apart from that states, objects, policies and
    application code are arbitrary.  The recursion budget is the same in both builds; if
    the Python run exhausts it nothing is said. *)

(** Checking an access with any checker object. *)
Theorem C26_checks :
  forall E cb, e_watch E = 0 -> ordinary_code E -> forall f m c obj n s,
    ordinary E s -> n <> "__iter__" \/ plain_object obj ->
    ~ out_of_fuel (do_check (build ImplPy E) f m c obj n s) ->
    same_outcome (do_check (build ImplPy E) f m c obj n s)
                 (do_check (builds ImplC cb E) f m c obj n s).
Proof. exact checks_lemma. Qed.
Print Assumptions C26_checks.

(** selectChecker. *)
Theorem C26_select :
  forall E cb, e_watch E = 0 -> ordinary_code E -> forall f obj s,
    ordinary E s -> ~ out_of_fuel (do_select (build ImplPy E) f obj s) ->
    same_outcome (do_select (build ImplPy E) f obj s) (do_select (builds ImplC cb E) f obj s).
Proof. exact select_lemma. Qed.
Print Assumptions C26_select.

(** The proxy method of checkers. *)
Theorem C26_proxy :
  forall E cb, e_watch E = 0 -> ordinary_code E -> forall f c v s,
    ordinary E s -> (forall d, v <> VDeco d) ->
    ~ out_of_fuel (do_proxy (build ImplPy E) f c v s) ->
    same_outcome (do_proxy (build ImplPy E) f c v s) (do_proxy (builds ImplC cb E) f c v s).
Proof. exact proxy_lemma. Qed.
Print Assumptions C26_proxy.

(** ProxyFactory, with or without a checker. *)
Theorem C26_factory :
  forall E cb, e_watch E = 0 -> ordinary_code E -> forall f obj c s,
    ordinary E s -> (forall d, obj <> VDeco d) ->
    ~ out_of_fuel (do_ProxyFactory (build ImplPy E) f obj c s) ->
    same_outcome (do_ProxyFactory (build ImplPy E) f obj c s)
                 (do_ProxyFactory (builds ImplC cb E) f obj c s).
Proof. exact factory_lemma. Qed.
Print Assumptions C26_factory.

(** canAccess. *)
Theorem C26_canAccess :
  forall E cb, e_watch E = 0 -> ordinary_code E -> forall f obj n s,
    ordinary E s -> (forall d, obj <> VDeco d) -> n <> "__iter__" ->
    ~ out_of_fuel (do_canAccess (build ImplPy E) f obj n s) ->
    same_outcome (do_canAccess (build ImplPy E) f obj n s)
                 (do_canAccess (builds ImplC cb E) f obj n s).
Proof. exact canAccess_lemma. Qed.
Print Assumptions C26_canAccess.

(** canWrite. *)
Theorem C26_canWrite :
  forall E cb, e_watch E = 0 -> ordinary_code E -> forall f obj n s,
    ordinary E s -> (forall d, obj <> VDeco d) -> n <> "__iter__" ->
    ~ out_of_fuel (do_canWrite (build ImplPy E) f obj n s) ->
    same_outcome (do_canWrite (build ImplPy E) f obj n s)
                 (do_canWrite (builds ImplC cb E) f obj n s).
Proof. exact canWrite_lemma. Qed.
Print Assumptions C26_canWrite.

(** Operations on proxies and on other objects. *)
Theorem C26_operations :
  forall E cb, e_watch E = 0 -> ordinary_code E -> forall f o s,
    ordinary E s -> common_op o ->
    ~ out_of_fuel (perform (build ImplPy E) f o s) ->
    same_outcome (perform (build ImplPy E) f o s) (perform (builds ImplC cb E) f o s).
Proof. exact operations_lemma. Qed.
Print Assumptions C26_operations.

(** Item assignment, item deletion and membership, for proxies with a package checker. *)
Theorem C26_items :
  forall E cb, e_watch E = 0 -> ordinary_code E -> forall f o p w c s,
    ordinary E s -> item_of o = Some p -> st_prox s p = Some (w, VChk c) ->
    ~ out_of_fuel (perform (build ImplPy E) f o s) ->
    same_outcome (perform (build ImplPy E) f o s) (perform (builds ImplC cb E) f o s).
Proof. exact items_lemma. Qed.
Print Assumptions C26_items.

(** Attribute access that succeeds. *)
Theorem C26_getattr :
  forall E cb, e_watch E = 0 -> ordinary_code E -> forall f p n fr s v,
    ordinary E s -> common_name n ->
    fst (fst (perform (build ImplPy E) f (OGetattr (VProxy p) n fr) s)) = Ok v ->
    same_outcome (perform (build ImplPy E) f (OGetattr (VProxy p) n fr) s)
                 (perform (builds ImplC cb E) f (OGetattr (VProxy p) n fr) s).
Proof. exact getattr_lemma. Qed.
Print Assumptions C26_getattr.

(** Attribute access that fails in C fails in Python too, with the same exception unless
    it is an AttributeError (then the Python proxy asks again, see below). *)
Theorem C26_getattr_errors :
  forall E cb, e_watch E = 0 -> ordinary_code E -> forall f p n fr s r1 s1 t1 e2 s2 t2,
    ordinary E s -> common_name n ->
    perform (build ImplPy E) f (OGetattr (VProxy p) n fr) s = (r1, s1, t1) ->
    perform (builds ImplC cb E) f (OGetattr (VProxy p) n fr) s = (Exc e2, s2, t2) ->
    r1 <> Exc EFuel ->
    (exists e1, r1 = Exc e1) /\
    (~ attribute_error e2 -> r1 = Exc e2 /\ s1 = s2 /\ same_trace t1 t2).
Proof. exact getattr_error_lemma. Qed.
Print Assumptions C26_getattr_errors.

(** Whole programs: whatever a client does with the results, it sees the same. *)
Theorem C26_programs :
  forall E cb, e_watch E = 0 -> ordinary_code E -> forall f c s h s' t,
    ordinary E s ->
    Runs (build ImplPy E) (S (S (S f))) (fun s o r => comparable s o r /\ r <> Exc EFuel)
         c s h s' t ->
    exists t', Runs (builds ImplC cb E) (S (S (S f))) (fun _ _ _ => True) c s h s' t' /\
               same_trace t t'.
Proof. exact programs_lemma. Qed.
Print Assumptions C26_programs.

(** The hypotheses can be met: an environment, a state and a program of six steps. *)
Example C26_example :
  e_watch common_env = 0 /\ ordinary_code common_env /\ ordinary common_env b_state /\
  exists s' t,
    Runs (build ImplPy common_env) 9 (fun s o r => comparable s o r /\ r <> Exc EFuel)
      b_client b_state
      [(OGetattr (VProxy 40) "foo" None, Ok (VProxy 50));
       (OCmp CEq (VProxy 50) (VProxy 50), Ok (VBool true));
       (OSetitem (VProxy 40) (VBool true) (VProxy 50), Ok VNone);
       (OSetattr (VProxy 40) "foo" (VBool true), Ok VNone);
       (OGetattr (VProxy 40) "secret" None, Exc (EForbidden "secret" (VObj 5)));
       (ODelattr (VProxy 40) "baz", Exc (EForbidden "baz" (VObj 5)))]
      s' t.
Proof.
  split; [reflexivity|]. split; [exact common_code|]. split; [exact b_state_ordinary|].
  exact b_client_runs.
Qed.

(** ** Differences: what [ordinary], [ordinary_code], [common_op] and [common_name] exclude *)

(** Assigning [_wrapped]: the Python proxy can be pointed at another object. *)
Theorem C26_internal_refuted :
  exists E s p x, e_watch E = 0 /\ ordinary_code E /\ ordinary E s /\
    result ImplPy E (OSetattr (VProxy p) "_wrapped" x) s = Ok VNone /\
    exists n w, result ImplC E (OSetattr (VProxy p) "_wrapped" x) s = Exc (EForbidden n w).
Proof. exact internal_refuted. Qed.
Print Assumptions C26_internal_refuted.

(** Reading [__cmp__] is not checked by the Python proxy. *)
Theorem C26_cmp_read_refuted :
  exists E s p v, e_watch E = 0 /\ ordinary_code E /\ ordinary E s /\
    result ImplPy E (OGetattr (VProxy p) "__cmp__" None) s = Ok v /\
    exists n w, result ImplC E (OGetattr (VProxy p) "__cmp__" None) s = Exc (EForbidden n w).
Proof. exact cmp_read_refuted. Qed.
Print Assumptions C26_cmp_read_refuted.

(** In-place operators. *)
Theorem C26_inplace_refuted :
  exists E s p x, e_watch E = 0 /\ ordinary_code E /\ ordinary E s /\ is_proxy x = false /\
    result ImplPy E (OIn IAdd (VProxy p) x) s <> result ImplC E (OIn IAdd (VProxy p) x) s.
Proof. exact inplace_refuted. Qed.
Print Assumptions C26_inplace_refuted.

(** An exception of the object's own [__str__] is hidden by the Python proxy. *)
Theorem C26_str_refuted :
  exists E s p txt e, e_watch E = 0 /\ ordinary_code E /\ ordinary E s /\
    result ImplPy E (OStr (VProxy p)) s = Ok (VStr txt) /\
    result ImplC E (OStr (VProxy p)) s = Exc e.
Proof. exact str_refuted. Qed.
Print Assumptions C26_str_refuted.

(** An AttributeError raised inside [__length_hint__] is hidden by the C proxy. *)
Theorem C26_length_hint_refuted :
  exists E s p n, e_watch E = 0 /\ ordinary_code E /\ ordinary E s /\
    result ImplPy E (OLenHint (VProxy p)) s = Exc (EAttribute n) /\
    result ImplC E (OLenHint (VProxy p)) s = Ok VNotImpl.
Proof. exact length_hint_refuted. Qed.
Print Assumptions C26_length_hint_refuted.

(** [pow(x, y, proxy)] consults only a C proxy. *)
Theorem C26_pow_refuted :
  exists E s p x y msg n w, e_watch E = 0 /\ ordinary_code E /\ ordinary E s /\
    result ImplPy E (OPow3 x y (VProxy p)) s = Exc (EType msg) /\
    result ImplC E (OPow3 x y (VProxy p)) s = Exc (EForbidden n w).
Proof. exact pow_refuted. Qed.
Print Assumptions C26_pow_refuted.

(** A permitted but missing attribute: the Python proxy asks the policy twice. *)
Theorem C26_asked_twice_refuted :
  exists E s p n, e_watch E = 0 /\ ordinary_code E /\ ordinary E s /\ common_name n /\
    asks ImplPy E (OGetattr (VProxy p) n None) s = 2 /\
    asks ImplC E (OGetattr (VProxy p) n None) s = 1.
Proof. exact asked_twice_refuted. Qed.
Print Assumptions C26_asked_twice_refuted.

(** Tables with None as permission. *)
Theorem C26_none_entry_refuted :
  exists E s p n, e_watch E = 0 /\ ordinary_code E /\
    In (n, PNone) (st_dicts s 20) /\
    result ImplPy E (OGetattr (VProxy p) n None) s <>
    result ImplC E (OGetattr (VProxy p) n None) s.
Proof. exact none_entry_refuted. Qed.
Print Assumptions C26_none_entry_refuted.

(** Exceptions whose class has no checker leave a C proxy unwrapped. *)
Theorem C26_exceptions_refuted :
  exists E s p n q v, e_watch E = 0 /\ ordinary_code E /\
    (forall T, e_isexc E T = true -> dget rkey_eqb (st_reg s) (KType T) = None) /\
    result ImplPy E (OGetattr (VProxy p) n None) s = Ok (VProxy q) /\
    result ImplC E (OGetattr (VProxy p) n None) s = Ok v /\ is_proxy v = false.
Proof. exact exceptions_refuted. Qed.
Print Assumptions C26_exceptions_refuted.

(** [__Security_checker__ = None] is an error in C only. *)
Theorem C26_own_none_refuted :
  exists E s p n q msg, e_watch E = 0 /\ ordinary E s /\
    (forall t v fr s0, e_run E t (CallOp (OGetattr v "__Security_checker__" fr)) s0
                       = (Ok VNone, s0)) /\
    result ImplPy E (OGetattr (VProxy p) n None) s = Ok (VProxy q) /\
    result ImplC E (OGetattr (VProxy p) n None) s = Exc (EValue msg).
Proof. exact own_none_refuted. Qed.
Print Assumptions C26_own_none_refuted.

(** Errors in looking up [__Security_checker__] are ignored by C. *)
Theorem C26_own_error_refuted :
  exists E s p n q e, e_watch E = 0 /\ ordinary E s /\ ~ attribute_error e /\
    result ImplPy E (OGetattr (VProxy p) n None) s = Exc e /\
    result ImplC E (OGetattr (VProxy p) n None) s = Ok (VProxy q).
Proof. exact own_error_refuted. Qed.
Print Assumptions C26_own_error_refuted.

(** Comparison results that are not booleans are wrapped by C only. *)
Theorem C26_comparison_refuted :
  exists E s p x q v, e_watch E = 0 /\ ordinary E s /\ is_proxy v = false /\
    result ImplPy E (OCmp CEq (VProxy p) x) s = Ok v /\
    result ImplC E (OCmp CEq (VProxy p) x) s = Ok (VProxy q).
Proof. exact comparison_refuted. Qed.
Print Assumptions C26_comparison_refuted.

(** Errors in looking up [__iter__] are ignored by C. *)
Theorem C26_iter_refuted :
  exists E s c obj e, e_watch E = 0 /\ ordinary E s /\ ~ attribute_error e /\
    fst (fst (do_check (build ImplPy E) 9 MCheck c obj "__iter__" s)) = Exc e /\
    fst (fst (do_check (build ImplC E) 9 MCheck c obj "__iter__" s)) = Ok tt.
Proof. exact iter_refuted. Qed.
Print Assumptions C26_iter_refuted.
