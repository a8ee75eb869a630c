(** * Property C79: using proxies comes to an end. *)

From Coq Require Import List String Bool Arith ZArith Lia.
From Verif Require Import Base Domain CheckerModel ProxyModel Adapter MFacts Spec RegSpec Witness
  EndsSpec EndsFacts EndsExamples.
Import ListNotations.
Open Scope string_scope.

(** ** C79 *)

(** Whatever is done with a proxy, however deeply nested: if application code comes to an end
    so does the whole, in both builds, with an outcome that does not depend on the depth of
    recursion. *)
Theorem C79_operations :
  forall E s o, e_watch E = 0 -> tame E -> founded s -> ends (fun f => perform E f o) s.
Proof. intros E s o HW HT F. exact (ends_op E HW HT Client o s F). Qed.
Print Assumptions C79_operations.

(** Afterwards things are as before, so that this can be repeated, and the result is a new or
    an existing object: for all operations but those that replace the object of a proxy. *)
Theorem C79_preserved :
  forall E s o, e_watch E = 0 -> tame E -> founded s -> keeps_proxies E s o ->
    ends_with (fun f => perform E f o) s
      (fun r s' => founded s' /\ st_next s <= st_next s' /\ forall v, r = Ok v -> known s' v).
Proof. intros E s o HW HT F K. exact (endg_op E HW HT Client o s F K). Qed.
Print Assumptions C79_preserved.

(** So do the methods of checkers and the functions of checker.py. *)
Theorem C79_functions :
  forall E s, e_watch E = 0 -> tame E -> founded s ->
    (forall m c obj n, ends_with (fun f => do_check E f m c obj n) s (fun _ s' => founded s')) /\
    (forall obj, ends_with (fun f => do_select E f obj) s (fun _ s' => founded s')) /\
    (forall obj c, known s obj -> known s c ->
       ends_with (fun f => do_ProxyFactory E f obj c) s
         (fun r s' => founded s' /\ forall v, r = Ok v -> known s' v)) /\
    (forall c v, known s v ->
       ends_with (fun f => do_proxy E f c v) s
         (fun r s' => founded s' /\ forall v, r = Ok v -> known s' v)) /\
    (forall obj n, known s obj ->
       ends_with (fun f => do_canAccess E f obj n) s (fun _ s' => founded s') /\
       ends_with (fun f => do_canWrite E f obj n) s (fun _ s' => founded s')).
Proof. exact functions_end_lemma. Qed.
Print Assumptions C79_functions.

(** And the adapter factories. *)
Theorem C79_adapters :
  forall E s factory args, e_watch E = 0 -> tame E -> founded s -> Forall (known s) args ->
    (forall k, ends_with (fun f => do_trusted E f k factory args) s
       (fun r s' => founded s' /\ forall v, r = Ok v -> known s' v)) /\
    ends_with (fun f => do_untrusted E f factory args) s
      (fun r s' => founded s' /\ forall v, r = Ok v -> known s' v).
Proof. exact adapters_end_lemma. Qed.
Print Assumptions C79_adapters.

(** A checker is selected as C12 says: the exception made there, for lack of depth, does not
    happen. *)
Theorem C79_selected :
  forall E s obj, tame E -> founded s -> no_proxied_factories E s ->
    ends_with (fun f => do_select E f obj) s (fun r s' => exists t, SelectChecker E s obj r s' t).
Proof. intros E s obj HT. exact (select_ends_lemma E HT obj s). Qed.
Print Assumptions C79_selected.

(** ** Examples *)

Example C79_example :
  (forall b, tame (wenv_run b tame_run)) /\ founded with_factory /\
  (forall b, ends (fun f => perform (wenv_run b tame_run) f (OGetattr (VProxy 42) "foo" None)) with_factory) /\
  (forall b, fst (fst (perform (wenv_run b tame_run) 20 (OLen (VProxy 42)) with_factory)) = Ok (VInt 1) /\
             fst (fst (perform (wenv_run b tame_run) 2 (OLen (VProxy 42)) with_factory)) = Exc EFuel) /\
  (forall b, fst (fst (do_select (wenv_run b tame_run) 9 (VObj 5) with_factory)) = Ok (Some (VChk 10))).
Proof.
  split; [exact tame_run_tame|]. split; [exact with_factory_founded|].
  split.
  { intros b. apply C79_operations; [reflexivity|apply tame_run_tame|exact with_factory_founded]. }
  split; [intros b; destruct b; split; reflexivity|]. intros b; destruct b; reflexivity.
Qed.
Print Assumptions C79_example.

(** ** What does not hold *)

(** Python proxies only: [p += p] makes [p] a proxy of itself if the object's __iadd__ returns
    its argument, and so does [p._wrapped = p], which needs no permission.  From then on
    operations on [p] recur without end. *)
Theorem C79_own_object_refuted :
  exists E s, e_impl E = ImplPy /\ e_watch E = 0 /\ tame E /\ founded s /\
    forall o, In o [OIn IAdd (VProxy 40) (VProxy 40); OSetattr (VProxy 40) "_wrapped" (VProxy 40)] ->
    exists r s' t, (forall f, 9 <= f -> perform E f o s = (Ok r, s', t)) /\
      forall f, fst (fst (perform E f (OHash (VProxy 40)) s')) = Exc EFuel.
Proof. exact own_object. Qed.
Print Assumptions C79_own_object_refuted.

(** A factory that returns itself: selecting a checker for an object of the type goes on for
    ever, in both builds (there it is a loop, not a recursion). *)
Theorem C79_own_factory_refuted :
  forall b, exists E s, e_cimpl E = b /\ e_watch E = 0 /\ founded s /\
    (forall c s r s', e_run E (e_tid E) c s = (r, s') -> s' = s /\ exists v, r = Ok v) /\
    forall f, fst (fst (do_select E f (VObj 5) s)) = Exc EFuel.
Proof. exact own_factory. Qed.
Print Assumptions C79_own_factory_refuted.
