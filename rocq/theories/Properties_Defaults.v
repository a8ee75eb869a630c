(** * Properties_Defaults: the registry made at import (C14, C63, C70). *)

From Coq Require Import List String Bool Arith ZArith.
From Verif Require Import Base Domain CheckerModel ProxyModel Spec RegSpec Witness
  ProxySpec ProxyOps SessionSpec FactorySpec Defaults DefaultsSpec DefaultsProps.
Import ListNotations.
Open Scope string_scope.

(** ** C14: proxied built-in objects are read-only *)

(** Importing the package always succeeds and creates no proxy; the registry is exactly the
    documented one: the types of the built-in containers and iterators, of functions and
    classes, decimals, interfaces and declarations have checkers that let everybody read the
    listed names and nothing else; the rocks, proxies and what [providedBy] returns are not
    wrapped; modules have the module function, whose checker has the one name [__name__];
    no other type has an entry. *)
Theorem C14_default_registry :
  forall E pf s,
    e_watch E = 0 -> 3 <= st_next s ->
    exists d s1, import_checker E pf s = (Ok d, s1, []) /\ st_prox s1 = st_prox s /\
      (forall T ns, Readable pf T ns \/ In (T, ns) (code_reads ++ other_reads pf)%list ->
         exists c, dget rkey_eqb (st_reg s1) (KType T) = Some c /\ reads_only s1 c ns) /\
      (forall T, In T (rock_types pf) \/ In T bare_types ->
         dget rkey_eqb (st_reg s1) (KType T) = Some VNoProxy) /\
      (forall T c, dget rkey_eqb (st_reg s1) (KType T) = Some c ->
         (c = VNoProxy /\ (In T (rock_types pf) \/ In T bare_types)) \/
         (T = "module" /\ c = VModFun) \/
         exists ns, reads_only s1 c ns /\
                    (Readable pf T ns \/ In (T, ns) (code_reads ++ other_reads pf)%list)) /\
      reads_only s1 (VChk named_cid) ["__name__"].
Proof. exact default_registry_lemma. Qed.
Print Assumptions C14_default_registry.

(** Whatever happened since the import and whatever happens after the proxy was made, in
    any thread, under any policy: an operation that needs a mutating method of a proxied
    container or iterator, or writes, is refused, and nothing else happens. *)
Theorem C14_no_mutation :
  forall pf E0 s0 d s1 t1 Env other,
    e_watch E0 = 0 -> 3 <= st_next s0 -> import_checker E0 pf s0 = (Ok d, s1, t1) ->
    respectful (st_next s1) Env other ->
    forall E f w s2 s3 ns,
    History Env other s1 s2 -> Env E -> Own E s2 w VNone s3 ->
    Readable pf (concrete_type E s3 w) ns -> still_default s1 s3 (concrete_type E s3 w) ->
    exists p s4 t4, do_ProxyFactory E (S (S f)) w VNone s2 = (Ok (VProxy p), s4, t4) /\
    forall E5 f5 o n a s5,
      History Env other s4 s5 -> Env E5 -> guard_of (e_impl E5) o = Some (p, n, a) ->
      (a = Write \/ mutator (concrete_type E s3 w) n) ->
      perform E5 (S (S (S f5))) o s5 = (Exc (EForbidden n w), s5, []).
Proof. exact no_mutation_lemma. Qed.
Print Assumptions C14_no_mutation.

(** The same for every type with a checker of its own and for modules, and for every name
    that is not listed (the always available ones aside). *)
Theorem C14_only_listed :
  forall pf E0 s0 d s1 t1 Env other,
    e_watch E0 = 0 -> 3 <= st_next s0 -> import_checker E0 pf s0 = (Ok d, s1, t1) ->
    respectful (st_next s1) Env other ->
    forall E f w s2 s3 ns,
    History Env other s1 s2 -> Env E -> Own E s2 w VNone s3 -> DefaultProtected E s1 s3 w ns ->
    exists p s4 t4, do_ProxyFactory E (S (S f)) w VNone s2 = (Ok (VProxy p), s4, t4) /\
    forall E5 f5 o n a s5,
      History Env other s4 s5 -> Env E5 -> guard_of (e_impl E5) o = Some (p, n, a) ->
      (a = Write \/ (~ In n ns /\ ~ always_available n /\ n <> "__iter__")) ->
      perform E5 (S (S (S f5))) o s5 = (Exc (EForbidden n w), s5, []).
Proof. exact only_listed_lemma. Qed.
Print Assumptions C14_only_listed.

(** No attribute of such an object is set or deleted: the operation is refused and runs no
    code at all. (The Python proxy's own two slots are those of the proxy, see C17.) *)
Theorem C14_attributes :
  forall pf E0 s0 d s1 t1 Env other,
    e_watch E0 = 0 -> 3 <= st_next s0 -> import_checker E0 pf s0 = (Ok d, s1, t1) ->
    respectful (st_next s1) Env other ->
    forall E f w s2 s3 ns,
    History Env other s1 s2 -> Env E -> Own E s2 w VNone s3 -> DefaultProtected E s1 s3 w ns ->
    exists p s4 t4, do_ProxyFactory E (S (S f)) w VNone s2 = (Ok (VProxy p), s4, t4) /\
    forall E5 f5 o n s5 r s6 tr,
      History Env other s4 s5 -> Env E5 ->
      ((exists v, o = OSetattr (VProxy p) n v) \/ o = ODelattr (VProxy p) n) ->
      perform E5 (S (S (S f5))) o s5 = (r, s6, tr) ->
      tr = [] /\
      (r = Exc (EForbidden n w) \/ (e_impl E5 = ImplPy /\ internal_name n)).
Proof. exact attributes_lemma. Qed.
Print Assumptions C14_attributes.

(** The listed names are public: the check passes without asking anybody, and the
    operation reaches the object. *)
Theorem C14_reads :
  forall pf E0 s0 d s1 t1 Env other,
    e_watch E0 = 0 -> 3 <= st_next s0 -> import_checker E0 pf s0 = (Ok d, s1, t1) ->
    respectful (st_next s1) Env other ->
    forall E f w s2 s3 ns,
    History Env other s1 s2 -> Env E -> plain_object w ->
    Own E s2 w VNone s3 -> DefaultProtected E s1 s3 w ns ->
    exists p s4 t4, do_ProxyFactory E (S (S f)) w VNone s2 = (Ok (VProxy p), s4, t4) /\
    forall E5 f5 o n s5 r s6 tr,
      History Env other s4 s5 -> Env E5 -> guard_of (e_impl E5) o = Some (p, n, Read) ->
      In n ns -> n <> "__Security_checker__" -> other_operands_plain o ->
      perform E5 (S (S (S f5))) o s5 = (r, s6, tr) ->
      (exists c, st_prox s5 p = Some (w, c) /\
         forall m, m <> MSetattr -> do_check E5 (S (S f5)) m c w n s5 = (Ok tt, s5, [])) /\
      reached (e_impl E5) (e_tid E5) (Invoked E5 (S (S f5))) p o w (client_calls tr).
Proof. exact reads_lemma. Qed.
Print Assumptions C14_reads.

(** The hypotheses of these theorems hold for object 5, a dict, in a program whose code
    leaves the state alone; item assignment and [update] are refused, reading an item
    reaches the dict. *)
Example C14_example b :
  let E := typed_env b quiet_run in
  respectful (st_next imported) (fun E' => E' = E) eq /\
  Own E imported (VObj 5) VNone imported /\
  Readable some_platform "dict"
    [ "__contains__"; "__getitem__"; "__iter__"; "__len__"; "__str__";
      "copy"; "get"; "has_key"; "items"; "iteritems"; "iterkeys"; "itervalues";
      "keys"; "values" ] /\
  Readable some_platform "odict_iterator" iterator_reads /\
  let made := do_ProxyFactory E 3 (VObj 5) VNone imported in
  let s4 := snd (fst made) in
  let p := VProxy (st_next imported) in
  let result := fun o => let '(r, _, tr) := perform E 4 o s4 in (r, tr) in
  fst (fst made) = Ok p /\
  result (OSetitem p (VInt 1) (VInt 2)) = (Exc (EForbidden "__setitem__" (VObj 5)), []) /\
  result (OGetattr p "update" None) = (Exc (EForbidden "update" (VObj 5)), []) /\
  result (OSetattr p "x" VNone) = (Exc (EForbidden "x" (VObj 5)), []).
Proof.
  intros E. split; [|split; [|split; [|split]]].
  - split.
    + intros E' ->. split; [reflexivity|]. split.
      * intros t c s r s' H. unfold E, typed_env in H. simpl in H.
        apply quiet_same in H. subst s'. split; auto.
      * intros t c s r s' H HN. unfold E, typed_env in H. simpl in H.
        apply quiet_same in H. subst s'. auto.
    + intros s s' -> HN. auto.
  - eapply Own_missing; simpl; auto; reflexivity.
  - left. left. reflexivity.
  - right. split; [|reflexivity]. right. split; [left; reflexivity|].
    split; vm_compute; intuition discriminate.
  - destruct b; vm_compute; repeat split; reflexivity.
Qed.

(** ** C63: what is obtained through a proxied container *)

(** What a client reaches from a proxied dict by public methods need not be protected: the
    views returned by [values()], [keys()] and [items()] are not wrapped, and what is taken
    out of a view is the bare object, although the same object taken out of the dict by
    subscription is wrapped. Both builds. *)
Theorem C63_dict_views_refuted :
  forall b, exists s1 t1 q s2 t2 s3 t3 s4 t4 s5 t5 p' s6 t6,
    let E := typed_env b dict_run in
    let p := VProxy (st_next imported) in
    do_ProxyFactory E 3 (VObj 5) VNone imported = (Ok p, s1, t1) /\
    perform E 4 (OGetattr p "values" None) s1 = (Ok (VProxy q), s2, t2) /\
    perform E 4 (OCall (VProxy q) []) s2 = (Ok (VObj 7), s3, t3) /\
    perform E 4 (OIter (VObj 7)) s3 = (Ok (VObj 8), s4, t4) /\
    perform E 4 (ONext (VObj 8)) s4 = (Ok (VObj 9), s5, t5) /\
    do_select E 4 (VObj 9) s5 = (Ok (Some (VChk default_cid)), s5, []) /\
    perform E 4 (OGetitem p (VInt 1)) s5 = (Ok (VProxy p'), s6, t6) /\
    st_prox s6 p' = Some (VObj 9, VChk default_cid).
Proof. exact dict_views_lemma. Qed.
Print Assumptions C63_dict_views_refuted.

(** ** C70: code is opaque *)

(** A proxied function, method, class or weak reference gives away none of its internals and
    accepts no assignment, whatever happened since the import and whatever happens later, in
    any thread and under any policy; and a proxied class cannot be instantiated. *)
Theorem C70_opaque :
  forall pf E0 s0 d s1 t1 Env other,
    e_watch E0 = 0 -> 3 <= st_next s0 -> import_checker E0 pf s0 = (Ok d, s1, t1) ->
    respectful (st_next s1) Env other ->
    forall E f w s2 s3 ns,
    History Env other s1 s2 -> Env E -> Own E s2 w VNone s3 ->
    In (concrete_type E s3 w, ns) code_reads -> still_default s1 s3 (concrete_type E s3 w) ->
    exists p s4 t4, do_ProxyFactory E (S (S f)) w VNone s2 = (Ok (VProxy p), s4, t4) /\
    forall E5 f5 o n a s5,
      History Env other s4 s5 -> Env E5 -> guard_of (e_impl E5) o = Some (p, n, a) ->
      (a = Write \/ In n code_internals \/
       (In (concrete_type E s3 w) ["type"; "ABCMeta"] /\ n = "__call__")) ->
      perform E5 (S (S (S f5))) o s5 = (Exc (EForbidden n w), s5, []).
Proof. exact code_opaque_lemma. Qed.
Print Assumptions C70_opaque.

(** Functions, methods and weak references can be called by everybody: the call always
    reaches the function. *)
Theorem C70_call :
  forall pf E0 s0 d s1 t1 Env other,
    e_watch E0 = 0 -> 3 <= st_next s0 -> import_checker E0 pf s0 = (Ok d, s1, t1) ->
    respectful (st_next s1) Env other ->
    forall E f w s2 s3 ns,
    History Env other s1 s2 -> Env E -> plain_object w -> Own E s2 w VNone s3 ->
    In (concrete_type E s3 w, ns) code_reads ->
    ~ In (concrete_type E s3 w) ["type"; "ABCMeta"] ->
    still_default s1 s3 (concrete_type E s3 w) ->
    exists p s4 t4, do_ProxyFactory E (S (S f)) w VNone s2 = (Ok (VProxy p), s4, t4) /\
    forall E5 f5 args s5 r s6 tr,
      History Env other s4 s5 -> Env E5 ->
      perform E5 (S (S (S f5))) (OCall (VProxy p) args) s5 = (r, s6, tr) ->
      reached (e_impl E5) (e_tid E5) (Invoked E5 (S (S f5))) p (OCall (VProxy p) args) w
              (client_calls tr).
Proof. exact code_call_lemma. Qed.
Print Assumptions C70_call.

(** The hypotheses hold for a built-in method (object 6) and for a class; the internals of
    the method and a call of the class are refused, a call of the method reaches it. *)
Example C70_example b :
  let E := typed_env b quiet_run in
  respectful (st_next imported) (fun E' => E' = E) eq /\
  Own E imported (VObj 6) VNone imported /\ Own E imported (VClass "Thing") VNone imported /\
  In (concrete_type E imported (VObj 6), ["__call__"; "__name__"; "__str__"]) code_reads /\
  In (concrete_type E imported (VClass "Thing"),
      ["__bases__"; "__implemented__"; "__module__"; "__mro__"; "__name__"; "__str__"]) code_reads /\
  let p := VProxy (st_next imported) in
  let result := fun w o =>
    let '(r, _, tr) := perform E 4 o (snd (fst (do_ProxyFactory E 3 w VNone imported))) in
    (r, client_calls tr) in
  result (VObj 6) (OGetattr p "__globals__" None) = (Exc (EForbidden "__globals__" (VObj 6)), []) /\
  result (VClass "Thing") (OGetattr p "__subclasses__" None) =
    (Exc (EForbidden "__subclasses__" (VClass "Thing")), []) /\
  result (VClass "Thing") (OCall p []) = (Exc (EForbidden "__call__" (VClass "Thing")), []) /\
  snd (result (VObj 6) (OCall p [])) = [ECall Client 0 (CallOp (OCall (VObj 6) []))].
Proof.
  intros E. split; [|split; [|split; [|split; [|split]]]].
  - split.
    + intros E' ->. split; [reflexivity|]. split.
      * intros t c s r s' H. unfold E, typed_env in H. simpl in H.
        apply quiet_same in H. subst s'. split; auto.
      * intros t c s r s' H HN. unfold E, typed_env in H. simpl in H.
        apply quiet_same in H. subst s'. auto.
    + intros s s' -> HN. auto.
  - eapply Own_missing; simpl; auto; reflexivity.
  - eapply Own_missing; simpl; auto; reflexivity.
  - do 2 right. left. reflexivity.
  - do 5 right. left. reflexivity.
  - destruct b; vm_compute; repeat split; reflexivity.
Qed.
