(** * Properties_Adapter: adapter factories and decorated checkers (C53 to C55). *)

From Coq Require Import List String Bool Arith ZArith.
From Verif Require Import Base Domain CheckerModel ProxyModel Spec RegSpec Witness CombineFacts
  ProxySpec FactorySpec ProxyResults Adapter AdapterSpec AdapterFacts DecoFacts AdapterProps.
Import ListNotations.
Open Scope string_scope.

(** ** C53: trusted adapter factories *)

(** With a proxied argument the inner factory is called, first and once at the start, with
    every argument unwrapped; what is returned is a proxy or needs none. *)
Theorem C53_proxied :
  forall E f k factory args args' s r s' t,
    is_proxy factory = false -> no_self_wrap s -> Stripped s args args' -> some_proxy args ->
    do_trusted E (S f) k factory args s = (r, s', t) ->
    (exists rest, t = factory_call E factory args' :: rest) /\
    (forall e s1, e_run E (e_tid E) (CallOp (OCall factory args')) s = (Exc e, s1) ->
       r = Exc e /\ s' = s1 /\ t = [factory_call E factory args']) /\
    (forall u, r = Ok u -> is_proxy u = true \/ needs_none E s' t u).
Proof. exact proxied_lemma. Qed.
Print Assumptions C53_proxied.

(** Without one the arguments are passed through and the result is the adapter itself. *)
Theorem C53_plain :
  forall E f k factory args s r s' t,
    is_proxy factory = false -> ~ some_proxy args ->
    do_trusted E (S f) k factory args s = (r, s', t) ->
    (exists rest, t = factory_call E factory args :: rest) /\
    (forall u, r = Ok u ->
       exists s1, e_run E (e_tid E) (CallOp (OCall factory args)) s = (Ok u, s1)).
Proof. exact plain_args_lemma. Qed.
Print Assumptions C53_plain.

(** The unwrapped arguments are not proxies, unless proxies are nested. *)
Theorem C53_sees_no_proxy :
  forall s args args', Stripped s args args' -> single_layer s -> ~ some_proxy args'.
Proof. exact stripped_single. Qed.
Print Assumptions C53_sees_no_proxy.

(** With nested proxies the trusted factory does see one: one layer is removed. *)
Theorem C53_nested_refuted :
  exists E k factory args args' s r s' t,
    is_proxy factory = false /\ no_self_wrap s /\ Stripped s args args' /\
    do_trusted E 3 k factory args s = (r, s', t) /\
    In (factory_call E factory args') t /\ some_proxy args'.
Proof. exact nested_refuted_lemma. Qed.
Print Assumptions C53_nested_refuted.

(** Object 5 is adapted through proxy 40; the adapter (object 8) comes back proxied. *)
Example C53_example :
  let E := wenv_run ImplC (fun t c s => match c with
             | CallOp (OCall (VClass _) _) => (Ok (VBool true), s)
             | CallOp (OCall _ _) => (Ok (VObj 8), s)
             | _ => quiet_run t c s end) in
  Stripped w_state [VProxy 40; VInt 3] [VObj 5; VInt 3] /\
  some_proxy [VProxy 40; VInt 3] /\
  exists s' t, do_trusted E 3 Locating (VObj 9) [VProxy 40; VInt 3] w_state =
                 (Ok (VProxy 50), s', t) /\
               st_prox s' 50 = Some (VObj 8, VChk 0) /\
               In (ECall Client 0 (CallOp (OSetattr (VObj 8) "__parent__" (VObj 5)))) t.
Proof.
  split; [|split].
  - eapply St_proxy; [reflexivity|]. apply St_other; [reflexivity|constructor].
  - exists 40. left. reflexivity.
  - do 2 eexists. split; [vm_compute; reflexivity|]. split; [reflexivity|].
    simpl. auto.
Qed.

(** ** C54: locations of adapters *)

(** assertLocation on an adapter that is neither proxy nor decorator: every outcome. *)
Theorem C54_assertLocation :
  forall E f a parent s,
    plain_object a -> provided_is_bool E ->
    exists r s' t, do_assertLocation E (S f) a parent s = (r, s', t) /\
                   Placed E true a parent s r s' t.
Proof. exact assert_lemma. Qed.
Print Assumptions C54_assertLocation.

(** On any adapter the result is the adapter or a location proxy on it with that parent. *)
Theorem C54_any_adapter :
  forall E f a parent s u s' t,
    do_assertLocation E (S f) a parent s = (Ok u, s', t) ->
    u = a \/
    exists d, u = VDeco d /\ st_decos s' d = Some (mkDeco "LocationProxy" a parent).
Proof. exact assert_any_lemma. Qed.
Print Assumptions C54_any_adapter.

(** A parent is only written to a located adapter whose parent was just read as None. *)
Theorem C54_never_overwrites :
  forall E wrap a parent s r s' t b q,
    Placed E wrap a parent s r s' t ->
    In (ECall Client (e_tid E) (write_parent b q)) t ->
    b = a /\ q = parent /\
    exists s1 s2, e_run E (e_tid E) (ask_located a) s = (Ok (VBool true), s1) /\
                  e_run E (e_tid E) (read_parent a) s1 = (Ok VNone, s2).
Proof. exact never_overwrites_lemma. Qed.
Print Assumptions C54_never_overwrites.

(** The parent of a location proxy can be read back. *)
Theorem C54_parent_readable :
  forall E f d a parent fr s,
    st_decos s d = Some (mkDeco "LocationProxy" a parent) ->
    perform E (S f) (OGetattr (VDeco d) "__parent__" fr) s = (Ok parent, s, []).
Proof. exact parent_read. Qed.
Print Assumptions C54_parent_readable.

(** The untrusted locating factory places the adapter below its first argument. *)
Theorem C54_untrusted :
  forall E f factory c args s a s1,
    is_proxy factory = false -> provided_is_bool E ->
    e_run E (e_tid E) (CallOp (OCall factory (c :: args))) s = (Ok a, s1) -> plain_object a ->
    exists r s' t, Placed E true a c s1 r s' t /\
      do_untrusted E (S f) factory (c :: args) s =
      (r, s', factory_call E factory (c :: args) :: t).
Proof. exact located_untrusted_lemma. Qed.
Print Assumptions C54_untrusted.

(** Both trusted factories without proxied argument: no location proxy. *)
Theorem C54_trusted_plain :
  forall E f k factory c args s a s1,
    is_proxy factory = false -> ~ some_proxy (c :: args) -> provided_is_bool E ->
    e_run E (e_tid E) (CallOp (OCall factory (c :: args))) s = (Ok a, s1) -> plain_object a ->
    exists r s' t, Placed E false a c s1 r s' t /\
      do_trusted E (S f) k factory (c :: args) s =
      (r, s', factory_call E factory (c :: args) :: t).
Proof. exact located_plain_lemma. Qed.
Print Assumptions C54_trusted_plain.

(** With a proxied argument: placed below the first unwrapped argument, with a location
    proxy by the locating factory only, then handed to ProxyFactory. *)
Theorem C54_trusted_proxied :
  forall E f k factory args args' s a s1,
    is_proxy factory = false -> no_self_wrap s -> Stripped s args args' -> some_proxy args ->
    provided_is_bool E ->
    e_run E (e_tid E) (CallOp (OCall factory args')) s = (Ok a, s1) -> plain_object a ->
    exists r2 s2 t2,
      Placed E (match k with Locating => true | Plain => false end) a (hd VNone args') s1
             r2 s2 t2 /\
      match r2 with
      | Exc e => do_trusted E (S f) k factory args s =
                 (Exc e, s2, factory_call E factory args' :: t2)
      | Ok b => exists r s' t3,
          do_ProxyFactory E (S f) b VNone s2 = (r, s', t3) /\
          do_trusted E (S f) k factory args s =
          (r, s', factory_call E factory args' :: t2 ++ t3)
      end.
Proof. exact located_proxied_lemma. Qed.
Print Assumptions C54_trusted_proxied.

(** An adapter without location is wrapped, and the location proxy is proxied. *)
Example C54_example :
  let E := wenv_run ImplPy (fun t c s => match c with
             | CallOp (OCall (VClass "zope.location.interfaces.ILocation.providedBy") _) =>
                 (Ok (VBool false), s)
             | CallOp (OCall _ _) => (Ok (VObj 8), s)
             | _ => quiet_run t c s end) in
  provided_is_bool E /\
  exists s' t c, do_trusted E 4 Locating (VObj 9) [VProxy 40] w_state =
                   (Ok (VProxy 52), s', t) /\
                 st_prox s' 52 = Some (VDeco 50, c) /\
                 st_decos s' 50 = Some (mkDeco "LocationProxy" (VObj 8) (VObj 5)).
Proof.
  split; [apply (wenv_provided ImplPy)|].
  do 3 eexists. split; [vm_compute; reflexivity|]. split; reflexivity.
Qed.

(** ** C55: the checker of decorated objects *)

(** The descriptor: combination (wrapper first), the single one, or AttributeError. *)
Theorem C55_descriptor :
  forall E f d x fr s oc s1 ow s2 t2,
    st_decos s d = Some x -> Inner E (do_select E (S f)) s (dc_obj x) oc s1 ->
    do_select E (S f) (VDeco d) s1 = (Ok ow, s2, t2) ->
    exists r s' t,
      perform E (S (S f)) (OGetattr (VDeco d) "__Security_checker__" fr) s = (r, s', t) /\
      match ow, oc with
      | None, None => r = Exc (EAttribute "__Security_checker__") /\ s' = s2
      | None, Some c | Some c, None => r = Ok c /\ s' = s2
      | Some w, Some c =>
          exists i k, w = VChk i /\ st_chks s2 i = Some k /\ r = Ok (VChk (st_next s2)) /\
            s' = set_chks (upd (st_chks s2) (st_next s2)
                   (Some (mkChecker (ck_get k) (ck_set k)
                            match e_watch E with
                            | 0 => CkCombined c
                            | S v => CkWatchingCombined (S v) c
                            end))) (set_next (S (st_next s2)) s2)
      end.
Proof. exact descriptor_lemma. Qed.
Print Assumptions C55_descriptor.

(** Any number of decorators: the checker consists of all their tables, outermost first,
    then those of the object; nothing else changes and no client code runs. *)
Theorem C55_stack :
  forall E f s n d gs ws fr,
    e_watch E = 0 -> fresh_checkers s -> Stack E s n (VDeco d) gs ws ->
    exists r s' t,
      perform E (n + S f) (OGetattr (VDeco d) "__Security_checker__" fr) s = (r, s', t) /\
      only_new_checkers s s' /\ client_calls t = [] /\
      ((gs = [] /\ r = Exc (EAttribute "__Security_checker__")) \/
       exists c, r = Ok c /\ Chain s' c gs ws).
Proof. exact stack_attribute. Qed.
Print Assumptions C55_stack.

(** ProxyFactory gives a decorator that checker; none is needed if there are no tables. *)
Theorem C55_proxied :
  forall E f s n d gs ws,
    e_watch E = 0 -> fresh_checkers s -> Stack E s n (VDeco d) gs ws ->
    exists r s' t,
      do_ProxyFactory E (n + S f) (VDeco d) VNone s = (Ok r, s', t) /\
      client_calls t = [] /\
      match gs with
      | [] => r = VDeco d /\ only_new_checkers s s'
      | _ => exists p c s1, r = VProxy p /\ only_new_checkers s s1 /\
                            Grown s1 s' p (VDeco d) c /\ Chain s' c gs ws
      end.
Proof. exact stack_factory. Qed.
Print Assumptions C55_proxied.

(** Hence a proxied decorator grants a name iff one of its checkers does. *)
Theorem C55_grants :
  forall E f s n d gs ws nm i x,
    e_watch E = 0 -> foreign_keeps_checkers E -> fresh_checkers s ->
    Stack E s n (VDeco d) gs ws -> gs <> [] -> Forall no_none gs -> nm <> "__iter__" ->
    tl_inter (st_tls s (e_tid E)) = Some (VIact i) -> st_inters s i = Some x ->
    exists p c s' t r tr,
      do_ProxyFactory E (n + S f) (VDeco d) VNone s = (Ok (VProxy p), s', t) /\
      st_prox s' p = Some (VDeco d, c) /\
      do_check E (List.length gs + S f) MGetattr c (VDeco d) nm s' = (r, s', tr) /\
      (r = Ok tt <->
       exists tb, In tb gs /\ match tb nm with
                              | Some q => simple_grants s x q
                              | None => always_available nm
                              end) /\
      (r <> Ok tt -> is_denied r).
Proof. exact stack_grants. Qed.
Print Assumptions C55_grants.

(** The attribute cannot be assigned. *)
Theorem C55_set :
  forall E f d v s,
    perform E (S f) (OSetattr (VDeco d) "__Security_checker__" v) s =
    (Exc (EType "Can't set __Security_checker__ on a decorated object"), s, []).
Proof. exact set_refused. Qed.
Print Assumptions C55_set.

(** If the wrapper's registered checker is itself a combination, its second half is lost:
    it grants "baz", the decorated checker does not. *)
Theorem C55_combined_wrapper_refuted :
  exists E s d x c s' t,
    e_watch E = 0 /\ st_decos s d = Some x /\
    do_select E 3 (VDeco d) s = (Ok (Some c), s, []) /\
    do_check E 3 MGetattr c (VDeco d) "baz" s = (Ok tt, s, []) /\
    exists c',
      perform E 3 (OGetattr (VDeco d) "__Security_checker__" None) s = (Ok c', s', t) /\
      do_check E 3 MGetattr c' (VDeco d) "baz" s' =
      (Exc (EForbidden "baz" (VDeco d)), s', []).
Proof. exact combined_wrapper_refuted_lemma. Qed.
Print Assumptions C55_combined_wrapper_refuted.

(** A decorator with checker 10 on an object with checker 11. *)
Example C55_example :
  let E := wenv ImplC in
  let s := deco_state (VChk 10) (VChk 11) in
  Stack E s 1 (VDeco 43) [table_of [("foo", PPublic); ("bar", p_view)]; table_of [("baz", PPublic)]]
        [table_of [("bar", p_edit)]; table_of []] /\
  exists s' t, do_ProxyFactory E 3 (VDeco 43) VNone s = (Ok (VProxy 51), s', t) /\
               do_check E 3 MGetattr (VChk 50) (VDeco 43) "baz" s' = (Ok tt, s', []) /\
               do_check E 3 MGetattr (VChk 50) (VDeco 43) "qux" s' =
               (Exc (EForbidden "qux" (VDeco 43)), s', []).
Proof.
  split.
  - eapply Sk_decorated; [reflexivity| |].
    + split; [exists 10; eexists; repeat split; reflexivity|].
      left. split; [reflexivity|discriminate].
    + eapply Sk_by_type.
      * eapply Own_missing; simpl; auto; reflexivity.
      * split; [exists 11; eexists; repeat split; reflexivity|].
        left. split; [reflexivity|discriminate].
  - do 2 eexists. split; [vm_compute; reflexivity|]. split; vm_compute; reflexivity.
Qed.
