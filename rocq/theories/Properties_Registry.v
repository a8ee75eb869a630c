(** * Properties C11, C12, C13, C56, C59: the checker registry. *)

From Coq Require Import List String Bool Arith ZArith.
From Verif Require Import Base Domain CheckerModel ProxyModel Spec RegSpec Witness
  RegistryFacts RegistryProps.
Import ListNotations.
Open Scope string_scope.

(** ** C11 *)

(** Any history of calls gives the answers, and leaves the bindings, of a finite map
    (the registry part of [spec_run]); nothing else changes and no foreign code runs. *)
Theorem C11_registry_refines_map :
  forall defaults h s m,
    holds s m ->
    exists s', registry_run defaults h s = (Ok (fst (spec_run defaults h m)), s', []) /\
               holds s' (snd (spec_run defaults h m)) /\ same_but_registry s s'.
Proof. exact registry_refines_lemma. Qed.
Print Assumptions C11_registry_refines_map.

(** A definition lives, and blocks further definitions, until undefined or reset. *)
Theorem C11_define_lives :
  forall defaults k c h s m,
    holds s m -> type_or_module k = true -> m_reg m k = None ->
    (forall a, In a h -> ~ about k a /\ a <> RReset) ->
    exists s1 s2 s3 outs,
      defineChecker k c s = (Ok tt, s1, []) /\
      registry_run defaults h s1 = (Ok outs, s2, []) /\
      getCheckerForInstancesOf k s2 = (Ok c, s2, []) /\
      defineChecker k (VChk 0) s2 = (Exc (EDuplication "type_"), s2, []) /\
      undefineChecker k s2 = (Ok tt, s3, []) /\
      undefineChecker k s3 = (Exc EKey, s3, []) /\
      forall k', k' <> k -> dget rkey_eqb (st_reg s3) k' = dget rkey_eqb (st_reg s2) k'.
Proof. exact define_lives_lemma. Qed.
Print Assumptions C11_define_lives.

Example C11_example :
  holds reg_state (maps_of reg_state) /\
  m_reg (maps_of reg_state) (KType "app.New") = None /\
  fst (fst (registry_run [] [RDefine (KType "app.New") (VChk 11);
                             RDefine (KType "app.New") (VChk 10);
                             RLookup (KType "app.New");
                             RDefine (KOther 3) (VChk 10);
                             RUndefine (KType "app.New");
                             RUndefine (KType "app.New");
                             RLookup (KType "app.New")] reg_state)) =
  Ok [Ok VNone; Exc (EDuplication "type_"); Ok (VChk 11);
      Exc (EType "type_ must be a type, class or module"); Ok VNone; Exc EKey; Ok VNone].
Proof.
  split; [apply holds_maps_of; repeat constructor; simpl; tauto|].
  split; reflexivity.
Qed.

(** ** C12 *)

(** Without any assumption on foreign code: never anything but None or a Checker. *)
Theorem C12_none_or_checker :
  forall E fuel obj s oc s' tr,
    do_select E fuel obj s = (Ok oc, s', tr) ->
    oc = None \/ exists c', oc = Some c' /\ IsChecker E s' c'.
Proof. exact selectChecker_result_lemma. Qed.
Print Assumptions C12_none_or_checker.

(** The exact outcome, as a function of the registry entry of the concrete type. *)
Theorem C12_select_exact :
  forall E fuel obj s r s' tr,
    no_proxied_factories E s ->
    do_select E fuel obj s = (r, s', tr) ->
    r = Exc EFuel \/ SelectChecker E s obj r s' tr.
Proof. exact selectChecker_exact_lemma. Qed.
Print Assumptions C12_select_exact.

(** Unregistered types get the default checker, which forbids all but the always
    available names. *)
Theorem C12_default_forbids :
  forall E f obj s n,
    e_watch E = 0 -> registered_for E s obj = None ->
    (e_cimpl E = ImplC -> e_isexc E (concrete_type E s obj) = false) ->
    PlainChecker s spec_default [] [] ->
    do_select E (S (S f)) obj s = (Ok (Some spec_default), s, []) /\
    (~ always_available n -> n <> "__iter__" ->
     do_check E (S (S f)) MGetattr spec_default obj n s = (Exc (EForbidden n obj), s, [])) /\
    do_check E (S (S f)) MSetattr spec_default obj n s = (Exc (EForbidden n obj), s, []).
Proof. exact default_forbids_lemma. Qed.
Print Assumptions C12_default_forbids.

Example C12_example :
  no_proxied_factories (reg_env ImplC) reg_state /\
  PlainChecker reg_state spec_default [] [] /\
  registered_for (reg_env ImplC) reg_state (VObj 9) = None /\
  fst (fst (do_select (reg_env ImplC) 5 (VObj 1) reg_state)) = Ok (Some (VChk 10)) /\
  fst (fst (do_select (reg_env ImplC) 5 (VObj 3) reg_state)) = Ok None /\
  do_select (reg_env ImplPy) 5 (VObj 5) reg_state =
    (Ok (Some (VChk 11)), reg_state,
     [ECall Probe 0 (CallOp (OCall (VObj 60) [VObj 5]))]).
Proof.
  split; [apply reg_env_no_proxied|].
  split; [exists 0, (mkChecker 30 31 CkPlain); repeat split|].
  repeat split; reflexivity.
Qed.

(** ** C13 *)

(** After any history the cleanup restores exactly the defaults overridden by the
    current BasicTypes. *)
Theorem C13_reset_restores :
  forall defaults h s m,
    holds s m ->
    exists s', registry_run defaults (h ++ [RReset]) s =
               (Ok (fst (spec_run defaults h m) ++ [Ok VNone])%list, s', []) /\
      (forall k, dget rkey_eqb (st_basic s') k = m_basic (snd (spec_run defaults h m)) k) /\
      (forall k, dget rkey_eqb (st_reg s') k =
                 match m_basic (snd (spec_run defaults h m)) k with
                 | Some v => Some v
                 | None => last_entry defaults k
                 end).
Proof. exact reset_restores_lemma. Qed.
Print Assumptions C13_reset_restores.

(** Assignments to BasicTypes take effect at once and survive everything that is not
    about the same type, cleanup included. *)
Theorem C13_basic_survives :
  forall defaults k v h s m,
    holds s m ->
    (forall a, In a h -> ~ about k a) ->
    exists s1 s2 outs,
      BasicTypes_setitem k v s = (Ok tt, s1, []) /\
      registry_run defaults h s1 = (Ok outs, s2, []) /\
      getCheckerForInstancesOf k s2 = (Ok v, s2, []).
Proof. exact basic_survives_lemma. Qed.
Print Assumptions C13_basic_survives.

Theorem C13_basic_delete :
  forall defaults k s m v w,
    holds s m -> m_basic m k = Some v -> m_reg m k = Some w ->
    exists s1 s2,
      BasicTypes_delitem k s = (Ok tt, s1, []) /\
      getCheckerForInstancesOf k s1 = (Ok VNone, s1, []) /\
      clear_checkers defaults s1 = (Ok tt, s2, []) /\
      dget rkey_eqb (st_reg s2) k = last_entry defaults k.
Proof. exact basic_delete_lemma. Qed.
Print Assumptions C13_basic_delete.

(** Not all mutators are synchronised: after BasicTypes.pop(k) the type is still not
    proxied, until the next cleanup. *)
Theorem C13_pop_refuted :
  exists s k s1 s2, NoDup (map fst (st_basic s)) /\
    getCheckerForInstancesOf k s = (Ok VNoProxy, s, []) /\
    BasicTypes_pop k s = (Ok VNoProxy, s1, []) /\
    dget rkey_eqb (st_basic s1) k = None /\
    getCheckerForInstancesOf k s1 = (Ok VNoProxy, s1, []) /\
    clear_checkers [] s1 = (Ok tt, s2, []) /\
    getCheckerForInstancesOf k s2 = (Ok VNone, s2, []).
Proof. exact basic_pop_lemma. Qed.
Print Assumptions C13_pop_refuted.

Example C13_example :
  holds reg_state (maps_of reg_state) /\
  m_basic (maps_of reg_state) (KType "int") = Some VNoProxy /\
  m_reg (maps_of reg_state) (KType "int") = Some VNoProxy /\
  fst (fst (registry_run [(KType "dict", VChk 8)]
              [RBasicSet (KType "app.Msg") VNoProxy; RUndefine (KType "app.Thing");
               RReset; RLookup (KType "app.Msg"); RLookup (KType "dict");
               RLookup (KType "app.Rock")] reg_state)) =
  Ok [Ok VNone; Ok VNone; Ok VNone; Ok VNoProxy; Ok (VChk 8); Ok VNone].
Proof.
  split; [apply holds_maps_of; repeat constructor; simpl; tauto|].
  repeat split; reflexivity.
Qed.

(** ** C56 *)

Theorem C56_same_type_same_checker :
  forall E f o1 o2 s,
    concrete_type E s o1 = concrete_type E s o2 -> settled E s o1 ->
    do_select E (S f) o1 s = do_select E (S f) o2 s.
Proof. exact same_type_lemma. Qed.
Print Assumptions C56_same_type_same_checker.

Theorem C56_same_type_proxies :
  forall E f o1 o2 s c,
    concrete_type E s o1 = concrete_type E s o2 -> settled E s o1 ->
    no_own_checker E s o1 -> no_own_checker E s o2 ->
    do_select E (S f) o1 s = (Ok (Some c), s, []) ->
    exists p1 s1 t1 p2 s2 t2,
      do_ProxyFactory E (S f) o1 VNone s = (Ok (VProxy p1), s1, t1) /\
      do_ProxyFactory E (S f) o2 VNone s = (Ok (VProxy p2), s2, t2) /\
      st_prox s1 p1 = Some (o1, c) /\ st_prox s2 p2 = Some (o2, c).
Proof. exact same_type_proxies_lemma. Qed.
Print Assumptions C56_same_type_proxies.

Theorem C56_other_type_unaffected :
  forall E f obj s k c s1 t,
    defineChecker k c s = (Ok tt, s1, t) ->
    k <> KType (concrete_type E s obj) -> settled E s obj ->
    fst (fst (do_select E (S f) obj s1)) = fst (fst (do_select E (S f) obj s)).
Proof. exact other_type_lemma. Qed.
Print Assumptions C56_other_type_unaffected.

Example C56_example :
  settled (reg_env ImplPy) reg_state (VObj 1) /\
  no_own_checker (reg_env ImplPy) reg_state (VObj 1) /\
  no_own_checker (reg_env ImplPy) reg_state (VObj 2) /\
  do_select (reg_env ImplPy) 3 (VObj 1) reg_state = (Ok (Some (VChk 10)), reg_state, []) /\
  fst (fst (defineChecker (KType "app.Sub") (VChk 11) reg_state)) = Ok tt.
Proof.
  split; [right; exact I|].
  split; [split; [exact I|right; eexists; reflexivity]|].
  split; [split; [exact I|right; eexists; reflexivity]|].
  split; reflexivity.
Qed.

(** ** C59 *)

(** The property is false: a type registered with None cannot be proxied at all. *)
Theorem C59_none_is_rock_refuted :
  exists E s obj, registered_for E s obj = Some VNone /\
    forall f, do_select E (S f) obj s = (Exc (EType "object is not callable"), s, []) /\
              fst (fst (do_ProxyFactory E (S f) obj VNone s)) =
              Exc (EType "object is not callable").
Proof. exact none_rock_refuted_lemma. Qed.
Print Assumptions C59_none_is_rock_refuted.

(** It fails for every such type, in both builds. *)
Theorem C59_none_type_error :
  forall E f obj s,
    registered_for E s obj = Some VNone ->
    do_select E (S f) obj s = (Exc (EType "object is not callable"), s, []).
Proof. exact none_type_error_lemma. Qed.
Print Assumptions C59_none_type_error.

Example C59_example :
  registered_for (reg_env ImplC) reg_state (VObj 4) = Some VNone.
Proof. reflexivity. Qed.
