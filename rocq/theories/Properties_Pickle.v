(** * Property C66: pickling and copying security proxies. *)

From Coq Require Import List String Bool Arith ZArith Lia.
From Verif Require Import Base Domain CheckerModel ProxyModel MFacts Spec RegSpec Witness
  CheckFacts ProxySpec ProxyProps MediationSpec SessionSpec Defaults DefaultsSpec DefaultsFacts
  DefaultsProps Pickle PickleSpec PickleFacts PickleProps.
Import ListNotations.
Open Scope string_scope.

(** Importing zope.security.checker makes the marker for public access, a proxy of which
    nothing can be read but what pickling needs; and that is what it is after any use of
    the package by any threads. *)
Theorem C66_marker :
  forall pf E0 s0 p s1 t1 d s2 t2 Env other,
    e_watch E0 = 0 -> 3 <= st_next s0 -> import_public s0 = (Ok p, s1, t1) ->
    import_checker E0 pf s1 = (Ok d, s2, t2) -> respectful (st_next s2) Env other ->
    forall s, History Env other s2 s -> PublicMarker s.
Proof. exact marker_lemma. Qed.
Print Assumptions C66_marker.

(** It is pickled as a reference to the global, with any protocol; what is loaded is the
    very same object; and copies of it are the object itself. *)
Theorem C66_public_round_trip :
  forall pf E0 s0 p s1 t1 d s2 t2 Env other,
    e_watch E0 = 0 -> 3 <= st_next s0 -> import_public s0 = (Ok p, s1, t1) ->
    import_checker E0 pf s1 = (Ok d, s2, t2) -> respectful (st_next s2) Env other ->
    forall E f s m globals which protocol memo,
    History Env other s2 s -> Env E ->
    still_default s2 s "method" -> still_default s2 s "str" ->
    global_object E 0 m "zope.security.checker" "CheckerPublic" ->
    globals "zope.security.checker" "CheckerPublic" = Some p ->
    (exists x s' t, pickle E (S (S (S f))) globals which protocol p s = (Ok x, s', t) /\
                    x = ByName "zope.security.checker" "CheckerPublic" /\
                    unpickle globals x = Some p) /\
    (exists s' t, copy E (S (S (S f))) memo p s = (Ok (Copy p), s', t)).
Proof. exact round_trip_lemma. Qed.
Print Assumptions C66_public_round_trip.

(** Whatever is pickled by name, a proxy or not: what is loaded is the very same object,
    never the object inside. *)
Theorem C66_by_name :
  forall E f globals which protocol obj s m n s' t,
    pickle E f globals which protocol obj s = (Ok (ByName m n), s', t) ->
    unpickle globals (ByName m n) = Some obj.
Proof. exact by_name_lemma. Qed.
Print Assumptions C66_by_name.

(** A proxy whose checker has neither reducer can be neither pickled nor copied: all that is
    done with the object is what [repr] of the proxy does, for the message of the error. *)
Theorem C66_forbidden :
  forall E f globals which protocol p w c g wt s r s' t,
    st_prox s p = Some (w, c) -> PlainChecker s c g wt ->
    no_none (table_of g) -> no_none (table_of wt) ->
    table_of g "__reduce_ex__" = None -> table_of g "__reduce__" = None ->
    perform E (S (S (S f))) (ORepr (VProxy p)) s = (r, s', t) ->
    exists t', pickle E (S (S (S f))) globals which protocol (VProxy p) s =
      (match r with Ok _ => Ok PicklingError | Exc e => Exc e end, s', t') /\ t' = t /\
    copy E (S (S (S f))) None (VProxy p) s = (Ok CopyError, s, []) /\
    (table_of g "__deepcopy__" = None ->
     forall memo, copy E (S (S (S f))) memo (VProxy p) s = (Ok CopyError, s, [])).
Proof. exact pickle_forbidden. Qed.
Print Assumptions C66_forbidden.

(** If a reducer is there but the policy denies its permission, Unauthorized is raised after
    that one question. *)
Theorem C66_unauthorised :
  forall E f globals which protocol p w c g wt s i x n q,
    st_prox s p = Some (w, c) -> PlainChecker s c g wt ->
    no_none (table_of g) -> no_none (table_of wt) -> plain_object w ->
    (n = "__reduce_ex__" \/ (n = "__reduce__" /\ table_of g "__reduce_ex__" = None)) ->
    table_of g n = Some q ->
    tl_inter (st_tls s (e_tid E)) = Some (VIact i) -> st_inters s i = Some x ->
    ~ simple_grants s x q ->
    pickle E (S (S (S f))) globals which protocol (VProxy p) s =
      (Exc (EUnauthorized w n q), s, [EAsk (e_tid E) (VIact i) q w (Some false)]) /\
    copy E (S (S (S f))) None (VProxy p) s =
      (Exc (EUnauthorized w n q), s, [EAsk (e_tid E) (VIact i) q w (Some false)]).
Proof. exact pickle_unauthorised. Qed.
Print Assumptions C66_unauthorised.

(** With the default registrations of functions, methods and tuples no proxy is ever pickled
    by value, whatever its checker permits and the policy grants: the pickler gets a proxy
    of the reducer's tuple, which it does not accept. *)
Theorem C66_never_by_value :
  forall pf E0 s0 p0 s1 t1 d s2 t2 Env other E f s globals which protocol p w i x s' t,
    e_watch E0 = 0 -> 3 <= st_next s0 -> import_public s0 = (Ok p0, s1, t1) ->
    import_checker E0 pf s1 = (Ok d, s2, t2) -> respectful (st_next s2) Env other ->
    History Env other s2 s -> Env E ->
    (forall T, In T ("tuple" :: callable_types) ->
       still_default s2 s T /\ registration_kept E T /\ no_own_checker E T) ->
    Wraps s p w (VChk i) -> plain_object w -> ordinary_reducers E w ->
    pickle E (S (S f)) globals which protocol (VProxy p) s = (Ok x, s', t) ->
    forall v, x <> ByValue v.
Proof. exact default_by_value. Qed.
Print Assumptions C66_never_by_value.

(** With any registrations: a proxy is pickled by value only if the reducer read through it,
    or what the reducer returned, needs no protection. *)
Theorem C66_by_value :
  forall E f globals which protocol p w i s v s' t,
    foreign_keeps_proxies E -> Wraps s p w (VChk i) ->
    pickle E (S f) globals which protocol (VProxy p) s = (Ok (ByValue v), s', t) ->
    exists n sa g s1 t1 args t2, In n reducers /\
      perform E (S f) (OGetattr (VProxy p) n None) sa = (Ok g, s1, t1) /\
      perform E (S f) (OCall g args) s1 = (Ok v, s', t2) /\
      (constant g \/ needs_none E s1 t1 g \/
       exists q, g = VProxy q /\ forall w' j, Wraps s1 q w' (VChk j) -> needs_none E s' t2 v).
Proof. exact not_by_value_bare. Qed.
Print Assumptions C66_by_value.

(** The registration of tuples matters: where the application has declared that tuples need
    no proxies, a proxy with a public reducer is pickled by value, both builds. *)
Theorem C66_bare_tuples_refuted :
  forall b, exists s p,
    (forall T, In T callable_types -> still_default pickle_imported s T) /\
    Wraps s p (VObj 5) (VChk (2 + st_next pickle_imported)) /\
    ordinary_reducers (pickle_env b) (VObj 5) /\
    fst (fst (pickle (pickle_env b) 4 (fun _ _ => None) (fun _ _ => "") 2 (VProxy p) s)) =
      Ok (ByValue (VObj 12)).
Proof.
  intros b. exists (bare_tuples (thing_state ["__reduce_ex__"] pickle_imported)),
    (3 + st_next pickle_imported).
  split; [|split; [|split]].
  - intros T HT. apply bare_others. intros ->. simpl in HT. intuition discriminate.
  - apply bare_there.
  - apply pickle_ordinary.
  - destruct b; vm_compute; reflexivity.
Qed.
Print Assumptions C66_bare_tuples_refuted.

(** The hypotheses hold after the application has put object 5 into a proxy of which any
    given names are public. *)
Example C66_example b names :
  import_public w_state = (Ok (VProxy 0), with_marker, []) /\
  (exists d t, import_checker (wenv ImplC) some_platform with_marker = (Ok d, pickle_imported, t)) /\
  respectful (st_next pickle_imported) (fun E => E = pickle_env b) (puts_thing names) /\
  History (fun E => E = pickle_env b) (puts_thing names) pickle_imported
          (thing_state names pickle_imported) /\
  global_object (pickle_env b) 0 10 "zope.security.checker" "CheckerPublic" /\
  (forall T, still_default pickle_imported (thing_state names pickle_imported) T /\
     registration_kept (pickle_env b) T /\ no_own_checker (pickle_env b) T) /\
  Wraps (thing_state names pickle_imported) (3 + st_next pickle_imported) (VObj 5)
        (VChk (2 + st_next pickle_imported)) /\
  PlainChecker (thing_state names pickle_imported) (VChk (2 + st_next pickle_imported))
               (map (fun x => (x, PPublic)) names) [] /\
  ordinary_reducers (pickle_env b) (VObj 5).
Proof.
  split; [reflexivity|]. split; [apply pickle_import|].
  split; [apply pickle_respectful|]. split; [apply pickle_history|].
  split; [apply pickle_global|].
  split; [intros T; split; [apply thing_default|split; [apply pickle_kept|apply pickle_no_own]]|].
  split; [apply thing_there|]. split; [apply thing_there|apply pickle_ordinary].
Qed.

(** What happens then: with a public reducer the pickler gives up; without, too; the marker
    is pickled by name. *)
Example C66_example_runs b :
  let G := module_globals in
  let p := VProxy (3 + st_next pickle_imported) in
  fst (fst (pickle (pickle_env b) 4 G (fun _ _ => "") 2 p
              (thing_state ["__reduce_ex__"] pickle_imported))) = Ok PicklingError /\
  fst (fst (pickle (pickle_env b) 4 G (fun _ _ => "") 2 p
              (thing_state ["title"; "__repr__"] pickle_imported))) = Ok PicklingError /\
  fst (fst (copy (pickle_env b) 4 None p (thing_state ["title"] pickle_imported))) = Ok CopyError /\
  fst (fst (pickle (pickle_env b) 4 G (fun _ _ => "") 2 (VProxy 0)
              (thing_state [] pickle_imported))) =
    Ok (ByName "zope.security.checker" "CheckerPublic").
Proof. destruct b; vm_compute; auto. Qed.

(** A reducer for which the policy denies the permission. *)
Example C66_example_unauthorised b :
  let s := set_dicts (fun i => match i with 20 => [("__reduce__", p_view)] | _ => [] end)
                     (a_state false) in
  pickle (aenv b) 5 module_globals (fun _ _ => "") 2 (VProxy 40) s =
    (Exc (EUnauthorized (VObj 5) "__reduce__" p_view), s,
     [EAsk 0 (VIact 45) p_view (VObj 5) (Some false)]).
Proof. destruct b; reflexivity. Qed.
