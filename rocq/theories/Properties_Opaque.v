(** * Property C89: permission ids are opaque, tables are what they look up. *)

From Coq Require Import List String Bool Arith ZArith Lia.
From Verif Require Import Base Domain CheckerModel ProxyModel ConcealSpec OpaqueSpec OpaqueFacts
  Witness WatchWitness OpaqueWitness.
Import ListNotations.
Open Scope string_scope.

(** ** C89 *)

(** Two processes in states that differ in the tables of checkers only, where corresponding
    tables give corresponding permissions for each name, and whose application code and
    policies treat corresponding permissions alike: every operation has corresponding
    outcomes, and makes corresponding calls and questions in the same order. *)
Theorem C89_operations :
  forall R E run' f o s s', code_like R (e_run E) run' -> state_like R s s' ->
    outcome_like R (perform E f o s) (perform (with_run E run') f o s').
Proof. exact (fun R E run' f o s s' HC => perform_sim R E run' HC f o s s'). Qed.
Print Assumptions C89_operations.

(** So do checking, selecting a checker, ProxyFactory, the proxy method of checkers, canAccess
    and canWrite; the permissions that checkers report correspond. *)
Theorem C89_functions :
  forall R E run' f s s', code_like R (e_run E) run' -> state_like R s s' ->
    let E' := with_run E run' in
    (forall m c obj n, outcome_like R (do_check E f m c obj n s) (do_check E' f m c obj n s')) /\
    (forall obj, outcome_like R (do_select E f obj s) (do_select E' f obj s')) /\
    (forall obj c, outcome_like R (do_ProxyFactory E f obj c s) (do_ProxyFactory E' f obj c s')) /\
    (forall c v, outcome_like R (do_proxy E f c v s) (do_proxy E' f c v s')) /\
    (forall obj n, outcome_like R (do_canAccess E f obj n s) (do_canAccess E' f obj n s')) /\
    (forall obj n, outcome_like R (do_canWrite E f obj n s) (do_canWrite E' f obj n s')).
Proof. exact (fun R E run' f s s' HC => functions_sim R E run' HC f s s'). Qed.
Print Assumptions C89_functions.

Theorem C89_permission_ids :
  forall R E run' k n s s', state_like R s s' ->
    exists p q p2 q2,
      Checker_permission_id E k n s = (Ok p, s, []) /\ Checker_permission_id (with_run E run') k n s' = (Ok q, s', []) /\
      Checker_setattr_permission_id E k n s = (Ok p2, s, []) /\
      Checker_setattr_permission_id (with_run E run') k n s' = (Ok q2, s', []) /\
      perm_like R p q /\ perm_like R p2 q2.
Proof. exact ids_lemma. Qed.
Print Assumptions C89_permission_ids.

(** Programs of clients. *)
Theorem C89_clients :
  forall R E run' f c c' s s', code_like R (e_run E) run' -> client_like R c c' -> state_like R s s' ->
    match run_client E f c s, run_client (with_run E run') f c' s' with
    | (rs, s1, t), (rs', s1', t') =>
        Forall2 (res_like R) rs rs' /\ state_like R s1 s1' /\ Forall2 (event_like R) t t'
    end.
Proof. exact (fun R E run' f c c' s s' HC => clients_sim R E run' HC f c c' s s'). Qed.
Print Assumptions C89_clients.

(** Renaming permission ids by any function, in all tables and in the questions to policies,
    renames them in exceptions and questions and changes nothing else. *)
Theorem C89_renaming :
  forall rho E run' f o s r s1 t,
    code_like (renamed rho) (e_run E) run' -> perform E f o s = (r, s1, t) ->
    exists d1,
      perform (with_run E run') f o (set_dicts (rename_tables rho (st_dicts s)) s) =
        (rename_res rho r, set_dicts d1 s1, map (rename_event rho) t) /\
      forall i n, entry (d1 i) n = option_map (rename rho) (entry (st_dicts s1 i) n).
Proof. exact renaming_lemma. Qed.
Print Assumptions C89_renaming.

(** The order of the entries of a table, and entries hidden by earlier ones, do not matter to
    clients of code that looks at tables by name only. *)
Theorem C89_lookup :
  forall E f c s d rs s1 t,
    code_like eq (e_run E) (e_run E) -> (forall i n, entry (st_dicts s i) n = entry (d i) n) ->
    run_client E f c s = (rs, s1, t) ->
    exists d1, run_client E f c (set_dicts d s) = (rs, set_dicts d1 s1, t) /\
               forall i n, entry (st_dicts s1 i) n = entry (d1 i) n.
Proof. exact lookup_lemma. Qed.
Print Assumptions C89_lookup.

(** ** Examples *)

(** All permissions prefixed: what was granted is granted, what was refused is refused with the
    new name of the permission. *)
Example C89_example_renaming :
  forall b, let E := view_env b p_view in
    let E' := with_run E (view_run (rename prefixed p_view)) in
    let s' := set_dicts (rename_tables prefixed (st_dicts calm0)) calm0 in
    code_like (renamed prefixed) (e_run E) (view_run (rename prefixed p_view)) /\
    fst (fst (perform E 9 (OGetattr (VProxy 41) "bar" None) calm0)) = Exc (EUnauthorized (VObj 6) "bar" p_view) /\
    fst (fst (perform E' 9 (OGetattr (VProxy 41) "bar" None) s')) =
      Exc (EUnauthorized (VObj 6) "bar" (PId 100 "acme.zope.View")) /\
    fst (fst (perform E 9 (OGetattr (VProxy 40) "bar" None) calm0)) =
    fst (fst (perform E' 9 (OGetattr (VProxy 40) "bar" None) s')).
Proof.
  intro b. split; [exact (prefixed_code b)|]. destruct b; repeat split; lazy; reflexivity.
Qed.

(** A policy that does not look at the permission: all permissions may be exchanged. *)
Example C89_example_undistinguished :
  forall b, let E := calm_env b 0 (Ok (VStr "a thing")) in
    code_like (fun _ _ => True) (e_run E) (calm_run (Ok (VStr "a thing"))) /\
    state_like (fun _ _ => True) calm0 (set_dicts other_perms calm0) /\
    fst (fst (perform E 9 (OGetattr (VProxy 40) "bar" None) (set_dicts other_perms calm0))) =
    fst (fst (perform E 9 (OGetattr (VProxy 40) "bar" None) calm0)).
Proof.
  intro b. split; [exact (undistinguished b)|]. split; [exact other_like|]. destruct b; lazy; reflexivity.
Qed.

(** Another order. *)
Example C89_example_lookup :
  forall b, let E := calm_env b 0 (Ok (VStr "a thing")) in
    code_like eq (e_run E) (e_run E) /\ (forall i n, entry (st_dicts calm0 i) n = entry (shuffled i) n) /\
    st_dicts calm0 20 <> shuffled 20.
Proof. intro b. split; [exact (calm_blind b)|]. split; [exact shuffled_same|]. discriminate. Qed.
