(** * Property C88: what is not asked cannot matter, and granting more never takes access away. *)

From Coq Require Import List String Bool Arith ZArith Lia.
From Verif Require Import Base Domain CheckerModel ProxyModel ConcealSpec AnswersSpec AnswersFacts
  Witness WatchWitness AnswersWitness.
Import ListNotations.
Open Scope string_scope.

(** ** C88 *)

(** Replace the application's code, its policies included, by any other that does the same in
    the calls an operation made and gives the same answers to the questions it asked: the
    operation has the same outcome, final state and trace. *)
Theorem C88_unchanged :
  forall E run' f o s r s' t,
    perform E f o s = (r, s', t) -> Forall (unchanged E run') t ->
    perform (with_run E run') f o s = (r, s', t).
Proof. exact unchanged_ops. Qed.
Print Assumptions C88_unchanged.

(** The same for checking, selecting a checker, ProxyFactory, the proxy method of checkers,
    canAccess and canWrite. *)
Theorem C88_functions :
  forall E run' f,
    let kept := fun A (m m' : M A) => forall s r s' t,
      m s = (r, s', t) -> Forall (unchanged E run') t -> m' s = (r, s', t) in
    let E' := with_run E run' in
    (forall m c obj n, kept _ (do_check E f m c obj n) (do_check E' f m c obj n)) /\
    (forall obj, kept _ (do_select E f obj) (do_select E' f obj)) /\
    (forall obj c, kept _ (do_ProxyFactory E f obj c) (do_ProxyFactory E' f obj c)) /\
    (forall c v, kept _ (do_proxy E f c v) (do_proxy E' f c v)) /\
    (forall obj n, kept _ (do_canAccess E f obj n) (do_canAccess E' f obj n)) /\
    (forall obj n, kept _ (do_canWrite E f obj n) (do_canWrite E' f obj n)).
Proof. exact unchanged_functions. Qed.
Print Assumptions C88_functions.

(** And for whole programs of a client. *)
Theorem C88_clients :
  forall E run' f c s rs s' t,
    run_client E f c s = (rs, s', t) -> Forall (unchanged E run') t ->
    run_client (with_run E run') f c s = (rs, s', t).
Proof. exact client_follows. Qed.
Print Assumptions C88_clients.

(** In particular: who was never refused a permission sees the same under any policy that
    differs only in granting what was refused ([b = false]); who was never granted one sees
    the same under any policy that refuses more ([b = true]). *)
Theorem C88_revised :
  forall b E run' f c s rs s' t,
    revised b E run' -> run_client E f c s = (rs, s', t) -> never b t ->
    run_client (with_run E run') f c s = (rs, s', t).
Proof. exact revised_clients. Qed.
Print Assumptions C88_revised.

(** A check that passes still passes when policies grant more. *)
Theorem C88_granting :
  forall E run' f m c obj n s s1 t,
    plain_policy E -> looser E run' -> keeps_unwatching E -> unwatching s -> is_proxy obj = false ->
    do_check E f m c obj n s = (Ok tt, s1, t) ->
    exists s2 t2, do_check (with_run E run') f m c obj n s = (Ok tt, s2, t2).
Proof. exact granting_lemma. Qed.
Print Assumptions C88_granting.

(** What canAccess and canWrite said of a proxy's names they still say. (For __iter__ canAccess
    probes the proxy itself, an operation; of operations the next theorem speaks.) *)
Theorem C88_can :
  forall E run' f p n s,
    plain_policy E -> looser E run' -> keeps_unwatching E -> unwatching s ->
    (n <> "__iter__" -> fst (fst (do_canAccess E f (VProxy p) n s)) = Ok true ->
       fst (fst (do_canAccess (with_run E run') f (VProxy p) n s)) = Ok true) /\
    (fst (fst (do_canWrite E f (VProxy p) n s)) = Ok true ->
       fst (fst (do_canWrite (with_run E run') f (VProxy p) n s)) = Ok true).
Proof. exact can_monotone. Qed.
Print Assumptions C88_can.

(** Operations, however, may fail because more is granted: repr() of a proxy has a fallback
    when the permission is refused, none when the object's own repr, once allowed, fails. *)
Theorem C88_operations_refuted :
  forall b, exists E run' f o s,
    e_impl E = b /\ e_cimpl E = b /\ plain_policy E /\ looser E run' /\ keeps_unwatching E /\ unwatching s /\
    (exists v, fst (fst (perform E f o s)) = Ok (VStr v)) /\
    fst (fst (perform (with_run E run') f o s)) = Exc (EType "x").
Proof. exact operations_refuted_lemma. Qed.
Print Assumptions C88_operations_refuted.

(** And an entry more in a checker's table may take access away: names available by default
    are so only while the table does not mention them. *)
Theorem C88_tables_refuted :
  forall b, exists E f c obj n p s s',
    e_impl E = b /\ e_cimpl E = b /\ s' = set_dicts (upd (st_dicts s) 20 ((n, p) :: st_dicts s 20)) s /\
    dget String.eqb (st_dicts s 20) n = None /\
    fst (fst (do_check E f MGetattr c obj n s)) = Ok tt /\
    fst (fst (do_check E f MGetattr c obj n s')) = Exc (EUnauthorized obj n p).
Proof. exact tables_refuted_lemma. Qed.
Print Assumptions C88_tables_refuted.

(** ** Examples *)

(** The client that was never refused: same run when everything is granted, and not so when
    everything is refused. *)
Example C88_example_welcome :
  forall b, let E := calm_env b 0 (Ok (VStr "a thing")) in
    revised false E (flat_run true (Ok (VStr "a thing"))) /\
    never false (snd (run_client E 9 welcome calm0)) /\
    run_client (with_run E (flat_run true (Ok (VStr "a thing")))) 9 welcome calm0 = run_client E 9 welcome calm0 /\
    fst (fst (run_client E 9 welcome calm0)) <>
    fst (fst (run_client (with_run E (flat_run false (Ok (VStr "a thing")))) 9 welcome calm0)).
Proof. exact welcome_facts. Qed.

(** The client that was never granted anything. *)
Example C88_example_unwelcome :
  forall b, let E := calm_env b 0 (Ok (VStr "a thing")) in
    revised true E (flat_run false (Ok (VStr "a thing"))) /\
    never true (snd (run_client E 9 unwelcome calm0)) /\
    (exists th iv p obj, In (EAsk th iv p obj (Some false)) (snd (run_client E 9 unwelcome calm0))) /\
    run_client (with_run E (flat_run false (Ok (VStr "a thing")))) 9 unwelcome calm0 = run_client E 9 unwelcome calm0.
Proof. exact unwelcome_facts. Qed.

(** Granted to object 5 and so also by the policy granting everything, which grants object 6
    what it was refused. *)
Example C88_example_granting :
  forall b, let E := calm_env b 0 (Ok (VStr "a thing")) in
    let E' := with_run E (flat_run true (Ok (VStr "a thing"))) in
    plain_policy E /\ looser E (flat_run true (Ok (VStr "a thing"))) /\ keeps_unwatching E /\ unwatching calm0 /\
    fst (fst (do_check E 9 MGetattr (VChk 12) (VObj 5) "bar" calm0)) = Ok tt /\
    fst (fst (do_check E' 9 MGetattr (VChk 12) (VObj 5) "bar" calm0)) = Ok tt /\
    fst (fst (do_check E 9 MGetattr (VChk 12) (VObj 6) "bar" calm0)) = Exc (EUnauthorized (VObj 6) "bar" p_view) /\
    fst (fst (do_check E' 9 MGetattr (VChk 12) (VObj 6) "bar" calm0)) = Ok tt.
Proof. exact granting_facts. Qed.
