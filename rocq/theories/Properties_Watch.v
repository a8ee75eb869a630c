(** * Property C85: ZOPE_WATCH_CHECKERS adds lines to the log, and nothing else. *)

From Coq Require Import List String Bool Arith ZArith Lia.
From Verif Require Import Base Domain CheckerModel ProxyModel EndsSpec BuildSpec WatchSpec WatchFacts
  Witness WatchWitness.
Import ListNotations.
Open Scope string_scope.

(** ** C85 *)

(** Two processes, one started with ZOPE_WATCH_CHECKERS, in the same state: whatever is done
    with a proxy has the same outcome in both, leaves both in the same state, and but for log
    lines (and the repr() of the objects in them) does the same things in the same order. *)
Theorem C85_operations :
  forall E run0 s0 s o, e_watch E <> 0 -> indifferent E run0 -> reprs E -> matches E s0 s ->
    keeps_proxies E s0 o ->
    alike E (fun f => perform (unwatched E run0) f o) (fun f => perform E f o) s0 s.
Proof. exact watch_ops_lemma. Qed.
Print Assumptions C85_operations.

(** The same for checking an object, selecting a checker, ProxyFactory and the proxy method of
    checkers. *)
Theorem C85_functions :
  forall E run0 s0 s, e_watch E <> 0 -> indifferent E run0 -> reprs E -> matches E s0 s ->
    (forall m c obj n, is_proxy obj = false ->
       alike E (fun f => do_check (unwatched E run0) f m c obj n)
               (fun f => do_check E f m c obj n) s0 s) /\
    (forall obj, alike E (fun f => do_select (unwatched E run0) f obj)
                         (fun f => do_select E f obj) s0 s) /\
    (forall obj c, known s0 obj -> known s0 c ->
       alike E (fun f => do_ProxyFactory (unwatched E run0) f obj c)
               (fun f => do_ProxyFactory E f obj c) s0 s) /\
    (forall c v, known s0 v ->
       alike E (fun f => do_proxy (unwatched E run0) f c v) (fun f => do_proxy E f c v) s0 s).
Proof. exact watch_functions_lemma. Qed.
Print Assumptions C85_functions.

(** So client programs, each step of which may depend on the outcomes so far, see the same
    outcomes in both. *)
Theorem C85_clients :
  forall E run0 s0 s c, e_watch E <> 0 -> indifferent E run0 -> reprs E -> matches E s0 s ->
    careful E c s0 ->
    alike E (fun f => session (unwatched E run0) f c) (fun f => session E f c) s0 s.
Proof. exact watch_clients_lemma. Qed.
Print Assumptions C85_clients.

(** In particular policies are asked the same questions, with the same answers, and the same
    application code is called for the client, in the same order. *)
Theorem C85_visible :
  forall t0 t, Logged t0 t -> filter visible t0 = filter visible t.
Proof. exact Logged_visible. Qed.
Print Assumptions C85_visible.

(** ** Examples *)

Example C85_example :
  forall b, let E := calm_env b 2 (Ok (VStr "a thing")) in
    let run0 := calm_run (Ok (VStr "a thing")) in
    indifferent E run0 /\ reprs E /\ matches E calm0 (calm1 b 2) /\ careful E curious calm0 /\
    alike E (fun f => session (unwatched E run0) f curious) (fun f => session E f curious)
      calm0 (calm1 b 2) /\
    fst (fst (session (unwatched E run0) 9 curious calm0)) =
      Ok [Ok (VProxy 50); Exc (EForbidden "x" (VObj 8)); Exc (EUnauthorized (VObj 6) "bar" p_view)] /\
    fst (fst (session E 9 curious (calm1 b 2))) =
      Ok [Ok (VProxy 50); Exc (EForbidden "x" (VObj 8)); Exc (EUnauthorized (VObj 6) "bar" p_view)] /\
    lines (snd (session (unwatched E run0) 9 curious calm0)) = [] /\
    lines (snd (session E 9 curious (calm1 b 2))) =
      ([("[CHK] + Granted getattr:", "bar", VObj 5)] ++
       match b with
       | ImplPy => [("[CHK] - Forbidden getattr:", "x", VObj 8);
                    ("[CHK] - Forbidden getattr:", "x", VObj 8)]
       | ImplC => []
       end ++
       [("[CHK] - Forbidden:", "bar", VObj 6); ("[CHK] - Unauthorized:", "bar", VObj 6)])%list.
Proof.
  intros b E run0.
  assert (HI : indifferent E run0) by (apply calm_indifferent; left; reflexivity).
  assert (HR : reprs E) by apply calm_reprs.
  assert (HM : matches E calm0 (calm1 b 2)) by apply calm_matches.
  assert (HC : careful E curious calm0).
  { cbn [careful curious]. split; [exact I|]. intros r s' _ _.
    destruct r; cbn [careful]; [|exact I]. split; [exact I|]. intros r' s'' _ _.
    cbn [careful]. split; [exact I|]. intros r'' s3 _ _. exact I. }
  split; [exact HI|]. split; [exact HR|]. split; [exact HM|]. split; [exact HC|].
  split. { apply C85_clients; [discriminate|assumption..]. }
  destruct b; (split; [reflexivity|]); (split; [reflexivity|]); (split; reflexivity).
Qed.
Print Assumptions C85_example.

(** ** What does not hold *)

(** If repr() of an object raises, an access that is granted fails in the process that watches
    (with ZOPE_WATCH_CHECKERS=2), and a refusal becomes another exception (with 1 already). *)
Theorem C85_repr_refuted :
  exists e, forall b, let run := calm_run (Exc e) in
    (forall v, indifferent (calm_env b v (Exc e)) run /\
               matches (calm_env b v (Exc e)) calm0 (calm1 b v)) /\
    (let E := calm_env b 2 (Exc e) in let o := OGetattr (VProxy 40) "bar" None in
     forall n, fst (fst (perform (unwatched E run) (9 + n) o calm0)) = Ok (VProxy 50) /\
               fst (fst (perform E (9 + n) o (calm1 b 2))) = Exc e) /\
    (let E := calm_env b 1 (Exc e) in let o := OGetattr (VProxy 41) "bar" None in
     forall n, fst (fst (perform (unwatched E run) (9 + n) o calm0)) =
                 Exc (EUnauthorized (VObj 6) "bar" p_view) /\
               fst (fst (perform E (9 + n) o (calm1 b 1))) = Exc e).
Proof.
  exists (EApp 3). intros b run. split; [|split].
  - intros v. split; [apply calm_indifferent; right; eexists; reflexivity|apply calm_matches].
  - intros E o n. destruct b; split; reflexivity.
  - intros E o n. destruct b; split; reflexivity.
Qed.
Print Assumptions C85_repr_refuted.

(** canAccess hands the proxy itself to the checker: in the process that watches the line in
    the log is made with the repr() of the proxy, for which the policy may be asked another
    question. *)
Theorem C85_canAccess_refuted :
  exists run p, forall b, let E := calm_env b 2 (Ok (VStr "a thing")) in
    indifferent E run /\ reprs E /\ matches E calm0 (calm1 b 2) /\ known calm0 p /\
    ~ alike E (fun f => do_canAccess (unwatched E run) f p "bar")
              (fun f => do_canAccess E f p "bar") calm0 (calm1 b 2).
Proof.
  exists (calm_run (Ok (VStr "a thing"))), (VProxy 40). intros b E.
  split; [apply calm_indifferent; left; reflexivity|]. split; [apply calm_reprs|].
  split; [apply calm_matches|]. split; [exact (proj1 (Nat.ltb_lt 40 50) eq_refl)|].
  intros (n & r & s0' & t0 & s' & t & H0 & H1 & _ & _ & L).
  specialize (H0 (9 + n) ltac:(lia)). specialize (H1 (9 + n) ltac:(lia)).
  apply Logged_visible in L.
  apply (f_equal (fun x => List.length (filter visible (snd x)))) in H0.
  apply (f_equal (fun x => List.length (filter visible (snd x)))) in H1.
  cbn [snd] in H0, H1. rewrite L, <- H1 in H0. clear - H0.
  destruct b; discriminate H0.
Qed.
Print Assumptions C85_canAccess_refuted.
