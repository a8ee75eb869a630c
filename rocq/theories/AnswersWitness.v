(** * AnswersWitness: policies that grant more and less than that of WatchWitness, for the
    examples of C88. *)

From Coq Require Import List String Bool Arith ZArith Lia.
From Verif Require Import Base Domain CheckerModel ProxyModel ConcealSpec AnswersSpec Witness WatchWitness.
Import ListNotations.
Open Scope string_scope.

(** Policies that answer [b] to everything. *)
Definition flat_run (b : bool) (rp : res value) (t : id) (c : call) (s : state) : res value * state :=
  match c with
  | CallPerm _ _ _ => (Ok (VBool b), s)
  | _ => calm_run rp t c s
  end.

(** A client that is granted what it asks for, and one that is refused. *)
Definition welcome : client :=
  Request (OGetattr (VProxy 40) "bar" None) (fun r =>
    match r with
    | Ok v => Request (OGetattr (VProxy 40) "foo" None) (fun _ => Finished)
    | Exc _ => Finished
    end).
Definition unwelcome : client :=
  Request (OGetattr (VProxy 41) "bar" None) (fun _ => Request (OGetattr (VProxy 41) "foo" None) (fun _ => Finished)).

(** [calm0] with one entry more in table 20. *)
Definition stricter_state (n : name) (p : perm) : state :=
  set_dicts (upd calm_dicts 20 ((n, p) :: calm_dicts 20)) calm0.

(** [calm0] with a proxy of object 6 whose checker is 10. *)
Definition refused_state : state := set_prox (upd calm_prox 42 (Some (VObj 6, VChk 10))) calm0.

Lemma calm_plain b v rp : plain_policy (calm_env b v rp).
Proof. intros t iv p obj s. exists (value_eqb obj (VObj 5)). reflexivity. Qed.

Lemma calm_looser b v rp : looser (calm_env b v rp) (flat_run true rp).
Proof.
  intros t c s. destruct c as [o|m c obj n|c v0|iv p obj|pol ps]; try (left; reflexivity).
  unfold flat_run, calm_env. cbn [e_run]. unfold calm_run, calm_answer.
  destruct (value_eqb obj (VObj 5)); [left; reflexivity|].
  right. exists iv, p, obj. split; [reflexivity|]. split; reflexivity.
Qed.

Lemma calm_keeps b v rp : keeps_unwatching (calm_env b v rp).
Proof. intros t c s r s1 H Hs. cbn [calm_env e_run] in H. unfold calm_run in H. injection H as _ <-. exact Hs. Qed.

Lemma calm_unwatching : unwatching calm0.
Proof.
  intros i k H. unfold calm0 in H. cbn [calm_state st_chks] in H. unfold calm_chks in H.
  do 13 (destruct i as [|i]; [try discriminate H; injection H as <-; exact I|]). discriminate H.
Qed.

Lemma calm_revised b0 b v rp : revised b0 (calm_env b v rp) (flat_run (negb b0) rp).
Proof.
  intros t c s. destruct c as [o|m c obj n|c v0|iv p obj|pol ps]; try (left; reflexivity).
  unfold flat_run, calm_env. cbn [e_run]. unfold calm_run, calm_answer.
  destruct (value_eqb obj (VObj 5)) eqn:Ev; destruct b0; try (left; reflexivity);
    right; eexists iv, p, obj, _, s; (split; [reflexivity|]; split; reflexivity).
Qed.

Lemma operations_refuted_lemma : forall b, exists E run' f o s,
    e_impl E = b /\ e_cimpl E = b /\ plain_policy E /\ looser E run' /\ keeps_unwatching E /\ unwatching s /\
    (exists v, fst (fst (perform E f o s)) = Ok (VStr v)) /\
    fst (fst (perform (with_run E run') f o s)) = Exc (EType "x").
Proof.
  intro b. exists (calm_env b 0 (Exc (EType "x"))), (flat_run true (Exc (EType "x"))), 9, (ORepr (VProxy 42)), refused_state.
  split; [reflexivity|]. split; [reflexivity|]. split; [apply calm_plain|]. split; [apply calm_looser|].
  split; [apply calm_keeps|]. split; [exact calm_unwatching|].
  split; [eexists; destruct b; lazy; reflexivity|destruct b; lazy; reflexivity].
Qed.

Lemma tables_refuted_lemma : forall b, exists E f c obj n p s s',
    e_impl E = b /\ e_cimpl E = b /\ s' = set_dicts (upd (st_dicts s) 20 ((n, p) :: st_dicts s 20)) s /\
    dget String.eqb (st_dicts s 20) n = None /\
    fst (fst (do_check E f MGetattr c obj n s)) = Ok tt /\
    fst (fst (do_check E f MGetattr c obj n s')) = Exc (EUnauthorized obj n p).
Proof.
  intro b. exists (calm_env b 0 (Ok VNone)), 9, (VChk 10), (VObj 6), "__class__", p_view, calm0, (stricter_state "__class__" p_view).
  split; [reflexivity|]. split; [reflexivity|]. split; [reflexivity|]. split; [reflexivity|].
  split; destruct b; lazy; reflexivity.
Qed.

Lemma welcome_facts : forall b, let E := calm_env b 0 (Ok (VStr "a thing")) in
    revised false E (flat_run true (Ok (VStr "a thing"))) /\
    never false (snd (run_client E 9 welcome calm0)) /\
    run_client (with_run E (flat_run true (Ok (VStr "a thing")))) 9 welcome calm0 = run_client E 9 welcome calm0 /\
    fst (fst (run_client E 9 welcome calm0)) <>
    fst (fst (run_client (with_run E (flat_run false (Ok (VStr "a thing")))) 9 welcome calm0)).
Proof.
  intros b E. split; [exact (calm_revised false b 0 _)|].
  split; [intros th iv p obj H; destruct b; lazy in H; repeat (destruct H as [H|H]; [discriminate H|]); exact H|].
  split; [destruct b; lazy; reflexivity|]. destruct b; lazy; discriminate.
Qed.

Lemma unwelcome_facts : forall b, let E := calm_env b 0 (Ok (VStr "a thing")) in
    revised true E (flat_run false (Ok (VStr "a thing"))) /\
    never true (snd (run_client E 9 unwelcome calm0)) /\
    (exists th iv p obj, In (EAsk th iv p obj (Some false)) (snd (run_client E 9 unwelcome calm0))) /\
    run_client (with_run E (flat_run false (Ok (VStr "a thing")))) 9 unwelcome calm0 = run_client E 9 unwelcome calm0.
Proof.
  intros b E. split; [exact (calm_revised true b 0 _)|].
  split; [intros th iv p obj H; destruct b; lazy in H; repeat (destruct H as [H|H]; [discriminate H|]); exact H|].
  split; [exists 0, (VObj 77), p_view, (VObj 6); destruct b; lazy; auto|]. destruct b; lazy; reflexivity.
Qed.

Lemma granting_facts : forall b, let E := calm_env b 0 (Ok (VStr "a thing")) in
    let E' := with_run E (flat_run true (Ok (VStr "a thing"))) in
    plain_policy E /\ looser E (flat_run true (Ok (VStr "a thing"))) /\ keeps_unwatching E /\ unwatching calm0 /\
    fst (fst (do_check E 9 MGetattr (VChk 12) (VObj 5) "bar" calm0)) = Ok tt /\
    fst (fst (do_check E' 9 MGetattr (VChk 12) (VObj 5) "bar" calm0)) = Ok tt /\
    fst (fst (do_check E 9 MGetattr (VChk 12) (VObj 6) "bar" calm0)) = Exc (EUnauthorized (VObj 6) "bar" p_view) /\
    fst (fst (do_check E' 9 MGetattr (VChk 12) (VObj 6) "bar" calm0)) = Ok tt.
Proof.
  intros b E E'. split; [apply calm_plain|]. split; [apply calm_looser|]. split; [apply calm_keeps|].
  split; [exact calm_unwatching|]. destruct b; repeat split; lazy; reflexivity.
Qed.
