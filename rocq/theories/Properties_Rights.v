(** * Property C80: using proxies changes nobody's rights. *)

From Coq Require Import List String Bool Arith ZArith Lia.
From Verif Require Import Base Domain CheckerModel ProxyModel Witness RightsSpec RightsFacts.
Import ListNotations.
Open Scope string_scope.

(** ** C80 *)

(** Whatever any threads do with proxies, checkers, selectChecker, ProxyFactory, canAccess and
    canWrite, in either build, with watching checkers or without: permission tables, existing
    checkers, registry, policy and interactions change only if application code changes them. *)
Theorem C80_rights :
  forall (Env : env -> Prop) s s',
    (forall E, Env E -> declares_nothing E) -> Uses Env s s' -> same_rights s s'.
Proof. exact uses_keep_lemma. Qed.
Print Assumptions C80_rights.

(** So what was decided once is decided the same way later, if the policy depends on nothing
    else. *)
Theorem C80_decisions :
  forall (Env : env -> Prop) E f m c obj n s s',
    (forall E, Env E -> declares_nothing E) -> Uses Env s s' ->
    declares_nothing E -> decides_by_rights E -> Existing s c -> n <> "__iter__" ->
    fst (fst (do_check E f m c obj n s')) = fst (fst (do_check E f m c obj n s)).
Proof. exact decisions_lemma. Qed.
Print Assumptions C80_decisions.

(** ** Examples *)

Example C80_example :
  forall b,
    (forall E, E = wenv b -> declares_nothing E) /\ decides_by_rights (wenv b) /\
    Existing (w_state_in false) (VChk 12) /\
    (exists s', Uses (fun E => E = wenv b) (w_state_in false) s' /\ st_next s' <> st_next (w_state_in false) /\
       fst (fst (do_check (wenv b) 9 MCheck (VChk 12) (VObj 5) "bar" s')) =
         Exc (EUnauthorized (VObj 5) "bar" p_view) /\
       fst (fst (do_check (wenv b) 9 MCheck (VChk 12) (VObj 5) "baz" s')) = Ok tt).
Proof.
  intros b. split; [intros E ->; apply quiet_declares|].
  split; [split; [reflexivity|split; [reflexivity|split; [reflexivity|]]]|].
  { intros i p obj s v s' H. injection H as <- <-. reflexivity. }
  split.
  { eapply Ex_combined with (c2 := VChk 11); [simpl; lia|reflexivity|reflexivity|].
    eapply Ex_plain; [simpl; lia|reflexivity|reflexivity]. }
  eexists. split.
  { eapply U_factory with (E := wenv b) (f := 9) (obj := VObj 8) (c := VChk 10);
      [reflexivity|reflexivity|]. apply U_done. }
  split; [simpl; lia|].
  destruct b; split; reflexivity.
Qed.
Print Assumptions C80_example.
