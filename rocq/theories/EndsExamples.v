(** * EndsExamples: states and application code for the examples of C79. *)

From Coq Require Import List String Bool Arith ZArith Lia.
From Verif Require Import Base Domain CheckerModel ProxyModel MFacts Witness EndsSpec.
Import ListNotations.
Open Scope string_scope.

(** Proxies of proxies (42 of 41 of 40), a combined checker, a factory in the registry. *)
Definition nested_chks (i : id) : option checker :=
  match i with
  | 0 => Some (mkChecker 30 31 CkPlain)
  | 10 => Some (mkChecker 20 21 CkPlain)
  | 11 => Some (mkChecker 22 22 CkPlain)
  | 12 => Some (mkChecker 20 21 (CkCombined (VChk 11)))
  | _ => None
  end.

Definition nested_dicts (i : id) : list (name * perm) :=
  match i with
  | 20 => [("foo", PPublic); ("__iadd__", PPublic); ("__len__", PPublic)]
  | _ => []
  end.

Definition nested_prox (i : id) : option (value * value) :=
  match i with
  | 40 => Some (VObj 5, VChk 10)
  | 41 => Some (VProxy 40, VChk 12)
  | 42 => Some (VProxy 41, VChk 10)
  | _ => None
  end.

Definition nested (reg : list (rkey * value)) : state :=
  mkState 50 nested_dicts nested_chks nested_prox (fun _ => None)
          reg [] (fun _ => no_tl) PolParanoid (fun _ => None)
          (fun _ => mkPart SystemUser None) 0.

Lemma nested_founded reg :
  (forall k v, dget rkey_eqb reg k = Some v -> exists i, v = VObj i) -> founded (nested reg).
Proof.
  intros HR. split; simpl.
  - lia.
  - intros p w c H. unfold nested_prox in H.
    do 43 (destruct p as [|p]; [try discriminate H; injection H as <- <-; simpl;
      (split; [lia|]); (split; [lia || exact I|]); (split; [lia|]); intros q X; try discriminate X;
      injection X as <-; lia|]).
    discriminate H.
  - discriminate.
  - intros i k H. unfold nested_chks in H.
    do 13 (destruct i as [|i]; [try discriminate H; injection H as <-; simpl;
      (split; [lia|]); (left; reflexivity) ||
      (right; eexists; split; [reflexivity|]; intros j X; injection X as <-; lia)|]).
    discriminate H.
  - intros k v H. destruct (HR k v H) as [i ->]. repeat split; try exact I; discriminate.
Qed.

(** Application code: VObj 9 is a factory that returns the checker 10; VObj 8 returns its
    argument, unless it is used as a factory. *)
Definition tame_run (t : id) (c : call) (s : state) : res value * state :=
  match c with
  | CallOp (OCall (VObj 9) _) =>
      (Ok (match st_chks s 10 with
           | Some k => match ck_kind k with CkPlain => VChk 10 | _ => VNone end
           | None => VNone end), s)
  | CallOp (OCall (VObj 8) [VProxy p]) =>
      (Ok (match st_reg s with [] => if Nat.ltb p (st_next s) then VProxy p else VNone | _ => VNone end), s)
  | CallOp (OGetattr _ n _) =>
      (if String.eqb n "__Security_checker__" then Exc (EAttribute n)
       else if String.eqb n "__iadd__" then Ok (VObj 8) else Ok VNone, s)
  | CallOp (OLen _) | CallOp (OHash _) => (Ok (VInt 1), s)
  | _ => (Ok VNone, s)
  end.

Ltac run_cases H :=
  repeat match type of H with
         | context [match ?x with _ => _ end] => destruct x eqn:?
         end.

Lemma tame_run_tame b : tame (wenv_run b tame_run).
Proof.
  split.
  - intros c s r s' F H. cbn [wenv_run e_run e_tid] in H. unfold tame_run in H.
    assert (X : s' = s /\ r <> Exc EFuel /\ forall v, r = Ok v -> known s v).
    { run_cases H; injection H as <- <-; (split; [reflexivity|]); (split; [discriminate|]);
        intros result Hres; try discriminate Hres; injection Hres as <-; try exact I.
      all: first [apply Nat.ltb_lt; assumption | eapply (fd_checker s F); eassumption]. }
    destruct X as (-> & X & Y). split; [exact F|]. split; [apply le_n|]. split; assumption.
  - intros s k f obj v s' F Hf H. cbn [wenv_run e_run e_tid] in H. unfold tame_run in H.
    run_cases H; try (injection H as <- <-; auto; fail).
    + discriminate Hf.
    + injection H as <- <-. right; right. unfold is_Checker.
      destruct b; cbn [wenv_run e_cimpl]; simpl;
        repeat match goal with X : st_chks s 10 = Some _ |- _ => rewrite X end;
        repeat match goal with X : ck_kind _ = _ |- _ => rewrite X end; reflexivity.
Qed.

Definition with_factory : state := nested [(KType "app.Thing", VObj 9)].

Lemma with_factory_founded : founded with_factory.
Proof.
  apply nested_founded. intros k v H. cbn [dget] in H.
  destruct (rkey_eqb (KType "app.Thing") k); [|discriminate H]. injection H as <-. eexists. reflexivity.
Qed.


(** ** Proxies of themselves *)

Lemma looped_hash f s :
  st_prox s 40 = Some (VProxy 40, VChk 10) ->
  fst (fst (perform (wenv_run ImplPy tame_run) f (OHash (VProxy 40)) s)) = Exc EFuel.
Proof.
  intros Hp. unfold perform. induction f as [|f IH]; [reflexivity|].
  cbn [interp_n i_op run_op wenv_run e_impl]. unfold py_hash, pget. rewrite !bind_assoc, bind_get, Hp.
  unfold ret at 1. unfold bind at 1. cbn [fst snd].
  destruct (i_op (interp_n (wenv_run ImplPy tame_run) f) Client (OHash (VProxy 40)) s) as [[r s1] t].
  exact IH.
Qed.

Lemma own_object :
  exists E s, e_impl E = ImplPy /\ e_watch E = 0 /\ tame E /\ founded s /\
    forall o, In o [OIn IAdd (VProxy 40) (VProxy 40); OSetattr (VProxy 40) "_wrapped" (VProxy 40)] ->
    exists r s' t, (forall f, 9 <= f -> perform E f o s = (Ok r, s', t)) /\
      forall f, fst (fst (perform E f (OHash (VProxy 40)) s')) = Exc EFuel.
Proof.
  exists (wenv_run ImplPy tame_run), (nested []).
  split; [reflexivity|]. split; [reflexivity|]. split; [apply tame_run_tame|].
  split; [apply nested_founded; discriminate|].
  intros o [<- | [<- | []]].
  - eexists _, _, _. split.
    + intros f Hf. do 9 (destruct f as [|f]; [lia|]). unfold perform. cbv. reflexivity.
    + intros f. apply looped_hash. reflexivity.
  - eexists _, _, _. split.
    + intros f Hf. do 9 (destruct f as [|f]; [lia|]). unfold perform. cbv. reflexivity.
    + intros f. apply looped_hash. reflexivity.
Qed.

(** ** A factory that returns itself *)

Definition itself_run (t : id) (c : call) (s : state) : res value * state :=
  match c with
  | CallOp (OCall (VObj 9) _) => (Ok (VObj 9), s)
  | _ => (Ok VNone, s)
  end.

Lemma own_factory :
  forall b, exists E s, e_cimpl E = b /\ e_watch E = 0 /\ founded s /\
    (forall c s r s', e_run E (e_tid E) c s = (r, s') -> s' = s /\ exists v, r = Ok v) /\
    forall f, fst (fst (do_select E f (VObj 5) s)) = Exc EFuel.
Proof.
  intros b. exists (wenv_run b itself_run), with_factory.
  split; [reflexivity|]. split; [reflexivity|]. split; [exact with_factory_founded|].
  split.
  - intros c s r s' H. cbn [wenv_run e_run e_tid] in H. unfold itself_run in H.
    run_cases H; injection H as <- <-; eauto.
  - intros f.
    assert (X : fst (fst (i_select (interp_n (wenv_run b itself_run) f) (VObj 9) (VObj 5) with_factory))
                = Exc EFuel).
    { assert (Y : exists t, i_select (interp_n (wenv_run b itself_run) f) (VObj 9) (VObj 5) with_factory
                            = (Exc EFuel, with_factory, t)).
      { induction f as [|f [t IH]]; [eexists; reflexivity|].
        cbn [interp_n i_select]. unfold select_loop. rewrite bind_get.
        replace (is_Checker (wenv_run b itself_run) with_factory (VObj 9)) with false by (destruct b; reflexivity).
        unfold call_factory. destruct f as [|f].
        - eexists. reflexivity.
        - unfold bind at 1. cbn [interp_n i_op run_op]. unfold raw.
          eexists. simpl in IH |- *. rewrite IH. reflexivity. }
      destruct Y as [t ->]. reflexivity. }
    unfold do_select, selectChecker, selectCheckerPy, selectCheckerC.
    destruct b; cbn [wenv_run e_cimpl]; rewrite bind_get; exact X.
Qed.
