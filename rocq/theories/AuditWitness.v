(** * AuditWitness: a process with an auditing policy, for the examples of C92. *)

From Coq Require Import List String Bool Arith ZArith Lia.
From Verif Require Import Base Domain CheckerModel ProxyModel Spec RegSpec ProxySpec MediationSpec AuditSpec Witness.
Import ListNotations.
Open Scope string_scope.

(** Objects have all attributes but "gone", "deco" is a decorator, and leave addition to the
    other operand; the policy says yes, but no to zope.Edit on object 7. *)
Definition audit_answer (c : call) : res value :=
  match c with
  | CallOp (OGetattr _ n _) =>
      if String.eqb n "__Security_checker__" || String.eqb n "gone" then Exc (EAttribute n)
      else if String.eqb n "deco" then Ok (VDeco 60) else Ok (VObj 8)
  | CallOp (OBin _ _ _) => Ok VNotImpl
  | CallPerm _ q obj => Ok (VBool (negb (perm_eqb q p_edit && value_eqb obj (VObj 7))))
  | _ => Ok VNone
  end.
Definition audit_env (b : impl) : env :=
  mkEnv b b 0 0 (fun _ => "app.Thing") (fun _ => "type") (fun _ => false) (fun _ => "0x1")
        (fun _ c s => (audit_answer c, s)).

Definition audit_dicts (i : id) : list (name * perm) :=
  match i with
  | 20 => [("foo", PPublic); ("bar", p_view); ("gone", p_view); ("__add__", p_view); ("deco", p_view)]
  | 21 => [("bar", p_edit)]
  | 22 => [("__radd__", p_edit)]
  | 24 => [("both", p_edit)]
  | 25 => [("both", p_view)]
  | _ => []
  end.
Definition audit_chks (i : id) : option checker :=
  match i with
  | 0 => Some (mkChecker 30 31 CkPlain)
  | 10 => Some (mkChecker 20 21 CkPlain)
  | 11 => Some (mkChecker 22 23 CkPlain)
  | 12 => Some (mkChecker 24 23 (CkCombined (VChk 13)))
  | 13 => Some (mkChecker 25 23 CkPlain)
  | _ => None
  end.
Definition audit_prox (i : id) : option (value * value) :=
  match i with
  | 40 => Some (VObj 5, VChk 10)
  | 41 => Some (VObj 6, VChk 11)
  | 42 => Some (VObj 7, VChk 12)
  | _ => None
  end.
Definition audit_state : state :=
  mkState 70 audit_dicts audit_chks audit_prox (fun d => match d with 60 => Some (mkDeco "Deco" (VObj 9) VNone) | _ => None end)
          [(KType "str", VNoProxy); (KType "app.Thing", VChk 11)] [] (fun t => match t with 0 => mkTl (Some (VObj 77)) None | _ => no_tl end)
          PolParanoid (fun _ => None) (fun _ => mkPart SystemUser None) 0.

(** The checkers behind the proxies. *)
Definition audit_links (p : id) : list id :=
  match p with 40 => [10] | 41 => [11] | 42 => [12; 13] | _ => [] end.

Lemma audit_calm b : calm (audit_env b) audit_state.
Proof.
  constructor; cbn [audit_state st_prox st_chks st_reg st_decos].
  - intros p x H. cbn [audit_state st_prox st_next] in *. unfold audit_prox in H.
    do 43 (destruct p as [|p]; [lia|]). discriminate H.
  - intros i k H. cbn [audit_state st_chks st_next] in *. unfold audit_chks in H.
    do 14 (destruct i as [|i]; [try discriminate H; injection H as <-; cbn; lia|]). discriminate H.
  - intros p w c H. unfold audit_prox in H.
    do 43 (destruct p as [|p]; [try discriminate H;
      injection H as <- <-; (split; [reflexivity|]); eexists _, _; split; reflexivity|]).
    discriminate H.
  - intros key v H. cbn [dget] in H. destruct (rkey_eqb (KType "str") key); [injection H as <-; exact I|].
    destruct (rkey_eqb (KType "app.Thing") key); [|discriminate H]. injection H as <-. exact I.
Qed.
Lemma audit_chains : chains audit_state audit_links.
Proof.
  intros p w c H. cbn [audit_state st_prox] in H. unfold audit_prox in H.
  do 40 (destruct p as [|p]; [discriminate H|]).
  destruct p as [|p]; [injection H as <- <-; eapply Li_one; [reflexivity|left; reflexivity]|].
  destruct p as [|p]; [injection H as <- <-; eapply Li_one; [reflexivity|left; reflexivity]|].
  destruct p as [|p]; [|discriminate H]. injection H as <- <-.
  eapply Li_more; [reflexivity|left; reflexivity|]. eapply Li_one; [reflexivity|left; reflexivity].
Qed.
Lemma audit_code b : calm_code (audit_env b).
Proof.
  constructor; cbn [audit_env e_run].
  - intros t c s r s' H Hc. injection H as _ <-. split; [exact Hc|]. split; auto.
  - intros t v fr s c s' _ H. cbn in H. discriminate H.
  - intros t v n fr s c s' [-> | ->] H; cbn in H; injection H as <- _; reflexivity.
Qed.
Lemma audit_known b o : (forall p n a, In (p, n, a) (queries b o) -> p = 40 \/ p = 41 \/ p = 42) ->
  known audit_state b o.
Proof. intros H p n a Hin. destruct (H p n a Hin) as [-> |[-> | ->]]; eexists; reflexivity. Qed.

(** The permissions asked for, and about which objects. *)
Definition audit_log (tr : list event) : list (perm * value) :=
  flat_map (fun e => match e with EAsk _ _ p obj _ => [(p, obj)] | _ => [] end) tr.
Definition audited (b : impl) (o : op) : list (perm * value) :=
  audit_log (snd (perform (audit_env b) 9 o audit_state)).

Lemma twice_refuted :
  exists E s o r s' tr, e_impl E = ImplPy /\ calm_code E /\ calm E s /\ auditable ImplPy o /\ known s ImplPy o /\
    perform E 9 o s = (r, s', tr) /\
    (exists e, asks tr = [e; e]) /\ List.length (client_calls tr) = 1.
Proof.
  exists (audit_env ImplPy), audit_state, (OGetattr (VProxy 40) "gone" None).
  eexists _, _, _. split; [reflexivity|]. split; [apply audit_code|]. split; [apply audit_calm|].
  split; [exact I|]. split; [apply audit_known; intros p n a H; cbn in H; left;
    destruct H as [H|[H|[]]]; injection H as <- _ _; reflexivity|].
  split; [lazy; reflexivity|]. split; [eexists; reflexivity|reflexivity].
Qed.
