(** * ConcealProps: witnesses for the properties about concealment. *)

From Coq Require Import List String Bool Arith ZArith Lia.
From Verif Require Import Base Domain CheckerModel ProxyModel MFacts Spec RegSpec Witness
  CheckFacts ProxySpec MediationSpec SessionSpec ProxyProps ConcealSpec ConcealFacts.
Import ListNotations.
Open Scope string_scope.

(** Object 5 keeps attributes "bar" and "zip" and its items from the client. *)
Definition kept (n : name) : Prop := In n ["bar"; "zip"; "__getitem__"].
Definition kept_guards : list (id * checker) :=
  [(10, mkChecker 20 21 CkPlain); (0, mkChecker 30 31 CkPlain)].
Definition kept_perms (q : perm) : Prop := q = p_view \/ q = p_edit.

(** The same application with other secrets. *)
Definition secret (c : call) : option (res value) :=
  match c with
  | CallOp (OGetattr v n _) =>
      if value_eqb v (VObj 5) then
        if String.eqb n "bar" then Some (Ok (VInt 42))
        else if String.eqb n "zip" then Some (Exc (EAttribute "zip"))
        else None
      else None
  | CallOp (OSetattr v n _) =>
      if value_eqb v (VObj 5) then
        if String.eqb n "bar" then Some (Exc (EApp 13)) else None
      else None
  | CallOp (OGetitem v _) =>
      if value_eqb v (VObj 5) then Some (Ok (VStr "item")) else None
  | _ => None
  end.
Definition other_run (t : id) (c : call) (s : state) : res value * state :=
  match secret c with
  | Some r => (r, s)
  | None => app_run t c s
  end.

(** A client that reads, assigns, takes an item, and goes on differently depending on
    what it saw. *)
Definition nosy : client :=
  Request (OGetattr (VProxy 40) "bar" None) (fun r1 =>
  Request (match r1 with
           | Exc (EUnauthorized _ _ _) => OSetattr (VProxy 40) "bar" (VInt 1)
           | _ => OGetattr (VProxy 40) "foo" None
           end) (fun r2 =>
  Request (OGetitem (VProxy 40) (VInt 0)) (fun r3 =>
  Request (OGetattr (VProxy 40) "zip" None) (fun r4 =>
  Request (OGetattr (VProxy 40) "foo" None) (fun r5 =>
  match r5 with
  | Ok (VProxy p) => Request (OStr (VProxy p)) (fun _ => Finished)
  | _ => Finished
  end))))).

Lemma kept_concealable n : kept n -> concealable n.
Proof.
  intros H. simpl in H.
  destruct H as [<-|[<-|[<-|[]]]];
    (split; [|split; [reflexivity|]]); unfold always_available; simpl; intros H;
    repeat destruct H as [H|H]; try discriminate H; exact H.
Qed.
Lemma kept_inplace : inplace_too kept.
Proof. intros b H. exfalso. unfold kept in H. destruct b; simpl in H; intuition discriminate. Qed.

Lemma kept_withheld s i k :
  st_dicts s = a_dicts -> In (i, k) kept_guards ->
  withholds kept kept_perms (table_of (st_dicts s (ck_get k))) /\
  withholds kept kept_perms (table_of (st_dicts s (ck_set k))).
Proof.
  intros -> H. simpl in H. unfold kept_perms.
  destruct H as [[= <- <-]|[[= <- <-]|[]]]; split; intros n q Hn Hq;
    repeat (destruct Hn as [<-|Hn]); try destruct Hn; cbv in Hq; try discriminate;
    injection Hq as <-; (split; [discriminate|auto]).
Qed.

Lemma a_concealed b : Concealed (aenv b) (VObj 5) kept kept_guards kept_perms (a_state false).
Proof.
  constructor.
  - intros i k H. destruct (kept_withheld (a_state false) i k eq_refl H) as [A B].
    simpl in H. destruct H as [[= <- <-]|[[= <- <-]|[]]];
      (split; [reflexivity|]; split; [simpl; lia|]; split; [exact A|]; split; [exact B|exact I]).
  - intros p c H. simpl in H. unfold w_prox in H.
    do 42 (destruct p as [|p]; [try discriminate H; injection H as <-;
                                exists 10, (mkChecker 20 21 CkPlain); simpl; auto|]).
    discriminate H.
  - exists 0, (mkChecker 30 31 CkPlain). simpl. auto.
  - intros q Hq. simpl. intros x [= <-] [H|[H|H]]; [discriminate| |].
    + destruct Hq; subst; discriminate.
    + specialize (H 46 (or_introl eq_refl)). discriminate.
  - apply a_heap_ok.
Qed.

Lemma a_respects b : respects (aenv b) (VObj 5) kept kept_guards kept_perms.
Proof.
  constructor.
  - apply (pure_keeps_proxies (aenv b)). apply aenv_pure.
  - intros t c s r s' H. apply (aenv_pure b) in H. subst. auto.
  - intros t fr s v s' H. simpl in H. discriminate.
Qed.

Lemma other_differs b : differs_only_there (aenv b) (VObj 5) kept other_run.
Proof.
  intros t c s H. unfold other_run.
  assert (Hs : secret c = None); [|rewrite Hs; reflexivity].
  destruct c as [o| | | |]; try reflexivity. specialize (H o eq_refl). unfold secret.
  destruct o as [v n fr|v n u|v n|v args|u v|u v|bb l r|a0 bb m|bb l r|v key|v key u|v key
                |v key|v|v|v|v|v|c l r|v|v|v]; try reflexivity;
    (destruct (value_eqb_spec v (VObj 5)) as [->|]; [|reflexivity]).
  - destruct (String.eqb_spec n "bar") as [->|];
      [destruct H; split; [reflexivity|unfold kept; simpl; auto]|].
    destruct (String.eqb_spec n "zip") as [->|];
      [destruct H; split; [reflexivity|unfold kept; simpl; auto]|reflexivity].
  - destruct (String.eqb_spec n "bar") as [->|];
      [destruct H; split; [reflexivity|unfold kept; simpl; auto]|reflexivity].
  - destruct H; split; [reflexivity|unfold kept; simpl; auto].
Qed.

Lemma nosy_polite b : polite b (VObj 5) nosy.
Proof.
  assert (Hp : forall v, rebinds_nothing b (OStr v)) by (intros; destruct b; exact I).
  unfold nosy. simpl.
  split; [intuition discriminate|]. split; [destruct b; exact I|]. intros r1.
  split; [destruct r1 as [|[]]; simpl; intuition discriminate|].
  split; [destruct r1 as [|[]], b; simpl; unfold internal_name; intuition discriminate|].
  intros _. split; [intuition discriminate|]. split; [destruct b; exact I|]. intros _.
  split; [intuition discriminate|]. split; [destruct b; exact I|]. intros _.
  split; [intuition discriminate|]. split; [destruct b; exact I|]. intros r5.
  destruct r5 as [v|e]; [|exact I]. destruct v; try exact I. simpl.
  split; [intuition discriminate|]. split; [apply Hp|]. intros; exact I.
Qed.

(** The same with everything concealed but the length hint, which no build checks. *)
Definition hint (n : name) : Prop := n = "__length_hint__".
Definition hint_run (t : id) (c : call) (s : state) : res value * state :=
  match c with
  | CallOp (OGetattr v n _) =>
      if value_eqb v (VObj 5) && String.eqb n "__length_hint__"
      then (Exc (EAttribute "__length_hint__"), s) else app_run t c s
  | _ => app_run t c s
  end.
Lemma hint_differs b : differs_only_there (aenv b) (VObj 5) hint hint_run.
Proof.
  intros t c s H. unfold hint_run.
  destruct c as [o| | | |]; try reflexivity. specialize (H o eq_refl).
  destruct o as [v n fr|v n u|v n|v args|u v|u v|bb l r|a0 bb m|bb l r|v key|v key u|v key
                |v key|v|v|v|v|v|c l r|v|v|v]; try reflexivity.
  destruct (value_eqb_spec v (VObj 5)) as [->|]; [|reflexivity].
  destruct (String.eqb_spec n "__length_hint__") as [->|]; [|reflexivity].
  destruct H. split; reflexivity.
Qed.
Lemma hint_concealed b :
  Concealed (aenv b) (VObj 5) hint kept_guards kept_perms (a_state false).
Proof.
  destruct (a_concealed b) as [A B C D F]. constructor; auto.
  intros i k H. destruct (A i k H) as (X1 & X2 & _ & _ & X5).
  split; [exact X1|]. split; [exact X2|]. clear X1 X2. simpl in H.
  destruct H as [[= <- <-]|[[= <- <-]|[]]];
    (split; [|split; [|exact I]]); intros n q -> Hq; cbv in Hq; discriminate.
Qed.
Lemma hint_respects b : respects (aenv b) (VObj 5) hint kept_guards kept_perms.
Proof.
  constructor.
  - apply (pure_keeps_proxies (aenv b)). apply aenv_pure.
  - intros t c s r s' H. apply (aenv_pure b) in H. subst. auto.
  - intros t fr s v s' H. simpl in H. discriminate.
Qed.
