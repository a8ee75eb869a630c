(** * RaceProps: what proxies do while threads declare. *)

From Coq Require Import List String Bool Arith Lia.
From Verif Require Import Base Domain CheckerModel ProxyModel MFacts Spec RegSpec ProxySpec
  ProxyTable ProtectSpec DeclThreads DeclThreadFacts RaceSpec RaceFacts.
Import ListNotations.
Open Scope string_scope.

Lemma race_refused_lemma E ds s c1 s1 c2 s2 k i ch f o p n a w :
  registry_wf s -> never_none ds s ->
  Runs E (fun t => p_decls (ds t)) s c1 s1 -> Runs E c1 s1 c2 s2 ->
  live s1 k i ch -> ck_kind ch = CkPlain -> st_prox s2 p = Some (w, VChk i) ->
  guard_of (e_impl E) o = Some (p, n, a) ->
  (a = Read -> ~ always_available n /\ n <> "__iter__") ->
  (forall q, ~ granted ds s (writing a) k n q) ->
  perform E (S (S (S f))) o s2 = (Exc (EForbidden n w), s2, []).
Proof.
  intros Hw Hnn H1 H2 Hl Hk Hp Hg Hav Hno.
  destruct (excess_lemma E s ds c1 s1 c2 s2 k i ch Hw H1 H2 Hl) as (Hc & Hr & Hwr).
  eapply (forbidden_lemma E f o p n a w (VChk i)); eauto.
  - exists i, ch. repeat (split; [solve [reflexivity|assumption]|]). reflexivity.
  - intros n' Hn'. apply (granted_not_none ds s false k n' Hnn). apply Hr. exact Hn'.
  - intros n' Hn'. apply (granted_not_none ds s true k n' Hnn). apply Hwr. exact Hn'.
  - destruct a; simpl in *.
    + destruct (table_of (st_dicts s2 (ck_get ch)) n) as [q|] eqn:Ht; [|reflexivity].
      exfalso. apply (Hno q). apply Hr. exact Ht.
    + destruct (table_of (st_dicts s2 (ck_set ch)) n) as [q|] eqn:Ht; [|reflexivity].
      exfalso. apply (Hno q). apply Hwr. exact Ht.
Qed.
