(** * Properties C08, C09: checker constructors. *)

From Coq Require Import List String Bool Arith ZArith Permutation.
From Verif Require Import Base Domain CheckerModel ProxyModel Spec Witness TableFacts.
Import ListNotations.
Open Scope string_scope.

(** ** C08 *)

Theorem C08_NamesChecker_exact :
  forall E names p kw s,
    NoDup (map fst kw) ->
    (forall n q, In n names -> table_of kw n = Some q -> q = p) ->
    exists c s', NamesChecker E names p kw s = (Ok c, s', []) /\
      new_checker E s c s'
        (fun n => if in_dec string_dec n names then Some p else table_of kw n).
Proof. exact NamesChecker_ok_lemma. Qed.
Print Assumptions C08_NamesChecker_exact.

Theorem C08_NamesChecker_conflict :
  forall E names p kw s,
    NoDup (map fst kw) ->
    (exists n q, In n names /\ table_of kw n = Some q /\ q <> p) ->
    exists pre n post q, names = (pre ++ n :: post)%list /\
      (forall m q', In m pre -> table_of kw m = Some q' -> q' = p) /\
      table_of kw n = Some q /\ q <> p /\
      NamesChecker E names p kw s = (Exc (EDuplication n), s, []).
Proof. exact NamesChecker_conflict_lemma. Qed.
Print Assumptions C08_NamesChecker_conflict.

Theorem C08_InterfaceChecker_exact :
  forall E iface p kw s,
    NoDup (map fst kw) ->
    (forall n q, In n iface -> table_of kw n = Some q -> q = p) ->
    exists c s', InterfaceChecker E iface p kw s = (Ok c, s', []) /\
      new_checker E s c s'
        (fun n => if in_dec string_dec n iface then Some p else table_of kw n).
Proof. exact InterfaceChecker_ok_lemma. Qed.
Print Assumptions C08_InterfaceChecker_exact.

Example C08_example :
  fst (fst (NamesChecker (wenv ImplPy) ["a"; "b"; "a"] PPublic [("c", p_view)] w_state)) =
  Ok (VChk 52) /\
  NamesChecker (wenv ImplPy) ["a"; "c"; "b"] PPublic [("c", p_view)] w_state =
  (Exc (EDuplication "c"), w_state, []).
Proof. split; reflexivity. Qed.

(** Equal permission texts that are different string objects conflict. *)
Example C08_example_identity :
  NamesChecker (wenv ImplPy) ["a"] (PId 1 "zope.View") [("a", PId 2 "zope.View")] w_state =
  (Exc (EDuplication "a"), w_state, []).
Proof. reflexivity. Qed.

(** ** C09 *)

Theorem C09_MultiChecker_exact :
  forall E specs s,
    ~ conflicting (given specs) ->
    exists c s' tb, MultiChecker E specs s = (Ok c, s', []) /\ new_checker E s c s' tb /\
      forall n p, tb n = Some p <-> In (n, p) (given specs).
Proof. exact MultiChecker_ok_lemma. Qed.
Print Assumptions C09_MultiChecker_exact.

Theorem C09_MultiChecker_conflict :
  forall E specs s,
    conflicting (given specs) ->
    exists n, MultiChecker E specs s = (Exc (EDuplication n), s, []) /\
              exists p q, In (n, p) (given specs) /\ In (n, q) (given specs) /\ p <> q.
Proof. exact MultiChecker_conflict_lemma. Qed.
Print Assumptions C09_MultiChecker_conflict.

(** Any rearrangement of the specs, or of the names inside them, gives the same table. *)
Theorem C09_MultiChecker_order :
  forall E specs1 specs2 s c1 s1 t1 r2 s2 t2,
    (forall x, In x (given specs1) <-> In x (given specs2)) ->
    MultiChecker E specs1 s = (Ok c1, s1, t1) ->
    MultiChecker E specs2 s = (r2, s2, t2) ->
    exists c2 tb, r2 = Ok c2 /\ new_checker E s c1 s1 tb /\ new_checker E s c2 s2 tb.
Proof. exact MultiChecker_order_lemma. Qed.
Print Assumptions C09_MultiChecker_order.

Theorem C09_permutation :
  forall specs1 specs2,
    Permutation specs1 specs2 -> forall x, In x (given specs1) <-> In x (given specs2).
Proof. exact given_permutation. Qed.
Print Assumptions C09_permutation.

Example C09_example :
  fst (fst (MultiChecker (wenv ImplC)
        [SNames ["a"; "b"] p_view; SDict [("c", PPublic); ("a", p_view)]] w_state)) =
  Ok (VChk 52) /\
  MultiChecker (wenv ImplC)
        [SNames ["a"; "b"] p_view; SDict [("c", PPublic); ("a", p_edit)]] w_state =
  (Exc (EDuplication "a"), w_state, []).
Proof. split; reflexivity. Qed.
