(** * Properties C43-C45: protectName, protectSetAttribute, protectLikeUnto. *)

From Coq Require Import List String Bool Arith ZArith Lia.
From Verif Require Import Base Domain CheckerModel ProxyModel Spec RegSpec Witness Protect
  ProtectSpec ProtectFacts.
Import ListNotations.
Open Scope string_scope.

(** ** C43 *)

(** Any history of declarations on classes with checkers of their own succeeds and
    gives every class and name exactly the declared protection; nothing but registry
    and tables changes, and classes that are not declared on keep their entry. *)
Theorem C43_declared :
  forall E ds s,
    declarable ds s ->
    exists s', run_decls E ds s = (Ok tt, s', []) /\
      (forall k n, read_protection s' k n = declared_reads ds (read_protection s) k n) /\
      (forall k n, write_protection s' k n = declared_writes ds (write_protection s) k n) /\
      only_tables s s' /\
      (forall k, ~ In k (map target ds) ->
         dget rkey_eqb (st_reg s') k = dget rkey_eqb (st_reg s) k).
Proof. exact declared_lemma. Qed.
Print Assumptions C43_declared.

(** The declarations of a class are what checks of its instances enforce. *)
Theorem C43_enforced :
  forall E ds s cls obj,
    e_watch E = 0 -> declarable ds s -> dget rkey_eqb (st_reg s) (KType cls) = None ->
    (exists d, In d ds /\ target d = KType cls /\ forall k l, d <> DLike k l) ->
    no_none (declared_reads ds (read_protection s) (KType cls)) ->
    no_none (declared_writes ds (write_protection s) (KType cls)) ->
    exists s' c, run_decls E ds s = (Ok tt, s', []) /\
      (concrete_type E s' obj = cls ->
       forall f, do_select E (S f) obj s' = (Ok (Some c), s', [])) /\
      (forall f m n r s2 tr, m <> MSetattr -> (n = "__iter__" -> plain_object obj) ->
         do_check E (S (S f)) m c obj n s' = (r, s2, tr) ->
         ReadCheck E s' (declared_reads ds (read_protection s) (KType cls)) obj n r s2 tr) /\
      (forall f n r s2 tr, do_check E (S f) MSetattr c obj n s' = (r, s2, tr) ->
         WriteCheck E s' (declared_writes ds (write_protection s) (KType cls)) obj n r s2 tr).
Proof. exact enforced_lemma. Qed.
Print Assumptions C43_enforced.

Definition ex_decls : list decl :=
  [ DName (KType "app.B") "title" p_view;
    DSet (KType "app.B") "title" p_edit;
    DName (KType "app.A") "title" p_edit;
    DName (KType "app.A") "size" (PId 9 "zope.Public");
    DLike (KType "app.A") (KType "app.B");
    DLike (KType "app.A") (KType "app.Unknown");
    DName (KType "app.B") "title" (PId 9 "zope.Public") ].

Example C43_example :
  declarable ex_decls w_state /\
  let s' := snd (fst (run_decls (wenv ImplPy) ex_decls w_state)) in
  fst (fst (run_decls (wenv ImplPy) ex_decls w_state)) = Ok tt /\
  read_protection s' (KType "app.A") "title" = Some p_view /\
  read_protection s' (KType "app.A") "size" = Some PPublic /\
  write_protection s' (KType "app.A") "title" = Some p_edit /\
  read_protection s' (KType "app.B") "title" = Some PPublic /\
  read_protection s' (KType "app.B") "size" = None /\
  no_none (declared_reads ex_decls (read_protection w_state) (KType "app.A")) /\
  no_none (declared_writes ex_decls (write_protection w_state) (KType "app.A")).
Proof.
  split.
  { split; [intros k i H; discriminate|]. intros d Hd.
    split; [simpl in Hd; intuition (subst; exact I)|].
    split; [left; reflexivity|].
    split; [intros i c [H _]; discriminate|]. intros k l _. left. reflexivity. }
  split; [vm_compute; reflexivity|]. split; [vm_compute; reflexivity|].
  split; [vm_compute; reflexivity|]. split; [vm_compute; reflexivity|].
  split; [vm_compute; reflexivity|]. split; [vm_compute; reflexivity|].
  split; intros n; unfold ex_decls, declared_reads, declared_writes, declared_read,
    declared_write, inherit, declare, read_protection, write_protection; cbn;
    repeat (match goal with |- context [String.eqb n ?x] => destruct (String.eqb n x) end; cbn);
    discriminate.
Qed.

(** ** C44 *)

(** A is what B was at the time, whatever is declared later on B or others. *)
Theorem C44_later_declarations_on_source :
  forall E a b ds s,
    declarable (DLike a b :: ds) s -> ~ In a (map target ds) ->
    exists s', run_decls E (DLike a b :: ds) s = (Ok tt, s', []) /\
      forall n,
        read_protection s' a n =
          match read_protection s b n with Some p => Some p | None => read_protection s a n end /\
        write_protection s' a n =
          match write_protection s b n with Some p => Some p | None => write_protection s a n end.
Proof. exact like_copies_lemma. Qed.
Print Assumptions C44_later_declarations_on_source.

(** ... and later declarations on A do not change B. *)
Theorem C44_later_declarations_on_copy :
  forall E a b ds s,
    a <> b -> declarable (DLike a b :: ds) s -> ~ In b (map target ds) ->
    exists s', run_decls E (DLike a b :: ds) s = (Ok tt, s', []) /\
      forall n, read_protection s' b n = read_protection s b n /\
                write_protection s' b n = write_protection s b n.
Proof. exact like_source_lemma. Qed.
Print Assumptions C44_later_declarations_on_copy.

Theorem C44_no_checker :
  forall E a b s,
    dget rkey_eqb (st_reg s) b = None -> protectLikeUnto E a b s = (Ok tt, s, []).
Proof. exact like_missing_lemma. Qed.
Print Assumptions C44_no_checker.

Example C44_example :
  let s := snd (fst (run_decls (wenv ImplC) (firstn 4 ex_decls) w_state)) in
  let ds := [DName (KType "app.B") "title" p_edit; DName (KType "app.B") "new" p_view] in
  let s' := snd (fst (run_decls (wenv ImplC)
              (DLike (KType "app.A") (KType "app.B") :: ds) s)) in
  read_protection s (KType "app.A") "title" = Some p_edit /\
  read_protection s' (KType "app.A") "title" = Some p_view /\
  read_protection s' (KType "app.A") "new" = None /\
  read_protection s' (KType "app.B") "new" = Some p_view.
Proof. repeat split; vm_compute; reflexivity. Qed.

(** ** C45 *)

(** Exactly the classes whose checker uses the same dictionary are affected. *)
Theorem C45_exact :
  forall E a i c n p s,
    live s a i c ->
    exists s', protectName E a n p s = (Ok tt, s', []) /\
      forall k i' c', live s k i' c' ->
        live s' k i' c' /\
        forall n', read_protection s' k n' =
          if Nat.eqb (ck_get c') (ck_get c) && String.eqb n' n then Some (meant p)
          else read_protection s k n'.
Proof. exact protectName_exact_lemma. Qed.
Print Assumptions C45_exact.

(** One checker registered for two classes, as the default checkers of built-in types
    are: declaring on one class changes the other. *)
Definition shared_state : state :=
  set_reg [(KType "app.A", VChk 10); (KType "app.B", VChk 10)] w_state.

Theorem C45_shared_refuted :
  exists E s s',
    live s (KType "app.A") 10 (mkChecker 20 21 CkPlain) /\
    protectName E (KType "app.A") "bar" PPublic s = (Ok tt, s', []) /\
    read_protection s (KType "app.B") "bar" = Some p_view /\
    read_protection s' (KType "app.B") "bar" = Some PPublic.
Proof.
  exists (wenv ImplPy), shared_state.
  exists (snd (fst (protectName (wenv ImplPy) (KType "app.A") "bar" PPublic shared_state))).
  split; [split; reflexivity|]. split; [reflexivity|]. split; reflexivity.
Qed.
Print Assumptions C45_shared_refuted.
