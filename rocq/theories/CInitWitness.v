(** * CInitWitness: concrete initialisations. *)

From Coq Require Import List String Bool Arith ZArith.
From Verif Require Import CInit CInitSpec.
Import ListNotations.
Open Scope string_scope.

Definition start : ist := mkI (fun _ => None) (fun _ => 0%Z) false [].

(** Every call gives a new object, except those that [bad] says fail. *)
Definition fresh (bad : call -> bool) (l : list (call * option obj)) (k : call) : option obj :=
  if bad k then None else Some (100 + List.length l).

Definition type_object : obj := 50.
Definition idle (n : string) (s : ist) : ist := s.

(** Importing zope.security.checker initialises the extension a second time. *)
Definition twice (n : string) (s : ist) : ist :=
  if String.eqb n "zope.security.checker"
  then snd (init_checker (fresh (fun _ => false)) type_object idle s)
  else s.

Definition adds (s : ist) (n : string) : list (obj * obj) :=
  fold_right (fun e l => match e with (KAdd m n' o, Some _) => if String.eqb n n' then (m, o) :: l else l | _ => l end)
    [] (log s).

Lemma adds_exported s n m o : In (m, o) (adds s n) -> exported s m n o.
Proof.
  unfold adds, exported. induction (log s) as [|[k r] l IH]; cbn; [contradiction|].
  intros H.
  assert (D : In (m, o) (fold_right (fun e l => match e with (KAdd m n' o, Some _) => if String.eqb n n' then (m, o) :: l else l | _ => l end) [] l) \/
              exists x, k = KAdd m n o /\ r = Some x).
  { destruct k; auto. destruct r as [x|]; auto. destruct (String.eqb_spec n name) as [->|]; auto.
    destruct H as [Q|H]; [|auto]. injection Q as -> ->. right. exists x. auto. }
  destruct D as [D|(x & -> & ->)].
  - destruct (IH D) as (x & X). exists x. now right.
  - exists x. now left.
Qed.

Notation run_checker bad := (init_checker (fresh bad) type_object idle start).
Notation run_twice := (init_checker (fresh (fun _ => false)) type_object twice start).

Lemma by_fst {A B} (x : option A * B) a : fst x = a -> x = (a, snd x).
Proof. intros <-. apply surjective_pairing. Qed.

Lemma twice_lemma :
  exists oracle type hook s m s' inner outer m',
    init_checker oracle type hook s = (Some m, s') /\ exc s' = false /\
    (forall k, ~ In (k, None) (log s')) /\
    exported s' m' "_available_by_default" inner /\ m' <> m /\
    vars s' "_available_by_default" = Some outer /\ inner <> outer.
Proof.
  assert (E : fst run_twice = Some 100) by (vm_compute; reflexivity).
  exists (fresh (fun _ => false)), type_object, twice, start, 100, (snd run_twice), 132, 140, 115.
  split; [transitivity (fst run_twice, snd run_twice); [apply surjective_pairing|rewrite E; reflexivity]|]. split; [vm_compute; reflexivity|]. split.
  { assert (N : forallb (fun e => match snd e with Some _ => true | None => false end) (log (snd run_twice)) = true)
      by (vm_compute; reflexivity).
    rewrite forallb_forall in N. intros k H. apply N in H. discriminate H. }
  split.
  { apply adds_exported. vm_compute. auto. }
  split; [discriminate|]. split; [vm_compute; reflexivity|discriminate].
Qed.

Lemma add_lemma :
  exists oracle type hook s m s',
    (forall n s, hook n s = s) /\ exc s = false /\
    init_checker oracle type hook s = (Some m, s') /\ exc s' = true /\
    (own s type < own s' type)%Z.
Proof.
  assert (E : fst (run_checker is_add) = Some 100) by (vm_compute; reflexivity).
  exists (fresh is_add), type_object, idle, start, 100, (snd (run_checker is_add)).
  split; [reflexivity|]. split; [reflexivity|]. split; [transitivity (fst (run_checker is_add), snd (run_checker is_add)); [apply surjective_pairing|rewrite E; reflexivity]|].
  split; vm_compute; reflexivity.
Qed.

Definition is_last_import (k : call) : bool :=
  match k with KImport n => String.eqb n "zope.security.checker" | _ => false end.

Lemma last_in (l : list (call * option obj)) e : hd_error (rev l) = Some e -> In e l.
Proof.
  intros H. apply in_rev. destruct (rev l) as [|x r]; [discriminate H|]. injection H as ->. now left.
Qed.

(** The module object and the reference to it are lost. *)
Lemma lost_lemma :
  exists oracle type hook s s' m,
    (forall n s, hook n s = s) /\ exc s = false /\
    init_checker oracle type hook s = (None, s') /\
    In (KCreate "_zope_security_checker", Some m) (log s') /\
    held checker_vars s' m = 0%Z /\ own s m = 0%Z /\ own s' m = 1%Z.
Proof.
  assert (E : fst (run_checker is_last_import) = None) by (vm_compute; reflexivity).
  exists (fresh is_last_import), type_object, idle, start, (snd (run_checker is_last_import)), 100.
  split; [reflexivity|]. split; [reflexivity|]. split; [transitivity (fst (run_checker is_last_import), snd (run_checker is_last_import)); [apply surjective_pairing|rewrite E; reflexivity]|].
  split; [|vm_compute; repeat split; reflexivity].
  apply last_in. vm_compute. reflexivity.
Qed.
