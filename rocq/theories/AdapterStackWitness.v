(** A process with wrapped adapter factories; its state is the parent of the
    object 23. *)

From Coq Require Import String List Arith Bool.
From Verif Require Import Liars LiarsSpec LiarsFacts LiarsWitness LiarsUse LiarsUseSpec LiarsUseWitness.
From Verif Require Import AdapterStack AdapterStackSpec.
Import ListNotations.
Open Scope string_scope.

Definition lift {A} (m : action unit string A) : action obj string A := fun w => (fst (m tt), w).

Definition home : runtime obj string := {|
  rt_type := rt_type demo; rt_none := rt_none demo; rt_sub := rt_sub demo;
  rt_proxy := rt_proxy demo; rt_exception := rt_exception demo;
  rt_class := fun x => lift (rt_class demo x);
  rt_as_type := rt_as_type demo;
  rt_security_checker := fun x => lift (rt_security_checker demo x);
  rt_registry := fun _ t => rt_registry demo tt t;
  rt_call := fun f x => lift (rt_call demo f x); rt_default := rt_default demo;
  rt_base_get := fun t x n => lift (rt_base_get demo t x n); rt_is := same_obj;
  rt_attribute_error := rt_attribute_error demo; rt_type_error := rt_type_error demo;
  rt_value_error := rt_value_error demo; rt_system_error := rt_system_error demo
|}.

Lemma home_sane : sane home.
Proof. destruct demo_sane as [A B D F]. constructor; try assumption. exact same_refl. Qed.

Lemma home_distinct : distinct home.
Proof. exact (use_distinct false). Qed.

Definition home_provided (a : obj) : action obj string bool :=
  give (match a with Plain 23 => true | _ => false end).
Definition home_parent (_ : obj) : action obj string obj := fun w => (Returns w, w).
Definition home_set (_ c : obj) : action obj string unit := fun _ => (Returns tt, c).
(** LocationProxy(24) is 29. *)
Definition home_located (_ _ : obj) : action obj string obj := give (Plain 29).

Lemma home_orderly : orderly home_provided home_parent home_set.
Proof.
  constructor.
  - intros a w. left. eexists. reflexivity.
  - intros a w. left. eexists. reflexivity.
  - intros a c w w' Hp [= <-]. unfold home_provided, give in *. injection Hp as Hp. rewrite Hp.
    repeat split; reflexivity.
Qed.

(** Factory 0 makes 23, factory 1 makes 24, factory 2 the integer 25 of proxies
    and 24 of other objects. *)
Definition home_app (i : nat) (args : list obj) : action obj string obj :=
  match i, args with
  | 0, _ => give (Plain 23)
  | 1, _ => give (Plain 24)
  | _, Prox _ _ _ :: _ => give (Plain 25)
  | _, _ => give (Plain 24)
  end.
(** Its name is 40, its module 41; factory 3 has no name. *)
Definition home_attribute (i : nat) (n : string) : action obj string obj :=
  if Nat.eqb i 3 then throw "AttributeError"
  else give (if String.eqb n "__name__" then Plain 40 else Plain 41).

Definition home_call := call home home_app home_provided home_parent home_set home_located "IndexError".
Definition doubled : obj := Prox 1 (Prox 1 (Plain 27) (Plain 31)) (Plain 31).

Lemma twice_false :
  exists (x : obj) (f : fact), a_proxy home x /\ layers f = [Trusted; Trusted] /\
    (forall b fuel w, home_call b (S fuel) (Wrapped Trusted (App (core f)) PyNone PyNone) [x] w =
                      (Returns (Plain 25), w)) /\
    (forall b fuel w, home_call b (S fuel) f [x] w =
                      (Returns (Prox 1 (Plain 24) (rt_default home)), w)).
Proof.
  exists doubled, (Wrapped Trusted (Wrapped Trusted (App 2) PyNone PyNone) PyNone PyNone).
  split; [reflexivity|]. split; [reflexivity|]. split; intros [|] fuel w; reflexivity.
Qed.
