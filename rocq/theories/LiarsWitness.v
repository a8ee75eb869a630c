(** A process with objects that lie about their class. *)

From Coq Require Import String List Arith Bool.
From Verif Require Import Liars LiarsSpec LiarsFacts.
Open Scope string_scope.

(** Types: 0 [object], 1 [Proxy], 2 [Exception], 3 a subclass of Proxy, 4 the
    type of types, 5 [int], 6 an application class, 7 a class with a checker of
    its own, 8 a subclass of Exception, 9 NoneType.

    Plain objects: 1 to 8 are the classes of these numbers; 20 says it is a
    Proxy, 21 that it is an Exception, 22 raises KeyError when asked, 23 tells
    the truth, 24 is what 20 has under [_wrapped], 25 an int, 26 an exception,
    27 an instance of class 7; 30 the default checker, 31 another one. *)
Definition demo_type (n : nat) : ty :=
  if Nat.leb n 9 then 4
  else match n with
       | 25 => 5
       | 26 => 8
       | 27 => 7
       | 30 | 31 => 0
       | _ => 6
       end.

Definition demo_sub (t T : ty) : bool :=
  Nat.eqb t T || Nat.eqb T 0 || (Nat.eqb t 3 && Nat.eqb T 1) || (Nat.eqb t 8 && Nat.eqb T 2).

Definition demo_class (x : obj) : action unit string obj :=
  match x with
  | PyNone => give (Plain 9)
  | Plain 20 => give (Plain 1)
  | Plain 21 => give (Plain 2)
  | Plain 22 => throw "KeyError"
  | Plain n => give (Plain (demo_type n))
  | Prox _ _ _ => give (Plain 6)
  end.

Definition demo : runtime unit string := {|
  rt_type := demo_type;
  rt_none := 9;
  rt_sub := demo_sub;
  rt_proxy := 1;
  rt_exception := 2;
  rt_class := demo_class;
  rt_as_type := fun x => match x with
                         | Plain n => if Nat.leb 1 n && Nat.leb n 9 then Some n else None
                         | _ => None
                         end;
  rt_security_checker := fun _ => throw "AttributeError";
  rt_registry := fun _ t => match t with
                            | 5 => Some ANoProxy
                            | 7 => Some (ACall 0)
                            | _ => None
                            end;
  rt_call := fun _ _ => give (AChecker (Plain 31));
  rt_default := Plain 30;
  rt_base_get := fun _ x name => match x with
                                 | Plain 20 => give (Plain 24)
                                 | _ => throw "AttributeError"
                                 end;
  rt_is := fun x y => match x, y with
                      | Plain a, Plain b => Nat.eqb a b
                      | PyNone, PyNone => true
                      | Prox _ _ _, Prox _ _ _ => true
                      | _, _ => false
                      end;
  rt_attribute_error := String.eqb "AttributeError";
  rt_type_error := "TypeError";
  rt_value_error := "ValueError";
  rt_system_error := "SystemError"
|}.

Lemma demo_type_range : forall n, demo_type n = 4 \/ demo_type n = 5 \/ demo_type n = 8 \/
  demo_type n = 7 \/ demo_type n = 0 \/ demo_type n = 6.
Proof.
  intros n. unfold demo_type. destruct (Nat.leb n 9); [auto|].
  do 32 (destruct n as [|n]; [tauto|]). tauto.
Qed.

Lemma demo_sane : sane demo.
Proof.
  split.
  - cbn. discriminate.
  - intros n H. unfold below in H. cbn in H.
    destruct (demo_type_range n) as [E|[E|[E|[E|[E|E]]]]]; rewrite E in H; discriminate.
  - intros t. unfold below. cbn. unfold demo_sub. rewrite Nat.eqb_refl. reflexivity.
  - intros [|n|t o c]; cbn; auto. apply Nat.eqb_refl.
Qed.

Lemma demo_truthful : truthful demo (Plain 23) 1 /\ truthful demo (Plain 23) 2.
Proof.
  split; (split; [unfold below; cbn; discriminate|]); intros [];
    left; exists (Plain 6); (split; [reflexivity|]); intros t [= <-]; unfold below; cbn; discriminate.
Qed.

Lemma protected_false :
  exists (R : runtime unit string) (x : obj), sane R /\ not_a_proxy x /\
    (forall w, rt_registry R w (type_of R x) = None) /\
    ~ below R (type_of R x) (rt_exception R) /\
    (forall b fuel w, ProxyFactory R b fuel x None w = (Returns x, w)) /\
    (forall fuel w, proxy R Py fuel x w = (Returns x, w)) /\
    (forall fuel w, proxy R C (S fuel) x w = (Returns (Prox (rt_proxy R) x (rt_default R)), w)).
Proof.
  exists demo, (Plain 20). repeat split; try exact I; try (unfold below; cbn; discriminate);
    try exact (sane_none _ demo_sane); try exact (sane_plain _ demo_sane);
    try exact (sane_refl _ demo_sane); try exact (sane_is _ demo_sane).
Qed.

Lemma exception_false :
  exists (R : runtime unit string) (x : obj), sane R /\ not_a_proxy x /\
    (forall w, rt_registry R w (type_of R x) = None) /\
    ~ below R (type_of R x) (rt_exception R) /\
    (forall fuel w, proxy R C fuel x w = (Returns x, w)) /\
    (forall fuel w, ProxyFactory R C fuel x None w = (Returns x, w)) /\
    (forall fuel w, proxy R Py (S fuel) x w = (Returns (Prox (rt_proxy R) x (rt_default R)), w)).
Proof.
  exists demo, (Plain 21). repeat split; try exact I; try (unfold below; cbn; discriminate);
    try exact (sane_none _ demo_sane); try exact (sane_plain _ demo_sane);
    try exact (sane_refl _ demo_sane); try exact (sane_is _ demo_sane).
Qed.

Lemma unwrap_false :
  exists (R : runtime unit string) (x y : obj), sane R /\ not_a_proxy x /\ y <> x /\
    (forall w, getObject R Py x w = (Returns y, w)) /\
    (forall w, getObject R C x w = (Returns x, w)).
Proof.
  exists demo, (Plain 20), (Plain 24). repeat split; try exact I; try discriminate;
    try exact (sane_none _ demo_sane); try exact (sane_plain _ demo_sane);
    try exact (sane_refl _ demo_sane); try exact (sane_is _ demo_sane).
Qed.

Lemma pending_false :
  exists (R : runtime unit string) (x : obj) (e : string), sane R /\ not_a_proxy x /\
    (forall fuel w, proxy R C fuel x w = (Both x e, w)) /\
    (forall fuel w, proxy R Py fuel x w = (Raises e, w)).
Proof.
  exists demo, (Plain 22), "KeyError". repeat split; try exact I;
    try exact (sane_none _ demo_sane); try exact (sane_plain _ demo_sane);
    try exact (sane_refl _ demo_sane); try exact (sane_is _ demo_sane).
Qed.

Lemma subclass_false :
  exists (R : runtime unit string) (p : obj), sane R /\ a_proxy R p /\
    (forall fuel w, proxy R C (S fuel) p w = (Returns (Prox (rt_proxy R) p (rt_default R)), w)) /\
    (forall fuel w, proxy R Py fuel p w = (Returns p, w)) /\
    (forall b fuel w, ProxyFactory R b fuel p None w = (Returns p, w)).
Proof.
  exists demo, (Prox 3 (Plain 23) (Plain 31)). repeat split; try exact I;
    try exact (sane_none _ demo_sane); try exact (sane_plain _ demo_sane);
    try exact (sane_refl _ demo_sane); try exact (sane_is _ demo_sane).
Qed.

(** Another process with the same objects: here 23 has no
    [__class__] that can be read, and all others say that they are application
    objects. *)
Definition reformed : runtime unit string := {|
  rt_type := rt_type demo; rt_none := rt_none demo; rt_sub := rt_sub demo;
  rt_proxy := rt_proxy demo; rt_exception := rt_exception demo;
  rt_class := fun x => match x with Plain 23 => throw "AttributeError" | _ => give (Plain 6) end;
  rt_as_type := rt_as_type demo; rt_security_checker := rt_security_checker demo;
  rt_registry := rt_registry demo; rt_call := rt_call demo; rt_default := rt_default demo;
  rt_base_get := rt_base_get demo; rt_is := rt_is demo;
  rt_attribute_error := rt_attribute_error demo; rt_type_error := rt_type_error demo;
  rt_value_error := rt_value_error demo; rt_system_error := rt_system_error demo
|}.

Lemma reformed_same : same_but_class demo reformed.
Proof. repeat split. Qed.

Lemma reformed_truthful : truthful reformed (Plain 23) 1 /\ truthful reformed (Plain 23) 2.
Proof.
  split; (split; [unfold below; cbn; discriminate|]); intros []; right;
    exists "AttributeError"; split; reflexivity.
Qed.

(** And one whose registry has a checker for the type 7. *)
Definition stocked : runtime unit string := {|
  rt_type := rt_type demo; rt_none := rt_none demo; rt_sub := rt_sub demo;
  rt_proxy := rt_proxy demo; rt_exception := rt_exception demo;
  rt_class := rt_class demo;
  rt_as_type := rt_as_type demo; rt_security_checker := rt_security_checker demo;
  rt_registry := fun _ t => if Nat.eqb t 7 then Some (AChecker (Plain 31)) else None;
  rt_call := rt_call demo; rt_default := rt_default demo;
  rt_base_get := rt_base_get demo; rt_is := rt_is demo;
  rt_attribute_error := rt_attribute_error demo; rt_type_error := rt_type_error demo;
  rt_value_error := rt_value_error demo; rt_system_error := rt_system_error demo
|}.
