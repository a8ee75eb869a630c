(** A process with decorators and adapters around objects that may lie. *)

From Coq Require Import String List Arith Bool Lia.
From Verif Require Import Liars LiarsSpec LiarsFacts LiarsWitness LiarsUse LiarsUseSpec.
Import ListNotations.
Open Scope string_scope.

Fixpoint same_obj (x y : obj) : bool :=
  match x, y with
  | PyNone, PyNone => true
  | Plain a, Plain b => Nat.eqb a b
  | Prox t o c, Prox t' o' c' => Nat.eqb t t' && same_obj o o' && same_obj c c'
  | _, _ => false
  end.

Fixpoint size (x : obj) : nat :=
  match x with Prox _ o c => S (size o + size c) | _ => 0 end.

Lemma same_size : forall x y, same_obj x y = true -> size x = size y.
Proof.
  induction x as [|n|t o IHo c IHc]; intros [|n'|t' o' c'] H; cbn in *; try discriminate; auto.
  apply andb_true_iff in H. destruct H as [H H2]. apply andb_true_iff in H. destruct H as [_ H1].
  rewrite (IHo _ H1), (IHc _ H2). reflexivity.
Qed.

Lemma same_refl : forall x, same_obj x x = true.
Proof.
  induction x as [|n|t o IHo c IHc]; cbn; [reflexivity | apply Nat.eqb_refl|].
  rewrite Nat.eqb_refl, IHo, IHc. reflexivity.
Qed.

(** The combination of two checkers is a third one; class names can be read,
    but the class 6 has a metaclass that forbids it if [b]. *)
Definition demo_combine (c d : obj) : action unit string obj :=
  match c, d with
  | Plain a, Plain b => give (Plain (50 + a + b))
  | _, _ => give (Plain 50)
  end.
Definition demo_name (b : bool) (k : obj) : action unit string unit :=
  if b then throw "KeyError" else give tt.

(** As [demo], but the objects of type 6 need no proxy; 28 is a decorator around
    a proxy of 23, 29 one around 23 itself; identity is that of objects. *)
Definition use (exempt : bool) : runtime unit string := {|
  rt_type := rt_type demo; rt_none := rt_none demo; rt_sub := rt_sub demo;
  rt_proxy := rt_proxy demo; rt_exception := rt_exception demo;
  rt_class := rt_class demo;
  rt_as_type := rt_as_type demo;
  rt_security_checker := fun x =>
    match x with
    | Plain 28 => give (if exempt then Plain 31 else Plain 111)
    | _ => throw "AttributeError"
    end;
  rt_registry := fun _ t => match t with
                            | 6 => if exempt then Some ANoProxy else None
                            | _ => rt_registry demo tt t
                            end;
  rt_call := rt_call demo; rt_default := rt_default demo;
  rt_base_get := rt_base_get demo; rt_is := same_obj;
  rt_attribute_error := rt_attribute_error demo; rt_type_error := rt_type_error demo;
  rt_value_error := rt_value_error demo; rt_system_error := rt_system_error demo
|}.

Lemma use_sane : forall e, sane (use e).
Proof.
  intros e. destruct demo_sane as [A B D F]. constructor; try assumption. exact same_refl.
Qed.

Lemma use_distinct : forall e, distinct (use e).
Proof.
  intros e t o c. cbn. destruct (same_obj o (Prox t o c)) eqn:E; [|reflexivity].
  apply same_size in E. cbn in E. lia.
Qed.

Lemma demo_combines : combines demo_combine.
Proof.
  intros [|n|t o c] [|n'|t' o' c'] w; unfold demo_combine, give; eexists; exists w;
    (split; [reflexivity | discriminate]).
Qed.

(** An adapter factory that is the identity on its first argument, and no
    location. *)
Definition demo_factory (args : list obj) : action unit string obj :=
  match args with a :: _ => give a | [] => throw "TypeError" end.
Definition demo_customize (_ : bool) (a _ : obj) : action unit string obj := give a.

Lemma adapted_false :
  exists (R : runtime unit string) (x y : obj), sane R /\ distinct R /\ not_a_proxy x /\ y <> x /\
    (forall b fuel w,
       trusted_call R "IndexError" (fun args => give (hd PyNone args)) (fun _ a _ => give a) b (S fuel) [x] w =
         match b with
         | Py => (Returns (Prox (rt_proxy R) y (rt_default R)), w)
         | C => (Returns x, w)
         end).
Proof.
  exists (use false), (Plain 20), (Plain 24).
  split; [apply use_sane|]. split; [apply use_distinct|]. split; [exact I|].
  split; [discriminate|]. intros [|] fuel w; reflexivity.
Qed.

Lemma missing_false :
  exists (R : runtime unit string) (inst inner : obj) name_of,
    sane R /\ not_a_proxy inner /\ truthful R inner (rt_proxy R) /\
    (forall b fuel w, ProxyFactory R b fuel inner None w = (Returns inner, w)) /\
    (forall b fuel w, select R b fuel inst w = (Returns None, w)) /\
    rt_attribute_error R "KeyError" = false /\
    (forall b fuel w, decorated R demo_combine name_of "AttributeError" b fuel inst inner w =
                      (Raises "KeyError", w)).
Proof.
  exists (use true), (Plain 29), (Plain 23), (demo_name true).
  split; [apply use_sane|]. split; [exact I|].
  split; [exact (proj1 demo_truthful)|].
  repeat split; intros [|] fuel w; reflexivity.
Qed.

Lemma chosen_false :
  exists (R : runtime unit string) (inst inner c : obj),
    sane R /\ not_a_proxy inner /\ ~ below R (type_of R inner) (rt_proxy R) /\
    (forall w, security_checker R inner w = (Returns PyNone, w)) /\
    (forall fuel w, decorated R demo_combine (demo_name false) "AttributeError" Py fuel inst inner w =
                    (Returns c, w)) /\
    (forall fuel w, decorated R demo_combine (demo_name false) "AttributeError" C fuel inst inner w =
                    (Raises (rt_type_error R), w)).
Proof.
  exists (use true), (Plain 29), (Plain 20), (Plain 24).
  split; [apply use_sane|]. split; [exact I|].
  split; [unfold below; cbn; discriminate|].
  repeat split.
Qed.
