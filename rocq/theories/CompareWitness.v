(** A world with objects that compare themselves in different ways. *)

From Coq Require Import List Arith Bool Lia.
From Verif Require Import Compare CompareSpec CompareFacts.
Import ListNotations.

(** Types: 0 [object], 1 Proxy, 5 a class of values with an order, 6 one whose
    instances are not equal to themselves, 7 one that looks at attributes of
    the other operand, 8 one whose comparisons give query expressions, 9 one
    that says it is less than everything.

    Objects 11, 12, 13 are values (7, 7 and 9), 14 is of type 6, 15 of type 7,
    16 of type 8, 17 and 18 of type 9, all others are instances of [object]. *)
Definition d_type (n : nat) : nat :=
  match n with
  | 11 | 12 | 13 => 5
  | 14 => 6
  | 15 => 7
  | 16 => 8
  | 17 | 18 => 9
  | _ => 0
  end.

Definition d_value (n : nat) : nat := match n with 13 => 9 | _ => 7 end.

Definition d_order (o : op) (x y : nat) : bool :=
  match o with
  | Lt => Nat.ltb x y | Le => Nat.leb x y | Eq => Nat.eqb x y
  | Ne => negb (Nat.eqb x y) | Gt => Nat.ltb y x | Ge => Nat.leb y x
  end.

Definition d_cmp (n : nat) (o : op) (v : val) : option res :=
  match d_type n, v with
  | 5, Obj m => if Nat.eqb (d_type m) 5 then Some (Bool (d_order o (d_value n) (d_value m))) else None
  | 6, Obj m => if Nat.eqb m n then Some (Bool false) else None
  | 7, Obj m => Some (Bool (Nat.eqb (d_type m) 7))
  | 7, Pr _ _ => Some (Exc 99)
  | 8, Obj m => Some (Thing 50)
  | 9, Obj m => Some (Bool (match o with Lt | Le => true | _ => false end))
  | _, _ => None
  end.

Definition demo : world := {|
  w_type := d_type;
  w_strict := fun t u => Nat.eqb u 0 && negb (Nat.eqb t 0);
  w_proxy := 1;
  w_cmp := d_cmp;
  w_no_order := 98;
  w_hash := fun n => match d_type n with 5 => d_value n | _ => n end;
  w_truth := fun _ => true
|}.

Lemma demo_no_subclass : no_subclass demo.
Proof. intros t. reflexivity. Qed.

Lemma demo_selective : forall n, d_type n <> 7 -> selective demo n.
Proof.
  intros n Hn o i v. cbn. unfold d_cmp.
  destruct (d_type n) as [|[|[|[|[|[|[|[|[|[|m]]]]]]]]]] eqn:E; try reflexivity.
  exfalso. apply Hn. reflexivity.
Qed.

Lemma order_swap : forall o x y, d_order o x y = d_order (swap o) y x.
Proof. intros o x y. destruct o; cbn; try reflexivity; rewrite Nat.eqb_sym; reflexivity. Qed.

Lemma demo_mirrored : forall n m o, d_type n = 5 -> d_type m = 5 -> mirrored demo n m o.
Proof.
  intros n m o Hn Hm. unfold mirrored, bare. cbn. unfold d_cmp. rewrite Hn, Hm. cbn.
  rewrite order_swap. reflexivity.
Qed.

Lemma looks_false :
  exists (W : world) (x i : nat) (e : nat), no_subclass W /\
    (forall b k, rich W b (S k) (Obj x) (Pr i (Obj x)) Eq = Some (Exc e)) /\
    bare W x x Eq = Bool true.
Proof. exists demo, 15, 3, 99. split; [exact demo_no_subclass|]. split; reflexivity. Qed.

Lemma order_false :
  exists (W : world) (x y i : nat), no_subclass W /\ selective W x /\ selective W y /\
    (forall b k, rich W b (S (S k)) (Obj x) (Pr i (Obj y)) Lt = Some (Bool false)) /\
    (forall b k, rich W b (S (S k)) (Obj x) (Obj y) Lt = Some (Bool true)).
Proof.
  exists demo, 17, 18, 3. split; [exact demo_no_subclass|].
  split; [apply demo_selective; discriminate|]. split; [apply demo_selective; discriminate|].
  split; intros [|] k; reflexivity.
Qed.

Lemma key_false :
  exists (W : world) (x i j : nat), no_subclass W /\ selective W x /\ i <> j /\
    (forall b k, lookup W b (S (S (S k))) [(Pr i (Obj x), tt)] (Pr j (Obj x)) = Missing) /\
    (forall b k, lookup W b (S (S (S k))) [(Pr i (Obj x), tt)] (Pr i (Obj x)) = Found tt) /\
    find W [(x, tt)] x = Found tt.
Proof.
  exists demo, 14, 3, 4. split; [exact demo_no_subclass|].
  split; [apply demo_selective; discriminate|]. split; [discriminate|].
  split; [intros [|] k; reflexivity|]. split; [intros [|] k; reflexivity|]. reflexivity.
Qed.
