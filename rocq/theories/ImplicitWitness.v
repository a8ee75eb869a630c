(** A small process for the examples: 0 type, 1 Proxy, 2 BaseException, 3
    object, 4 a class, 5 an instance of it, 6 tuple, 7 and 14 tuples of bases,
    8 a checker that grants everything, 9 the checker of classes and the like,
    10 dict, 11, 15 and 16 dictionaries, 12 an exception class, 13 a tuple with
    a proxied class, 17 a value that needs no proxy. *)

From Coq Require Import String List Arith Bool.
From Verif Require Import TypeTables Implicit ImplicitSpec ImplicitFacts.
Import ListNotations.
Open Scope string_scope.

Definition w_tuple (k : nat) : option (list obj) :=
  match k with
  | 7 => Some [Plain 3]
  | 13 => Some [Plain 12; Prox (Plain 4) (Plain 8)]
  | 14 => Some []
  | _ => None
  end.
Definition w_read (k : nat) (n : string) : action unit string obj :=
  match k with
  | 3 => if n =? "__bases__" then give (Plain 14) else if n =? "__dict__" then give (Plain 15) else throw "AttributeError"
  | 4 => if n =? "__bases__" then give (Plain 7) else if n =? "__dict__" then give (Plain 11) else throw "AttributeError"
  | 5 => if n =? "__class__" then give (Plain 4) else if n =? "__dict__" then give (Plain 16)
         else if mem n ["attr"; "__enter__"; "__exit__"] then give (Plain 17) else throw "AttributeError"
  | _ => throw "AttributeError"
  end.
Definition w_dict (k : nat) : option (list string) :=
  match k with
  | 11 => Some ["method"] | 15 => Some ["__init__"] | 16 => Some ["attr"]
  | _ => None
  end.

Definition w_runtime : runtime unit string := {|
  rt_type := fun k => match k with
                      | 5 => 4 | 7 | 13 | 14 => 6 | 11 | 15 | 16 => 10
                      | 0 | 1 | 2 | 3 | 4 | 6 | 10 | 12 => 0
                      | _ => 3 end;
  rt_sub := fun t T => Nat.eqb t T || Nat.eqb T 3 || (Nat.eqb t 12 && Nat.eqb T 2);
  rt_metatype := 0; rt_proxy := 1; rt_exception := 2;
  rt_tuple := w_tuple;
  rt_dict := fun _ => w_dict;
  rt_read := w_read;
  rt_call := fun _ _ => give (Plain 17);
  rt_size := fun k => match w_tuple k with Some l => give (length l) | None => throw "TypeError" end;
  rt_item := fun k i => match w_tuple k with
                        | Some l => match nth_error l i with Some x => give x | None => throw "IndexError" end
                        | None => throw "TypeError" end;
  rt_check := fun c _ n => if same c (Plain 8) || mem n ["__bases__"; "__class__"; "__len__"; "__getitem__"]
                           then give tt else throw "ForbiddenAttribute";
  rt_wrap := fun _ v => give (match v with
                              | Prox _ _ | Plain 17 => v
                              | _ => Prox v (Plain 9) end);
  rt_slot := fun k n => if Nat.eqb k 5 && mem n ["__enter__"; "__exit__"; "__await__"] then Some 0 else None;
  rt_base_slot := fun _ => None;
  rt_method := fun _ x _ => give x;
  rt_truth := fun _ => give true;
  rt_update := fun y => match y with Plain k => match w_dict k with Some l => give l | None => throw "TypeError" end
                                   | _ => throw "TypeError" end;
  rt_new := fun _ _ => give (Plain 18);
  rt_str := fun k => give (if Nat.eqb k 5 then "the object" else "?");
  rt_format := fun k spec => give (if Nat.eqb k 5 then "formatted" else "?");
  rt_cover := fun _ => give "<security proxied>";
  rt_is_type_error := fun e => e =? "TypeError";
  rt_attribute_error := fun e => mem e ["AttributeError"; "ForbiddenAttribute"];
  rt_missing := "AttributeError"; rt_type_error := "TypeError"; rt_recursion := "RecursionError"
|}.

(** The class, and an instance, both proxied with the generous checker. *)
Definition w_class : obj := Prox (Plain 4) (Plain 8).
Definition w_object : obj := Prox (Plain 5) (Plain 8).

Lemma w_sane : sane w_runtime.
Proof.
  constructor; try reflexivity.
  intros n. do 19 (destruct n as [|n]; [reflexivity|]). reflexivity.
Qed.

Lemma w_given y : given_out w_runtime y -> a_proxy y \/ y = Plain 17.
Proof.
  intros (c & v & [] & [] & H). cbn in H. injection H as H.
  destruct v as [k|o d]; [|left; exists o, d; symmetry; exact H].
  do 17 (destruct k as [|k]; [left; eexists; eexists; symmetry; exact H|]).
  destruct k as [|k]; [right; symmetry; exact H|left; eexists; eexists; symmetry; exact H].
Qed.
Lemma w_no_tuple : no_bare_tuple w_runtime.
Proof. intros y H. destruct (w_given y H) as [(o & c & ->)| ->]; reflexivity. Qed.
Lemma w_no_dict : no_bare_dict w_runtime.
Proof. intros y w H. destruct (w_given y H) as [(o & c & ->)| ->]; reflexivity. Qed.
Lemma w_no_type : no_bare_type w_runtime.
Proof. intros y H. destruct (w_given y H) as [(o & c & ->)| ->]; reflexivity. Qed.

Definition w_discreet (x : obj) : Prop := x = Prox (Plain 4) (Plain 9) \/ x = Prox (Plain 3) (Plain 9).
Lemma w_discreet_ok b : discreet w_runtime b w_discreet.
Proof.
  intros x [->| ->]; (split; [intros [] y []; destruct b; cbn; discriminate|]);
    intros [] s [] i [] y [] Hs Hi.
  - assert (s = Prox (Plain 7) (Plain 9)) as -> by (destruct b; lazy in Hs; injection Hs as <-; reflexivity).
    destruct i as [|i]; [|destruct i; cbn in Hi; discriminate].
    cbn in Hi. injection Hi as <-. right. reflexivity.
  - assert (s = Prox (Plain 14) (Plain 9)) as -> by (destruct b; lazy in Hs; injection Hs as <-; reflexivity).
    destruct i; cbn in Hi; discriminate.
Qed.

(** ** What is not so *)

Lemma with_false :
  exists (R : runtime unit string) o c, sane R /\
    (forall n w, In n ["__enter__"; "__exit__"] -> rt_check R c o n w = (Returns tt, w)) /\
    (forall b body none w, body w = (Returns tt, w) -> exists y, with_statement R b body o none w = (Returns y, w)) /\
    (forall b body none w, with_statement R b body (Prox o c) none w = (Raises (rt_type_error R), w)).
Proof.
  exists w_runtime, (Plain 5), (Plain 8). split; [exact w_sane|]. split; [|split].
  - intros n [] _. reflexivity.
  - intros b body none [] H. exists (Plain 5). unfold with_statement. cbn. unfold andthen. rewrite H. reflexivity.
  - intros b body none []. destruct b; reflexivity.
Qed.

Lemma dir_false :
  exists (R : runtime unit string) o c n, sane R /\
    (forall b w, exists v, read R b (Prox o c) n w = (Returns v, w)) /\
    (forall b fuel w, 2 <= fuel -> exists l, dir R b fuel o w = (Returns l, w) /\ In n l) /\
    (forall b fuel w, 2 <= fuel -> dir R b fuel (Prox o c) w = (Returns [], w)).
Proof.
  exists w_runtime, (Plain 5), (Plain 8), "attr". split; [exact w_sane|]. split; [|split].
  - intros b []. exists (Plain 17). destruct b; reflexivity.
  - intros b fuel [] Hf. destruct fuel as [|[|fuel]]; [inversion Hf|inversion Hf as [|? Hf']; inversion Hf'|].
    exists ["attr"; "method"; "__init__"]. split; [destruct b; reflexivity|left; reflexivity].
  - intros b fuel [] Hf. destruct fuel as [|[|fuel]]; [inversion Hf|inversion Hf as [|? Hf']; inversion Hf'|].
    destruct b; reflexivity.
Qed.

Lemma isinstance_false :
  exists (R : runtime unit string) x T c, sane R /\
    (forall n w, rt_check R c (Plain T) n w = (Returns tt, w)) /\
    (forall b fuel w, isinstance R b (S fuel) x (Plain T) w = (Returns true, w)) /\
    (forall b fuel w, isinstance R b (S fuel) x (Prox (Plain T) c) w = (Raises (rt_type_error R), w)).
Proof.
  exists w_runtime, (Plain 5), 4, (Plain 8). split; [exact w_sane|]. split; [|split].
  - intros n []. reflexivity.
  - intros b fuel []. reflexivity.
  - intros b fuel []. destruct b; reflexivity.
Qed.

Lemma format_false :
  exists (R : runtime unit string) k c spec, sane R /\
    (forall n w, rt_check R c (Plain k) n w = (Returns tt, w)) /\
    (forall b w, exists t, format R b (Plain k) spec w = (Returns t, w)) /\
    (forall b w, format R b (Prox (Plain k) c) spec w = (Raises (rt_type_error R), w)).
Proof.
  exists w_runtime, 5, (Plain 8), ">10". split; [exact w_sane|]. split; [|split].
  - intros n []. reflexivity.
  - intros b []. exists "formatted". destruct b; reflexivity.
  - intros b []. destruct b; reflexivity.
Qed.

Lemma generic_false :
  exists (R : runtime unit string) o c, sane R /\
    (forall n w, n <> "__bases__" -> n <> "__class__" -> n <> "__len__" -> n <> "__getitem__" ->
       rt_check R c o n w = (Raises "ForbiddenAttribute", w)) /\
    (forall w, generic_getattr R Py o c "_wrapped" w = (Returns (InSlot o), w)).
Proof.
  exists w_runtime, (Plain 5), (Plain 9). split; [exact w_sane|]. split.
  - intros n [] H1 H2 H3 H4. cbn. 
    apply String.eqb_neq in H1, H2, H3, H4. rewrite H1, H2, H3, H4. reflexivity.
  - intros []. reflexivity.
Qed.
