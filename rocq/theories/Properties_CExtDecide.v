(** * Properties_CExtDecide: the C extensions fail closed (C81). *)

From Coq Require Import List Bool Arith ZArith.
From Verif Require Import CExt CExtSpec CExtDecideSpec CExtDecide CExtWitness.
Import ListNotations.
Open Scope Z_scope.

(** ** C81 *)

(** Every slot of the C proxy that returns an object (for comparisons, str() and repr() see
    below): whatever the calls into the interpreter answer and whichever fail, the operation is
    called only after the checker was asked, by the right method and for the right name, and
    has not refused; what is returned is what the checker made of the operation's result. *)
Theorem C81_object_slots :
  forall oracle args is_proxy has_sub has_ass has_num has_next self meth name m s r s',
    object_slot oracle args is_proxy has_sub has_ass has_num has_next self meth name m ->
    m s = Some (r, s') ->
    exists calls, log s' = calls ++ log s /\
      mediated (f2 s self) (f1 s self) meth name calls /\
      (forall x, r = Some x -> wrapped (f2 s self) x calls).
Proof. exact object_slots_lemma. Qed.
Print Assumptions C81_object_slots.

(** In-place operators may also return the proxy itself, if the operation returned the very
    object. *)
Theorem C81_inplace :
  forall oracle args has_sub has_ass self other op s r s',
    f1 s self <> None -> check2i oracle args has_sub has_ass self other op s = Some (r, s') ->
    exists calls, log s' = calls ++ log s /\
      mediated (f2 s self) (f1 s self) str_check op calls /\
      (forall x, r = Some x -> wrapped (f2 s self) x calls \/
         x = self /\ exists e ob, In e calls /\ en_api e = AOp /\ en_out e = Gave ob /\
                                  f1 s self = Some ob).
Proof. exact inplace_lemma. Qed.
Print Assumptions C81_inplace.

(** The slots that return an int. *)
Theorem C81_int_slots :
  forall oracle args has_ass self meth name m s i s',
    int_slot oracle args has_ass self meth name m -> m s = Some (i, s') ->
    exists calls, log s' = calls ++ log s /\ mediated (f2 s self) (f1 s self) meth name calls.
Proof. exact int_slots_lemma. Qed.
Print Assumptions C81_int_slots.

(** str() and repr(): the object's own text only if granted. *)
Theorem C81_text :
  forall oracle args has_ass name self s r s',
    proxy_text oracle args has_ass name self s = Some (r, s') ->
    exists calls, log s' = calls ++ log s /\
      mediated (f2 s self) (f1 s self) str_check name calls.
Proof. exact text_lemma. Qed.
Print Assumptions C81_text.

(** Comparisons are not checked, but their result is made a proxy. *)
Theorem C81_compare :
  forall oracle args has_sub self other s r s',
    proxy_richcompare oracle args has_sub self other s = Some (r, s') ->
    exists calls, log s' = calls ++ log s /\
      (forall x, r = Some x -> wrapped (f2 s self) x calls \/ x = Py_True \/ x = Py_False).
Proof. exact compare_lemma. Qed.
Print Assumptions C81_compare.

(** check: granted exactly if the table says public, or the policy was asked about the
    permission in the table and its answer was found true, or the name is one of those
    available by default; if any call fails, it is refused. *)
Theorem C81_check :
  forall oracle args is_str char0 char1 is_iter self object name s r s',
    Checker_check oracle args is_str char0 char1 is_iter self (Some (object, name)) s = Some (r, s') ->
    fault s' = false ->
    exists calls, log s' = calls ++ log s /\
      (r <> None <-> by_table (f1 s self) object name calls \/
                     by_default is_str char0 char1 is_iter (f1 s self) object name calls) /\
      (failed calls -> r = None).
Proof. exact check_lemma. Qed.
Print Assumptions C81_check.

(** The slot through which the C proxy calls it. *)
Theorem C81_check_slot :
  forall oracle args is_str char0 char1 is_iter self object name s i s',
    Checker_check_int oracle args is_str char0 char1 is_iter self object name s = Some (i, s') ->
    fault s' = false ->
    exists calls, log s' = calls ++ log s /\
      (0 <= i <-> by_table (f1 s self) object name calls \/
                  by_default is_str char0 char1 is_iter (f1 s self) object name calls) /\
      (failed calls -> i < 0).
Proof. exact check_table_lemma. Qed.
Print Assumptions C81_check_slot.

(** check_setattr: only the second table counts. *)
Theorem C81_check_setattr :
  forall oracle args self object name s r s',
    Checker_check_setattr oracle args self (Some (object, name)) s = Some (r, s') ->
    exists calls, log s' = calls ++ log s /\
      (r <> None <-> by_table (f2 s self) object name calls) /\ (failed calls -> r = None).
Proof. exact check_setattr_lemma. Qed.
Print Assumptions C81_check_setattr.

(** Checker.proxy: what is returned is a proxy made for the value, or the value itself if it is
    a proxy already or is left alone by selectChecker. *)
Theorem C81_proxy :
  forall oracle args is_checker exact_proxy fuel value s x s',
    is_checker Py_None = false ->
    Checker_proxy oracle args is_checker exact_proxy fuel value s = Some (Some x, s') ->
    exists calls, log s' = calls ++ log s /\
      (x = value /\ (exact_proxy value = true \/ left_alone value calls) \/
       exists c, In (mkE AProxy [Some Proxy; Some value; Some c] (Gave x)) calls /\
         (is_checker c = true \/
          c <> Py_None /\ In (mkE AOwn [Some value; Some str_Security_checker] (Gave c)) calls)).
Proof. exact proxy_lemma. Qed.
Print Assumptions C81_proxy.

(** ** Examples *)

(** Reading the attribute 31 of proxy 30 (object 33, checker 34): no call fails, the check
    fails. *)
Example C81_attr_example :
  let m n := proxy_getattro (all_answers n) [30; 31]%nat (fun _ => false) (fun _ => false) 30%nat 31%nat in
  (forall n, object_slot (all_answers n) [30; 31]%nat (Nat.eqb 30) (fun _ => false) (fun _ => false)
     (fun _ => false) (fun _ => false) 30%nat str_check_getattr 31%nat (m n)) /\
  told (m 9%nat plain_state) =
    Some (Some 43%nat,
              [mkE AWrap [Some 34%nat; Some str_proxy; Some 42%nat] (Gave 43%nat);
               mkE AOp [Some 33%nat; Some 31%nat] (Gave 42%nat);
               mkE ACheck [Some 34%nat; Some str_check_getattr; Some 33%nat; Some 31%nat] (Gave 40%nat)]) /\
  told (m 0%nat plain_state) =
    Some (None, [mkE ACheck [Some 34%nat; Some str_check_getattr; Some 33%nat; Some 31%nat] Failed]).
Proof.
  intros m. split; [intros n; apply os_getattro|].
  split; vm_compute; reflexivity.
Qed.
Print Assumptions C81_attr_example.

(** check by checker 30, table 33: the permission found is 40, the interaction 41, the answer
    42, which is found true by call 4; if that or any earlier call fails, it is refused. *)
Example C81_check_example :
  check_outcome 99 = Some (true, false, 4%nat) /\
  check_outcome 1 = Some (false, false, 2%nat) /\ check_outcome 2 = Some (false, false, 3%nat) /\
  check_outcome 4 = Some (false, false, 4%nat).
Proof. vm_compute. repeat split; reflexivity. Qed.
Print Assumptions C81_check_example.

(** Wrapping value 31, for which the checker 41 is selected. *)
Example C81_proxy_example :
  told (Checker_proxy (fun k => match k with O => ans None true 0 | _ => ans (Some (40 + k)%nat) false 0 end)
    [31]%nat (Nat.eqb 41) (fun _ => false) 3 31%nat plain_state) = Some (Some 42%nat,
           [mkE AProxy [Some Proxy; Some 31%nat; Some 41%nat] (Gave 42%nat);
            mkE AItem [Some checkers; Some 31%nat] (Gave 41%nat);
            mkE AOwn [Some 31%nat; Some str_Security_checker] Failed]).
Proof. vm_compute. reflexivity. Qed.
Print Assumptions C81_proxy_example.
