(** * CExtWitness: concrete runs of the C functions. *)

From Coq Require Import List Bool Arith ZArith Lia.
From Verif Require Import CExt CExtSpec.
Import ListNotations.
Open Scope Z_scope.

(** Object 30 has the two fields 33 and 34; nothing is owned. *)
Definition plain_state : cst :=
  mkC (fun _ => 0) false [] false 0
      (fun x => if Nat.eqb x 30 then Some 33%nat else None)
      (fun x => if Nat.eqb x 30 then Some 34%nat else None) [].

Lemma plain_entered : entered plain_state.
Proof. split; [reflexivity|]. split; [reflexivity|]. intros o. simpl. lia. Qed.

Definition ans (p : ptr) (neg : bool) (n : nat) : answer := mkAns p neg n (fun _ => false).

(** The call number [k] answers with object [40+k], except that call number [n] fails. *)
Definition all_answers (n k : nat) : answer :=
  if Nat.eqb k n then ans None true 0 else ans (Some (40 + k)%nat) false 1.

Definition attr_outcome (n : nat) : option (ptr * bool * list Z) :=
  match proxy_getattro (all_answers n) [30; 31]%nat (fun _ => false) (fun _ => false) 30%nat 31%nat plain_state with
  | Some (r, s') => Some (r, exc s', map (own s') [40; 41; 42; 43; 44]%nat)
  | None => None
  end.

Lemma attr_example :
  let s := plain_state in
  entered s /\ proxies_complete [30; 31]%nat (Nat.eqb 30) s /\ a_proxy [30; 31]%nat (Nat.eqb 30) 30%nat /\
  (forall k, object_function (all_answers k) [30; 31]%nat (Nat.eqb 30)
     (fun _ => false) (fun _ => false) (fun _ => false)
     (proxy_getattro (all_answers k) [30; 31]%nat (fun _ => false) (fun _ => false) 30%nat 31%nat)) /\
  attr_outcome 0 = Some (None, true, [0; 0; 0; 0; 0]) /\
  attr_outcome 2 = Some (None, true, [0; 0; 0; 0; 0]) /\
  attr_outcome 3 = Some (None, true, [0; 0; 0; 0; 0]) /\
  attr_outcome 9 = Some (Some 43%nat, false, [0; 0; 0; 1; 0]).
Proof.
  intros s. split; [exact plain_entered|]. split.
  { intros x _ Hx. apply Nat.eqb_eq in Hx. subst x. split; discriminate. }
  assert (Hp : a_proxy [30; 31]%nat (Nat.eqb 30) 30%nat).
  { split; [left; reflexivity|reflexivity]. }
  split; [exact Hp|]. split.
  { intros k. apply of_getattro; [exact Hp|right; left; reflexivity]. }
  vm_compute. repeat split; reflexivity.
Qed.

(** The name 32 is not in the table of checker 30; its text begins with no underscore. *)
Definition missing (k : nat) : answer :=
  match k with O => ans None false 0 | _ => ans (Some (40 + k)%nat) false 1 end.
Definition leak_outcome : option (Z * bool * bool * Z) :=
  match Checker_check_int missing [30; 31; 32]%nat (fun _ => true) (fun _ => false) (fun _ => false)
          (fun _ => false) 30%nat 31%nat 32%nat plain_state with
  | Some (i, s') => Some (i, exc s', fault s', own s' 41%nat)
  | None => None
  end.
(** The check of [__str__] fails; the class is 41, its name 42, the text of that 43. *)
Definition refusing (k : nat) : answer :=
  match k with O => ans None true 0 | _ => ans (Some (40 + k)%nat) false 1 end.
Definition text_outcome : option (ptr * bool * bool * Z) :=
  match proxy_text refusing [30]%nat (fun _ => false) str_str 30%nat plain_state with
  | Some (r, s') => Some (r, exc s', fault s', own s' 43%nat)
  | None => None
  end.
(** The name cannot be encoded. *)
Definition null_outcome : option bool :=
  match Checker_check_int (fun _ => ans None false 0) [30; 31; 32]%nat (fun _ => true) (fun _ => false)
          (fun _ => false) (fun _ => false) 30%nat 31%nat 32%nat plain_state with
  | Some (_, s') => Some (fault s')
  | None => None
  end.
(** next() through a proxy whose checker grants it: on an iterator, on something else. *)
Definition next_outcome (iterator : bool) : option (ptr * bool) :=
  match proxy_iternext (all_answers 9) [30]%nat (fun _ => false) (fun _ => false) (fun _ => iterator)
          30%nat plain_state with
  | Some (r, s') => Some (r, fault s')
  | None => None
  end.
Lemma leak_example :
  leak_outcome = Some (-1, true, false, 1) /\
  text_outcome = Some (Some 46%nat, false, false, 1) /\
  null_outcome = Some true /\
  next_outcome true = Some (Some 43%nat, false) /\ next_outcome false = Some (None, true).
Proof. vm_compute. repeat split; reflexivity. Qed.

(** The policy (second call after the lookup) removes the permission 40 from the table and
    answers no. *)
Definition dropping (k : nat) : answer :=
  mkAns (Some (40 + k)%nat) false 0 (fun o => Nat.eqb k 2 && Nat.eqb o 40).

Lemma freed_witness :
  exists oracle args self object name p s i s',
    entered s /\ In self args /\ In object args /\ In name args /\ f1 s self <> None /\
    (forall k, an_ptr (oracle k) <> None /\ an_neg (oracle k) = false) /\
    an_ptr (oracle (step s)) = Some p /\ (forall k o, an_drops (oracle k) o = true -> o = p) /\
    Checker_check_int oracle args (fun _ => true) (fun _ => false) (fun _ => false) (fun _ => false)
      self object name s = Some (i, s') /\
    fault s' = true.
Proof.
  exists dropping, [30; 31; 32]%nat, 30%nat, 31%nat, 32%nat, 40%nat, plain_state.
  do 2 eexists. split; [exact plain_entered|].
  split; [left; reflexivity|]. split; [right; left; reflexivity|]. split; [right; right; left; reflexivity|].
  split; [discriminate|]. split; [intros k; split; [discriminate|reflexivity]|]. split; [reflexivity|].
  split.
  { intros k o H. cbn in H. apply andb_true_iff in H. destruct H as [_ H]. apply Nat.eqb_eq in H. exact H. }
  split; [vm_compute; reflexivity|]. reflexivity.
Qed.

(** No entry for the type; isinstance fails. *)
Definition no_instance (k : nat) : answer := ans None (Nat.ltb 0 k) 0.

Lemma select_witness :
  exists oracle args value s r1 s1 r2 s2,
    entered s /\ In value args /\
    selectChecker oracle args (fun _ => false) 1 value s = Some (r1, s1) /\
    r1 = Some Py_None /\ exc s1 = true /\
    Checker_proxy oracle args (fun _ => false) (fun _ => false) 1 value s = Some (r2, s2) /\
    r2 = Some value /\ exc s2 = true.
Proof.
  exists no_instance, [30]%nat, 30%nat, plain_state. do 4 eexists.
  split; [exact plain_entered|]. split; [left; reflexivity|].
  split; [vm_compute; reflexivity|]. split; [reflexivity|]. split; [reflexivity|].
  split; [vm_compute; reflexivity|]. split; reflexivity.
Qed.

(** The result and the calls made. *)
Definition told {A} (x : option (A * cst)) : option (A * list entry) :=
  match x with Some (r, s') => Some (r, log s') | None => None end.

(** The outcome of a check (granted, fault) and the number of calls made if call [n] fails. *)
Definition check_outcome (n : nat) : option (bool * bool * nat) :=
  match Checker_check (all_answers n) [30; 31; 32]%nat (fun _ => true) (fun _ => false) (fun _ => false)
          (fun _ => false) 30%nat (Some (31, 32)%nat) plain_state with
  | Some (r, s') => Some (match r with Some _ => true | None => false end, fault s', length (log s'))
  | None => None
  end.
