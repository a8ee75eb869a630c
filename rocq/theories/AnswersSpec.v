(** * AnswersSpec: on what, outside the package, the outcome of an operation may depend. *)

From Coq Require Import List String Bool Arith ZArith.
From Verif Require Import Base Domain ProxyModel ConcealSpec.
Import ListNotations.
Open Scope string_scope.

(** The truth value of what a policy returned or raised; [None]: objects have truth values of
    their own. *)
Definition truth_of (v : value) : option bool :=
  match v with
  | VNone => Some false
  | VBool b => Some b
  | VInt z => Some (negb (Z.eqb z 0))
  | VStr s => Some (negb (String.eqb s ""))
  | VNotImpl => Some true
  | _ => None
  end.
Definition may_answer (r : res value) (a : option bool) : Prop :=
  match r with
  | Exc _ => a = None
  | Ok v => match truth_of v with Some b => a = Some b | None => True end
  end.

(** Code [run'] does the same as the code of [E] whenever it could be the one behind event [e]:
    the call made, or the question with the answer given. *)
Definition unchanged (E : env) (run' : id -> call -> state -> res value * state) (e : event) : Prop :=
  match e with
  | ECall _ t c => (forall iv p obj, c <> CallPerm iv p obj) -> forall s, run' t c s = e_run E t c s
  | EAsk t iv p obj a => forall s r s1,
      e_run E t (CallPerm iv p obj) s = (r, s1) -> may_answer r a -> run' t (CallPerm iv p obj) s = (r, s1)
  | ELog _ _ _ => True
  end.

(** [run'] differs from the code of [E] in answers of policies only, and only where the answer
    was [b]. *)
Definition revised (b : bool) (E : env) (run' : id -> call -> state -> res value * state) : Prop :=
  forall t c s, run' t c s = e_run E t c s \/
    exists iv p obj v s1, c = CallPerm iv p obj /\ e_run E t c s = (Ok v, s1) /\ truth_of v = Some b.

(** Nobody was answered [b]. *)
Definition never (b : bool) (t : list event) : Prop :=
  forall th iv p obj, ~ In (EAsk th iv p obj (Some b)) t.

(** ** Decisions *)

(** Policies answer yes or no and do nothing else. *)
Definition plain_policy (E : env) : Prop :=
  forall t iv p obj s, exists b, e_run E t (CallPerm iv p obj) s = (Ok (VBool b), s).
(** Policies that grant at least as much. *)
Definition looser (E : env) (run' : id -> call -> state -> res value * state) : Prop :=
  forall t c s, run' t c s = e_run E t c s \/
    exists iv p obj, c = CallPerm iv p obj /\ e_run E t c s = (Ok (VBool false), s) /\
      run' t c s = (Ok (VBool true), s).

(** No checker watches, and none will. *)
Definition unwatched_kind (k : ckind) : Prop :=
  match k with CkPlain | CkCombined _ => True | _ => False end.
Definition unwatching (s : state) : Prop :=
  forall i k, st_chks s i = Some k -> unwatched_kind (ck_kind k).
Definition keeps_unwatching (E : env) : Prop :=
  forall t c s r s1, e_run E t c s = (r, s1) -> unwatching s -> unwatching s1.
