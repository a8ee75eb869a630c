(** * ProtectSpec: what protection declarations mean. *)

From Coq Require Import List String Bool Arith ZArith.
From Verif Require Import Base Domain.
Import ListNotations.
Open Scope string_scope.

(** The protection registered for the instances of a class (or for a module): the
    permission for reading, calling ... (writing, deleting) a name. *)
Definition protection := rkey -> name -> option perm.

Definition read_protection (s : state) : protection := fun k n =>
  match dget rkey_eqb (st_reg s) k with
  | Some (VChk i) =>
      match st_chks s i with
      | Some c => dget String.eqb (st_dicts s (ck_get c)) n
      | None => None
      end
  | _ => None
  end.

Definition write_protection (s : state) : protection := fun k n =>
  match dget rkey_eqb (st_reg s) k with
  | Some (VChk i) =>
      match st_chks s i with
      | Some c => dget String.eqb (st_dicts s (ck_set c)) n
      | None => None
      end
  | _ => None
  end.

(** Declarations: read protection, write protection, like another class. *)
Inductive decl :=
| DName (k : rkey) (n : name) (p : perm)
| DSet (k : rkey) (n : name) (p : perm)
| DLike (k like : rkey).

Definition target (d : decl) : rkey :=
  match d with DName k _ _ | DSet k _ _ | DLike k _ => k end.

(** The permission id "zope.Public" stands for CheckerPublic. *)
Definition meant (p : perm) : perm :=
  match p with PId _ "zope.Public" => PPublic | _ => p end.

Definition declare (f : protection) (k : rkey) (n : name) (p : perm) : protection :=
  fun k' n' => if rkey_eqb k' k && String.eqb n' n then Some (meant p) else f k' n'.

(** What [like] has overrides what [k] has. *)
Definition inherit (f : protection) (k like : rkey) : protection :=
  fun k' n' => if rkey_eqb k' k
               then match f like n' with Some p => Some p | None => f k n' end
               else f k' n'.

Definition declared_read (d : decl) (f : protection) : protection :=
  match d with
  | DName k n p => declare f k n p
  | DSet _ _ _ => f
  | DLike k l => inherit f k l
  end.

Definition declared_write (d : decl) (f : protection) : protection :=
  match d with
  | DName _ _ _ => f
  | DSet k n p => declare f k n p
  | DLike k l => inherit f k l
  end.

Fixpoint declared_reads (ds : list decl) (f : protection) : protection :=
  match ds with [] => f | d :: ds' => declared_reads ds' (declared_read d f) end.
Fixpoint declared_writes (ds : list decl) (f : protection) : protection :=
  match ds with [] => f | d :: ds' => declared_writes ds' (declared_write d f) end.

(** A registered checker object. *)
Definition live (s : state) (k : rkey) (i : id) (c : checker) : Prop :=
  dget rkey_eqb (st_reg s) k = Some (VChk i) /\ st_chks s i = Some c.

(** Registered checkers exist, and so do their dictionaries (whose keys are unique). *)
Definition registry_wf (s : state) : Prop :=
  forall k i, dget rkey_eqb (st_reg s) k = Some (VChk i) ->
    i < st_next s /\
    exists c, st_chks s i = Some c /\ ck_get c < st_next s /\ ck_set c < st_next s /\
      NoDup (map fst (st_dicts s (ck_get c))) /\ NoDup (map fst (st_dicts s (ck_set c))).

(** The class has no checker, or a checker of this package. *)
Definition plain_entry (s : state) (k : rkey) : Prop :=
  dget rkey_eqb (st_reg s) k = None \/ exists i, dget rkey_eqb (st_reg s) k = Some (VChk i).

(** The dictionaries of the checker of [k] belong to no other class. *)
Definition unshared (s : state) (k : rkey) : Prop :=
  forall i c, live s k i c ->
    ck_get c <> ck_set c /\
    forall k' i' c', k' <> k -> live s k' i' c' ->
      ck_get c' <> ck_get c /\ ck_get c' <> ck_set c /\
      ck_set c' <> ck_get c /\ ck_set c' <> ck_set c.

Definition is_class_or_module (k : rkey) : Prop :=
  match k with KOther _ => False | _ => True end.

(** The declarations [ds] can be made in [s]. *)
Definition declarable (ds : list decl) (s : state) : Prop :=
  registry_wf s /\
  forall d, In d ds ->
    is_class_or_module (target d) /\ plain_entry s (target d) /\ unshared s (target d) /\
    (forall k l, d = DLike k l -> plain_entry s l).

(** Only the registry and the tables of checkers have changed. *)
Definition only_tables (s s' : state) : Prop :=
  s' = set_next (st_next s') (set_dicts (st_dicts s') (set_chks (st_chks s')
         (set_reg (st_reg s') s))).
