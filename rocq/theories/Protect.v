(** * Protect: protectclass.py, and protectModule of metaconfigure.py. *)

From Coq Require Import List String Bool Arith ZArith.
From Verif Require Import Base Domain CheckerModel.
Import ListNotations.
Open Scope string_scope.
Open Scope m_scope.

(** interfaces.py: PUBLIC_PERMISSION_NAME *)
Definition zope_Public : string := "zope.Public".

(** [if permission == zope_Public: permission = CheckerPublic]
    (protectclass.py 32-34, 48-50; metaconfigure.py 191-193).  CheckerPublic and
    None do not compare equal to a string. *)
Definition translate (p : perm) : perm :=
  match p with
  | PId _ t => if String.eqb t zope_Public then PPublic else p
  | _ => p
  end.

(** [checker.get_permissions], [checker.set_permissions]: the dictionary objects.
    Registered values that are not checkers of this package (NoProxy, functions,
    foreign checkers) have no such attribute. *)
Definition get_permissions (c : value) : M id :=
  match c with
  | VChk i =>
      s <- get ;;
      match st_chks s i with
      | Some k => ret (ck_get k)
      | None => raise (EType "dangling checker")
      end
  | _ => raise (EAttribute "get_permissions")
  end.

Definition set_permissions (c : value) : M id :=
  match c with
  | VChk i =>
      s <- get ;;
      match st_chks s i with
      | Some k => ret (ck_set k)
      | None => raise (EType "dangling checker")
      end
  | _ => raise (EAttribute "set_permissions")
  end.

(** [d[name] = permission] *)
Definition dict_set (d : id) (n : name) (p : perm) : M unit :=
  s <- get ;;
  put (set_dicts (upd (st_dicts s) d (dset String.eqb (st_dicts s d) n p)) s).

(** [for name in src: dst[name] = src[name]].  Source and target may be the same
    dictionary, whose keys then stay the same. *)
Definition dict_copy (dst src : id) : M unit :=
  s <- get ;;
  put (set_dicts (upd (st_dicts s) dst
                    (dupdate String.eqb (st_dicts s dst) (st_dicts s src))) s).

Section Protect.
  Variable E : env.

  (** protectclass.py 27-30, 43-46, 80-83: the registered checker, or a new one. *)
  Definition checker_for (k : rkey) : M value :=
    c <- getCheckerForInstancesOf k ;;
    match c with
    | VNone =>
        c' <- Checker_new E [] [] ;;
        defineChecker k c' ;;;
        ret c'
    | _ => ret c
    end.

  (** protectclass.py 24-38 *)
  Definition protectName (k : rkey) (n : name) (p : perm) : M unit :=
    c <- checker_for k ;;
    let p' := translate p in
    d <- get_permissions c ;;
    dict_set d n p'.

  (** protectclass.py 41-60 *)
  Definition protectSetAttribute (k : rkey) (n : name) (p : perm) : M unit :=
    c <- checker_for k ;;
    let p' := translate p in
    d <- set_permissions c ;;
    dict_set d n p'.

  (** protectclass.py 63-91 *)
  Definition protectLikeUnto (k like : rkey) : M unit :=
    u <- getCheckerForInstancesOf like ;;
    match u with
    | VNone => ret tt
    | _ =>
        ug <- get_permissions u ;;
        uw <- set_permissions u ;;
        c <- checker_for k ;;
        g <- get_permissions c ;;
        dict_copy g ug ;;;
        w <- set_permissions c ;;
        dict_copy w uw
    end.

  (** metaconfigure.py 180-197; moduleChecker is the same lookup. *)
  Definition protectModule (k : rkey) (n : name) (p : perm) : M unit :=
    c <- moduleChecker k ;;
    c' <- match c with
          | VNone =>
              c' <- Checker_new E [] [] ;;
              defineChecker k c' ;;;
              ret c'
          | _ => ret c
          end ;;
    let p' := translate p in
    d <- get_permissions c' ;;
    dict_set d n p'.
End Protect.
