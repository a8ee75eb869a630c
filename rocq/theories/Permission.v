(** * Permission: permission.py (the enumerating functions; checkPermission is in [Zcml]).

    [getUtilitiesFor(IPermission, context)] of zope.component is an argument: the list
    of (name, utility) it yields, in whatever order.  Permission objects are
    identities (the class does not define [__eq__] or [__hash__]). *)

From Coq Require Import List String Bool Arith.
From Verif Require Import Base Domain Protect.
Import ListNotations.
Open Scope string_scope.

(** What getUtilitiesFor yields. *)
Definition utility := (string * id)%type.

(** Values of vocabulary terms: CheckerPublic, a permission id, a permission object. *)
Inductive tvalue :=
| TPublic
| TId (s : string)
| TPermission (p : id).

(** zope.schema.vocabulary.SimpleTerm(value, token, title); tokens are made ASCII by
    escaping, which is not modelled (permission ids are dotted names or URIs). *)
Record term := mkTerm {
  tm_value : tvalue;
  tm_token : string;
  tm_title : option string
}.

Definition tvalue_eqb (a b : tvalue) : bool :=
  match a, b with
  | TPublic, TPublic => true
  | TId s, TId u => String.eqb s u
  | TPermission p, TPermission q => Nat.eqb p q
  | _, _ => false
  end.

(** zope.schema.vocabulary.SimpleVocabulary(terms): values and tokens must be unique,
    otherwise ValueError. *)
Fixpoint unique_terms (values : list tvalue) (tokens : list string) (ts : list term) : res unit :=
  match ts with
  | [] => Ok tt
  | t :: ts' =>
      if existsb (tvalue_eqb (tm_value t)) values then Exc (EValue "term values must be unique")
      else if existsb (String.eqb (tm_token t)) tokens
      then Exc (EValue "term tokens must be unique")
      else unique_terms (tm_value t :: values) (tm_token t :: tokens) ts'
  end.
Definition SimpleVocabulary (ts : list term) : res (list term) :=
  match unique_terms [] [] ts with
  | Ok _ => Ok ts
  | Exc e => Exc e
  end.

(** permission.py 56-62 *)
Fixpoint allPermissions (us : list utility) : list string :=
  match us with
  | [] => []
  | (name, _) :: us' =>
      if negb (String.eqb name zope_Public) then name :: allPermissions us'
      else allPermissions us'
  end.

(** permission.py 65-74 *)
Definition PermissionsVocabulary (us : list utility) : res (list term) :=
  SimpleVocabulary (map (fun u => mkTerm (TPermission (snd u)) (fst u) None) us).

(** [sorted(terms, key=attrgetter('title'))]: stable; strings compare by code points,
    which for UTF-8 is the order of the bytes.  Terms without a title do not occur. *)
Definition title_of (t : term) : string := match tm_title t with Some s => s | None => "" end.
Fixpoint insert_term (t : term) (l : list term) : list term :=
  match l with
  | [] => [t]
  | u :: l' => if String.leb (title_of t) (title_of u) then t :: u :: l'
               else u :: insert_term t l'
  end.
Fixpoint sorted_terms (l : list term) : list term :=
  match l with
  | [] => []
  | t :: l' => insert_term t (sorted_terms l')
  end.

(** The loop permission.py 97-101: has_public and terms. *)
Fixpoint ids_loop (has_public : bool) (terms : list term) (us : list utility)
  : bool * list term :=
  match us with
  | [] => (has_public, terms)
  | (name, _) :: us' =>
      if String.eqb name zope_Public then ids_loop true terms us'
      else ids_loop has_public (terms ++ [mkTerm (TId name) name (Some name)])%list us'
  end.

(** permission.py 80-107 *)
Definition PermissionIdsVocabulary (us : list utility) : res (list term) :=
  let (has_public, terms) := ids_loop false [] us in
  let terms := sorted_terms terms in
  let terms := if has_public
               then mkTerm TPublic zope_Public (Some "Public") :: terms
               else terms in
  SimpleVocabulary terms.

(** ** testing.py *)

(** testing.py 56-74 addCheckerPublic: [registerUtility] under the id replaces what was
    registered under that name. *)
Definition addCheckerPublic (perm : id) (us : list utility) : list utility :=
  dset String.eqb us zope_Public perm.
