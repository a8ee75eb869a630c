(** * Base: Python dictionaries and small helpers.

    Python's [dict] is modelled by an insertion-ordered association list.
    There is at most one entry per key as long as only the functions below are
    used; the lookup takes the first one. *)

From Coq Require Import List String Bool Arith.
Import ListNotations.

Section Dict.
  Context {K V : Type}.
  Variable eqb : K -> K -> bool.

  (** [d.get(k)] / [k in d]: the entry of [k], if any. *)
  Fixpoint dget (d : list (K * V)) (k : K) : option V :=
    match d with
    | [] => None
    | (k', v) :: d' => if eqb k' k then Some v else dget d' k
    end.

  (** [d[k] = v]: overwrite in place, or append at the end. *)
  Fixpoint dset (d : list (K * V)) (k : K) (v : V) : list (K * V) :=
    match d with
    | [] => [(k, v)]
    | (k', v') :: d' => if eqb k' k then (k', v) :: d' else (k', v') :: dset d' k v
    end.

  (** [del d[k]] (the caller checks presence, a missing key is a KeyError). *)
  Fixpoint ddel (d : list (K * V)) (k : K) : list (K * V) :=
    match d with
    | [] => []
    | (k', v') :: d' => if eqb k' k then ddel d' k else (k', v') :: ddel d' k
    end.

  (** [d.update(d2)]: the items of [d2] in order. *)
  Definition dupdate (d d2 : list (K * V)) : list (K * V) :=
    fold_left (fun acc kv => dset acc (fst kv) (snd kv)) d2 d.
End Dict.

(** [x in list] for strings. *)
Fixpoint mem (x : string) (l : list string) : bool :=
  match l with
  | [] => false
  | y :: l' => if String.eqb y x then true else mem x l'
  end.

(** Update of a finitely described heap (object identities are numbers). *)
Definition upd {A} (f : nat -> A) (k : nat) (v : A) : nat -> A :=
  fun x => if Nat.eqb x k then v else f x.
