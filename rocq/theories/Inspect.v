(** * Inspect: the package's helpers for looking at protected objects. *)

From Coq Require Import List String Bool Arith ZArith.
From Verif Require Import Base Domain CheckerModel ProxyModel Lookup.
Import ListNotations.
Open Scope string_scope.
Open Scope m_scope.

(** [sorted] on the items of a dictionary: the keys are distinct strings, so the comparison
    of pairs never gets to the permissions. *)
Fixpoint insert_item (x : name * perm) (l : list (name * perm)) : list (name * perm) :=
  match l with
  | [] => [x]
  | y :: l' => if String.leb (fst x) (fst y) then x :: l else y :: insert_item x l'
  end.
Fixpoint sort_items (l : list (name * perm)) : list (name * perm) :=
  match l with
  | [] => []
  | x :: l' => insert_item x (sort_items l')
  end.

(** proxy.py 372-376 *)
Definition sortedTestProxyItems (v : value) : M (list (name * perm)) :=
  l <- getTestProxyItems v ;; ret (sort_items l).

(** What an f-string does with a value: strings as they are, anything else by its own
    conversion to a string. *)
Definition format_value (E : env) (fuel : nat) (v : value) : M string :=
  match v with
  | VStr x => ret x
  | _ => r <- perform E fuel (OStr v) ;;
         match r with
         | VStr x => ret x
         | _ => raise (EType "__format__ must return a str")
         end
  end.

(** checker.py 306-310, 315-319: the qualified name of a class. *)
Definition class_text (E : env) (fuel : nat) (cls : value) : M string :=
  has <- client_hasattr E fuel cls "__module__" ;;
  if has : bool then
    m <- perform E fuel (OGetattr cls "__module__" None) ;;
    mt <- format_value E fuel m ;;
    n <- perform E fuel (OGetattr cls "__name__" None) ;;
    nt <- format_value E fuel n ;;
    ret (mt ++ "." ++ nt)
  else
    n <- perform E fuel (OGetattr cls "__name__" None) ;;
    format_value E fuel n.

(** ["\n".join(result)] for at most two lines (checker.py 322). *)
Definition join_lines (l : list string) : string :=
  String.concat (String (Ascii.ascii_of_nat 10) "") l.

(** TracebackSupplement.getInfo (checker.py 302-322).  A bare [except] catches everything. *)
Definition getInfo (E : env) (fuel : nat) (obj : value) : M string :=
  a <- catch (cls <- perform E fuel (OGetattr obj "__class__" None) ;;
              x <- class_text E fuel cls ;;
              ret ["   - class: " ++ x])
             (fun _ => ret []) ;;
  b <- catch (s <- get ;;
              x <- class_text E fuel (VClass (type_of E s obj)) ;;
              ret ["   - type: " ++ x])
             (fun _ => ret []) ;;
  ret (join_lines (a ++ b)%list).
