(** * Pickle: CheckerPublic as a global, and pickling or copying a security proxy.

    checker.py 325-364 and proxy.py 108-131 exist so that [CheckerPublic] can be pickled by
    name.  The pickler and the copy module belong to the language; they are modelled as the
    sequence of operations they perform on an object whose type they do not know, which is
    what a security proxy is to them. *)

From Coq Require Import List String Bool Arith ZArith.
From Verif Require Import Base Domain CheckerModel ProxyModel Lookup.
Import ListNotations.
Open Scope string_scope.
Open Scope m_scope.

(** [d[k] = CheckerPublic] for the dictionary with identity [i] (checker.py 357-358). *)
Definition dict_set_public (i : id) (n : name) : M unit :=
  s <- get ;;
  put (set_dicts (upd (st_dicts s) i (dset String.eqb (st_dicts s i) n PPublic)) s).

(** checker.py 348-359.  The Global has the fixed identity [public_oid], the proxy around
    it [public_pid], its checker [public_cid].  The checker is created with the empty
    dictionary, which is filled when the proxy exists.  At this point of the module
    [Checker] is CheckerPy, also in the C build and also when checkers are watched; the
    model has one class for both. *)
Definition import_public : M value :=
  d <- alloc_dict [] ;;
  w <- alloc_dict [] ;;
  s <- get ;;
  put (set_chks (upd (st_chks s) public_cid (Some (mkChecker d w CkPlain))) s) ;;;
  s <- get ;;
  put (set_prox (upd (st_prox s) public_pid (Some (VObj public_oid, VChk public_cid))) s) ;;;
  dict_set_public d "__reduce__" ;;;
  dict_set_public d "__module__" ;;;
  ret (VProxy public_pid).

(** What the pickler writes for an object: a reference to a global, or the parts given by a
    reducer; or it gives up with PicklingError. *)
Inductive pickled :=
| ByName (module qualname : string)
| ByValue (reduced : value)
| PicklingError.

(** What [copy.copy] and [copy.deepcopy] do: return an object, rebuild one from a reducer's
    result, or raise copy.Error. *)
Inductive copied :=
| Copy (v : value)
| Rebuild (reduced : value)
| CopyError.

Section Pickler.
  Variable E : env.
  Variable fuel : nat.

  (** Module attributes, after importing the module; [None] if either is missing. *)
  Variable globals : string -> string -> option value.
  (** The search of all modules for an object under a name. *)
  Variable whichmodule : value -> string -> string.

  (** The attribute, unless reading it raises an AttributeError (which ForbiddenAttribute
      is, interfaces.py 116). *)
  Definition lookup_attr (v : value) (n : name) : M (option value) :=
    catch (x <- perform E fuel (OGetattr v n None) ;; ret (Some x))
          (fun e => if is_attribute_error e then ret None else raise e).

  (** Calling [__reduce_ex__] with the protocol, or else [__reduce__]. *)
  Definition reduce (protocol : Z) (obj : value) : M (option value) :=
    rex <- lookup_attr obj "__reduce_ex__" ;;
    match rex with
    | Some f => v <- perform E fuel (OCall f [VInt protocol]) ;; ret (Some v)
    | None =>
        r <- lookup_attr obj "__reduce__" ;;
        match r with
        | Some f => v <- perform E fuel (OCall f []) ;; ret (Some v)
        | None => ret None
        end
    end.

  (** Saving a reference: the module is [obj.__module__]; the global found there has to be
      this very object.  Dotted names are taken as one name. *)
  Definition save_global (obj : value) (n : string) : M pickled :=
    om <- lookup_attr obj "__module__" ;;
    m <- match om with
         | None | Some VNone => ret (whichmodule obj n)
         | Some (VStr m) => ret m
         | Some _ => raise (EType "module name must be a string")
         end ;;
    match globals m n with
    | Some v => if value_eqb v obj then ret (ByName m n) else ret PicklingError
    | None => ret PicklingError
    end.

  (** [isinstance(v, tuple)]; subclasses are not modelled. *)
  Definition is_tuple (v : value) : bool :=
    match v with VObj o => String.eqb (e_type E o) "tuple" | _ => false end.

  (** Saving an object of a type that has no entry in the dispatch tables.  The message of
      the error contains the object's repr. *)
  Definition pickle (protocol : Z) (obj : value) : M pickled :=
    rv <- reduce protocol obj ;;
    match rv with
    | None => perform E fuel (ORepr obj) ;;; ret PicklingError
    | Some (VStr n) => save_global obj n
    | Some v => if is_tuple v then ret (ByValue v) else ret PicklingError
    end.

  (** Loading a reference. *)
  Definition unpickle (x : pickled) : option value :=
    match x with
    | ByName m n => globals m n
    | _ => None
    end.

  (** [copy.copy(x)] and, with the dictionary [memo], [copy.deepcopy(x)], for an object of a
      type that has no entry in the dispatch tables and no [__copy__]. *)
  Definition copy (memo : option value) (x : value) : M copied :=
    deep <- match memo with
            | None => ret None
            | Some d =>
                c <- lookup_attr x "__deepcopy__" ;;
                match c with
                | None | Some VNone => ret None
                | Some f => y <- perform E fuel (OCall f [d]) ;; ret (Some y)
                end
            end ;;
    match deep with
    | Some y => ret (Copy y)
    | None =>
        rex <- lookup_attr x "__reduce_ex__" ;;
        rv <- match rex with
              | Some VNone | None =>
                  r <- lookup_attr x "__reduce__" ;;
                  match r with
                  | None => ret None
                  | Some f =>
                      b <- truth (interp_n E fuel) f ;;
                      if b then v <- perform E fuel (OCall f []) ;; ret (Some v) else ret None
                  end
              | Some f => v <- perform E fuel (OCall f [VInt 4]) ;; ret (Some v)
              end ;;
        match rv with
        | None => ret CopyError
        | Some (VStr _) => ret (Copy x)
        | Some v => ret (Rebuild v)
        end
    end.
End Pickler.
