(** Adapter factories wrapped in adapter factories: the constructors of
    adapter.py, and calls of such stacks, on the objects of Liars.v. *)

From Coq Require Import String List Arith Bool.
From Verif Require Import Liars LiarsUse.
Import ListNotations.

(** LocatingTrustedAdapterFactory, TrustedAdapterFactory,
    LocatingUntrustedAdapterFactory (adapter.py 48, 93, 112). *)
Inductive kind := Locating | Trusted | Untrusted.

(** A factory: one of the application, or an instance of one of the classes with
    its attributes [factory], [__name__] and [__module__]. *)
Inductive fact := App (n : nat) | Wrapped (k : kind) (factory : fact) (name module : obj).

Section Stack.
  Context {W X : Type} (R : runtime W X).
  (** Reading an attribute of a factory of the application; calling it. *)
  Variable attribute : nat -> string -> action W X obj.
  Variable app : nat -> list obj -> action W X obj.
  (** [ILocation.providedBy(a)], [a.__parent__], [a.__parent__ = p],
      [LocationProxy(a)] with its parent set *)
  Variable provided : obj -> action W X bool.
  Variable get_parent : obj -> action W X obj.
  Variable set_parent : obj -> obj -> action W X unit.
  Variable located : obj -> obj -> action W X obj.
  Variable index_error : X.

  (** [f.__name__], [f.__module__] *)
  Definition read (f : fact) (n : string) : action W X obj :=
    match f with
    | App i => attribute i n
    | Wrapped _ _ name module => give (if String.eqb n "__name__" then name else module)
    end.

  (** The constructors, adapter.py 66-69, 129-132 *)
  Definition wrap (k : kind) (f : fact) : action W X fact :=
    andthen (read f "__name__") (fun n =>
      andthen (read f "__module__") (fun m => give (Wrapped k f n m))).

  (** Wrapping again and again; the first of the list is the outermost. *)
  Fixpoint wraps (ks : list kind) (f : fact) : action W X fact :=
    match ks with
    | [] => give f
    | k :: ks' => andthen (wraps ks' f) (wrap k)
    end.

  (** assertLocation, adapter.py 24-45 *)
  Definition assertLocation (a p : obj) : action W X obj :=
    andthen (provided a) (fun yes =>
      if yes then
        andthen (get_parent a) (fun q =>
          match q with
          | PyNone => andthen (set_parent a p) (fun _ => give a)
          | _ => give a
          end)
      else located a p).

  (** _customizeUnprotected, adapter.py 75-78 *)
  Definition customizeUnprotected (a c : obj) : action W X obj :=
    andthen (provided a) (fun yes =>
      if yes then
        andthen (get_parent a) (fun q =>
          match q with
          | PyNone => andthen (set_parent a c) (fun _ => give a)
          | _ => give a
          end)
      else give a).

  (** _customizeProtected ([true]) and _customizeUnprotected ([false]) of the
      classes, adapter.py 72-78, 107-109 *)
  Definition customize (k : kind) (protected : bool) : obj -> obj -> action W X obj :=
    match k, protected with
    | Locating, true => assertLocation
    | _, _ => customizeUnprotected
    end.

  (** Calling a factory, adapter.py 80-90, 134-136 *)
  Fixpoint call (b : build) (fuel : nat) (f : fact) (args : list obj) : action W X obj :=
    match f with
    | App i => app i args
    | Wrapped Untrusted f' _ _ =>
        andthen (call b fuel f' args) (fun a =>
          andthen (head index_error args) (fun c => assertLocation a c))
    | Wrapped k f' _ _ =>
        trusted_call R index_error (call b fuel f') (customize k) b fuel args
    end.
End Stack.
