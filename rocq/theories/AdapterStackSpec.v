(** What wrapping adapter factories owes its users. *)

From Coq Require Import String List Arith Bool.
From Verif Require Import Liars LiarsSpec LiarsUseSpec AdapterStack.

(** The trusted classes. *)
Definition is_trusted (k : kind) : Prop := k <> Untrusted.

(** What all wrappers in a factory have as name and module. *)
Fixpoint named (name module : obj) (f : fact) : Prop :=
  match f with
  | App _ => True
  | Wrapped _ f' n m => n = name /\ m = module /\ named name module f'
  end.

(** The classes of the wrappers, outermost first, and the factory inside. *)
Fixpoint layers (f : fact) : list kind :=
  match f with App _ => nil | Wrapped k f' _ _ => cons k (layers f') end.
Fixpoint core (f : fact) : nat :=
  match f with App i => i | Wrapped _ f' _ _ => core f' end.

Section Spec.
  Context {W X : Type} (R : runtime W X).

  (** Locations that behave: asking whether an object provides ILocation, and for
      its parent, changes nothing (or fails); the parent that was set is there,
      the object still provides ILocation, and setting it again is no matter. *)
  Record orderly (provided : obj -> action W X bool) (get_parent : obj -> action W X obj)
    (set_parent : obj -> obj -> action W X unit) : Prop := {
    orderly_provided : forall a w,
      (exists p, provided a w = (Returns p, w)) \/ (exists e w', provided a w = (Raises e, w'));
    orderly_parent : forall a w,
      (exists q, get_parent a w = (Returns q, w)) \/ (exists e w', get_parent a w = (Raises e, w'));
    orderly_set : forall a c w w', provided a w = (Returns true, w) ->
      set_parent a c w = (Returns tt, w') ->
      provided a w' = (Returns true, w') /\ get_parent a w' = (Returns c, w') /\
      set_parent a c w' = (Returns tt, w')
  }.

  (** Giving the adapter [a] the place [c]: an adapter that provides ILocation
      gets a parent if it has none; another one gets a location proxy if
      [covering].  What it ends with. *)
  Inductive settles (provided : obj -> action W X bool) (get_parent : obj -> action W X obj)
    (set_parent : obj -> obj -> action W X unit) (located : obj -> obj -> action W X obj)
    (covering : bool) (a c : obj) (w : W) : outcome X obj -> W -> Prop :=
  | settles_has : forall w1 w2 q, provided a w = (Returns true, w1) ->
      get_parent a w1 = (Returns q, w2) -> q <> PyNone ->
      settles provided get_parent set_parent located covering a c w (Returns a) w2
  | settles_gets : forall w1 w2 w3, provided a w = (Returns true, w1) ->
      get_parent a w1 = (Returns PyNone, w2) -> set_parent a c w2 = (Returns tt, w3) ->
      settles provided get_parent set_parent located covering a c w (Returns a) w3
  | settles_covered : forall w1 d w2, covering = true -> provided a w = (Returns false, w1) ->
      located a c w1 = (Returns d, w2) ->
      settles provided get_parent set_parent located covering a c w (Returns d) w2
  | settles_left : forall w1, covering = false -> provided a w = (Returns false, w1) ->
      settles provided get_parent set_parent located covering a c w (Returns a) w1
  | settles_provided : forall e w1, provided a w = (Raises e, w1) ->
      settles provided get_parent set_parent located covering a c w (Raises e) w1
  | settles_parent : forall e w1 w2, provided a w = (Returns true, w1) ->
      get_parent a w1 = (Raises e, w2) ->
      settles provided get_parent set_parent located covering a c w (Raises e) w2
  | settles_set : forall e w1 w2 w3, provided a w = (Returns true, w1) ->
      get_parent a w1 = (Returns PyNone, w2) -> set_parent a c w2 = (Raises e, w3) ->
      settles provided get_parent set_parent located covering a c w (Raises e) w3
  | settles_located : forall e w1 w2, covering = true -> provided a w = (Returns false, w1) ->
      located a c w1 = (Raises e, w2) ->
      settles provided get_parent set_parent located covering a c w (Raises e) w2.

  (** An argument with at most one proxy around it, which cannot mislead
      removeSecurityProxy, nor can the object behind it. *)
  Definition simple (b : build) (x : obj) : Prop :=
    honest R b x /\ honest R b (bare x) /\ not_a_proxy (bare x).
End Spec.
