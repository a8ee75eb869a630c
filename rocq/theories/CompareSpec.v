(** Comparing objects without proxies. *)

From Coq Require Import List Arith Bool.
From Verif Require Import Compare.
Import ListNotations.

Section Spec.
  Variable W : world.

  (** The object behind all proxies. *)
  Fixpoint strip (v : val) : nat :=
    match v with Obj n => n | Pr _ x => strip x end.

  Definition proxied (v : val) : bool := match v with Obj _ => false | Pr _ _ => true end.

  (** How many proxies there are. *)
  Fixpoint layers (v : val) : nat :=
    match v with Obj _ => 0 | Pr _ x => S (layers x) end.

  (** [x o y] for two objects: the method of the one, then the reflected method
      of the other (the other way round if the type of [y] is a subtype), then
      identity. *)
  Definition bare (x y : nat) (o : op) : res :=
    let own := w_cmp W x o (Obj y) in
    let other := w_cmp W y (swap o) (Obj x) in
    let rest := match o with
                | Eq => Bool (Nat.eqb x y)
                | Ne => Bool (negb (Nat.eqb x y))
                | _ => Exc (w_no_order W)
                end in
    match (if w_strict W (w_type W y) (w_type W x) then (other, own) else (own, other)) with
    | (Some r, _) => r
    | (None, Some r) => r
    | (None, None) => rest
    end.

  (** Proxy has no subclasses. *)
  Definition no_subclass : Prop := forall t, w_strict W t (w_proxy W) = false.

  (** The comparison methods of [x] return NotImplemented for proxies, as they
      do if they begin with a test of the type of the other operand. *)
  Definition selective (x : nat) : Prop := forall o i v, w_cmp W x o (Pr i v) = None.

  (** What the caller gets for the result [r] of comparing objects if a proxy
      took part: in the C build, results other than True and False come as
      proxies. *)
  Definition seen (b : build) (through : bool) (r : res) : res :=
    match b, through, r with
    | C, true, Thing n => Guarded (Thing n)
    | _, _, _ => r
    end.

  (** The order of the operands makes no difference. *)
  Definition mirrored (x y : nat) (o : op) : Prop := bare x y o = bare y x (swap o).

  (** The entries of a dict whose keys are looked at without proxies, and a
      search among them. *)
  Fixpoint find {D} (entries : list (nat * D)) (x : nat) : found D :=
    match entries with
    | [] => Missing
    | (k, d) :: rest =>
        if Nat.eqb (w_hash W k) (w_hash W x) then
          if Nat.eqb k x then Found d
          else match bare k x Eq with
               | Exc e => Fails e
               | r => if truth W r then Found d else find rest x
               end
        else find rest x
    end.

  Definition stripped {D} (entries : list (val * D)) : list (nat * D) :=
    map (fun e => (strip (fst e), snd e)) entries.

  (** Proxies with one number are one proxy. *)
  Definition well_numbered (v w : val) : Prop := same v w = true -> v = w.
End Spec.
