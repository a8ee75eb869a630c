(** * SandboxSpec: what the example policy promises. *)

From Coq Require Import List String Bool Arith.
From Verif Require Import Base Domain Spec Sandbox.
Import ListNotations.
Open Scope string_scope.

(** The database has location [h] with entry [db]. *)
Definition located (database : list (string * location)) (h : string) (db : location) : Prop :=
  dget String.eqb database h = Some db.

(** At [db] the token [tok] is allowed [t]. *)
Definition allows (db : location) (tok t : string) : Prop :=
  exists l, dget String.eqb db tok = Some l /\ In t l.

(** Permission [t] is granted at home [h] to participations with these tokens. *)
Definition sandbox_grants (database : list (string * location)) (h : string)
           (tokens : list string) (t : string) : Prop :=
  exists db, located database h db /\
    (allows db "any" t \/ allows db "any" "All" \/
     (tokens <> [] /\ forall tok, In tok tokens -> allows db tok t)).

(** No method is listed under two permissions. *)
Definition disjoint_map (m : list (perm * list name)) : Prop :=
  forall k1 l1 k2 l2 n, In (k1, l1) m -> In (k2, l2) m -> In n l1 -> In n l2 -> k1 = k2.

(** The permission of the last entry that lists [n]. *)
Definition last_listing (m : list (perm * list name)) (n : name) : option perm :=
  fold_left (fun acc kv => if existsb (String.eqb n) (snd kv) then Some (fst kv) else acc) m None.

(** The interaction [iv] decides like the example policy, without side effects, where
    [home] gives the home's id of an object and [tokens] are those of the
    participations. *)
Definition simulates (E : env) (iv : value) (home : value -> string) (tokens : list string) : Prop :=
  forall i t obj s, exists b,
    e_run E (e_tid E) (CallPerm iv (PId i t) obj) s = (Ok (VBool b), s) /\
    Simulation_checkPermission SimulationSecurityDatabase (Ok (home obj)) (map Ok tokens) (PId i t) =
    Ok b.
