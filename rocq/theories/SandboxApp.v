(** * SandboxApp: examples/sandbox.py, alone and as secured by examples/sandbox_security.py.

    A world of its own: sandboxes, agents and the interaction of the one thread that runs
    the simulation.  Services have no state that matters here and are left out. *)

From Coq Require Import List String Bool Arith.
From Verif Require Import Base Domain Sandbox.
Import ListNotations.
Open Scope string_scope.

(** A reference to a sandbox, bare or in a security proxy. *)
Record boxref := mkRef { r_box : id; r_proxied : bool }.

(** Agent, sandbox.py 89-112.  [ag_provides]: does it provide IAgent. *)
Record agent := mkAgent {
  ag_id : string; ag_token : string; ag_provides : bool; ag_home : option boxref }.

(** Sandbox, sandbox.py 116-170: the id and the dictionary [_agents]. *)
Record box := mkBox { sb_id : string; sb_agents : list (string * id) }.

(** [w_homes]: the values of the global [_homes] (sandbox.py 301), in order.
    [w_inter]: the agent of the thread's current interaction. *)
Record world := mkWorld {
  w_boxes : id -> box; w_agents : id -> agent; w_homes : list id; w_inter : option id }.

Definition set_boxes f w := mkWorld f (w_agents w) (w_homes w) (w_inter w).
Definition set_agents f w := mkWorld (w_boxes w) f (w_homes w) (w_inter w).
Definition set_winter x w := mkWorld (w_boxes w) (w_agents w) (w_homes w) x.

(** Programs over this world; exceptions as values. *)
Definition W (A : Type) := world -> res A * world.
Definition wret {A} (a : A) : W A := fun w => (Ok a, w).
Definition wraise {A} (e : exn) : W A := fun w => (Exc e, w).
Definition wbind {A B} (m : W A) (f : A -> W B) : W B := fun w =>
  match m w with
  | (Ok a, w') => f a w'
  | (Exc e, w') => (Exc e, w')
  end.
Definition wcatch {A} (m : W A) (h : exn -> W A) : W A := fun w =>
  match m w with
  | (Ok a, w') => (Ok a, w')
  | (Exc e, w') => h e w'
  end.

Definition SandboxError : exn := EApp 1.
Definition UnboundLocalError : exn := EApp 2.

Section App.
  (** Is the application secured (was [wire_security] called)? *)
  Variable secured : bool.
  (** What calling a method of a proxied sandbox comes to before the method runs: nothing,
      or the exception raised by the check. *)
  Variable check : name -> id -> world -> option exn.

  Definition through (r : boxref) (n : name) (body : W unit) : W unit := fun w =>
    if r_proxied r then
      match check n (r_box r) w with
      | Some e => (Exc e, w)
      | None => body w
      end
    else body w.

  (** sandbox.py 144-150; in the secured application sandbox_security.py 169-177, where the
      agent gets a proxy of the sandbox for its home. *)
  Definition addAgent (self a : id) : W unit := fun w =>
    let x := w_agents w a in
    let b := w_boxes w self in
    match dget String.eqb (sb_agents b) (ag_id x) with
    | None =>
        if ag_provides x then
          (Ok tt,
           set_agents (upd (w_agents w) a
                         (mkAgent (ag_id x) (ag_token x) (ag_provides x) (Some (mkRef self secured))))
             (set_boxes (upd (w_boxes w) self
                           (mkBox (sb_id b) (dset String.eqb (sb_agents b) (ag_id x) a))) w))
        else (Exc SandboxError, w)
    | Some _ => (Exc SandboxError, w)
    end.

  (** [del self._agents[k]], sandbox.py 166 *)
  Definition delAgent (self : id) (k : string) : W unit := fun w =>
    let b := w_boxes w self in
    match dget String.eqb (sb_agents b) k with
    | None => (Exc EKey, w)
    | Some _ => (Ok tt, set_boxes (upd (w_boxes w) self (mkBox (sb_id b) (ddel String.eqb (sb_agents b) k))) w)
    end.

  (** sandbox.py 161-170.  A proxied sandbox is never [self].  [dest_ok]: does the
      destination provide ISandbox. *)
  Definition transportAgent (self a : id) (dest : boxref) (dest_ok : bool) : W unit := fun w =>
    let k := ag_id (w_agents w a) in
    match dget String.eqb (sb_agents (w_boxes w self)) k with
    | None => (Exc SandboxError, w)
    | Some _ =>
        if negb (negb (r_proxied dest) && Nat.eqb (r_box dest) self) && dest_ok then
          wbind (through dest "addAgent" (addAgent (r_box dest) a))
                (fun _ => fun w' => delAgent self (ag_id (w_agents w' a)) w') w
        else (Exc SandboxError, w)
    end.

  (** ** The passage of time *)

  (** What an agent's action does (sandbox.py 219-231): it only reads. *)
  Variable action : id -> res unit.
  (** WanderLust, sandbox.py 284-287: a random decision. *)
  Variable lust : id -> bool.

  (** management.newInteraction (management.py 101-106) with one participation;
      sandbox_security.py 181-182.  Without security nothing (sandbox.py 243-244). *)
  Definition setupAgent (a : id) : W unit := fun w =>
    if secured then
      match w_inter w with
      | Some _ => (Exc EExistingInteraction, w)
      | None => (Ok tt, set_winter (Some a) w)
      end
    else (Ok tt, w).

  (** management.endInteraction (management.py 109-123), sandbox_security.py 186-187. *)
  Definition teardownAgent (a : id) : W unit := fun w =>
    if secured then (Ok tt, set_winter None w) else (Ok tt, w).

  (** sandbox.py 255-265 *)
  Fixpoint act_all (agents : list id) : W unit :=
    match agents with
    | [] => wret tt
    | a :: l =>
        wbind (setupAgent a) (fun _ =>
        wbind (wcatch (fun w => (action a, w)) (fun _ => wret tt)) (fun _ =>
        wbind (teardownAgent a) (fun _ => act_all l)))
    end.

  (** sandbox.py 290-295 and sandbox_security.py 191-198: [_homes.keys()] is a view, which
      has no method [remove]. *)
  Definition GreenerPastures (a : id) : W boxref := wraise (EAttribute "remove").

  (** sandbox.py 267-281.  The handler mentions the local variable [new_home], whose value
      so far is the argument; once it has one the handler goes through.  Changing the
      dictionary that is iterated over (by a transport that succeeds) is not modelled: it
      never comes to that. *)
  Fixpoint move_all (agents : list id) (new_home : option boxref) : W (option boxref) :=
    match agents with
    | [] => wret new_home
    | a :: l =>
        if lust a then
          wbind (setupAgent a) (fun _ =>
          wbind (fun w =>
                   match GreenerPastures a w with
                   | (Exc _, w1) =>
                       match new_home with
                       | None => (Exc UnboundLocalError, w1)
                       | Some _ => (Ok new_home, w1)
                       end
                   | (Ok r, w1) =>
                       match ag_home (w_agents w a) with
                       | None => (Ok (Some r), w1)   (* None has no transportAgent *)
                       | Some home =>
                           let '(_, w2) := through home "transportAgent"
                                             (transportAgent (r_box home) a r true) w1 in
                           (Ok (Some r), w2)
                       end
                   end) (fun nh =>
          wbind (teardownAgent a) (fun _ => move_all l nh)))
        else move_all l new_home
    end.

  (** sandbox.py 249-281 *)
  Fixpoint turn_homes (homes : list id) (new_home : option boxref) : W unit :=
    match homes with
    | [] => wret tt
    | h :: l => fun w =>
        wbind (act_all (map snd (sb_agents (w_boxes w h)))) (fun _ =>
        fun w1 => wbind (move_all (map snd (sb_agents (w_boxes w1 h))) new_home)
                        (fun nh => turn_homes l nh) w1) w
    end.
  Definition turn : W unit := fun w => turn_homes (w_homes w) None w.
End App.

(** The check of a proxied sandbox: its table is sandbox_security.py 135-141, the policy
    sandbox_security.py 84-105; the only participation is that of the agent of the current
    interaction (sandbox_security.py 108-117, 181-182).  Without interaction
    [thread_local.interaction] raises (checker.py 251). *)
Definition secure_check (n : name) (b : id) (w : world) : option exn :=
  match dget String.eqb (invert_map sandbox_map) n with
  | None => Some (EForbidden n (VObj b))
  | Some PPublic => None
  | Some p =>
      match w_inter w with
      | None => Some (EAttribute "interaction")
      | Some x =>
          match Simulation_checkPermission SimulationSecurityDatabase (Ok (sb_id (w_boxes w b)))
                  [Ok (ag_token (w_agents w x))] p with
          | Ok true => None
          | Ok false => Some (EUnauthorized (VObj b) n p)
          | Exc e => Some e
          end
      end
  end.
