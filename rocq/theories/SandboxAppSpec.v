(** * SandboxAppSpec: what the sandbox application promises. *)

From Coq Require Import List String Bool Arith.
From Verif Require Import Base Domain Sandbox SandboxSpec SandboxApp.
Import ListNotations.
Open Scope string_scope.

(** Sandbox [b] knows agent [a] under the name [k]. *)
Definition known_as (w : world) (b : id) (k : string) (a : id) : Prop :=
  dget String.eqb (sb_agents (w_boxes w b)) k = Some a.

(** Agent [a] lives in sandbox [b]. *)
Definition lives (w : world) (b a : id) : Prop := exists k, known_as w b k a.

(** Among the agents [P] no two have the same id; every sandbox knows its agents, which are
    of those, under their ids; and they know that it is their home. *)
Definition in_order (P : id -> Prop) (w : world) : Prop :=
  (forall a1 a2, P a1 -> P a2 -> ag_id (w_agents w a1) = ag_id (w_agents w a2) -> a1 = a2) /\
  (forall b k a, known_as w b k a ->
     P a /\ k = ag_id (w_agents w a) /\ exists r, ag_home (w_agents w a) = Some r /\ r_box r = b).

(** [w'] is [w] after agent [a] moved from [b] to [c]; in the secured application it knows
    its home by a proxy. *)
Definition moved (secured : bool) (w w' : world) (a b c : id) : Prop :=
  known_as w b (ag_id (w_agents w a)) a /\ known_as w' c (ag_id (w_agents w a)) a /\
  (forall d k x, known_as w' d k x <->
     (d = c /\ k = ag_id (w_agents w a) /\ x = a) \/
     (known_as w d k x /\ ~ (d = b /\ k = ag_id (w_agents w a)))) /\
  ag_home (w_agents w' a) = Some (mkRef c secured) /\
  (forall x, x <> a -> w_agents w' x = w_agents w x) /\
  (forall x, ag_id (w_agents w' x) = ag_id (w_agents w x) /\
             ag_token (w_agents w' x) = ag_token (w_agents w x)) /\
  (forall d, sb_id (w_boxes w' d) = sb_id (w_boxes w d)) /\
  w_homes w' = w_homes w /\ w_inter w' = w_inter w.

(** Any sequence of attempts to transport agents of [P], by anybody, with any checks. *)
Inductive Transports (P : id -> Prop) : world -> world -> Prop :=
| Tr_done w : Transports P w w
| Tr_step secured check self a dest ok r w w1 w2 :
    P a -> transportAgent secured check self a dest ok w = (r, w1) ->
    Transports P w1 w2 -> Transports P w w2.

(** Some agent in a sandbox of the simulation wants to move. *)
Definition restless (lust : id -> bool) (w : world) : Prop :=
  exists b k a, In b (w_homes w) /\ In (k, a) (sb_agents (w_boxes w b)) /\ lust a = true.

(** What has to be the case for agent [a] to be moved from [b] to [c]. *)
Definition movable (w : world) (a b c : id) : Prop :=
  (exists x, known_as w b (ag_id (w_agents w a)) x) /\
  (forall x, ~ known_as w c (ag_id (w_agents w a)) x) /\
  ag_provides (w_agents w a) = true.

(** In the interaction of agent [x] the example policy grants [t] at sandbox [b]. *)
Definition granted_at (w : world) (x b : id) (t : string) : Prop :=
  sandbox_grants SimulationSecurityDatabase (sb_id (w_boxes w b)) [ag_token (w_agents w x)] t.

(** What the methods of a sandbox need (sandbox_security.py 135-141); [None]: nothing. *)
Inductive needs : name -> option string -> Prop :=
| nd_service n : In n ["getService"; "addService"; "getServiceIds"] -> needs n (Some AccessServices)
| nd_agents n : In n ["getAgentsIds"; "getAgents"] -> needs n (Some AccessAgents)
| nd_add : needs "addAgent" (Some AddAgent)
| nd_transport : needs "transportAgent" (Some TransportAgent)
| nd_public n : In n ["getId"; "getHome"] -> needs n None.
