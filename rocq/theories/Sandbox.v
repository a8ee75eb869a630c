(** * Sandbox: examples/sandbox_security.py.

    The methods getHome, getId and getAuthenticationToken of the application objects
    (examples/sandbox.py) are arguments: what they return or raise. *)

From Coq Require Import List String Bool Arith.
From Verif Require Import Base Domain CheckerModel.
Import ListNotations.
Open Scope string_scope.
Open Scope m_scope.

(** sandbox_security.py 37-48 *)
Definition TransportAgent : string := "Transport Agent".
Definition AccessServices : string := "Access Services".
Definition AccessAgents : string := "Access Agents".
Definition AccessTimeService : string := "Access Time Services".
Definition AccessAgentService : string := "Access Agent Service".
Definition AccessHomeService : string := "Access Home Service".
Definition AddAgent : string := "Add Agent".
Definition ALL : string := "All".

(** A location's entry: token to permissions. *)
Definition location := list (string * list string).

(** sandbox_security.py 54-75.  Attributes of the class that are not locations
    (such as [__doc__]) are not modelled. *)
Definition SimulationSecurityDatabase : list (string * location) :=
  [ ("origin", [ ("any", [ALL]) ]);
    ("jail", [ ("norse legend", [TransportAgent; AccessServices; AccessAgentService;
                                 AccessHomeService; TransportAgent; AccessAgents]);
               ("any", [AccessTimeService; AddAgent]) ]);
    ("valhalla", [ ("norse legend", [AddAgent]);
                   ("any", [AccessServices; AccessTimeService; AccessAgentService;
                            AccessHomeService; TransportAgent; AccessAgents]) ]) ].

(** [permission in allowed]: CheckerPublic and None equal no string. *)
Definition perm_in (p : perm) (allowed : list string) : bool :=
  match p with PId _ t => mem t allowed | _ => false end.

(** [db.get(key, ())] *)
Definition db_get (db : location) (key : string) : list string :=
  match dget String.eqb db key with Some l => l | None => [] end.

(** The loop sandbox_security.py 99-103 *)
Fixpoint all_allowed (db : location) (p : perm) (tokens : list (res string)) : res bool :=
  match tokens with
  | [] => Ok true
  | Exc e :: _ => Exc e
  | Ok token :: tokens' =>
      if negb (perm_in p (db_get db token)) then Ok false else all_allowed db p tokens'
  end.

(** SimulationSecurityPolicy.checkPermission, sandbox_security.py 84-105; [home_id] is
    [object.getHome().getId()], [tokens] the tokens of the participations' principals. *)
Definition Simulation_checkPermission (database : list (string * location))
           (home_id : res string) (tokens : list (res string)) (p : perm) : res bool :=
  match home_id with
  | Exc e => Exc e
  | Ok h =>
      match dget String.eqb database h with
      | None => Ok false
      | Some db =>
          let allowed := db_get db "any" in
          if perm_in p allowed || mem ALL allowed then Ok true
          else match tokens with
               | [] => Ok false
               | _ => all_allowed db p tokens
               end
      end
  end.

(** The loops sandbox_security.py 126-129 *)
Definition invert_map (permissions_map : list (perm * list name)) : list (name * perm) :=
  fold_left (fun res kv => fold_left (fun res method => dset String.eqb res method (fst kv))
                                     (snd kv) res) permissions_map [].

(** sandbox_security.py 120-130 (a missing argument is the empty dictionary) *)
Definition PermissionMapChecker (E : env) (permissions_map : list (perm * list name))
           (set_permissions : list (name * perm)) : M value :=
  Checker_new E (invert_map permissions_map) set_permissions.

(** sandbox_security.py 135-141 *)
Definition sandbox_map : list (perm * list name) :=
  [ (PId 1 AccessServices, ["getService"; "addService"; "getServiceIds"]);
    (PId 2 AccessAgents, ["getAgentsIds"; "getAgents"]);
    (PId 3 AddAgent, ["addAgent"]);
    (PId 4 TransportAgent, ["transportAgent"]);
    (PPublic, ["getId"; "getHome"]) ].
